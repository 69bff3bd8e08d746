(** Model of src/sfptpd_db.c. *)
Require Import ZArith List Bool.
Require Import Verif.Base Verif.ListLib Verif.DbSpec.
Import ListNotations.
Open Scope Z_scope.

Fixpoint mapM {A B} (f : A -> option B) (l : list A) : option (list B) :=
  match l with
  | [] => Some []
  | x :: r => do y <- f x; do ys <- mapM f r; Some (y :: ys)
  end.

Section Model.
Context {R : Type}.

(** check_selection_matches, src/sfptpd_db.c:201-224. *)
Fixpoint check_matches (l : list (filter_key R)) (r : R) : bool :=
  match l with
  | [] => true
  | f :: rest => let m := f_match f r in
                 if (if f_invert f then m else negb m) then false else check_matches rest r
  end.

Definition MAX_FIELDS : nat := 10.
(** build_selection_params, lines 227-261: the assertions on the number of keys. *)
Definition build_selection (sel : selection R) : option (selection R) :=
  if (length (s_where sel) <=? MAX_FIELDS)%nat && (length (s_order sel) <=? MAX_FIELDS)%nat
  then Some sel else None.

(** struct store_ops, lines 72-81.  References are element numbers (array store) or
    addresses (linked list).  [so_insert] takes the address malloc would return.  get_data
    returns a pointer; reading and writing through it are [so_get] and [so_put].  [so_find]
    and the callbacks of [so_foreach] do not change the store; foreach is given by the
    references it visits. *)
Record store_ops (S : Type) := mkOps {
  so_insert : S -> nat -> R -> option (S * nat);
  so_delete : S -> nat -> option S;
  so_foreach : S -> option (list nat);
  so_find : S -> (R -> bool) -> option (option nat);
  so_get : S -> nat -> option R;
  so_put : S -> nat -> R -> option S;
  so_free : S -> option unit }.
Arguments so_insert {S}. Arguments so_delete {S}. Arguments so_foreach {S}. Arguments so_find {S}.
Arguments so_get {S}. Arguments so_put {S}. Arguments so_free {S}.

(** ** The linked-list store: the chain from the head, as addresses and records *)
Definition llist : Type := list (nat * R).

(** linked_list_insert, lines 290-308 (malloc succeeds). *)
Definition ll_insert (l : llist) (mem : nat) (r : R) : option (llist * nat) := Some ((mem, r) :: l, mem).

(** linked_list_delete, lines 311-340: [None] is the assertion of line 337. *)
Fixpoint ll_delete (l : llist) (n : nat) : option llist :=
  match l with
  | [] => None
  | (a, r) :: rest => if Nat.eqb a n then Some rest else do t <- ll_delete rest n; Some ((a, r) :: t)
  end.

(** linked_list_foreach, lines 363-386. *)
Definition ll_foreach (l : llist) : option (list nat) := Some (map fst l).

(** linked_list_find, lines 389-420. *)
Fixpoint ll_find (l : llist) (p : R -> bool) : option (option nat) :=
  match l with
  | [] => Some None
  | (a, r) :: rest => if p r then Some (Some a) else ll_find rest p
  end.

(** linked_list_get_data, lines 353-360, and access through the pointer; [None] is access to
    memory that is not an element. *)
Fixpoint ll_get (l : llist) (n : nat) : option R :=
  match l with
  | [] => None
  | (a, r) :: rest => if Nat.eqb a n then Some r else ll_get rest n
  end.
Fixpoint ll_put (l : llist) (n : nat) (r : R) : option llist :=
  match l with
  | [] => None
  | (a, x) :: rest => if Nat.eqb a n then Some ((a, r) :: rest)
                      else do t <- ll_put rest n r; Some ((a, x) :: t)
  end.

(** linked_list_free, lines 343-350. *)
Definition ll_free (l : llist) : option unit := match l with [] => Some tt | _ => None end.

Definition linked_list_ops : store_ops llist :=
  mkOps _ ll_insert ll_delete ll_foreach ll_find ll_get ll_put ll_free.

(** ** The array store *)

(** struct array_header and the record after it, lines 104-108; [sl_magic]: the magic number
    is present. *)
Record slot := mkSlot { sl_magic : bool; sl_pop : bool; sl_next : nat; sl_rec : R }.
(** struct array, lines 110-118. *)
Record array := mkArr { a_cap : nat; a_hwm : nat; a_count : nat; a_first : nat; a_data : list slot }.

(** array_create, lines 425-443; [junk] is the contents of fresh memory, element by
    element. *)
Definition array_create (junk : nat -> slot) (cap : nat) : array :=
  mkArr cap 0 0 0 (map junk (seq 0 cap)).

(** get_array_header with is_new false, lines 446-461. *)
Definition header (ar : array) (i : nat) : option slot :=
  if (i <? a_hwm ar)%nat then
    do s <- nth_error (a_data ar) i;
    if sl_magic s then Some s else None
  else None.

Definition set_data ar d := mkArr (a_cap ar) (a_hwm ar) (a_count ar) (a_first ar) d.

(** array_insert, lines 464-496. *)
Definition ar_insert (junk : nat -> slot) (ar : array) (mem : nat) (r : R) : option (array * nat) :=
  if negb (a_hwm ar <=? a_cap ar)%nat then None else
  if (a_count ar =? a_hwm ar)%nat then
    let grow := (a_count ar =? a_cap ar)%nat in
    let cap := if grow then (a_cap ar * 2)%nat else a_cap ar in
    let data := if grow then a_data ar ++ map junk (seq (a_cap ar) (cap - a_cap ar)) else a_data ar in
    let i := a_hwm ar in
    do s <- nth_error data i;
    Some (mkArr cap (S (a_hwm ar)) (S (a_count ar)) (a_first ar)
                (set_nth i (mkSlot true true (sl_next s) r) data), i)
  else
    let i := a_first ar in
    do s <- header ar i;
    if sl_pop s then None else
    Some (mkArr (a_cap ar) (a_hwm ar) (S (a_count ar)) (sl_next s)
                (set_nth i (mkSlot true true (sl_next s) r) (a_data ar)), i).

(** array_delete, lines 499-531.  The count is unsigned: deleting with count 0 is not
    modelled (None). *)
Definition ar_delete (ar : array) (i : nat) : option array :=
  do s <- header ar i;
  if (a_count ar =? 0)%nat then None else
  let count := (a_count ar - 1)%nat in
  if (count =? 0)%nat then
    Some (mkArr (a_cap ar) 0 count (a_first ar)
                (set_nth i (mkSlot true false (sl_next s) (sl_rec s)) (a_data ar)))
  else if (S i =? a_hwm ar)%nat then
    Some (mkArr (a_cap ar) (a_hwm ar - 1) count (a_first ar)
                (set_nth i (mkSlot true false (sl_next s) (sl_rec s)) (a_data ar)))
  else
    Some (mkArr (a_cap ar) (a_hwm ar) count i
                (set_nth i (mkSlot true false (a_first ar) (sl_rec s)) (a_data ar))).

(** array_foreach, lines 558-587: [None] is a failed assertion. *)
Definition ar_foreach (ar : array) : option (list nat) :=
  if negb (a_hwm ar <=? a_cap ar)%nat then None else
  do hs <- mapM (header ar) (seq 0 (a_hwm ar));
  let l := map fst (filter (fun p => sl_pop (snd p)) (combine (seq 0 (a_hwm ar)) hs)) in
  if (length l =? a_count ar)%nat then Some l else None.

(** array_find, lines 590-626. *)
Fixpoint ar_find_from (ar : array) (p : R -> bool) (idx : list nat) : option (option nat) :=
  match idx with
  | [] => Some None
  | i :: rest => do s <- header ar i;
                 if sl_pop s && p (sl_rec s) then Some (Some i) else ar_find_from ar p rest
  end.
Definition ar_find (ar : array) (p : R -> bool) : option (option nat) :=
  if negb (a_hwm ar <=? a_cap ar)%nat then None else ar_find_from ar p (seq 0 (a_hwm ar)).

(** array_get_data, lines 546-555, and access through the pointer. *)
Definition ar_get (ar : array) (i : nat) : option R := do s <- header ar i; Some (sl_rec s).
Definition ar_put (ar : array) (i : nat) (r : R) : option array :=
  do s <- header ar i;
  Some (set_data ar (set_nth i (mkSlot (sl_magic s) (sl_pop s) (sl_next s) r) (a_data ar))).

(** array_free, lines 534-543. *)
Definition ar_free (ar : array) : option unit := Some tt.

Definition array_ops (junk : nat -> slot) : store_ops array :=
  mkOps _ (ar_insert junk) ar_delete ar_foreach ar_find ar_get ar_put ar_free.

(** sfptpd_db_table_new for STORE_ARRAY, lines 633-659: the initial capacity. *)
Definition ARRAY_INITIAL_SIZE_BYTES : nat := 4096.
Definition table_new (junk : nat -> slot) (record_size : nat) : option array :=
  if (record_size =? 0)%nat then None
  else Some (array_create junk (ARRAY_INITIAL_SIZE_BYTES / record_size)).

(** ** Tables over either store *)
Section Table.
Context {S : Type} (ops : store_ops S) (sort : sort_key R -> list R -> list R).

(** The records in iteration order (deref_fn, lines 852-859; foreach without criteria,
    lines 876-884). *)
Definition all_records (s : S) : option (list R) :=
  do refs <- so_foreach ops s; mapM (so_get ops s) refs.

(** query_count_fn, lines 748-755. *)
Definition count_matching (s : S) (sel : selection R) : option nat :=
  do rs <- all_records s; Some (length (filter (check_matches (s_where sel)) rs)).

(** sfptpd_db_table_count_impl, lines 716-735. *)
Definition table_count (s : S) (sel : selection R) : option nat :=
  do sel <- build_selection sel; count_matching s sel.

(** Storing into an array of [n] elements: [None] is a write past its end. *)
Definition bounded {A} (n : nat) (l : list A) : option (list A) :=
  if (length l <=? n)%nat then Some l else None.

(** query_compare_fn, lines 768-784. *)
Fixpoint compare_keys (keys : list (sort_key R)) (x y : R) : Z :=
  match keys with
  | [] => 0
  | c :: ks => let v := c x y in if v =? 0 then compare_keys ks x y else v
  end.

(** table_query, lines 789-823. *)
Definition table_query (s : S) (sel : selection R) : option (list R) :=
  do sel <- build_selection sel;
  do n <- count_matching s sel;
  do rs <- all_records s;
  do l <- bounded n (filter (check_matches (s_where sel)) rs);
  Some (match s_order sel with [] => l | keys => sort (compare_keys keys) l end).

(** query_refs_select_fn and table_query_refs, lines 900-954: with sort keys, qsort_r is run
    on an uninitialised pointer. *)
Definition query_refs (s : S) (sel : selection R) : option (list nat) :=
  do n <- count_matching s sel;
  do refs <- so_foreach ops s;
  do prs <- mapM (fun i => do r <- so_get ops s i; Some (i, r)) refs;
  do l <- bounded n (filter (fun p => check_matches (s_where sel) (snd p)) prs);
  match s_order sel with [] => Some (map fst l) | _ => None end.

(** table_delete, lines 957-976. *)
Fixpoint delete_refs (s : S) (refs : list nat) : option S :=
  match refs with
  | [] => Some s
  | i :: rest => do s' <- so_delete ops s i; delete_refs s' rest
  end.
Definition table_delete (s : S) (sel : selection R) : option S :=
  do sel <- build_selection sel;
  do refs <- query_refs s sel; delete_refs s refs.

(** sfptpd_db_table_free, lines 661-671. *)
Definition table_free (s : S) : option unit :=
  do s' <- table_delete s (mkSel [] []); so_free ops s'.

Definition step (s : S) (op : dop R) : option (S * dres R) :=
  match op with
  | Insert mem r => do x <- so_insert ops s mem r; Some (fst x, Ref (snd x))
  | Delete sel => do s' <- table_delete s sel; Some (s', Ok)
  | Find sel => do sel <- build_selection sel;
                do x <- so_find ops s (check_matches (s_where sel)); Some (s, Found x)
  | CountOf sel => do n <- table_count s sel; Some (s, Num n)
  | Query sel => do l <- table_query s sel; Some (s, Recs l)
  | Get n => do r <- so_get ops s n; Some (s, Rec r)
  | Update n r => do s' <- so_put ops s n r; Some (s', Ok)
  end.

(** States reachable by legal calls from [init], with the live records that the calls and
    their results determine. *)
Inductive reach (init : S) : S -> live R -> Prop :=
| reach_init : reach init init []
| reach_step s a op s' res : reach init s a -> legal a op -> step s op = Some (s', res) ->
    reach init s' (after a op res).
End Table.
End Model.
Arguments so_insert {R S}. Arguments so_delete {R S}. Arguments so_foreach {R S}. Arguments so_find {R S}.
Arguments so_get {R S}. Arguments so_put {R S}. Arguments so_free {R S}.
Arguments slot : clear implicits.
Arguments array : clear implicits.
Arguments llist : clear implicits.
Arguments store_ops : clear implicits.
