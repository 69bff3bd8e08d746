(** Transcription of the link table versions of src/sfptpd_netlink.c.
    Simplified: memory for tables can always be had (after a failed realloc, 635-641 and 1831-1835, the code keeps the new capacity with no rows);
    the parsing of netlink messages (478-618, 776-1180) is not modelled, its results are the messages. *)
Require Import ZArith List Bool.
Import ListNotations.
From Verif Require Import Base NlkSpec.
Open Scope Z_scope.

(** struct link_db, 113-117; MAX_LINK_DB_VERSIONS, 137. *)
Record slot := mkSlot { sl_rows : table; sl_ver : Z; sl_ref : Z }.
Definition MAX_LINK_DB_VERSIONS : Z := 4.
(** struct sfptpd_nl_state, 139-157. *)
Record state := mkSt { hist : Z -> slot; ver_next : Z; hist_next : Z; hist_count : Z; need_service : bool }.
Definition put (s : state) (i : Z) (x : slot) : state :=
  mkSt (fun j => if j =? i then x else hist s j) (ver_next s) (hist_next s) (hist_count s) (need_service s).
Definition with_need (s : state) (b : bool) : state := mkSt (hist s) (ver_next s) (hist_next s) (hist_count s) b.

(** sfptpd_netlink_init, 1501-1503. *)
Definition start : state := mkSt (fun i => mkSlot [] (if i =? 0 then 1 else 0) 0) 2 0 1 false.

(** netlink_handle_link, 643-690; the replies about teams and from ethtool, 854-900 and 1098-1180, rewrite the row of an interface. *)
Fixpoint upsert (t : table) (r : row) : table :=
  match t with
  | [] => [(r, NoEvent)]
  | x :: t => if r_index (fst x) =? r_index r then (merge (fst x) r, NoEvent) :: t else x :: upsert t r
  end.
Fixpoint delete (t : table) (i : Z) : table :=
  match t with [] => [] | x :: t => if r_index (fst x) =? i then t else x :: delete t i end.
Fixpoint amend (t : table) (r : row) : table :=
  match t with [] => [] | x :: t => if r_index (fst x) =? r_index r then (r, snd x) :: t else x :: amend t r end.
Definition handle (t : table) (m : msg) : table :=
  match m with New r => upsert t r | Del i => delete t i | Amend r => amend t r end.

(** 1636-1657: sorted by interface number if it is not. *)
Fixpoint ordered (lo : Z) (t : table) : bool :=
  match t with [] => true | x :: t => negb (r_index (fst x) <? lo) && ordered (r_index (fst x)) t end.
Fixpoint insert (x : row * event) (t : table) : table :=
  match t with [] => [x] | y :: t => if r_index (fst x) <=? r_index (fst y) then x :: y :: t else y :: insert x t end.
Definition sort (t : table) : table := fold_right insert [] t.

(** 1671-1758: the event of each row. *)
Definition flags_differ (a b : row) : bool :=
  if negb (r_flags a =? r_flags b) then negb (Z.land (r_flags a) significant_flags =? Z.land (r_flags b) significant_flags) else false.
Definition compare_rows (a b : row) : event :=
  let e := if negb (r_type a =? r_type b) then Change else NoEvent in
  let e := if negb (r_iftype a =? r_iftype b) then Change else e in
  let e := if negb (r_family a =? r_family b) then Change else e in
  let e := if flags_differ a b then Change else e in
  let e := if negb (r_master a =? r_master b) then Change else e in
  let e := if negb (r_mode a =? r_mode b) then Change else e in
  let e := if negb (r_active a =? r_active b) then Change else e in
  let e := if negb (Bool.eqb (r_slave a) (r_slave b)) then Change else e in
  let e := if negb (r_vlan a =? r_vlan b) then Change else e in
  let e := if negb (zlist_eqb (r_name a) (r_name b)) then Change else e in
  if negb (r_ts a =? r_ts b) then Change else e.
(** The old row, and its place (1675-1687). *)
Fixpoint old_row (prev : table) (i : Z) (n : nat) : option (nat * row) :=
  match prev with [] => None | x :: t => if i =? r_index (fst x) then Some (n, fst x) else old_row t i (Datatypes.S n) end.
Definition classify (prev : table) (x : row * event) : row * event :=
  (fst x, match old_row prev (r_index (fst x)) 0 with None => Up | Some (_, a) => compare_rows a (fst x) end).
Definition event_eqb (a b : event) : bool := match a, b with NoEvent, NoEvent | Up, Up | Change, Change => true | _, _ => false end.
Definition changes (t : table) : bool := existsb (fun x => negb (event_eqb (snd x) NoEvent)) t.

(** 1761-1813: both tables are walked in step; a failed assertion is [None]; the result is whether rows were deleted. *)
Fixpoint walk (fuel : nat) (all cur prev : table) (n : nat) (ifi pifi : Z) (deleted : bool) : option bool :=
  match fuel with
  | O => Some deleted
  | Datatypes.S fuel =>
      match cur, prev with
      | [], [] => Some deleted
      | x :: cur', [] =>
          if ifi <? r_index (fst x) then
            if event_eqb (snd x) Up then walk fuel all cur' [] n (r_index (fst x)) pifi deleted else None
          else None
      | [], y :: prev' =>
          if pifi <? r_index (fst y) then walk fuel all [] prev' (Datatypes.S n) ifi (r_index (fst y)) true else None
      | x :: cur', y :: prev' =>
          if (ifi <? r_index (fst x)) && (pifi <? r_index (fst y)) then
            if r_index (fst x) <? r_index (fst y) then
              if event_eqb (snd x) Up then walk fuel all cur' prev n (r_index (fst x)) pifi deleted else None
            else if r_index (fst y) <? r_index (fst x) then walk fuel all cur prev' (Datatypes.S n) ifi (r_index (fst y)) true
            else if event_eqb (snd x) Change then
              match old_row all (r_index (fst x)) 0 with
              | Some (p, _) => if Nat.eqb p n then walk fuel all cur' prev' (Datatypes.S n) (r_index (fst x)) (r_index (fst y)) deleted else None
              | None => None
              end
            else walk fuel all cur' prev' (Datatypes.S n) (r_index (fst x)) (r_index (fst y)) deleted
          else None
      end
  end.

Definition M (i : Z) : Z := i mod MAX_LINK_DB_VERSIONS.

(** sfptpd_netlink_service_fds, 1583-1851. *)
Definition service (s : state) (consumers : Z) (coalescing : bool) (rounds : list (list msg)) (e : ending) : option (state * list out) :=
  let ni := M (hist_next s + 1) in
  let ci := hist_next s in
  let pi := M (hist_next s + MAX_LINK_DB_VERSIONS - 1) in
  if negb (sl_ref (hist s ni) =? 0) then Some (with_need s true, [Again])
  else
    let cur := hist s ci in
    let rows := fold_left handle (brought rounds e) (sl_rows cur) in
    let rows := match rounds with [] => rows | _ => if ordered 0 rows then rows else sort rows end in
    let s1 := put s ci (mkSlot rows (sl_ver cur) consumers) in
    match e with
    | Broken _ => Some (s1, [Error])
    | Quiet =>
        if coalescing then Some (s1, [Nothing])
        else
          let prev := sl_rows (hist s1 pi) in
          let t := map (classify prev) rows in
          do deleted <- walk (length t + length prev) prev t prev 0 (-1) (-1) false;
          let s2 := put s1 ci (mkSlot t (sl_ver cur) consumers) in
          if (hist_count s2 =? MAX_LINK_DB_VERSIONS) && (0 <? sl_ref (hist s2 ni)) then Some (s2, [Error])
          else if changes t || deleted then
            if negb (sl_ref (hist s2 ni) =? 0) then None
            else
              let s3 := put s2 ni (mkSlot t (ver_next s2) consumers) in
              Some (mkSt (hist s3) (ver_next s3 + 1) ni (hist_count s3 + 1) (need_service s3), [Version (sl_ver cur)])
          else Some (s2, [Nothing])
    end.

(** netlink_find_version, 1461-1476: [None] when it reads outside the array (C's remainder of a negative number is not positive). *)
Fixpoint find_from (fuel : nat) (s : state) (v i : Z) : option (option Z) :=
  match fuel with
  | O => Some None
  | Datatypes.S fuel =>
      let idx := Z.rem (hist_next s + MAX_LINK_DB_VERSIONS - 1 - i) MAX_LINK_DB_VERSIONS in
      if idx <? 0 then None
      else if sl_ver (hist s idx) =? v then Some (Some idx) else find_from fuel s v (i + 1)
  end.
Definition find_version (s : state) (v : Z) : option (option Z) := find_from (Z.to_nat (hist_count s)) s v 0.

(** sfptpd_netlink_get_table, 1853-1874. *)
Definition get_table (s : state) (v : Z) : option (state * list out) :=
  do f <- find_version s v;
  match f with
  | Some i => if sl_ref (hist s i) =? 0 then Some (s, [Fatal]) else Some (s, [Table (sl_rows (hist s i))])
  | None => Some (s, [Error])
  end.

(** sfptpd_netlink_release_table, 1876-1904. *)
Definition release (s : state) (v consumers : Z) (rounds : list (list msg)) (e : ending) : option (state * list out) :=
  do f <- find_version s v;
  match f with
  | None => Some (s, [Fatal])
  | Some i =>
      let x := hist s i in
      if sl_ref x =? 0 then Some (s, [Fatal])
      else
        let s1 := put s i (mkSlot (sl_rows x) (sl_ver x) (sl_ref x - 1)) in
        if need_service s1 then
          do r <- service (with_need s1 false) consumers false rounds e;
          Some (fst r, Freed :: snd r)
        else Some (s1, [Freed])
  end.

Definition step (o : op) (s : state) : option (state * list out) :=
  match o with
  | OService c co rs e => service s c co rs e
  | OGet v => get_table s v
  | ORelease v c rs e => release s v c rs e
  end.

Inductive history : log -> state -> Prop :=
| h_start : history [] start
| h_step : forall l s o s' os, history l s -> allowed o l -> step o s = Some (s', os) -> history (l ++ [(o, os)]) s'.
