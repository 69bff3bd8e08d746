(** Specification vocabulary for database tables (C22). *)
Require Import ZArith List Bool Permutation Sorted.
Import ListNotations.
Open Scope Z_scope.

Section Spec.
Context {R : Type}.     (* records *)

(** A search key: whether the field of a record equals the value searched for, and whether
    the condition is inverted (SFPTPD_DB_SEL_NOT). *)
Record filter_key := mkFilter { f_match : R -> bool; f_invert : bool }.
(** A sort key: three-way comparison of two records. *)
Definition sort_key : Type := R -> R -> Z.
Record selection := mkSel { s_where : list filter_key; s_order : list sort_key }.

(** A record is selected when every condition holds. *)
Definition selected (sel : selection) (r : R) : bool :=
  forallb (fun f => xorb (f_match f r) (f_invert f)) (s_where sel).

Definition consistent (cmp : sort_key) : Prop :=
  (forall x y, Z.sgn (cmp x y) = - Z.sgn (cmp y x)) /\
  (forall x y z, cmp x y <= 0 -> cmp y z <= 0 -> cmp x z <= 0).

(** [x] may come before [y] in the requested order. *)
Fixpoint in_order (keys : list sort_key) (x y : R) : Prop :=
  match keys with
  | [] => True
  | c :: ks => c x y < 0 \/ (c x y = 0 /\ in_order ks x y)
  end.

(** Contract of the C library's sorting function. *)
Definition qsort_ok (sort : sort_key -> list R -> list R) : Prop :=
  forall cmp l, consistent cmp ->
    Permutation l (sort cmp l) /\ StronglySorted (fun x y => cmp x y <= 0) (sort cmp l).

(** Calls.  [Insert mem r]: [mem] is the memory the C library would provide for a new
    element. *)
Inductive dop :=
| Insert (mem : nat) (r : R) | Delete (sel : selection) | Find (sel : selection)
| CountOf (sel : selection) | Query (sel : selection) | Get (ref : nat) | Update (ref : nat) (r : R).
Inductive dres :=
| Ref (n : nat) | Ok | Found (n : option nat) | Num (n : nat) | Recs (l : list R) | Rec (r : R).

(** The live records and their references, as the calls so far determine them. *)
Definition live : Type := list (nat * R).

Definition after (a : live) (op : dop) (res : dres) : live :=
  match op, res with
  | Insert _ r, Ref n => (n, r) :: a
  | Delete sel, _ => filter (fun p => negb (selected sel (snd p))) a
  | Update n r, _ => map (fun p => if Nat.eqb (fst p) n then (n, r) else p) a
  | _, _ => a
  end.

(** Calls a user may make: at most ten search and sort keys, consistent sort keys, no sort
    keys in a deletion, references to live records; and memory provided by the C library is
    not in use. *)
Definition legal_sel (sel : selection) : Prop :=
  (length (s_where sel) <= 10)%nat /\ (length (s_order sel) <= 10)%nat /\ Forall consistent (s_order sel).
Definition legal (a : live) (op : dop) : Prop :=
  match op with
  | Insert mem _ => ~ In mem (map fst a)
  | Delete sel => legal_sel sel /\ s_order sel = []
  | Find sel | CountOf sel | Query sel => legal_sel sel
  | Get n | Update n _ => In n (map fst a)
  end.

(** What a call may return when the live records are [a]. *)
Definition ok (a : live) (op : dop) (res : dres) : Prop :=
  match op, res with
  | Insert _ _, Ref n => ~ In n (map fst a)
  | Delete _, Ok | Update _ _, Ok => True
  | Find sel, Found None => forall n r, In (n, r) a -> selected sel r = false
  | Find sel, Found (Some n) => exists r, In (n, r) a /\ selected sel r = true
  | CountOf sel, Num k => k = length (filter (fun p => selected sel (snd p)) a)
  | Query sel, Recs l =>
      Permutation (map snd (filter (fun p => selected sel (snd p)) a)) l /\
      StronglySorted (in_order (s_order sel)) l
  | Get n, Rec r => In (n, r) a
  | _, _ => False
  end.
End Spec.
Arguments selection : clear implicits.
Arguments sort_key : clear implicits.
Arguments filter_key : clear implicits.
Arguments dop : clear implicits.
Arguments dres : clear implicits.
Arguments live : clear implicits.
