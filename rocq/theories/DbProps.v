(** C22: database tables. *)
Require Import ZArith Lia List Bool Arith Permutation Sorted.
Require Import Verif.Base Verif.ListLib Verif.DbSpec Verif.DbModel Verif.DbProof.
Import ListNotations.
Open Scope Z_scope.

(** C22 (linked-list tables).  For every history of legal calls on a fresh table, every
    further legal call completes without a fault and answers as the live records determine:
    inserts return a reference not in use, finds return a selected live record if there is
    one, counts and queries cover exactly the selected live records, queries in the requested
    order; and the table can always be freed. *)
Theorem C22_list_table_is_multiset : forall R (sort : sort_key R -> list R -> list R), qsort_ok sort ->
  forall s a, reach linked_list_ops sort [] s a ->
  table_free linked_list_ops s = Some tt /\
  forall op, legal a op ->
    exists s' res, step linked_list_ops sort s op = Some (s', res) /\ ok a op res.
Proof.
  intros R sort Hs s a H.
  assert (H0 : ll_rep (R:=R) [] []) by (split; [reflexivity|constructor]).
  split.
  - eapply (reach_free _ _ ll_ok sort Hs); eassumption.
  - intros op Hl. eapply (reach_ok _ _ ll_ok sort Hs); eassumption.
Qed.
Print Assumptions C22_list_table_is_multiset.

(** C22 (array tables), whatever fresh memory contains, for records of at most 4096
    bytes. *)
Theorem C22_array_table_is_multiset : forall R (junk : nat -> slot R) record_size init,
  (record_size <= 4096)%nat -> table_new junk record_size = Some init ->
  forall (sort : sort_key R -> list R -> list R), qsort_ok sort ->
  forall s a, reach (array_ops junk) sort init s a ->
  table_free (array_ops junk) s = Some tt /\
  forall op, legal a op ->
    exists s' res, step (array_ops junk) sort s op = Some (s', res) /\ ok a op res.
Proof.
  intros R junk rs init Hsz Hn sort Hs s a H.
  unfold table_new in Hn. destruct (rs =? 0)%nat eqn:E; [discriminate|]. apply Nat.eqb_neq in E.
  injection Hn as <-.
  assert (H0 : ar_rep (array_create junk (ARRAY_INITIAL_SIZE_BYTES / rs)) []).
  { apply ar_init. unfold ARRAY_INITIAL_SIZE_BYTES. apply Nat.div_str_pos. lia. }
  split.
  - eapply (reach_free _ _ (ar_ok junk) sort Hs); eassumption.
  - intros op Hl. eapply (reach_ok _ _ (ar_ok junk) sort Hs); eassumption.
Qed.
Print Assumptions C22_array_table_is_multiset.

(** The sorting contract is met by an actual sorting function. *)
Theorem C22_sort_exists : forall R, exists sort : sort_key R -> list R -> list R, qsort_ok sort.
Proof. intros R. exists isort. apply isort_ok. Qed.
Print Assumptions C22_sort_exists.

(** Finding: an array table whose records are larger than 4096 bytes has room for no record
    and never gains any: the first insertion writes outside the store. *)
Theorem C22_large_record_refuted : forall R (junk : nat -> slot R) record_size init mem r sort,
  (4096 < record_size)%nat -> table_new junk record_size = Some init ->
  legal [] (Insert mem r) /\ step (array_ops junk) sort init (Insert mem r) = None.
Proof.
  intros R junk rs init mem r sort Hsz Hn. split; [intros []|].
  unfold table_new in Hn. destruct (rs =? 0)%nat eqn:E; [discriminate|]. injection Hn as <-.
  replace (ARRAY_INITIAL_SIZE_BYTES / rs)%nat with 0%nat; [reflexivity|].
  symmetry. apply Nat.div_small. exact Hsz.
Qed.
Print Assumptions C22_large_record_refuted.

(** Finding: a deletion given sort keys faults, on every table that is reached. *)
Theorem C22_sorted_delete_refuted : forall R (sort : sort_key R -> list R -> list R) s a sel,
  qsort_ok sort -> reach linked_list_ops sort [] s a -> s_order sel <> [] ->
  step linked_list_ops sort s (Delete sel) = None.
Proof.
  intros R sort s a sel _ _ Hs. cbn [step]. unfold table_delete.
  destruct (build_selection sel) as [sel'|] eqn:E; [|reflexivity].
  unfold build_selection in E. destruct (_ && _); [|discriminate]. injection E as <-. cbn [bind].
  unfold query_refs. destruct (count_matching _ _ _); [|reflexivity]. cbn [bind].
  destruct (so_foreach _ _); [|reflexivity]. cbn [bind].
  destruct (mapM _ _); [|reflexivity]. cbn [bind].
  destruct (bounded _ _); [|reflexivity]. cbn [bind].
  destruct (s_order sel); [contradiction|reflexivity].
Qed.
Print Assumptions C22_sorted_delete_refuted.

(** A run over the array store with growth, deletion in the middle and reuse. *)
Definition junk0 (i : nat) : slot Z := mkSlot (Nat.even i) true (7 * i) (-1).
Definition eq_key (v : Z) : filter_key Z := mkFilter (fun r => r =? v) false.
Fixpoint steps (s : array Z) (ops : list (dop Z)) : option (list (dres Z)) :=
  match ops with
  | [] => Some []
  | o :: rest => do x <- step (array_ops junk0) isort s o; do t <- steps (fst x) rest; Some (snd x :: t)
  end.
Example C22_ex :
  (do init <- table_new junk0 2048;
   steps init [Insert 0 50; Insert 0 40; Insert 0 30; Insert 0 40; Delete (mkSel [eq_key 40] []);
               Insert 0 60; Insert 0 20; CountOf (mkSel [mkFilter (fun r => r =? 30) true] []);
               Query (mkSel [] [Z.sub]); Find (mkSel [eq_key 20] [])])
  = Some [Ref 0; Ref 1; Ref 2; Ref 3; Ok; Ref 1; Ref 3; Num 3; Recs [20; 30; 50; 60]; Found (Some 3%nat)].
Proof. vm_compute. reflexivity. Qed.

(** A reachable array table with a live record, to which the theorem applies. *)
Example C22_ex_reach : exists init s, table_new junk0 2048 = Some init /\
  reach (array_ops junk0) isort init s [(0%nat, 50)].
Proof.
  eexists. eexists. split; [reflexivity|].
  change [(0%nat, 50)] with (after [] (Insert 9 50) (Ref 0)). eapply reach_step.
  - apply reach_init.
  - intros [].
  - reflexivity.
Qed.
Example C22_ex_sort : qsort_ok (isort (R:=Z)) /\ consistent Z.sub.
Proof. split; [apply isort_ok|]. split; intros; lia. Qed.
