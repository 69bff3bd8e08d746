Require Import ZArith QArith Lia List Bool Arith Permutation Sorted.
Require Import ZifyBool.
Require Import Verif.Base Verif.ListLib Verif.FilterModel Verif.FilterProof Verif.BicSpec Verif.BicModel.
Import ListNotations.
Open Scope Z_scope.

Lemma fl_ltb_iff : forall a b, fl_ltb a b = true <-> fl_lt a b.
Proof. intros [x| | |] [y| | |]; cbn; rewrite ?Qlt_bool_iff; split; congruence || tauto. Qed.
Lemma fl_lt_asym : forall a b, fl_lt a b -> ~ fl_lt b a.
Proof. intros [x| | |] [y| | |]; cbn; try tauto. intros H K. exact (Qlt_irrefl _ (Qlt_trans _ _ _ H K)). Qed.
(** Negative transitivity fails only at NaN. *)
Lemma fl_lt_negtrans : forall a b c, b <> NaN -> ~ fl_lt a b -> ~ fl_lt b c -> ~ fl_lt a c.
Proof.
  intros [x| | |] [y| | |] [z| | |] Hb; cbn; try tauto; try congruence.
  intros A B C. apply Qnot_lt_le in A. apply Qnot_lt_le in B.
  pose proof (Qle_trans _ _ _ B A) as D. exact (Qlt_irrefl _ (Qlt_le_trans _ _ _ C D)).
Qed.

Lemma by_order_true : forall lt gt, by_order lt gt = Some true <-> lt = true.
Proof. intros [] []; cbn; split; congruence. Qed.
Lemma by_order_false : forall lt gt, by_order lt gt = Some false <-> lt = false /\ gt = true.
Proof. intros [] []; cbn; split; intros H; intuition congruence. Qed.

Definition not_both_selected (a b : cand) : Prop :=
  ~ (i_selected (snd a) = true /\ i_selected (snd b) = true).

Lemma land1 : forall c, negb (Z.land c 1 =? 0) = Z.testbit c 0.
Proof.
  intros c. change 1 with (Z.ones 1). rewrite Z.land_ones by lia.
  rewrite Z.bit0_odd, Zodd_mod. change (2^1) with 2.
  pose proof (Z.mod_pos_bound c 2 ltac:(lia)). unfold Zeq_bool.
  destruct (c mod 2 =? 0) eqn:E; destruct (Z.compare_spec (c mod 2) 1); cbn; lia.
Qed.
Lemma land2 : forall c, negb (Z.land c 2 =? 0) = Z.testbit c 1.
Proof.
  intros c. destruct (Z.testbit c 1) eqn:E.
  - destruct (Z.land c 2 =? 0) eqn:F; [|reflexivity]. exfalso.
    apply Z.eqb_eq in F. assert (Z.testbit (Z.land c 2) 1 = true).
    { rewrite Z.land_spec, E. reflexivity. }
    rewrite F in H. rewrite Z.testbit_0_l in H. discriminate.
  - replace (Z.land c 2) with 0; [reflexivity|]. symmetry. apply Z.bits_inj'. intros n Hn.
    rewrite Z.land_spec, Z.testbit_0_l. destruct (Z.eq_dec n 1) as [->|H]; [rewrite E; reflexivity|].
    replace (Z.testbit 2 n) with false; [apply andb_false_r|].
    change 2 with (2^1). rewrite Z.pow2_bits_false by lia. reflexivity.
Qed.

Lemma ext_priority_spec : forall c, ext_constraint_priority c =
  if Z.testbit c 0 then -1 else if Z.testbit c 1 then 1 else 0.
Proof. intros c. unfold ext_constraint_priority. rewrite land1, land2. reflexivity. Qed.

Lemma state_priority_tier : forall s, state_priority s = state_tier s.
Proof. intros []; reflexivity. Qed.

Lemma rule_choice_true : forall rd r a b, not_both_selected a b ->
  (rule_choice rd r a b = Some true <-> rule_better rd r a b).
Proof.
  intros rd r a b Hs. unfold not_both_selected in Hs. destruct r; cbn [rule_choice rule_better].
  - rewrite <- Nat.ltb_lt. split; [intros E; injection E as E; assumption|]. intros ->. reflexivity.
  - destruct (i_selected (snd a)), (i_selected (snd b)); split; intuition congruence.
  - rewrite by_order_true, !ext_priority_spec. unfold must, cannot.
    destruct (Z.testbit (i_constraints (snd a)) 0), (Z.testbit (i_constraints (snd a)) 1),
      (Z.testbit (i_constraints (snd b)) 0), (Z.testbit (i_constraints (snd b)) 1); cbn;
      split; intuition congruence.
  - rewrite by_order_true, (state_priority_tier (i_state (snd a))), (state_priority_tier (i_state (snd b))). apply Z.ltb_lt.
  - rewrite by_order_true, andb_true_iff, negb_true_iff, Z.eqb_eq, Z.eqb_neq. reflexivity.
  - rewrite by_order_true. apply Z.ltb_lt.
  - rewrite by_order_true. apply Z.ltb_lt.
  - rewrite by_order_true. apply Z.ltb_lt.
  - rewrite by_order_true. apply fl_ltb_iff.
  - rewrite by_order_true. apply fl_ltb_iff.
  - rewrite by_order_true. apply Z.ltb_lt.
Qed.

Lemma rule_choice_false : forall rd r a b, not_both_selected a b -> fst a <> fst b ->
  (rule_choice rd r a b = Some false <-> rule_better rd r b a).
Proof.
  intros rd r a b Hs Hd. unfold not_both_selected in Hs. destruct r; cbn [rule_choice rule_better].
  - split; [intros E; injection E as E; apply Nat.ltb_ge in E; lia|].
    intros H. f_equal. apply Nat.ltb_ge. lia.
  - destruct (i_selected (snd a)), (i_selected (snd b)); split; intuition congruence.
  - rewrite by_order_false, !ext_priority_spec. unfold must, cannot.
    destruct (Z.testbit (i_constraints (snd a)) 0), (Z.testbit (i_constraints (snd a)) 1),
      (Z.testbit (i_constraints (snd b)) 0), (Z.testbit (i_constraints (snd b)) 1); cbn;
      split; intuition congruence.
  - rewrite by_order_false, (state_priority_tier (i_state (snd a))), (state_priority_tier (i_state (snd b))). rewrite Z.ltb_ge, Z.ltb_lt. lia.
  - rewrite by_order_false. destruct (Z.eqb_spec (i_alarms (snd a)) 0), (Z.eqb_spec (i_alarms (snd b)) 0);
      cbn; intuition congruence.
  - rewrite by_order_false, Z.ltb_ge, Z.ltb_lt. lia.
  - rewrite by_order_false, Z.ltb_ge, Z.ltb_lt. lia.
  - rewrite by_order_false, Z.ltb_ge, Z.ltb_lt. lia.
  - rewrite by_order_false, fl_ltb_iff. split; [tauto|]. intros H. split; [|assumption].
    apply not_true_is_false. rewrite fl_ltb_iff. apply fl_lt_asym. assumption.
  - rewrite by_order_false, fl_ltb_iff. split; [tauto|]. intros H. split; [|assumption].
    apply not_true_is_false. rewrite fl_ltb_iff. apply fl_lt_asym. assumption.
  - rewrite by_order_false, Z.ltb_ge, Z.ltb_lt. lia.
Qed.

Lemma rule_choice_none : forall rd r a b, not_both_selected a b -> fst a <> fst b ->
  (rule_choice rd r a b = None <-> ~ distinguishes rd r a b).
Proof.
  intros rd r a b Hs Hd. unfold distinguishes.
  rewrite <- (rule_choice_true rd r a b Hs), <- (rule_choice_false rd r a b Hs Hd).
  destruct (rule_choice rd r a b) as [[|]|]; intuition congruence.
Qed.

Lemma rule_better_asym : forall rd r a b, rule_better rd r a b -> ~ rule_better rd r b a.
Proof.
  intros rd r a b. destruct r; cbn [rule_better]; intros H K;
    try (apply (fl_lt_asym _ _ H K)); intuition (congruence || lia).
Qed.

Lemma rule_better_negtrans : forall rd r a b c, numeric rd (snd b) ->
  ~ rule_better rd r a b -> ~ rule_better rd r b c -> ~ rule_better rd r a c.
Proof.
  intros rd r a b c [N1 N2]. destruct r; cbn [rule_better].
  - lia.
  - destruct (i_selected (snd a)), (i_selected (snd b)), (i_selected (snd c)); intuition congruence.
  - unfold must, cannot.
    destruct (Z.testbit (i_constraints (snd a)) 0), (Z.testbit (i_constraints (snd a)) 1),
      (Z.testbit (i_constraints (snd b)) 0), (Z.testbit (i_constraints (snd b)) 1),
      (Z.testbit (i_constraints (snd c)) 0), (Z.testbit (i_constraints (snd c)) 1);
      intuition congruence.
  - lia.
  - lia.
  - lia.
  - lia.
  - lia.
  - apply fl_lt_negtrans. assumption.
  - apply fl_lt_negtrans. assumption.
  - lia.
Qed.

(** [select] against the specification. *)
Lemma select_sound : forall rd policy n a b c m, not_both_selected a b -> fst a <> fst b ->
  select rd policy n a b = Some (c, m) ->
  (n <= m)%nat /\
  (if c then preferred_by rd policy a b (m - n) else preferred_by rd policy b a (m - n)).
Proof.
  induction policy as [|r rest IH]; intros n a b c m Hs Hd H; cbn [select] in H; [discriminate|].
  destruct (rule_choice rd r a b) as [c0|] eqn:E.
  - injection H as -> ->. split; [lia|]. rewrite Nat.sub_diag.
    destruct c; exists [], r, rest; (split; [reflexivity|]); (split; [reflexivity|]);
      (split; [intros r' []|]).
    + apply rule_choice_true in E; assumption.
    + apply rule_choice_false in E; assumption.
  - destruct (IH (S n) a b c m Hs Hd H) as [Hm P]. split; [lia|].
    apply rule_choice_none in E; [|assumption|assumption].
    replace (m - n)%nat with (S (m - S n)) by lia.
    destruct c; destruct P as [be [r0 [af [P1 [P2 [P3 P4]]]]]];
      exists (r :: be), r0, af; (split; [cbn; congruence|]); (split; [cbn; congruence|]);
      (split; [|assumption]); intros r' [<-|Hr']; auto.
    intros [K|K]; apply E; [right|left]; assumption.
Qed.

Lemma select_defined : forall rd policy n a b, In TieBreak policy ->
  exists c m, select rd policy n a b = Some (c, m).
Proof.
  induction policy as [|r rest IH]; intros n a b H; [destruct H|]. cbn [select].
  destruct (rule_choice rd r a b) as [c|] eqn:E; [eauto|].
  destruct H as [->|H]; [discriminate|]. apply IH. assumption.
Qed.

Lemma preferred_asym : forall rd policy a b n m,
  preferred_by rd policy a b n -> ~ preferred_by rd policy b a m.
Proof.
  intros rd policy a b n m [be [r [af [E1 [L1 [D1 B1]]]]]] [be' [r' [af' [E2 [L2 [D2 B2]]]]]].
  assert (T : (n < m)%nat \/ n = m \/ (m < n)%nat) by lia.
  assert (Hn : nth_error policy n = Some r).
  { rewrite E1, nth_error_app2, L1, Nat.sub_diag by lia. reflexivity. }
  assert (Hm : nth_error policy m = Some r').
  { rewrite E2, nth_error_app2, L2, Nat.sub_diag by lia. reflexivity. }
  destruct T as [T|[T|T]].
  - apply (D2 r); [|right; assumption].
    rewrite E2, nth_error_app1 in Hn by lia. eapply nth_error_In; eassumption.
  - rewrite <- T, Hn in Hm. injection Hm as ->. apply (rule_better_asym _ _ _ _ B1 B2).
  - apply (D1 r'); [|right; assumption].
    rewrite E1, nth_error_app1 in Hm by lia. eapply nth_error_In; eassumption.
Qed.

Lemma preferred_dec_total : forall rd policy a b, In TieBreak policy ->
  not_both_selected a b -> fst a <> fst b ->
  preferred rd policy a b \/ preferred rd policy b a.
Proof.
  intros rd policy a b Ht Hs Hd. destruct (select_defined rd policy 0 a b Ht) as [c [m E]].
  apply select_sound in E as [_ P]; [|assumption|assumption].
  destruct c; [left|right]; exists (m - 0)%nat; assumption.
Qed.

Lemma select_true_iff : forall rd policy a b, In TieBreak policy ->
  not_both_selected a b -> fst a <> fst b -> forall n,
  (select rd policy 0 a b = Some (true, n) <-> preferred_by rd policy a b n).
Proof.
  intros rd policy a b Ht Hs Hd n. destruct (select_defined rd policy 0 a b Ht) as [c [m E]].
  pose proof E as E0. apply select_sound in E as [_ P]; [|assumption|assumption].
  rewrite Nat.sub_0_r in P. rewrite E0. split.
  - intros H. injection H as -> ->. assumption.
  - intros H. destruct c.
    + f_equal. f_equal. (* the deciding rule is unique *)
      destruct P as [be [r [af [E1 [L1 [D1 B1]]]]]]. destruct H as [be' [r' [af' [E2 [L2 [D2 B2]]]]]].
      assert (Hn : nth_error policy m = Some r) by (rewrite E1, nth_error_app2, L1, Nat.sub_diag by lia; reflexivity).
      assert (Hm : nth_error policy n = Some r') by (rewrite E2, nth_error_app2, L2, Nat.sub_diag by lia; reflexivity).
      destruct (lt_eq_lt_dec m n) as [[T|T]|T]; [exfalso|assumption|exfalso].
      * apply (D2 r); [|left; assumption]. rewrite E2, nth_error_app1 in Hn by lia. eapply nth_error_In; eassumption.
      * apply (D1 r'); [|left; assumption]. rewrite E1, nth_error_app1 in Hm by lia. eapply nth_error_In; eassumption.
    + exfalso. apply (preferred_asym _ _ _ _ _ _ H P).
Qed.

(** Each rule is decidable. *)
Lemma rule_better_dec : forall rd r a b, rule_better rd r a b \/ ~ rule_better rd r a b.
Proof.
  intros rd r a b. destruct r; cbn [rule_better].
  - lia.
  - destruct (i_selected (snd a)), (i_selected (snd b)); intuition congruence.
  - unfold must, cannot.
    destruct (Z.testbit (i_constraints (snd a)) 0), (Z.testbit (i_constraints (snd a)) 1),
      (Z.testbit (i_constraints (snd b)) 0), (Z.testbit (i_constraints (snd b)) 1);
      intuition congruence.
  - lia.
  - lia.
  - lia.
  - lia.
  - lia.
  - rewrite <- fl_ltb_iff. destruct (fl_ltb _ _); intuition congruence.
  - rewrite <- fl_ltb_iff. destruct (fl_ltb _ _); intuition congruence.
  - lia.
Qed.

Lemma preferred_trans : forall rd policy a b c,
  numeric rd (snd a) -> numeric rd (snd b) -> numeric rd (snd c) ->
  preferred rd policy a b -> preferred rd policy b c -> preferred rd policy a c.
Proof.
  intros rd policy a b c Na Nb Nc [n [be [r [af [E1 [L1 [D1 B1]]]]]]] [m [be' [r' [af' [E2 [L2 [D2 B2]]]]]]].
  assert (Hn : nth_error policy n = Some r) by (rewrite E1, nth_error_app2, L1, Nat.sub_diag by lia; reflexivity).
  assert (Hm : nth_error policy m = Some r') by (rewrite E2, nth_error_app2, L2, Nat.sub_diag by lia; reflexivity).
  assert (G : forall x, ~ distinguishes rd x a b -> ~ distinguishes rd x b c -> ~ distinguishes rd x a c).
  { unfold distinguishes. intros x H K [X|X].
    - apply (rule_better_negtrans rd x a b c Nb) in X; tauto.
    - apply (rule_better_negtrans rd x c b a Nb) in X; tauto. }
  assert (NT1 : forall x, rule_better rd x a b -> ~ rule_better rd x c b -> rule_better rd x a c).
  { intros x H K. destruct (rule_better_dec rd x a c) as [Y|Y]; [assumption|].
    exfalso. apply (rule_better_negtrans rd x a c b Nc Y K H). }
  assert (NT2 : forall x, rule_better rd x b c -> ~ rule_better rd x b a -> rule_better rd x a c).
  { intros x H K. destruct (rule_better_dec rd x a c) as [Y|Y]; [assumption|].
    exfalso. apply (rule_better_negtrans rd x b a c Na K Y H). }
  assert (InA : forall k x, (k < n)%nat -> nth_error policy k = Some x -> ~ distinguishes rd x a b).
  { intros k x Hk Hx. apply D1. rewrite E1, nth_error_app1 in Hx by lia. eapply nth_error_In; eassumption. }
  assert (InB : forall k x, (k < m)%nat -> nth_error policy k = Some x -> ~ distinguishes rd x b c).
  { intros k x Hk Hx. apply D2. rewrite E2, nth_error_app1 in Hx by lia. eapply nth_error_In; eassumption. }
  assert (Mk : forall k x, nth_error policy k = Some x -> (k <= n)%nat -> (k <= m)%nat ->
            rule_better rd x a c -> preferred rd policy a c).
  { intros k x Hx K1 K2 Hb. apply nth_error_split in Hx as [l1 [l2 [E L]]].
    exists k, l1, x, l2. split; [assumption|]. split; [assumption|]. split; [|assumption].
    intros y Hy. apply In_nth_error in Hy as [k' Hk'].
    assert (k' < length l1)%nat by (apply nth_error_Some; congruence).
    assert (nth_error policy k' = Some y) by (rewrite E, nth_error_app1 by lia; assumption).
    apply G; [eapply InA|eapply InB]; try eassumption; lia. }
  destruct (lt_eq_lt_dec n m) as [[T|T]|T].
  - apply (Mk n r Hn); [lia|lia|]. apply NT1; [assumption|].
    intros X. apply (InB n r T Hn). right. assumption.
  - rewrite <- T, Hn in Hm. injection Hm as ->. apply (Mk n r' Hn); [lia|lia|].
    apply NT1; [assumption|]. apply rule_better_asym. assumption.
  - apply (Mk m r' Hm); [lia|lia|]. apply NT2; [assumption|].
    intros X. apply (InA m r' T Hm). right. assumption.
Qed.

(** ** Ranks *)
Lemma assign_ranks_other : forall order k ranks i, ~ In i order ->
  nth_error (assign_ranks order k ranks) i = nth_error ranks i.
Proof.
  induction order as [|x order IH]; intros k ranks i H; cbn; [reflexivity|].
  rewrite IH by (intros X; apply H; right; assumption).
  apply nth_error_set_nth_other. intros ->. apply H. left. reflexivity.
Qed.
Lemma assign_ranks_length : forall order k ranks, length (assign_ranks order k ranks) = length ranks.
Proof. induction order; intros; cbn; [reflexivity|]. rewrite IHorder. apply set_nth_length. Qed.
Lemma assign_ranks_nth : forall order k ranks p i, NoDup order ->
  (forall x, In x order -> (x < length ranks)%nat) ->
  nth_error order p = Some i ->
  nth_error (assign_ranks order k ranks) i = Some (Z.of_nat (k + p) + 1).
Proof.
  induction order as [|x order IH]; intros k ranks p i Hnd Hlt Hp; [destruct p; discriminate|].
  inversion Hnd as [|? ? Hx Hnd']; subst. destruct p as [|p]; cbn in Hp |- *.
  - injection Hp as ->. rewrite assign_ranks_other by assumption.
    rewrite nth_error_set_nth_same by (apply Hlt; left; reflexivity). f_equal. lia.
  - rewrite (IH (S k) _ p i); [f_equal; lia|assumption| |assumption].
    intros y Hy. rewrite set_nth_length. apply Hlt. right. assumption.
Qed.

(** ** An implementation of the sorting contract: insertion sort. *)
Fixpoint insert (lt : nat -> nat -> bool) (x : nat) (l : list nat) : list nat :=
  match l with
  | [] => [x]
  | y :: t => if lt x y then x :: y :: t else y :: insert lt x t
  end.
Definition isort (lt : nat -> nat -> bool) (l : list nat) : list nat := fold_right (insert lt) [] l.

Lemma insert_perm : forall lt x l, Permutation (x :: l) (insert lt x l).
Proof.
  induction l as [|y t IH]; cbn; [reflexivity|]. destruct (lt x y); [reflexivity|].
  rewrite perm_swap. apply perm_skip. assumption.
Qed.
Lemma isort_perm : forall lt l, Permutation l (isort lt l).
Proof.
  induction l as [|x l IH]; cbn; [reflexivity|]. rewrite <- insert_perm. apply perm_skip. assumption.
Qed.
Lemma isort_contract : qsort_contract isort.
Proof.
  intros lt l Hnd [Hasym Htr]. split; [apply isort_perm|].
  induction l as [|x l IH]; [constructor|]. inversion Hnd as [|? ? Hx Hnd']; subst.
  assert (S : StronglySorted (fun x y => lt x y = true) (isort lt l)).
  { apply IH; [assumption| |].
    - intros y z Hy Hz. apply Hasym; right; assumption.
    - intros y z w Hy Hz Hw. apply Htr; right; assumption. }
  clear IH. change (isort lt (x :: l)) with (insert lt x (isort lt l)). assert (P : Permutation l (isort lt l)) by apply isort_perm.
  assert (Hin : forall y, In y (isort lt l) -> In y l) by (intros y Hy; eapply Permutation_in; [symmetry; exact P|exact Hy]).
  assert (Hnd2 : NoDup (isort lt l)) by (eapply Permutation_NoDup; eassumption).
  assert (Hx2 : ~ In x (isort lt l)) by (intros H; apply Hx, Hin, H).
  clear P. revert S Hin Hnd2 Hx2. generalize (isort lt l) as s. induction s as [|y s IHs]; intros S Hin Hnd2 Hx2.
  - cbn; repeat constructor.
  - inversion S as [|? ? S' F]; subst. inversion Hnd2 as [|? ? Hy Hnd3]; subst. cbn.
    assert (Hxy : x <> y) by (intros ->; apply Hx2; left; reflexivity).
    assert (Iy : In y l) by (apply Hin; left; reflexivity).
    destruct (lt x y) eqn:E.
    + constructor; [assumption|]. constructor; [assumption|]. rewrite Forall_forall in *.
      intros z Hz. apply (Htr x y z); auto; try (left; reflexivity); try (right; auto).
      * apply Hin. right. assumption.
      * intros ->. contradiction.
      * intros ->. apply Hx2. right. assumption.
    + assert (E2 : lt y x = true).
      { rewrite (Hasym x y) in E by (auto; try (left; reflexivity); right; assumption).
        apply negb_false_iff in E. assumption. }
      constructor.
      * apply IHs; auto. { intros z Hz. apply Hin. right. assumption. }
        intros H. apply Hx2. right. assumption.
      * rewrite Forall_forall in *. intros z Hz.
        apply (Permutation_in z (Permutation_sym (insert_perm lt x s))) in Hz.
        destruct Hz as [<-|Hz]; auto.
Qed.

(** ** The comparison function orders the records. *)
Definition rec_cand (recs : list inst) (i : nat) (a : cand) : Prop := fst a = i /\ nth_error recs i = Some (snd a).

Lemma compar_total : forall rd policy recs, In TieBreak policy -> one_selected recs ->
  Forall (numeric rd) recs ->
  strict_total_on (compar rd policy recs) (seq 0 (length recs)).
Proof.
  intros rd policy recs Ht Ho Hn.
  assert (Cases : forall i j, In i (seq 0 (length recs)) -> In j (seq 0 (length recs)) -> i <> j ->
    exists x y, nth_error recs i = Some x /\ nth_error recs j = Some y /\
      not_both_selected (i, x) (j, y) /\ numeric rd x /\ numeric rd y /\
      (compar rd policy recs i j = true <-> preferred rd policy (i, x) (j, y))).
  { intros i j Hi Hj Hij. apply in_seq in Hi, Hj.
    destruct (nth_error recs i) as [x|] eqn:Ex; [|apply nth_error_None in Ex; lia].
    destruct (nth_error recs j) as [y|] eqn:Ey; [|apply nth_error_None in Ey; lia].
    exists x, y. split; [reflexivity|]. split; [reflexivity|].
    assert (NB : not_both_selected (i, x) (j, y)).
    { intros [A B]. apply Hij. apply (Ho i j x y); assumption. }
    split; [assumption|]. rewrite Forall_forall in Hn.
    split; [apply Hn; eapply nth_error_In; eassumption|].
    split; [apply Hn; eapply nth_error_In; eassumption|].
    unfold compar. rewrite Ex, Ey.
    destruct (select_defined rd policy 0 (i, x) (j, y) Ht) as [c [m E]]. rewrite E.
    split.
    - intros ->. exists m. apply select_true_iff; auto.
    - intros [k Hk]. apply (select_true_iff rd policy (i, x) (j, y) Ht NB Hij) in Hk. congruence. }
  split.
  - intros i j Hi Hj Hij. destruct (Cases i j Hi Hj Hij) as [x [y [Ex [Ey [NB [_ [_ C]]]]]]].
    destruct (Cases j i Hj Hi (not_eq_sym Hij)) as [y' [x' [Ey' [Ex' [NB' [_ [_ C']]]]]]].
    rewrite Ex in Ex'. rewrite Ey in Ey'. injection Ex' as <-. injection Ey' as <-.
    assert (T : preferred rd policy (i, x) (j, y) \/ preferred rd policy (j, y) (i, x)) by (apply preferred_dec_total; auto).
    destruct (compar rd policy recs i j) eqn:E1, (compar rd policy recs j i) eqn:E2; try reflexivity; exfalso.
    + destruct (proj1 C eq_refl) as [n P]. destruct (proj1 C' eq_refl) as [m Q].
      apply (preferred_asym _ _ _ _ _ _ P Q).
    + rewrite <- C, <- C' in T. destruct T; congruence.
  - intros i j k Hi Hj Hk Hij Hjk Hik A B.
    destruct (Cases i j Hi Hj Hij) as [x [y [Ex [Ey [NB [N1 [N2 C1]]]]]]].
    destruct (Cases j k Hj Hk Hjk) as [y' [z [Ey' [Ez [NB' [_ [N3 C2]]]]]]].
    destruct (Cases i k Hi Hk Hik) as [x' [z' [Ex' [Ez' [NB'' [_ [_ C3]]]]]]].
    rewrite Ex in Ex'. rewrite Ey in Ey'. rewrite Ez in Ez'.
    injection Ex' as <-. injection Ey' as <-. injection Ez' as <-.
    apply C3. eapply preferred_trans; [..|apply C1; assumption|apply C2; assumption]; assumption.
Qed.
