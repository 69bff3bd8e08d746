(** Properties C11-C13, C52: best-instance selection. *)
Require Import ZArith QArith Lia String List Bool Arith Permutation Sorted.
Require Import ZifyBool.
Require Import Verif.Base Verif.ListLib Verif.FilterModel Verif.BicSpec Verif.BicModel Verif.BicProof.
Import ListNotations.
Open Scope Z_scope.

(** ** C12: rules are applied in lexicographic order *)

(** The first record is chosen, with decisive rule [n], exactly when it is preferred by
    rule [n]; otherwise the second is preferred.  (Not both manually selected: see
    [C13_both_selected_refuted].) *)
Theorem C12_lexicographic : forall rd policy a b, In TieBreak policy ->
  ~ (i_selected (snd a) = true /\ i_selected (snd b) = true) -> fst a <> fst b ->
  exists c n, select rd policy 0 a b = Some (c, n) /\
    (c = true <-> preferred rd policy a b) /\ (c = false <-> preferred rd policy b a) /\
    (if c then preferred_by rd policy a b n else preferred_by rd policy b a n).
Proof.
  intros rd policy a b Ht Hs Hd. destruct (select_defined rd policy 0 a b Ht) as [c [n E]].
  exists c, n. split; [assumption|].
  pose proof (select_sound rd policy 0 a b c n Hs Hd E) as [_ P]. rewrite Nat.sub_0_r in P.
  destruct c.
  - split; [split; [intros _; exists n; assumption|reflexivity]|].
    split; [|assumption]. split; [discriminate|]. intros [m Q].
    exfalso. apply (preferred_asym _ _ _ _ _ _ P Q).
  - split; [|split; [split; [intros _; exists n; assumption|reflexivity]|assumption]].
    split; [discriminate|]. intros [m Q]. exfalso. apply (preferred_asym _ _ _ _ _ _ P Q).
Qed.
Print Assumptions C12_lexicographic.

(** Rules listed after the end marker never matter. *)
Theorem C12_rules_after_end_ignored : forall rd l rest rest' n a b,
  select rd (l ++ TieBreak :: rest) n a b = select rd (l ++ TieBreak :: rest') n a b.
Proof.
  induction l as [|r l IH]; intros; cbn; [reflexivity|].
  destruct (rule_choice rd r a b); [reflexivity|]. apply IH.
Qed.
Print Assumptions C12_rules_after_end_ignored.

Definition ptp (sel : bool) (prio steps : Z) (var : fl) : inst :=
  mkInst sel 0 Slave 0 prio 0 0 (Fin 0) (Fin 0) var steps.
Example C12_ex :
  select (fun x => x) default_policy 0 (0%nat, ptp false 1 5 (Fin 1)) (1%nat, ptp false 0 5 (Fin 1)) = Some (false, 4%nat) /\
  select (fun x => x) default_policy 0 (0%nat, ptp false 1 5 (Fin 1)) (1%nat, ptp false 1 4 (Fin 1)) = Some (false, 9%nat) /\
  select (fun x => x) default_policy 0 (0%nat, ptp false 1 5 (Fin 1)) (1%nat, ptp false 1 5 (Fin 1)) = Some (true, 10%nat).
Proof. split; [|split]; vm_compute; reflexivity. Qed.

(** ** C13: strict total order.  Asymmetry and totality need at most one manually selected
    instance; transitivity needs that no compared value is NaN. *)
Theorem C13_comparison_asymmetric_total : forall rd policy a b, In TieBreak policy ->
  ~ (i_selected (snd a) = true /\ i_selected (snd b) = true) -> fst a <> fst b ->
  exists c n c' n', select rd policy 0 a b = Some (c, n) /\ select rd policy 0 b a = Some (c', n') /\
    c' = negb c /\ n' = n.
Proof.
  intros rd policy a b Ht Hs Hd.
  destruct (C12_lexicographic rd policy a b Ht Hs Hd) as [c [n [E [T1 [T2 P]]]]].
  destruct (C12_lexicographic rd policy b a Ht) as [c' [n' [E' [T1' [T2' P']]]]]; [tauto|auto|].
  exists c, n, c', n'. split; [assumption|]. split; [assumption|].
  assert (Hc : c' = negb c).
  { destruct c, c'; try reflexivity; exfalso.
    - destruct (proj1 T1 eq_refl) as [k1 K1]. destruct (proj1 T1' eq_refl) as [k2 K2].
      apply (preferred_asym _ _ _ _ _ _ K1 K2).
    - destruct (proj1 T2 eq_refl) as [k1 K1]. destruct (proj1 T2' eq_refl) as [k2 K2].
      apply (preferred_asym _ _ _ _ _ _ K1 K2). }
  split; [assumption|]. subst c'.
  destruct c; cbn in P'.
  - apply (select_true_iff rd policy a b Ht Hs Hd) in P'. congruence.
  - apply (select_true_iff rd policy b a Ht ltac:(unfold not_both_selected; tauto) (not_eq_sym Hd)) in P. congruence.
Qed.
Print Assumptions C13_comparison_asymmetric_total.

Theorem C13_comparison_transitive_partial : forall rd policy a b c,
  numeric rd (snd a) -> numeric rd (snd b) -> numeric rd (snd c) ->
  preferred rd policy a b -> preferred rd policy b c -> preferred rd policy a c.
Proof. exact preferred_trans. Qed.
Print Assumptions C13_comparison_transitive_partial.

(** The full statement (no hypothesis [numeric]) is false: instances without an Allan
    variance (NTP, GPS, PPS, freerun report NaN) beside two PTP instances form a cycle
    under the default policy. *)
Theorem C13_nan_cycle_refuted : exists a b c,
  select (fun x => x) default_policy 0 a b = Some (true, 8%nat) /\
  select (fun x => x) default_policy 0 b c = Some (true, 9%nat) /\
  select (fun x => x) default_policy 0 c a = Some (true, 9%nat).
Proof.
  exists (0%nat, ptp false 1 5 (Fin 1)), (1%nat, ptp false 1 1 (Fin 2)), (2%nat, ptp false 1 3 NaN).
  split; [vm_compute; reflexivity|]. split; vm_compute; reflexivity.
Qed.
Print Assumptions C13_nan_cycle_refuted.

(** With two manually selected instances each is preferred to the other. *)
Theorem C13_both_selected_refuted : exists a b, fst a <> fst b /\
  select (fun x => x) default_policy 0 a b = Some (true, 0%nat) /\
  select (fun x => x) default_policy 0 b a = Some (true, 0%nat).
Proof.
  exists (0%nat, ptp true 1 5 (Fin 1)), (1%nat, ptp true 1 5 (Fin 1)).
  split; [discriminate|]. split; vm_compute; reflexivity.
Qed.
Print Assumptions C13_both_selected_refuted.

Example C13_ex : numeric (fun x => x) (ptp false 1 5 (Fin 1)) /\
  preferred (fun x => x) default_policy (0%nat, ptp false 1 5 (Fin 1)) (1%nat, ptp false 1 5 PInf).
Proof.
  split; [split; discriminate|].
  exists 8%nat. apply select_true_iff; [cbn; tauto| |discriminate|vm_compute; reflexivity].
  intros [H _]. discriminate.
Qed.

(** ** C11: the choice is the best candidate and ranks are a permutation *)
Lemma has_tie_break_in : forall p, In TieBreak p -> has_tie_break p = true.
Proof. intros p H. apply existsb_exists. exists TieBreak. auto. Qed.

Lemma compar_pref : forall rd policy recs i j x y, In TieBreak policy -> one_selected recs -> i <> j ->
  nth_error recs i = Some x -> nth_error recs j = Some y ->
  (compar rd policy recs i j = true <-> preferred rd policy (i, x) (j, y)).
Proof.
  intros rd policy recs i j x y Ht Ho Hij Hx Hy. unfold compar. rewrite Hx, Hy.
  assert (NB : not_both_selected (i, x) (j, y)) by (intros [A B]; apply Hij, (Ho i j x y); assumption).
  destruct (select_defined rd policy 0 (i, x) (j, y) Ht) as [c [m E]]. rewrite E. split.
  - intros ->. exists m. apply select_true_iff; auto.
  - intros [k Hk]. apply (select_true_iff rd policy (i, x) (j, y) Ht NB Hij) in Hk. congruence.
Qed.

Lemma sorted_nth : forall (R : nat -> nat -> Prop) l p q i j, StronglySorted R l -> (p < q)%nat ->
  nth_error l p = Some i -> nth_error l q = Some j -> R i j.
Proof.
  intros R l. induction l as [|x l IH]; intros p q i j S Hpq Hp Hq; [destruct p; discriminate|].
  inversion S as [|? ? S' F]; subst. destruct p as [|p], q as [|q]; cbn in Hp, Hq; try lia.
  - injection Hp as ->. rewrite Forall_forall in F. apply F. eapply nth_error_In; eassumption.
  - apply (IH p q); auto. lia.
Qed.

Lemma ranks_seq : forall order n k ranks, Permutation (seq 0 n) order -> length ranks = n ->
  Permutation (map Z.of_nat (seq (S k) n)) (assign_ranks order k ranks).
Proof.
  intros order n k ranks HP Hl.
  assert (Hnd : NoDup order) by (eapply Permutation_NoDup; [exact HP|apply seq_NoDup]).
  assert (Hlen : length order = n) by (rewrite <- (Permutation_length HP); apply seq_length).
  assert (Hlt : forall x, In x order -> (x < length ranks)%nat).
  { intros x Hx. apply (Permutation_in _ (Permutation_sym HP)) in Hx. apply in_seq in Hx. lia. }
  symmetry. apply NoDup_Permutation_bis.
  - apply NoDup_nth_error. rewrite assign_ranks_length, Hl. intros i j Hi E.
    assert (Pos : forall a, (a < n)%nat -> exists p, nth_error order p = Some a).
    { intros a Ha. apply In_nth_error. apply (Permutation_in _ HP). apply in_seq. lia. }
    destruct (Pos i Hi) as [p Hp]. rewrite (assign_ranks_nth order k ranks p i Hnd Hlt Hp) in E.
    assert (Hj : (j < n)%nat).
    { rewrite <- Hl, <- (assign_ranks_length order k ranks). apply nth_error_Some. congruence. }
    destruct (Pos j Hj) as [q Hq]. rewrite (assign_ranks_nth order k ranks q j Hnd Hlt Hq) in E.
    injection E as E. assert (p = q) by lia. subst q. congruence.
  - rewrite map_length, seq_length, assign_ranks_length. lia.
  - intros z Hz. apply In_nth_error in Hz as [i Hi].
    assert (Hi' : (i < n)%nat).
    { rewrite <- Hl, <- (assign_ranks_length order k ranks). apply nth_error_Some. congruence. }
    assert (Ip : In i order) by (apply (Permutation_in _ HP), in_seq; lia).
    apply In_nth_error in Ip as [p Hp]. rewrite (assign_ranks_nth order k ranks p i Hnd Hlt Hp) in Hi.
    injection Hi as <-. apply in_map_iff. exists (S (k + p)). split; [lia|].
    assert (p < length order)%nat by (apply nth_error_Some; congruence). apply in_seq. lia.
Qed.

Theorem C11_choose_best_and_ranks_partial : forall rd sort policy recs ranks,
  qsort_contract sort -> In TieBreak policy -> one_selected recs -> Forall (numeric rd) recs ->
  length ranks = length recs ->
  exists r ranks', choose rd sort policy recs ranks = Some (r, ranks') /\
    (recs = [] -> r = None) /\
    (recs <> [] -> exists best x, r = Some best /\ nth_error recs best = Some x /\
       (forall j y, nth_error recs j = Some y -> j <> best ->
          preferred rd policy (best, x) (j, y) /\ ~ preferred rd policy (j, y) (best, x)) /\
       ((2 <= length recs)%nat ->
          nth_error ranks' best = Some 1 /\
          Permutation (map Z.of_nat (seq 1 (length recs))) ranks' /\
          forall i j x y ri rj, nth_error recs i = Some x -> nth_error recs j = Some y -> i <> j ->
            nth_error ranks' i = Some ri -> nth_error ranks' j = Some rj ->
            (ri < rj <-> preferred rd policy (i, x) (j, y)))).
Proof.
  intros rd sort policy recs ranks Hsort Ht Ho Hn Hl. unfold choose.
  destruct recs as [|x0 [|x1 recs0]] eqn:Er; rewrite <- Er in *.
  - exists None, ranks. subst. split; [reflexivity|]. split; [reflexivity|]. congruence.
  - exists (Some 0%nat), ranks. subst. split; [reflexivity|]. split; [discriminate|].
    intros _. exists 0%nat, x0. split; [reflexivity|]. split; [reflexivity|]. split.
    + intros [|[|j]] y Hj Hne; cbn in Hj; try discriminate. congruence.
    + cbn. lia.
  - assert (Hlen : exists m, length recs = S (S m)) by (subst; cbn; eauto). destruct Hlen as [m Hm].
    rewrite Hm, has_tie_break_in by assumption. rewrite <- Hm. set (n := length recs) in *.
    pose proof (compar_total rd policy recs Ht Ho Hn) as Hst. fold n in Hst.
    destruct (Hsort _ _ (seq_NoDup n 0) Hst) as [HP HS].
    set (order := sort (compar rd policy recs) (seq 0 n)) in *.
    assert (Hol : length order = n) by (rewrite <- (Permutation_length HP); apply seq_length).
    assert (Hnd : NoDup order) by (eapply Permutation_NoDup; [exact HP|apply seq_NoDup]).
    assert (Hlt : forall x, In x order -> (x < n)%nat).
    { intros x Hx. apply (Permutation_in _ (Permutation_sym HP)) in Hx. apply in_seq in Hx. lia. }
    assert (Pos : forall a, (a < n)%nat -> exists p, nth_error order p = Some a).
    { intros a Ha. apply In_nth_error. apply (Permutation_in _ HP). apply in_seq. lia. }
    destruct order as [|best order'] eqn:Eo; [cbn in Hol; lia|]. rewrite <- Eo in *. 
    replace (hd_error order) with (Some best) by (rewrite Eo; reflexivity). cbn [bind].
    eexists _, _. split; [reflexivity|]. split; [intros E; unfold n in Hm; rewrite E in Hm; discriminate|].
    intros _.
    assert (Hb0 : nth_error order 0 = Some best) by (rewrite Eo; reflexivity).
    assert (Hb : (best < n)%nat) by (apply Hlt; rewrite Eo; left; reflexivity).
    destruct (nth_error recs best) as [x|] eqn:Ex; [|apply nth_error_None in Ex; fold n in Ex; lia].
    exists best, x. split; [reflexivity|]. split; [exact Ex|]. split.
    + intros j y Hj Hne.
      assert (Hjn : (j < n)%nat) by (apply nth_error_Some; congruence).
      destruct (Pos j Hjn) as [p Hp].
      assert (p <> 0)%nat by (intros ->; congruence).
      pose proof (sorted_nth _ _ 0 p best j HS ltac:(lia) Hb0 Hp) as K. cbn in K.
      assert (PB : preferred rd policy (best, x) (j, y)).
      { eapply compar_pref; [exact Ht|exact Ho|exact (not_eq_sym Hne)|exact Ex|exact Hj|exact K]. }
      split; [assumption|]. intros [k2 K2]. destruct PB as [k1 K1].
      apply (preferred_asym _ _ _ _ _ _ K1 K2).
    + intros _. split; [|split].
      * rewrite (assign_ranks_nth order 0 ranks 0 best); auto. intros z Hz. rewrite Hl. auto.
      * apply ranks_seq; auto.
      * intros i j xi xj ri rj Hi Hj Hij Hri Hrj.
        assert (Hin : (i < n)%nat) by (apply nth_error_Some; congruence).
        assert (Hjn : (j < n)%nat) by (apply nth_error_Some; congruence).
        destruct (Pos i Hin) as [p Hp]. destruct (Pos j Hjn) as [q Hq].
        assert (HL : forall z, In z order -> (z < length ranks)%nat) by (intros z Hz; rewrite Hl; auto).
        rewrite (assign_ranks_nth order 0 ranks p i Hnd HL Hp) in Hri.
        rewrite (assign_ranks_nth order 0 ranks q j Hnd HL Hq) in Hrj.
        injection Hri as <-. injection Hrj as <-.
        assert (p <> q) by (intros ->; congruence).
        rewrite <- (compar_pref rd policy recs i j xi xj Ht Ho Hij Hi Hj).
        destruct Hst as [Hasym _]. split; intros H1.
        -- apply (sorted_nth _ _ p q i j HS ltac:(lia) Hp Hq).
        -- destruct (Nat.lt_ge_cases p q) as [H2|H2]; [lia|].
           pose proof (sorted_nth _ _ q p j i HS ltac:(lia) Hq Hp) as K. cbn in K.
           rewrite (Hasym i j) in H1 by (auto; apply in_seq; lia). rewrite K in H1. discriminate.
Qed.
Print Assumptions C11_choose_best_and_ranks_partial.

(** The hypothesis on the sorting function can be met. *)
Theorem C11_sort_contract_inhabited : qsort_contract isort.
Proof. exact isort_contract. Qed.
Print Assumptions C11_sort_contract_inhabited.

Example C11_ex : choose (fun x => x) isort default_policy
   [ptp false 2 5 (Fin 1); ptp false 1 5 PInf; ptp false 1 5 (Fin 1)] [0; 0; 0] =
   Some (Some 2%nat, [3; 2; 1]).
Proof. vm_compute. reflexivity. Qed.

(** Full statement, false in the presence of NaN: whatever instance is chosen, another one
    is strictly preferred to it. *)
Theorem C11_nan_no_best_refuted : exists recs, one_selected recs /\
  forall best, (best < length recs)%nat ->
    exists j x y, nth_error recs best = Some x /\ nth_error recs j = Some y /\
      preferred (fun x => x) default_policy (j, y) (best, x).
Proof.
  exists [ptp false 1 5 (Fin 1); ptp false 1 1 (Fin 2); ptp false 1 3 NaN].
  split.
  - intros i j x y Hi _ Hs _. exfalso.
    destruct i as [|[|[|i]]]; cbn in Hi; try (injection Hi as <-; discriminate).
    destruct i; discriminate.
  - intros best Hb. cbn in Hb.
    assert (T : forall a b n, select (fun x => x) default_policy 0 a b = Some (true, n) ->
      fst a <> fst b -> i_selected (snd a) = false -> preferred (fun x => x) default_policy a b).
    { intros a b n E Hd Hs. exists n. apply select_true_iff; auto; [cbn; tauto|].
      intros [A _]. congruence. }
    destruct best as [|[|[|best]]]; [| | |lia].
    + exists 2%nat. eexists _, _. split; [reflexivity|]. split; [reflexivity|].
      eapply T; [vm_compute; reflexivity|discriminate|reflexivity].
    + exists 0%nat. eexists _, _. split; [reflexivity|]. split; [reflexivity|].
      eapply T; [vm_compute; reflexivity|discriminate|reflexivity].
    + exists 1%nat. eexists _, _. split; [reflexivity|]. split; [reflexivity|].
      eapply T; [vm_compute; reflexivity|discriminate|reflexivity].
Qed.
Print Assumptions C11_nan_no_best_refuted.

(** Manual selection leaves exactly the chosen instance selected and changes nothing else;
    so the hypothesis [one_selected] always holds of records that came from it. *)
Theorem C11_select_instance_one_selected : forall recs sel, one_selected (select_instance recs sel) /\
  length (select_instance recs sel) = length recs /\
  forall i x, nth_error recs i = Some x ->
    exists y, nth_error (select_instance recs sel) i = Some y /\
      (i_selected y = true <-> sel = Some i) /\
      (i_constraints y, i_state y, i_alarms y, i_priority y, i_cluster y, i_class y) =
      (i_constraints x, i_state x, i_alarms x, i_priority x, i_cluster x, i_class x) /\
      (i_accuracy y, i_local y, i_variance y, i_steps y) =
      (i_accuracy x, i_local x, i_variance x, i_steps x).
Proof.
  intros recs sel.
  assert (Nth : forall i y, nth_error (select_instance recs sel) i = Some y ->
    exists x, nth_error recs i = Some x /\ (i_selected y = true <-> sel = Some i)).
  { intros i y H. unfold select_instance in H. rewrite nth_error_map in H.
    destruct (nth_error (combine (seq 0 (length recs)) recs) i) as [[k x]|] eqn:E; [|discriminate].
    cbn in H. injection H as <-.
    assert (Hk : nth_error (seq 0 (length recs)) i = Some k /\ nth_error recs i = Some x).
    { clear - E. revert i E. generalize 0%nat. induction recs as [|r recs IH]; intros o i E; [destruct i; discriminate|].
      destruct i; cbn in E |- *; [injection E as <- <-; auto|]. apply IH. assumption. }
    destruct Hk as [Hk Hx].
    assert (Hi : (i < length recs)%nat) by (apply nth_error_Some; congruence).
    rewrite (nth_error_nth' _ 0%nat) in Hk by (rewrite seq_length; assumption).
    rewrite seq_nth in Hk by assumption. cbn in Hk. injection Hk as <-.
    exists x. split; [assumption|]. cbn. destruct sel as [k|]; [|split; discriminate].
    rewrite Nat.eqb_eq. split; congruence. }
  split; [|split].
  - intros i j x y Hi Hj Sx Sy. destruct (Nth _ _ Hi) as [_ [_ A]]. destruct (Nth _ _ Hj) as [_ [_ B]].
    apply A in Sx. apply B in Sy. congruence.
  - unfold select_instance. rewrite map_length, combine_length, seq_length. lia.
  - intros i x Hx.
    destruct (nth_error (select_instance recs sel) i) as [y|] eqn:E.
    2:{ apply nth_error_None in E. unfold select_instance in E. rewrite map_length, combine_length, seq_length in E.
        assert (i < length recs)%nat by (apply nth_error_Some; congruence). lia. }
    exists y. split; [reflexivity|]. destruct (Nth _ _ E) as [x' [E' S]]. split; [assumption|].
    unfold select_instance in E. rewrite nth_error_map in E.
    destruct (nth_error (combine (seq 0 (length recs)) recs) i) as [[k z]|] eqn:Ec; [|discriminate].
    cbn in E. injection E as <-.
    assert (z = x).
    { clear - Ec Hx. revert i Ec Hx. generalize 0%nat. induction recs as [|r recs IH]; intros o i E Hx; [destruct i; discriminate|].
      destruct i; cbn in E, Hx; [congruence|]. eapply IH; eassumption. }
    subst z. split; reflexivity.
Qed.
Print Assumptions C11_select_instance_one_selected.

(** ** C52: configured rule lists *)
Lemma existsb_rule : forall r l, existsb (rule_eqb r) l = true <-> In r l.
Proof.
  intros r l. rewrite existsb_exists. split.
  - intros [x [H E]]. destruct r, x; try discriminate; assumption.
  - intros H. exists r. split; [assumption|]. destruct r; reflexivity.
Qed.

Lemma parse_loop_ok : forall params arr i rs,
  map rule_named params = map Some rs -> NoDup (firstn i arr ++ rs) ->
  (i + length params < length arr)%nat ->
  exists arr', parse_rules_loop arr i params = inr arr' /\ length arr' = length arr /\
    firstn (S (i + length params)) arr' = firstn i arr ++ rs ++ [TieBreak].
Proof.
  induction params as [|p params IH]; intros arr i rs Hm Hnd Hl; destruct rs as [|r rs]; cbn in Hm; try discriminate.
  - cbn in Hl. exists (set_nth i TieBreak arr). split; [reflexivity|]. split; [apply set_nth_length|].
    cbn [length]. rewrite Nat.add_0_r. rewrite firstn_S_set_nth by lia. reflexivity.
  - injection Hm as Hp Hm. cbn [parse_rules_loop]. rewrite Hp.
    replace (existsb (rule_eqb r) (firstn i arr)) with false.
    2:{ symmetry. apply not_true_is_false. rewrite existsb_rule. apply NoDup_remove_2 in Hnd.
        intros H. apply Hnd, in_or_app. auto. }
    cbn [length] in Hl. destruct (IH (set_nth i r arr) (S i) rs Hm) as [arr' [E [L F]]].
    + rewrite firstn_S_set_nth by lia. rewrite <- app_assoc. assumption.
    + rewrite set_nth_length. lia.
    + exists arr'. split; [assumption|]. rewrite set_nth_length in L. split; [assumption|].
      replace (S (i + length (p :: params)))%nat with (S (S i + length params)) by (cbn; lia).
      rewrite F, firstn_S_set_nth by lia. rewrite <- app_assoc. reflexivity.
Qed.

Lemma parse_loop_inv : forall params arr i arr', parse_rules_loop arr i params = inr arr' ->
  (i + length params < length arr)%nat -> NoDup (firstn i arr) ->
  exists rs, map rule_named params = map Some rs /\ NoDup (firstn i arr ++ rs).
Proof.
  induction params as [|p params IH]; intros arr i arr' H Hl Hnd; cbn in H.
  - exists []. rewrite app_nil_r. auto.
  - destruct (rule_named p) as [r|] eqn:Er; [|discriminate].
    destruct (existsb (rule_eqb r) (firstn i arr)) eqn:Ex; [discriminate|].
    apply not_true_iff_false in Ex. rewrite existsb_rule in Ex. cbn [length] in Hl.
    destruct (IH _ _ _ H) as [rs [M N]].
    + rewrite set_nth_length. lia.
    + rewrite firstn_S_set_nth by lia. apply NoDup_app_one; assumption.
    + exists (r :: rs). cbn. rewrite Er, M. split; [reflexivity|].
      rewrite firstn_S_set_nth, <- app_assoc in N by lia. assumption.
Qed.

(** A list of rule names is accepted exactly when there are at most ten, each names a rule
    and none is repeated; the policy then consists of those rules in that order followed by
    the tie-break, whatever the array held before. *)
Lemma rules_parsed_exactly : forall arr params, length arr = RULE_MAX ->
  ((exists arr', parse_rules arr params = inr arr') <->
   (length params <= 10)%nat /\ exists rs, map rule_named params = map Some rs /\ NoDup rs) /\
  (forall arr' rs, parse_rules arr params = inr arr' -> map rule_named params = map Some rs ->
     exists rest, arr' = rs ++ TieBreak :: rest /\ length arr' = RULE_MAX).
Proof.
  intros arr params Hl. unfold RULE_MAX in Hl. unfold parse_rules, RULE_MAX.
  destruct (11 <=? length params)%nat eqn:E.
  - apply Nat.leb_le in E. split; [|discriminate]. split; [intros [? H]; discriminate|]. lia.
  - apply Nat.leb_gt in E. split; [split|].
    + intros [arr' H]. split; [lia|]. apply parse_loop_inv in H; [|lia|constructor]. exact H.
    + intros [_ [rs [M N]]]. destruct (parse_loop_ok params arr 0 rs M N ltac:(lia)) as [arr' [H _]]. eauto.
    + intros arr' rs H M.
      destruct (parse_loop_inv params arr 0 arr' H ltac:(lia) (NoDup_nil _)) as [rs' [M' N]].
      assert (rs' = rs).
      { rewrite M in M'. clear - M'. revert rs' M'. induction rs as [|r rs IH]; intros [|r' rs'] M'; cbn in M'; try discriminate; auto.
        injection M' as -> M'. f_equal. apply IH. assumption. }
      subst rs'. destruct (parse_loop_ok params arr 0 rs M N ltac:(lia)) as [a [H' [L F]]].
      rewrite H in H'. injection H' as <-. change (firstn 0 arr ++ rs ++ [TieBreak]) with (rs ++ [TieBreak]) in F.
      change (0 + length params)%nat with (length params) in F.
      exists (skipn (S (length params)) arr'). split; [|lia].
      rewrite <- (firstn_skipn (S (length params)) arr') at 1. rewrite F, <- app_assoc. reflexivity.
Qed.

Lemma rule_named_name : forall s r, rule_named s = Some r <-> s = rule_name r.
Proof.
  intros s r. split.
  - unfold rule_named. cbn [rule_table find fst snd].
    repeat match goal with |- context [String.eqb s ?t] =>
      destruct (String.eqb_spec s t); [intros H; injection H as <-; assumption|] end.
    discriminate.
  - intros ->. destruct r; reflexivity.
Qed.

Lemma rules_named_names : forall params rs, map rule_named params = map Some rs <-> params = map rule_name rs.
Proof.
  induction params as [|p params IH]; intros [|r rs]; cbn; split; intros H; try discriminate; auto.
  - injection H as H1 H2. apply rule_named_name in H1. apply IH in H2. congruence.
  - injection H as -> H2. apply IH in H2. f_equal; [apply rule_named_name; reflexivity|assumption].
Qed.

Theorem C52_rules_parsed_exactly : forall arr params, length arr = RULE_MAX ->
  ((exists arr', parse_rules arr params = inr arr') <->
   (length params <= 10)%nat /\ exists rs, params = map rule_name rs /\ NoDup rs) /\
  (forall arr' rs, parse_rules arr params = inr arr' -> params = map rule_name rs ->
     exists rest, arr' = rs ++ TieBreak :: rest /\ length arr' = RULE_MAX).
Proof.
  intros arr params Hl. destruct (rules_parsed_exactly arr params Hl) as [A B].
  split; [rewrite A; split|].
  - intros [H [rs [M N]]]. split; [assumption|]. exists rs. rewrite <- rules_named_names. auto.
  - intros [H [rs [M N]]]. split; [assumption|]. exists rs. rewrite rules_named_names. auto.
  - intros arr' rs H M. apply (B arr' rs H). apply rules_named_names. assumption.
Qed.
Print Assumptions C52_rules_parsed_exactly.

Example C52_ex : exists rest, parse_rules default_policy ["state"; "user-priority"]%string =
  inr (State :: UserPriority :: TieBreak :: rest).
Proof. eexists. vm_compute. reflexivity. Qed.

(** Not true: that only the selection-policy options change the policy.  The option
    phc_pps_methods with a single method overwrites the second selection rule. *)
Theorem C52_pps_methods_change_policy_refuted : exists rules rules' methods',
  parse_rules default_policy ["state"; "user-priority"]%string = inr rules /\
  parse_phc_pps_methods rules [1; 0; 2]%nat ["devpps"]%string = Some (rules', methods') /\
  firstn 3 rules = [State; UserPriority; TieBreak] /\
  firstn 3 rules' = [State; ExtConstraints; TieBreak].
Proof.
  eexists _, _, _. split; [vm_compute; reflexivity|]. split; [vm_compute; reflexivity|].
  split; reflexivity.
Qed.
Print Assumptions C52_pps_methods_change_policy_refuted.
