(** C19: interval timers. *)
Require Import ZArith QArith List Bool Lia.
Require Import ZifyBool.
Import ListNotations.
From Verif Require Import Base ListLib TmrSpec TmrModel TmrProof.
Open Scope Z_scope.

(** C19, full statement.  A timer started with an interval of n ticks (rounded down, at least
    one) expires after exactly n, 2n, 3n, ... ticks; polling it reports an expiry if there has
    been one since it was started or last polled, and only then; a timer that is stopped or
    was never started is never reported as expired; timers do not affect one another.

    Proved for running and for never started timers, for every history before, and with any
    operations on other timers in between.  Refuted for stopped timers: an expiry that was not
    polled before the timer was stopped is reported, once, after that. *)
Theorem C19_expiry : forall pre i q mid1 mid2 ts, (i < size)%nat -> 0 < period q ->
  undisturbed i (mid1 ++ Poll i :: mid2) -> not_polled i mid2 ->
  trun init (pre ++ Start i q :: mid1 ++ Poll i :: mid2) = Some ts ->
  (fst (poll i ts) = true <-> due_between (period q) (ticks mid1) (ticks (mid1 ++ Poll i :: mid2))).
Proof.
  intros pre i q mid1 mid2 ts I N U P R. rewrite trun_app in R.
  destruct (trun init pre) as [t0|] eqn:R0; [|discriminate]. cbn [bind] in R.
  pose proof (trun_length _ _ _ init_length R0) as L0. destruct (nth_size t0 i L0 I) as (u & U0).
  cbn [trun] in R. destruct (tstep t0 (Start i q)) as [t1|] eqn:T1; [|discriminate]. cbn [bind] in R.
  destruct (tstep_oper _ i _ _ _ I L0 U0 T1) as (L1 & u1 & N1 & O). cbn in O. rewrite Nat.eqb_refl in O. subst u1.
  destruct (run_running i (period q) _ t1 ts _ 0 0 I L1 N N1 (runs_start _ N) U R) as (t' & N' & R').
  rewrite (poll_result _ _ _ N'). destruct R' as (_ & _ & _ & E). rewrite E, polled_at_split by assumption.
  rewrite !Z.add_0_l. symmetry. apply due_div. assumption.
Qed.
Print Assumptions C19_expiry.

(** The same before the first poll. *)
Theorem C19_first_expiry : forall pre i q mid ts, (i < size)%nat -> 0 < period q ->
  undisturbed i mid -> not_polled i mid ->
  trun init (pre ++ Start i q :: mid) = Some ts ->
  (fst (poll i ts) = true <-> period q <= ticks mid).
Proof.
  intros pre i q mid ts I N U P R. rewrite trun_app in R.
  destruct (trun init pre) as [t0|] eqn:R0; [|discriminate]. cbn [bind] in R.
  pose proof (trun_length _ _ _ init_length R0) as L0. destruct (nth_size t0 i L0 I) as (u & U0).
  cbn [trun] in R. destruct (tstep t0 (Start i q)) as [t1|] eqn:T1; [|discriminate]. cbn [bind] in R.
  destruct (tstep_oper _ i _ _ _ I L0 U0 T1) as (L1 & u1 & N1 & O). cbn in O. rewrite Nat.eqb_refl in O. subst u1.
  destruct (run_running i (period q) _ t1 ts _ 0 0 I L1 N N1 (runs_start _ N) U R) as (t' & N' & R').
  rewrite (poll_result _ _ _ N'). destruct R' as (_ & _ & K & E). rewrite E, polled_at_none by assumption.
  rewrite Z.add_0_l in *. rewrite Zdiv_0_l. split; intros H.
  - assert (1 <= ticks mid / period q) by lia. pose proof (Z.mul_div_le (ticks mid) (period q) N). nia.
  - assert (1 <= ticks mid / period q) by (apply Z.div_le_lower_bound; lia). lia.
Qed.
Print Assumptions C19_first_expiry.
(** Timer 2 started with 0.25 s: not after 3 ticks, after 4. *)
Example C19_first_example : period (1#4) = 4 /\
  option_map (fun ts => fst (poll 2 ts)) (trun init [Start 1 (1#2); Start 2 (1#4); Tick; Tick; Tick]) = Some false /\
  option_map (fun ts => fst (poll 2 ts)) (trun init [Start 1 (1#2); Start 2 (1#4); Tick; Stop 1; Tick; Tick; Tick]) = Some true /\
  option_map (fun ts => fst (poll 2 ts)) (trun init ([Start 2 (1#4)] ++ repeat Tick 9 ++ [Poll 2; Tick; Tick])) = Some false /\
  option_map (fun ts => fst (poll 2 ts)) (trun init ([Start 2 (1#4)] ++ repeat Tick 9 ++ [Poll 2; Tick; Tick; Tick])) = Some true.
Proof. vm_compute. auto. Qed.

(** An expiry is reported once: a second poll reports nothing. *)
Theorem C19_once : forall ts i, fst (poll i (snd (poll i ts))) = false.
Proof.
  intros ts i. destruct (nth_error ts i) as [t|] eqn:N.
  - unfold poll at 2. rewrite N. destruct (expire t) eqn:E; cbn [snd].
    + apply (poll_result _ _ (mkTimer (interval t) (left t) false)). apply nth_error_set_nth_same.
      apply nth_error_Some. congruence.
    + rewrite (poll_result _ _ _ N). assumption.
  - unfold poll. rewrite N. cbn. rewrite N. reflexivity.
Qed.
Print Assumptions C19_once.
Example C19_once_example : exists ts, trun init [Start 0 0; Tick] = Some ts /\ fst (poll 0 ts) = true.
Proof. eexists. split; vm_compute; reflexivity. Qed.

(** A timer that was never started is never reported as expired. *)
Theorem C19_never_started : forall h i ts, not_started i h -> trun init h = Some ts -> fst (poll i ts) = false.
Proof.
  intros h i ts U R. destruct (Nat.lt_ge_cases i size) as [I | I].
  - destruct (nth_size init i init_length I) as (t & T).
    assert (Z0 : t = mkTimer 0 0 false). { apply nth_error_In in T. apply repeat_spec in T. assumption. }
    destruct (run_stopped i h init ts t I init_length T) as (t' & N' & _ & E & _); [subst; cbn; lia|assumption|assumption|].
    rewrite (poll_result _ _ _ N'). destruct (expire t'); [|reflexivity]. destruct (E eq_refl) as (X & _). subst t. discriminate.
  - unfold poll. destruct (nth_error ts i) as [t|] eqn:N; [|reflexivity].
    assert (i < length ts)%nat by (apply nth_error_Some; congruence). rewrite (trun_length _ _ _ init_length R) in H. lia.
Qed.
Print Assumptions C19_never_started.
Example C19_never_started_example : not_started 3 [Start 2 1; Tick; Stop 3; Poll 3] /\
  exists ts, trun init [Start 2 1; Tick; Stop 3; Poll 3] = Some ts.
Proof. split; [|eexists; vm_compute; reflexivity]. intros o [<-|[<-|[<-|[<-|[]]]]]; auto. Qed.

(** A stopped timer: reports only an expiry that was due before it was stopped, and only at
    the first poll. *)
Theorem C19_stopped_partial : forall pre i q mid post ts, (i < size)%nat -> 0 < period q ->
  undisturbed i mid -> not_polled i mid -> not_started i post ->
  trun init (pre ++ Start i q :: mid ++ Stop i :: post) = Some ts ->
  (fst (poll i ts) = true <-> period q <= ticks mid /\ not_polled i post).
Proof.
  intros pre i q mid post ts I N U P V R.
  replace (pre ++ Start i q :: mid ++ Stop i :: post) with ((pre ++ Start i q :: mid) ++ Stop i :: post) in R
    by (rewrite <- app_assoc; reflexivity).
  rewrite trun_app in R. destruct (trun init (pre ++ Start i q :: mid)) as [t1|] eqn:R1; [|discriminate]. cbn [bind] in R.
  pose proof (C19_first_expiry pre i q mid t1 I N U P R1) as F.
  pose proof (trun_length _ _ _ init_length R1) as L1. destruct (nth_size t1 i L1 I) as (u & U1).
  rewrite (poll_result _ _ _ U1) in F.
  cbn [trun] in R. destruct (tstep t1 (Stop i)) as [t2|] eqn:T2; [|discriminate]. cbn [bind] in R.
  destruct (tstep_oper _ i _ _ _ I L1 U1 T2) as (L2 & u2 & N2 & O). cbn in O. rewrite Nat.eqb_refl in O. subst u2.
  destruct (run_stopped i post t2 ts _ I L2 N2) as (t' & N' & _ & E1 & E2); [cbn; lia|assumption|assumption|].
  rewrite (poll_result _ _ _ N'). cbn [expire] in *. rewrite <- F. split; [exact E1|]. intros (A & B). auto.
Qed.
Print Assumptions C19_stopped_partial.

(** "A stopped timer is never reported as expired" is false. *)
Theorem C19_stopped_refuted : forall i q, (i < size)%nat -> period q = 1 -> to_ticks q <> None ->
  exists ts, trun init [Start i q; Tick; Stop i] = Some ts /\ stopped i ts = true /\ fst (poll i ts) = true.
Proof.
  intros i q I P T. destruct (to_ticks q) as [n|] eqn:TT; [|congruence].
  assert (S1 : exists t1, start i q init = Some t1).
  { unfold start. replace (i <? size)%nat with true by (symmetry; apply Nat.ltb_lt; assumption). rewrite TT. cbn [bind]. eauto. }
  destruct S1 as (t1 & S1).
  assert (R : trun init ([] ++ Start i q :: [Tick] ++ Stop i :: []) = Some (stop i (map tick1 t1))) by (cbn [app trun tstep]; rewrite S1; reflexivity).
  exists (stop i (map tick1 t1)). split; [exact R|]. split.
  - pose proof (trun_length _ _ _ init_length R) as L. unfold stopped, stop in *.
    destruct (nth_error (map tick1 t1) i) as [t|] eqn:NT.
    + rewrite nth_error_set_nth_same by (apply nth_error_Some; congruence). reflexivity.
    + rewrite NT. apply nth_error_None in NT. lia.
  - apply (C19_stopped_partial [] i q [Tick] [] _ I ltac:(lia)) in R.
    + apply R. split; [rewrite P; cbn; lia | intros x []].
    + intros o [<- | []]. exact Logic.I.
    + intros o [<- | []]. discriminate.
    + intros o [].
Qed.
Print Assumptions C19_stopped_refuted.
Example C19_stopped_example : period (1#16) = 1 /\ to_ticks (1#16) <> None /\ period 0 = 1.
Proof. split; [reflexivity|]. split; [discriminate|reflexivity]. Qed.

(** The period: an interval of at least a tick is at most one tick too short and never too
    long; shorter ones are one tick. *)
Theorem C19_period : forall q,
  ((1#16 <= q)%Q -> (inject_Z (period q) <= 16 * q < inject_Z (period q) + 1)%Q) /\
  ((0 <= q)%Q -> (q < 1#16)%Q -> period q = 1).
Proof.
  intros [a b]. unfold period, whole_ticks, Qle, Qlt, inject_Z. cbn [Qnum Qden Qmult Qplus]. split.
  - intros H. assert (A : 0 <= 16 * a) by lia. rewrite Z.quot_div_nonneg by lia.
    assert (P : 1 <= 16 * a / Z.pos b) by (apply Z.div_le_lower_bound; lia).
    replace (16 * a / Z.pos b =? 0) with false by lia.
    pose proof (Z.mul_div_le (16 * a) (Z.pos b) ltac:(lia)). pose proof (Z.mul_succ_div_gt (16 * a) (Z.pos b) ltac:(lia)).
    rewrite ?Pos2Z.inj_mul. change (Z.pos (1 * b)) with (Z.pos b). split; nia.
  - intros H1 H2. rewrite Z.quot_small by lia. reflexivity.
Qed.
Print Assumptions C19_period.

Lemma random_period : forall r q, (0 <= r < 1)%Q -> (0 <= q)%Q ->
  1 <= period (r * q * 2) /\ (period (r * q * 2) = 1 \/ (inject_Z (period (r * q * 2)) <= 16 * (2 * q))%Q).
Proof.
  intros r q (R0 & R1) Q0.
  assert (NN : (0 <= r * q * 2)%Q).
  { apply Qmult_le_0_compat; [apply Qmult_le_0_compat; assumption | discriminate]. }
  assert (LE : (r * q * 2 <= 2 * q)%Q).
  { setoid_replace (2 * q)%Q with ((1 * q) * 2)%Q by ring.
    apply Qmult_le_compat_r; [|discriminate]. apply Qmult_le_compat_r; [apply Qlt_le_weak; assumption|assumption]. }
  destruct (Qlt_le_dec (r * q * 2) (1#16)) as [S | B].
  - rewrite (proj2 (C19_period _) NN S). split; [lia | auto].
  - destruct (proj1 (C19_period _) B) as (P1 & P2). split.
    + assert (X : (0 < inject_Z (period (r * q * 2)))%Q \/ period (r * q * 2) <= 0).
      { destruct (Z.le_gt_cases (period (r * q * 2)) 0); [auto|]. left. change 0%Q with (inject_Z 0). rewrite <- Zlt_Qlt. lia. }
      destruct X as [X | X]; [change 0%Q with (inject_Z 0) in X; rewrite <- Zlt_Qlt in X; lia|].
      exfalso. change 1%Q with (inject_Z 1) in P2. rewrite <- inject_Z_plus in P2.
      assert (Y : (1 <= 16 * (r * q * 2))%Q).
      { setoid_replace 1%Q with (16 * (1#16))%Q by reflexivity. apply Qmult_le_l; [reflexivity|assumption]. }
      assert (W : (inject_Z 1 < inject_Z (period (r * q * 2) + 1))%Q) by (eapply Qle_lt_trans; [exact Y | exact P2]).
      rewrite <- Zlt_Qlt in W. lia.
    + right. eapply Qle_trans; [exact P1|]. apply Qmult_le_l; [reflexivity|assumption].
Qed.

(** A timer started at random for an interval expires, whatever the random number, after at
    least one tick and at most twice the interval (or one tick). *)
Theorem C19_random : forall pre i r q mid ts, (i < size)%nat -> (0 <= r < 1)%Q -> (0 <= q)%Q ->
  undisturbed i mid -> not_polled i mid ->
  trun init (pre ++ StartRandom i r q :: mid) = Some ts ->
  (fst (poll i ts) = true -> 1 <= ticks mid) /\
  (1 <= ticks mid -> (16 * (2 * q) <= inject_Z (ticks mid))%Q -> fst (poll i ts) = true).
Proof.
  intros pre i r q mid ts I R Q0 U P RN.
  destruct (random_period r q R Q0) as (P1 & P2).
  assert (RN' : trun init (pre ++ Start i (r * q * 2) :: mid) = Some ts).
  { rewrite trun_app in *. destruct (trun init pre); [|discriminate]. exact RN. }
  pose proof (C19_first_expiry pre i (r * q * 2) mid ts I ltac:(lia) U P RN') as F.
  rewrite F. split; [lia|]. intros T1 T2. destruct P2 as [-> | P2]; [assumption|].
  rewrite Zle_Qle. eapply Qle_trans; eassumption.
Qed.
Print Assumptions C19_random.
Example C19_random_example : period ((9#10) * 1 * 2) = 28 /\ (0 <= 9#10 < 1)%Q.
Proof. split; [reflexivity|]. split; [discriminate|reflexivity]. Qed.

(** A negative interval is not rejected: the timer counts as running and never expires. *)
Theorem C19_negative_refuted : forall pre i q mid ts, (i < size)%nat -> period q < 0 -> undisturbed i mid ->
  trun init (pre ++ Start i q :: mid) = Some ts -> fst (poll i ts) = false.
Proof.
  intros pre i q mid ts I N U R. rewrite trun_app in R.
  destruct (trun init pre) as [t0|] eqn:R0; [|discriminate]. cbn [bind] in R.
  pose proof (trun_length _ _ _ init_length R0) as L0. destruct (nth_size t0 i L0 I) as (u & U0).
  cbn [trun] in R. destruct (tstep t0 (Start i q)) as [t1|] eqn:T1; [|discriminate]. cbn [bind] in R.
  destruct (tstep_oper _ i _ _ _ I L0 U0 T1) as (L1 & u1 & N1 & O). cbn in O. rewrite Nat.eqb_refl in O. subst u1.
  assert (V : not_started i mid). { intros o X. specialize (U o X). destruct o; auto. }
  destruct (run_stopped i mid t1 ts _ I L1 N1) as (t' & N' & _ & E & _); [cbn; lia|assumption|assumption|].
  rewrite (poll_result _ _ _ N'). destruct (expire t'); [|reflexivity]. destruct (E eq_refl) as (X & _). discriminate.
Qed.
Print Assumptions C19_negative_refuted.
Example C19_negative_example : period (-1) = -16 /\
  option_map (running 4) (trun init (Start 4 (-1) :: repeat Tick 100)) = Some true.
Proof. split; vm_compute; reflexivity. Qed.

(** Timers never cause an arithmetic error, provided intervals fit an int of ticks. *)
Theorem C19_total : forall h ts, length ts = size ->
  (forall o, In o h -> match o with Start _ q => to_ticks q <> None | StartRandom _ r q => to_ticks (r * q * 2) <> None | _ => True end) ->
  trun ts h <> None.
Proof.
  induction h as [|o h IH]; intros ts L H; cbn; [discriminate|].
  assert (HO := H o (or_introl eq_refl)).
  assert (X : exists t1, tstep ts o = Some t1).
  { destruct o as [i q|i r q|i| |i]; cbn; eauto; unfold start; destruct (i <? size)%nat; eauto.
    - destruct (to_ticks q); [cbn; eauto | congruence].
    - destruct (to_ticks (r * q * 2)); [cbn; eauto | congruence]. }
  destruct X as (t1 & X). rewrite X. cbn. apply IH.
  - apply (trun_length [o] ts); [assumption|]. cbn. rewrite X. reflexivity.
  - intros o' I. apply H. right. assumption.
Qed.
Print Assumptions C19_total.
