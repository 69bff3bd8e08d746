(** Properties of the PPS synchronisation module (C65). *)
Require Import ZArith QArith Qabs Qminmax List Bool Lia Lqa.
Require Import Verif.Base Verif.TimeSpec Verif.TimeModel Verif.TimeProof Verif.QLib Verif.ListLib Verif.SrvSpec
  Verif.FilterSpec Verif.FilterModel Verif.FilterProof Verif.StatsModel
  Verif.PpsSpec Verif.PpsModel Verif.PpsProof Verif.PpsProof2 Verif.PpsProof3.
Import ListNotations.
Open Scope Z_scope.

(** Everything below is about an instance that was started ([live] starts with
    pps_start_instance, [b] is what it met) and to which anything then happened ([l]);
    [known g b l log] is what can be told from what happened and what was seen. *)
Definition known (g : conf) (b : boot) (l : list iop) (log : list (list out)) : view :=
  view_of g (view0 (b_corr b) (b_kp b) (b_ki b)) l log.
Definition usable (g : conf) (b : boot) : Prop := conf_ok g /\ List.length (b_junk b) = FIR_MAX.

(** Example data: pulses numbered and timed as given, at the same monotonic time. *)
Definition ex_conf (c : ctrl) : conf := mkConf c 100 (inject_Z 1000) 2 (Some (10%nat, 1%Q)).
Definition ex_boot : boot := mkBoot 0 true 0 (inject_Z 7) (1 # 10) (1 # 100) 60 (inject_Z 1000) (repeat 0%Q FIR_MAX).
Definition ex_pulse (n ns : Z) (day : ts) : iop :=
  Poll (mkPin (Pulse n (mkTs (100 + n) ns 0)) (mkTs (100 + n) 0 0) day (inject_Z 7) 0 (Some true) (Some (mkTs (100 + n) 0 0))).
Definition ex_silence (now : Z) : iop :=
  Poll (mkPin Nothing (mkTs now 0 0) null_time 0 0 None (Some (mkTs now 0 0))).
Definition ex_fail : iop := Poll (mkPin Failed null_time null_time 0 0 None (Some null_time)).
Definition ex_good : list iop :=
  [Control true true; ex_pulse 1 500 null_time; ex_pulse 2 500 null_time; ex_pulse 3 500 null_time; ex_pulse 4 500 null_time].

Lemma usable_ex : forall c, usable (ex_conf c) ex_boot.
Proof. intros c. split; [split; [reflexivity|cbn; lia]|reflexivity]. Qed.
Lemma op_ok_good : Forall op_ok ex_good.
Proof. unfold ex_good, ex_pulse. repeat constructor; cbn; lia. Qed.

Ltac go H E CO J RR := unfold known in *; match goal with U : usable _ _ |- _ => destruct U as [CO J] end;
  pose proof (live_ok _ _ _ _ _ CO J H E) as RR.

(** ** What comes of a pulse *)

(** A pulse has an effect exactly when the signal is trusted, that is when the instance has
    a signal, processes timestamps and the last three periods it measured are within a
    tenth of a second of one second, and the period is not an outlier; then the servo
    does exactly what its policy, gains and limit say with the measured offset
    ([acts_ok]) and the offset reported is the mean of the last measurements used. *)
Theorem C65_pulse : forall g b l a log p seq t a' outs, usable g b -> Forall op_ok l -> op_ok (Poll p) ->
  live g b l = Some (a, log) -> i_got p = Pulse seq t -> istep g a (Poll p) = Some (a', outs) ->
  exists hs tl, outs = hs ++ tl /\ tolds tl /\
    heard peirce_table PEIRCE_MIN g (known g b l log) p t hs.
Proof.
  intros g b l a log p seq t a' outs U OK OP E G S. go OK E CO J RR.
  destruct (istep_ok _ _ _ _ _ _ CO RR OP S) as [_ X]. cbn [result] in X. rewrite G in X. exact X.
Qed.
Print Assumptions C65_pulse.

(** Four pulses a second apart: the fourth is used, 500 ns late less 100 ns of delay. *)
Example C65_pulse_ex : exists a log, live (ex_conf SLEW_AND_STEP) ex_boot ex_good = Some (a, log) /\
  (exists f o, nth 4 log [] = [Freq f; Report o] /\ (f == 7 - 40)%Q /\ (o == 400)%Q) /\
  nth 3 log [] = [] /\
  relied (known (ex_conf SLEW_AND_STEP) ex_boot (firstn 4 ex_good) (firstn 4 log)) (mkTs 104 500 0) /\
  ~ relied (known (ex_conf SLEW_AND_STEP) ex_boot (firstn 3 ex_good) (firstn 3 log)) (mkTs 103 500 0).
Proof.
  eexists _, _. split; [vm_compute; reflexivity|]. split; [|split; [reflexivity|]].
  { eexists _, _. split; [vm_compute; reflexivity|]. split; vm_compute; reflexivity. }
  unfold relied. split.
  - split; [reflexivity|]. split; [reflexivity|]. split; [reflexivity|]. apply trustb_iff. vm_compute. reflexivity.
  - intros [_ [_ [_ X]]]. apply trustb_iff in X. vm_compute in X. discriminate.
Qed.

(** Nothing else has an effect on the clock or is reported: only a pulse, and the engine's
    request for a step. *)
Theorem C65_quiet : forall g b l a log o a' outs, usable g b -> Forall op_ok l -> op_ok o ->
  live g b l = Some (a, log) -> istep g a o = Some (a', outs) ->
  match o with
  | Poll p => match i_got p with Pulse _ _ => True | _ => tolds outs end
  | StepBy off corr => exists by_, outs = [Step by_; Freq corr; TellDay] /\ instant by_ = - instant off
  | _ => outs = []
  end.
Proof.
  intros g b l a log o a' outs U OK OP E S. go OK E CO J RR.
  destruct (istep_ok _ _ _ _ _ _ CO RR OP S) as [_ X]. destruct o; try exact X.
  cbn [result] in X. destruct X as [hs [tl [-> [TL H]]]]. destruct (i_got p); [exact I| |]; subst hs; exact TL.
Qed.
Print Assumptions C65_quiet.
Example C65_quiet_ex : exists a log a' outs by_, live (ex_conf NO_ADJUST) ex_boot ex_good = Some (a, log) /\
  istep (ex_conf NO_ADJUST) a (StepBy (mkTs 3 5 0) (inject_Z 9)) = Some (a', outs) /\
  outs = [Step by_; Freq (inject_Z 9); TellDay] /\ instant by_ = - (3000000005 * 2^32).
Proof.
  eexists _, _, _, _, _. split; [vm_compute; reflexivity|]. split; [vm_compute; reflexivity|].
  split; [reflexivity|]. vm_compute. reflexivity.
Qed.

(** ** The limits of what a pulse may do to the clock *)

(** A pulse steps the clock only when the instance is in control, the measured offset less
    the delay is half a second or more, and the policy allows it, and then by
    the whole measured offset. *)
Theorem C65_step : forall g b l a log p a' outs by_, usable g b -> Forall op_ok l -> op_ok (Poll p) ->
  live g b l = Some (a, log) -> istep g a (Poll p) = Some (a', outs) -> In (Step by_) outs ->
  exists seq t, i_got p = Pulse seq t /\ relied (known g b l log) t /\ v_cc (known g b l log) = true /\
    let d := measure g (i_day p) t in
    large d /\ may_step (g_ctrl g) (v_acted (known g b l log)) d /\
    instant by_ = - (measured_ns (i_day p) t * 2^32).
Proof.
  intros g b l a log p a' outs by_ U OK OP E S IN. go OK E CO J RR.
  destruct (istep_ok _ _ _ _ _ _ CO RR OP S) as [_ X]. cbn [result] in X. destruct X as [hs [tl [-> [TL H]]]].
  apply in_app_or in IN. destruct IN as [IN|IN].
  2:{ unfold tolds in TL. rewrite Forall_forall in TL. specialize (TL _ IN). discriminate. }
  destruct (i_got p) as [seq t| |]; [|subst hs; destruct IN..].
  exists seq, t. split; [reflexivity|]. set (v := view_of _ _ _ _) in *. destruct H as [H1 H2].
  assert (RL : relied v t).
  { destruct (v_state v) eqn:Q1.
    1,3: rewrite H2 in IN; [destruct IN|]; intros [Q _]; congruence.
    destruct (v_ts v) eqn:Q2.
    2:{ rewrite H2 in IN; [destruct IN|]; intros [_ [Q _]]; congruence. }
    destruct (stepped v) eqn:Q3.
    { rewrite H2 in IN; [destruct IN|]; intros [_ [_ [Q _]]]; congruence. }
    apply (relied_b v t false Q1 Q2 Q3).
    destruct (trustb (periods (mkPulse t false false :: v_pulses v))) eqn:Q4; [reflexivity|].
    rewrite H2 in IN; [destruct IN|]. intros Q. apply (relied_b v t false Q1 Q2 Q3) in Q. congruence. }
  split; [exact RL|]. destruct (H1 RL) as [o [_ H3]]. destruct o; [subst hs; destruct IN|].
  destruct H3 as [acts [off [-> [A _]]]]. apply in_app_or in IN. destruct IN as [IN|[IN|[]]]; [|discriminate].
  unfold acts_ok in A. destruct (v_cc v); [|subst acts; destruct IN]. split; [reflexivity|].
  destruct A as [[M [L [b0 [-> B]]]]|[_ [f [-> _]]]].
  - destruct IN as [IN|[IN|[IN|[]]]]; try discriminate. injection IN as ->. auto.
  - destruct IN as [IN|[]]; discriminate.
Qed.
Print Assumptions C65_step.
(** Five seconds ahead: stepped by all of it. *)
Example C65_step_ex : exists a log a' outs by_,
  live (ex_conf SLEW_AND_STEP) ex_boot (firstn 4 ex_good) = Some (a, log) /\
  istep (ex_conf SLEW_AND_STEP) a (ex_pulse 4 500 (mkTs 5 100 0)) = Some (a', outs) /\
  In (Step by_) outs /\ instant by_ = - (5000000500 * 2^32).
Proof.
  eexists _, _, _, _, _. split; [vm_compute; reflexivity|]. split; [vm_compute; reflexivity|].
  split; [left; reflexivity|]. vm_compute. reflexivity.
Qed.

(** A pulse sets a frequency within the limit of the clock, unless it stepped the clock and
    restored its saved frequency. *)
Theorem C65_limit : forall g b l a log p a' outs f, usable g b -> Forall op_ok l -> op_ok (Poll p) ->
  live g b l = Some (a, log) -> istep g a (Poll p) = Some (a', outs) -> In (Freq f) outs ->
  v_cc (known g b l log) = true /\
  ((exists by_ tl, outs = Step by_ :: Freq f :: tl /\ f = i_corr p) \/ (- g_max g <= f <= g_max g)%Q).
Proof.
  intros g b l a log p a' outs f U OK OP E S IN. go OK E CO J RR.
  destruct (istep_ok _ _ _ _ _ _ CO RR OP S) as [_ X]. cbn [result] in X. destruct X as [hs [tl [-> [TL H]]]].
  apply in_app_or in IN. destruct IN as [IN|IN].
  2:{ unfold tolds in TL. rewrite Forall_forall in TL. specialize (TL _ IN). discriminate. }
  destruct (i_got p) as [seq t| |]; [|subst hs; destruct IN..].
  set (v := view_of _ _ _ _) in *. destruct H as [H1 H2].
  assert (RL : relied v t).
  { destruct (v_state v) eqn:Q1.
    1,3: rewrite H2 in IN; [destruct IN|]; intros [Q _]; congruence.
    destruct (v_ts v) eqn:Q2.
    2:{ rewrite H2 in IN; [destruct IN|]; intros [_ [Q _]]; congruence. }
    destruct (stepped v) eqn:Q3.
    { rewrite H2 in IN; [destruct IN|]; intros [_ [_ [Q _]]]; congruence. }
    apply (relied_b v t false Q1 Q2 Q3).
    destruct (trustb (periods (mkPulse t false false :: v_pulses v))) eqn:Q4; [reflexivity|].
    rewrite H2 in IN; [destruct IN|]. intros Q. apply (relied_b v t false Q1 Q2 Q3) in Q. congruence. }
  destruct (H1 RL) as [o [_ H3]]. destruct o; [subst hs; destruct IN|].
  destruct H3 as [acts [off [-> [A _]]]]. apply in_app_or in IN. destruct IN as [IN|[IN|[]]]; [|discriminate].
  unfold acts_ok in A. destruct (v_cc v); [|subst acts; destruct IN]. split; [reflexivity|].
  destruct A as [[M [L [b0 [-> B]]]]|[_ [f0 [-> F]]]].
  - destruct IN as [IN|[IN|[IN|[]]]]; try discriminate. injection IN as ->. left. exists b0, ([TellDay] ++ [Report off] ++ tl).
    split; reflexivity.
  - destruct IN as [IN|[]]; injection IN as ->. right.
    destruct CO as [GM _]. rewrite F. unfold limit. split; [apply Q.le_max_l|].
    apply Q.max_lub; [lra|apply Q.le_min_l].
Qed.
Print Assumptions C65_limit.
Example C65_limit_ex : exists a log f rest_, live (ex_conf NO_STEP) ex_boot
    ([Control true true; ex_pulse 1 20000000 null_time; ex_pulse 2 20000000 null_time; ex_pulse 3 20000000 null_time;
      ex_pulse 4 20000000 null_time]) = Some (a, log) /\ nth 4 log [] = Freq f :: rest_ /\ (f == - inject_Z 1000)%Q.
Proof. eexists _, _, _, _. split; [vm_compute; reflexivity|]. split; [vm_compute; reflexivity|]. reflexivity. Qed.

(** The policy "step on first lock" should allow a step while the clock was not yet
    locked, as it does for the other servos; here it never steps, however far off the
    clock is, from the start on. *)
Theorem C65_first_lock_refuted :
  (forall g b l a log p a' outs, usable g b -> Forall op_ok l -> op_ok (Poll p) -> g_ctrl g = STEP_ON_FIRST_LOCK ->
    live g b l = Some (a, log) -> istep g a (Poll p) = Some (a', outs) -> existsb is_step outs = false) /\
  exists a log a' outs f, live (ex_conf STEP_ON_FIRST_LOCK) ex_boot (firstn 4 ex_good) = Some (a, log) /\
    v_acted (known (ex_conf STEP_ON_FIRST_LOCK) ex_boot (firstn 4 ex_good) log) = false /\
    istep (ex_conf STEP_ON_FIRST_LOCK) a (ex_pulse 4 500 (mkTs 5 100 0)) = Some (a', outs) /\
    nth_error outs 0 = Some (Freq f).
Proof.
  split.
  - intros g b l a log p a' outs U OK OP C E S. destruct (existsb is_step outs) eqn:X; [|reflexivity]. exfalso.
    apply existsb_exists in X. destruct X as [[by_| | | |] [IN Y]]; try discriminate.
    destruct (C65_step g b l a log p a' outs by_ U OK OP E S IN) as [seq [t [_ [_ [_ [_ [M _]]]]]]]. rewrite C in M. exact M.
  - eexists _, _, _, _, _. split; [vm_compute; reflexivity|]. split; [reflexivity|].
    split; [vm_compute; reflexivity|]. reflexivity.
Qed.
Print Assumptions C65_first_lock_refuted.

(** A step should put the clock right; it ignores the propagation delay, by which the clock
    is wrong after it although the offset measured took it into account. *)
Theorem C65_delay_refuted : exists g b l a log p a' outs by_ t seq,
  usable g b /\ Forall op_ok l /\ live g b l = Some (a, log) /\ i_got p = Pulse seq t /\
  istep g a (Poll p) = Some (a', outs) /\ In (Step by_) outs /\
  ~ (measure g (i_day p) t + inject_Z (instant by_) / inject_Z (2^32) == 0)%Q.
Proof.
  exists (mkConf SLEW_AND_STEP (inject_Z 1000000) (inject_Z 1000) 2 None), ex_boot, (firstn 4 ex_good).
  eexists _, _, (mkPin (Pulse 4 (mkTs 104 500 0)) (mkTs 104 0 0) (mkTs 5 100 0) 0 0 None None), _, _, _, _, _.
  split; [split; [split; [reflexivity|cbn; lia]|reflexivity]|].
  split; [apply (Forall_firstn_ok 4); exact op_ok_good|].
  split; [vm_compute; reflexivity|]. split; [reflexivity|]. split; [vm_compute; reflexivity|].
  split; [left; reflexivity|]. vm_compute. discriminate.
Qed.
Print Assumptions C65_delay_refuted.

(** ** The seconds *)

(** If the clock is ahead by [D] ns, so that the pulse is seen at [D] modulo one second, and
    the time of day source's error plus the sub-second part of [D] is less than half a
    second, the offset measured is right. *)
Theorem C65_second_partial : forall day t D k, normal day -> normal t -> D mod second = nsec t ->
  Z.abs (D - k * second) * 2^32 + Z.abs (instant day - D * 2^32) < 500000000 * 2^32 ->
  measured_ns day t = D.
Proof.
  intros day t D k ND NT M B. unfold normal in NT. unfold measured_ns, nearest_second, subsec.
  assert (S0 : second = 1000000000) by reflexivity. rewrite S0 in *.
  assert (K1 : (instant day + 2^32 * 500000000) / (2^32 * 1000000000) = k).
  { symmetry. apply (Z.div_unique_pos _ _ _ (instant day + 2^32 * 500000000 - k * (2^32 * 1000000000))); [|ring].
    change (2^32) with 4294967296 in *. lia. }
  rewrite K1.
  assert (K2 : - 500000000 < D - k * 1000000000 < 500000000) by (change (2^32) with 4294967296 in *; lia).
  pose proof (Z.div_mod D 1000000000 ltac:(lia)) as DM. rewrite M in DM.
  destruct (nsec t <? 500000000) eqn:C; nia.
Qed.
Print Assumptions C65_second_partial.
(** A clock 0.4 s ahead and a time of day within 0.05 s of that. *)
Example C65_second_partial_ex : measured_ns (mkTs 2 450000000 0) (mkTs 77 400000000 0) = 2400000000.
Proof. vm_compute. reflexivity. Qed.

(** It should be enough that the time of day is less than half a second wrong; it is not: at
    0.15 s the measured offset can be a whole second wrong, and the clock is stepped by it. *)
Theorem C65_second_refuted : exists day t D,
  normal day /\ normal t /\ D mod second = nsec t /\
  Z.abs (instant day - D * 2^32) < 150000001 * 2^32 /\ measured_ns day t = D - second.
Proof.
  exists (mkTs 3 450000000 0), (mkTs 7 600000000 0), 3600000000.
  split; [unfold normal; cbn; lia|]. split; [unfold normal; cbn; lia|]. vm_compute. auto.
Qed.
Print Assumptions C65_second_refuted.

(** ** States and alarms *)

(** The state is the one an observer expects; the bad signal alarm is on exactly when a bad
    period was seen and the signal is not trusted again. *)
Theorem C65_state : forall g b l a log, usable g b -> Forall op_ok l -> live g b l = Some (a, log) ->
  let v := known g b l log in
  a_state a = v_state v /\ (al_bad (a_al a) = true <-> distrusted (v_pulses v)) /\
  (a_offset a == mean g (v_diffs v))%Q.
Proof.
  intros g b l a log U OK E v. subst v. go OK E CO J RR. set (v := view_of _ _ _ _) in *.
  split; [apply (R_st _ _ _ RR)|]. split.
  - rewrite (R_bad _ _ _ RR). unfold distrusted. rewrite andb_true_iff, negb_true_iff, <- trustb_iff, not_true_iff_false.
    unfold hasbad. rewrite existsb_exists, Exists_exists. split; intros [[x [A B]] C]; (split; [exists x; split; [exact A|]|exact C]).
    + intros G. apply goodb_iff in G. rewrite G in B. discriminate.
    + destruct (goodb x) eqn:Q; [apply goodb_iff in Q; contradiction|reflexivity].
  - apply (proj2 (proj2 (R_fir _ _ _ RR))).
Qed.
Print Assumptions C65_state.
(** A period of 1.2 s after good ones, and one good one after it. *)
Example C65_state_ex : exists a log, live (ex_conf NO_STEP) ex_boot
   (ex_good ++ [ex_pulse 5 200000500 null_time; ex_pulse 6 200000500 null_time]) = Some (a, log) /\
   al_bad (a_al a) = true /\ a_state a = SLAVE.
Proof. eexists _, _. split; [vm_compute; reflexivity|]. auto. Qed.

(** The other alarms: a pulse clears the no signal alarm and sets or clears the sequence
    alarm; silence sets the no signal alarm after 1.1 s and, after a minute, the instance
    listens anew without alarms; a failure makes the instance faulty. *)
Theorem C65_alarms : forall g b l a log p a' outs, usable g b -> Forall op_ok l -> op_ok (Poll p) ->
  live g b l = Some (a, log) -> istep g a (Poll p) = Some (a', outs) ->
  let v := known g b l log in
  match i_got p with
  | Pulse seq _ => a_state a' = SLAVE /\ a_al a' = day_al (i_avail p) (pulse_al v (a_al a) seq (al_bad (a_al a')))
  | Nothing => a_state a' = v_state (silent v (i_now p)) /\ a_al a' = day_al (i_avail p) (silent_al v (a_al a) (i_now p))
  | Failed => a_state a' = FAULTY /\
              a_al a' = day_al (i_avail p) (match v_state v with FAULTY => a_al a | _ => no_alarm end)
  end.
Proof.
  intros g b l a log p a' outs U OK OP E S v. subst v. go OK E CO J RR. set (v := view_of _ _ _ _) in *.
  destruct (istep_ok _ _ _ _ _ _ CO RR OP S) as [R1 _]. pose proof (R_st _ _ _ R1) as ST. cbn [view_step] in ST.
  cbn [istep] in S. unfold poll in S. bnd S r E1. bnd S s E2. injection S as <- <-. destruct r as [a1 o1], s as [a2 o2]. cbn [fst snd] in *.
  destruct (rest_facts _ _ _ _ _ E2) as [F1 [F2 _]]. unfold on_got in E1. destruct OP as [O1 [O2 O3]].
  assert (DA : a_al a2 = day_al (i_avail p) (a_al a1)) by (rewrite F1; destruct (i_avail p); reflexivity).
  destruct (i_got p) as [seq t| |].
  - destruct (pulse_ok g a v p seq t a1 o1 CO RR (proj1 O1) O2 O3 E1) as [R2 [P1 _]].
    split; [rewrite ST; unfold pulsed; destruct (v_state v); [reflexivity|destruct (v_ts v); reflexivity|reflexivity]|].
    assert (BD : al_bad (a_al a2) = al_bad (a_al a1)) by (rewrite DA; destruct (i_avail p); reflexivity).
    rewrite BD, <- P1. exact DA.
  - bnd E1 x E3. injection E1 as <- <-. destruct (R_nothing g a v (i_now p) x RR O2 E3) as [_ P]. rewrite DA, P. auto.
  - injection E1 as <- <-. rewrite DA, F2. unfold on_error. rewrite (R_st _ _ _ RR). destruct (v_state v) eqn:V; auto.
    rewrite (R_st _ _ _ RR), V. auto.
Qed.
Print Assumptions C65_alarms.
Example C65_alarms_ex : exists a log a', live (ex_conf NO_STEP) ex_boot (ex_good ++ [ex_pulse 6 500 null_time; ex_silence 108]) = Some (a, log) /\
  a_al a = mkAl true true false true /\
  istep (ex_conf NO_STEP) a (ex_silence 166) = Some (a', []) /\ a_state a' = LISTENING /\ a_al a' = no_alarm.
Proof. eexists _, _, _. split; [vm_compute; reflexivity|]. split; [reflexivity|]. split; [vm_compute; reflexivity|]. auto. Qed.

(** ** What the engine is told *)

(** After a poll the engine was last told the state of the instance and whether it has
    alarms, if it has a signal, and that it is faulty, if it is.
    What is missing: that it was told so when the instance listens again (see
    [C65_told_refuted]). *)
Theorem C65_told_partial : forall g b l a log p a' outs, usable g b -> Forall op_ok l -> op_ok (Poll p) ->
  live g b l = Some (a, log) -> istep g a (Poll p) = Some (a', outs) ->
  let k := told_of (LISTENING, false) (concat log ++ outs) in
  match a_state a' with
  | SLAVE => k = (SLAVE, negb (quiet (a_al a')))
  | FAULTY => fst k = FAULTY
  | LISTENING => True
  end.
Proof.
  intros g b l a log p a' outs U OK OP E S k. subst k. pose proof E as E0. go OK E CO J RR.
  unfold PpsModel.live in E0. bnd E0 r E1. destruct r as [z [a0|]]; destruct z; try discriminate.
  pose proof (start_R _ _ _ CO J E1) as R0.
  assert (T0 : T a0 (LISTENING, false)) by (unfold T; rewrite (start_T _ _ _ E1); exact I).
  pose proof (irun_T _ _ _ _ _ _ _ CO R0 OK T0 E0) as T1.
  pose proof (istep_T _ _ _ _ _ _ _ CO RR OP T1 S) as T2. rewrite <- told_app in T2.
  cbn [istep] in S. unfold poll in S. bnd S r1 E3. bnd S s E4. injection S as <- <-. destruct r1 as [a1 o1], s as [a2 o2]. cbn [fst snd] in *.
  destruct (rest_facts _ _ _ _ _ E4) as [_ [F2 [F3 [F4 _]]]]. unfold T in T2. rewrite F3, F4, <- F2 in T2.
  destruct (a_state a2); [exact I|exact T2|exact T2].
Qed.
Print Assumptions C65_told_partial.
Example C65_told_partial_ex : exists a log a' outs, live (ex_conf NO_STEP) ex_boot ex_good = Some (a, log) /\
  istep (ex_conf NO_STEP) a (ex_pulse 6 500 null_time) = Some (a', outs) /\ a_state a' = SLAVE /\
  told_of (LISTENING, false) (concat log) = (SLAVE, false) /\
  told_of (LISTENING, false) (concat log ++ outs) = (SLAVE, true).
Proof. eexists _, _, _, _. split; [vm_compute; reflexivity|]. split; [vm_compute; reflexivity|]. auto. Qed.

(** The engine should know when the signal is gone; an instance whose signal was silent for a
    minute listens again, but the engine was last told that it is a slave (or faulty). *)
Theorem C65_told_refuted : exists l l' a log a' log' s al,
  live (ex_conf NO_STEP) ex_boot l = Some (a, log) /\ live (ex_conf NO_STEP) ex_boot l' = Some (a', log') /\
  Forall op_ok l /\ Forall op_ok l' /\
  a_state a = LISTENING /\ told_of (LISTENING, false) (concat log) = (SLAVE, s) /\
  a_state a' = LISTENING /\ told_of (LISTENING, false) (concat log') = (FAULTY, al).
Proof.
  exists (ex_good ++ [ex_silence 170; ex_silence 171]), [ex_fail; ex_silence 5; ex_silence 6].
  eexists _, _, _, _, _, _. split; [vm_compute; reflexivity|]. split; [vm_compute; reflexivity|].
  split; [apply Forall_app; split; [exact op_ok_good|]; repeat constructor; cbn; lia|].
  split; [repeat constructor; cbn; lia|].
  split; [reflexivity|]. split; [reflexivity|]. split; reflexivity.
Qed.
Print Assumptions C65_told_refuted.

(** And an instance whose pulses arrive on a descriptor only notices silence by the timer,
    which tells the engine nothing: not that the signal stopped, nor that it is
    gone. *)
Theorem C65_timer_refuted :
  (forall g a now a' outs, istep g a (Timer now) = Some (a', outs) -> outs = []) /\
  exists a log, live (ex_conf NO_STEP) ex_boot (ex_good ++ [Timer (mkTs 130 0 0)]) = Some (a, log) /\
    al_sig (a_al a) = true /\ told_of (LISTENING, false) (concat log) = (SLAVE, false).
Proof.
  split.
  - intros g a now a' outs E. cbn [istep] in E. bnd E x E1. injection E as _ <-. reflexivity.
  - eexists _, _. split; [vm_compute; reflexivity|]. auto.
Qed.
Print Assumptions C65_timer_refuted.

(** ** Synchronized *)

(** After a poll an instance without a signal is not synchronized, and if it is processing
    timestamps and has no alarm it is synchronized only if the offset is within the
    threshold.  What is missing: an instance with an alarm, or not processing
    timestamps, is not synchronized (see [C65_sync_refuted]). *)
Theorem C65_sync_partial : forall g b l a log p a' outs, usable g b -> Forall op_ok l -> op_ok (Poll p) ->
  live g b l = Some (a, log) -> istep g a (Poll p) = Some (a', outs) -> a_sync a' = true ->
  a_state a' = SLAVE /\
  (quiet (a_al a') = true -> a_ts a' = true -> (- b_conv_max b <= a_offset a' <= b_conv_max b)%Q).
Proof.
  intros g b l a log p a' outs U OK OP E S Y. pose proof (live_conv _ _ _ _ _ E) as CM.
  cbn [istep] in S. unfold poll in S. bnd S r E1. bnd S s E2. injection S as <- <-. destruct r as [a1 o1], s as [a2 o2]. cbn [fst snd] in *.
  rewrite <- (on_got_conv _ _ _ _ _ E1) in CM. eapply rest_sync; eauto.
Qed.
Print Assumptions C65_sync_partial.
Definition ex_long : list iop := ex_good ++ map (fun n => ex_pulse n 500 null_time) (map Z.of_nat (seq 5 62)).
Example C65_sync_partial_ex : exists a log, live (ex_conf NO_ADJUST) ex_boot ex_long = Some (a, log) /\ a_sync a = true /\
  quiet (a_al a) = true /\ a_ts a = true.
Proof. eexists _, _. split; [vm_compute; reflexivity|]. auto. Qed.

(** An instance with an alarm, or no longer processing timestamps, should not be synchronized
    (the code's own comment says so); it stays synchronized. *)
Theorem C65_sync_refuted : exists l l' a log a' log',
  Forall op_ok l /\ Forall op_ok l' /\
  live (ex_conf NO_ADJUST) ex_boot l = Some (a, log) /\ live (ex_conf NO_ADJUST) ex_boot l' = Some (a', log') /\
  a_sync a = true /\ al_sig (a_al a) = true /\
  a_sync a' = true /\ a_ts a' = false.
Proof.
  exists (ex_long ++ [ex_silence 200]), (ex_long ++ [Control false true; ex_pulse 67 500 null_time; ex_pulse 68 500 null_time]).
  eexists _, _, _, _.
  assert (OL : Forall op_ok ex_long) by (unfold ex_long, ex_good, ex_pulse; cbn [map app seq]; repeat constructor; cbn; lia).
  split; [apply Forall_app; split; [exact OL|]; repeat constructor; cbn; lia|].
  split; [apply Forall_app; split; [exact OL|]; repeat constructor; cbn; lia|].
  split; [vm_compute; reflexivity|]. split; [vm_compute; reflexivity|]. auto.
Qed.
Print Assumptions C65_sync_refuted.

(** ** More of what should hold and does not *)

(** A pulse should be used only if its own period was found good: after timestamp processing
    was off, the first pulse is used without being checked. *)
Theorem C65_checked_refuted : exists l a log a' outs p t f o r,
  Forall op_ok l /\ live (ex_conf SLEW_AND_STEP) ex_boot l = Some (a, log) /\
  i_got p = Pulse 9 t /\ ~ good (period (mkPulse (mkTs 104 500 0) false false) (mkPulse t false false)) /\
  istep (ex_conf SLEW_AND_STEP) a (Poll p) = Some (a', outs) /\ outs = Freq f :: Report o :: r.
Proof.
  exists (ex_good ++ [Control false true; Control true true]).
  eexists _, _, _, _, (mkPin (Pulse 9 (mkTs 109 300000000 0)) (mkTs 109 0 0) null_time 0 0 None None), _, _, _, _.
  split; [apply Forall_app; split; [exact op_ok_good|]; repeat constructor|].
  split; [vm_compute; reflexivity|]. split; [reflexivity|].
  split; [intros G; apply goodb_iff in G; vm_compute in G; discriminate|].
  split; [vm_compute; reflexivity|]. reflexivity.
Qed.
Print Assumptions C65_checked_refuted.

(** The offset reported should be the one measured; when the instance is not in control and
    the offset is one it would step, the old offset is reported again. *)
Theorem C65_stale_refuted : exists l a log a' outs p t o,
  Forall op_ok l /\ live (ex_conf SLEW_AND_STEP) ex_boot l = Some (a, log) /\
  i_got p = Pulse 5 t /\ (measure (ex_conf SLEW_AND_STEP) (i_day p) t == inject_Z 3000000400)%Q /\
  istep (ex_conf SLEW_AND_STEP) a (Poll p) = Some (a', outs) /\ outs = [Report o] /\ (o == 400)%Q.
Proof.
  exists (Control true false :: tl ex_good).
  eexists _, _, _, _, (mkPin (Pulse 5 (mkTs 105 500 0)) (mkTs 105 0 0) (mkTs 3 200 0) 0 0 None None), _, _.
  split; [constructor; [exact I|]; exact (Forall_inv_tail op_ok_good)|].
  split; [vm_compute; reflexivity|]. split; [reflexivity|]. split; [vm_compute; reflexivity|].
  split; [vm_compute; reflexivity|]. split; reflexivity.
Qed.
Print Assumptions C65_stale_refuted.

(** Without a time of day the seconds of the offset are not known, so the clock should be left
    alone; it is steered, and the offset reported is taken from the fraction of the second only. *)
Theorem C65_no_day_refuted : exists l a log a' outs p f o r,
  Forall op_ok l /\ live (ex_conf SLEW_AND_STEP) ex_boot l = Some (a, log) /\ al_day (a_al a) = true /\
  istep (ex_conf SLEW_AND_STEP) a (Poll p) = Some (a', outs) /\ al_day (a_al a') = true /\
  outs = Freq f :: Report o :: r.
Proof.
  set (pl := fun n => mkPin (Pulse n (mkTs (100 + n) 500 0)) (mkTs (100 + n) 0 0) null_time 0 0 (Some false) None).
  exists [Control true true; Poll (pl 1); Poll (pl 2); Poll (pl 3)].
  eexists _, _, _, _, (pl 4), _, _, _.
  split; [repeat constructor; cbn; lia|].
  split; [vm_compute; reflexivity|]. split; [reflexivity|]. split; [vm_compute; reflexivity|]. split; reflexivity.
Qed.
Print Assumptions C65_no_day_refuted.

(** Starting should fail if anything it needs cannot be had; if the outlier filter cannot be
    allocated it reports success, having no clock. *)
Theorem C65_start_refuted : exists g b, conf_ok g /\ g_out g <> None /\ b_alloc b = false /\ start g b = Some (0, None).
Proof.
  exists (ex_conf NO_STEP), (mkBoot 0 false 0 0 1 1 60 1 (repeat 0%Q FIR_MAX)).
  split; [split; [reflexivity|cbn; lia]|]. split; [discriminate|]. split; reflexivity.
Qed.
Print Assumptions C65_start_refuted.

(** ** Time of day *)

(** The time of day offset in force in the module is zero, or one that the last poll to be given
    one gave (the offset of the source plus the difference of the clocks seen by the
    polling instance), and no instance stepped its clock since.  With one instance, that
    instance is the one it is for.
    What is missing: with several instances the offset should be that of each one's clock
    (see [C65_day_refuted]). *)
Theorem C65_day_partial : forall d g a l m log, Forall (fun io => mop_ok (snd io)) l -> d_off d = null_time ->
  mrun (d, [(g, a)]) l = Some (m, log) ->
  d_off (fst m) = null_time \/
  (exists l1 x l2 log1 outs log2, l = l1 ++ (0%nat, MPoll x) :: l2 /\ log = log1 ++ outs :: log2 /\
     List.length log1 = List.length l1 /\ Forall no_step log2 /\ given x (d_off (fst m))).
Proof.
  intros d g a l m log OK Z E. destruct (mrun_len _ _ _ _ E) as [_ LN].
  destruct (mrun_day _ _ _ _ OK E) as [[X _]|[X|[l1 [i [x [l2 [g1 [os [g2 [A [B [C [N G]]]]]]]]]]]]].
  - left. cbn [fst] in X. congruence.
  - left. exact X.
  - right. exists l1, x, l2, g1, os, g2. subst l. apply Forall_app in LN. destruct LN as [_ LN].
    apply Forall_inv in LN. cbn [fst snd List.length] in LN. replace i with 0%nat in * by lia. auto 8.
Qed.
Print Assumptions C65_day_partial.
Definition ex_day (now : Z) (c : ts) : din := mkDin (mkTs now 0 0) true (Some (true, mkTs 1 0 0)) (Some c).
Definition ex_mpoll (n ns : Z) (c : ts) : mop :=
  MPoll (mkMpin (Pulse n (mkTs (100 + n) ns 0)) (mkTs (100 + n) 0 0) 0 0 (ex_day (100 + n) c) None).
Definition ex_inst (g : conf) : option (conf * inst) :=
  match start g ex_boot with Some (_, Some a) => Some (g, on_control a true true) | _ => None end.
Example C65_day_partial_ex : exists ga m log, ex_inst (ex_conf SLEW_AND_STEP) = Some ga /\
  mrun (mkDay null_time false false null_time, [ga]) [(0%nat, ex_mpoll 1 500 (mkTs 4 0 0)); (0%nat, ex_mpoll 3 500 (mkTs 4 0 0))] = Some (m, log) /\
  d_off (fst m) = mkTs 5 0 0.
Proof. eexists _, _, _. split; [vm_compute; reflexivity|]. split; [vm_compute; reflexivity|]. reflexivity. Qed.

(** With two instances the offset of one's clock is used for the other: the clock of instance 0,
    which is right (the difference seen by its own polls is zero and so is the offset of
    the source), is stepped by the five seconds by which the other's clock is wrong. *)
Definition ex_right (n : Z) (c : ts) (now : Z) : mop :=
  MPoll (mkMpin (Pulse n (mkTs (100 + n) 0 0)) (mkTs (100 + n) 0 0) 0 0
                (mkDin (mkTs now 0 0) true (Some (true, mkTs 0 0 1)) (Some c)) None).
Theorem C65_day_refuted : exists g0 g1 l m log by_ r,
  ex_inst (mkConf SLEW_AND_STEP 0 (inject_Z 1000) 2 None) = Some g0 /\ ex_inst (mkConf NO_ADJUST 0 (inject_Z 1000) 2 None) = Some g1 /\
  Forall (fun io => mop_ok (snd io) /\
            match io with
            | (0%nat, MPoll x) => e_cmp (x_day x) = Some null_time
            | (_, MPoll x) => e_cmp (x_day x) = Some (mkTs 5 0 0)
            | _ => True
            end) l /\
  mrun (mkDay null_time false false null_time, [g0; g1]) l = Some (m, log) /\
  nth_error l 4 = Some (0%nat, ex_right 4 null_time 110) /\
  nth_error log 4 = Some (Step by_ :: r) /\ instant by_ = - (5 * second * 2^32).
Proof.
  eexists _, _, [(0%nat, ex_right 1 null_time 1); (0%nat, ex_right 2 null_time 2); (0%nat, ex_right 3 null_time 3);
                 (1%nat, ex_right 3 (mkTs 5 0 0) 110); (0%nat, ex_right 4 null_time 110)], _, _, _, _.
  split; [vm_compute; reflexivity|]. split; [vm_compute; reflexivity|].
  split; [repeat constructor; cbn; lia|].
  split; [vm_compute; reflexivity|]. split; [reflexivity|]. split; [reflexivity|]. vm_compute. reflexivity.
Qed.
Print Assumptions C65_day_refuted.

(** ** Definedness *)

(** With times that working clocks give, and fewer than 2^31 operations, nothing is undefined:
    no assertion fails and no arithmetic overflows.
    What is missing: longer runs (the count of good periods is an int that is only
    incremented, so 2^31 good pulses in a row, 68 years of them, overflow it). *)
Theorem C65_defined_partial : forall g b l, conf_ok g -> boot_ok g b -> Forall op_sane l ->
  Z.of_nat (List.length l) < 2^31 -> live g b l <> None.
Proof.
  intros g b l CO BO OK N. destruct (start_def g b CO BO) as [a [E K]].
  assert (J : List.length (b_junk b) = FIR_MAX) by (unfold boot_ok in BO; tauto).
  destruct (irun_def g l 0 a _ CO ltac:(lia) ltac:(lia) K (start_R _ _ _ CO J E) OK) as [a' [log X]].
  unfold PpsModel.live. rewrite E. cbn [bind]. rewrite X. discriminate.
Qed.
Print Assumptions C65_defined_partial.
Example C65_defined_partial_ex : boot_ok (ex_conf NO_STEP) ex_boot /\ Forall op_sane ex_good.
Proof.
  split.
  - unfold boot_ok. cbn [b_stats b_alloc b_clock b_conv_min b_conv_max b_junk ex_boot ex_conf g_fir g_out].
    split; [reflexivity|]. split; [reflexivity|]. split; [reflexivity|]. split; [lia|]. split; [reflexivity|].
    split; [reflexivity|]. split; [unfold FIR_MAX; lia|]. split; [unfold PEIRCE_MAX; lia|]. split; discriminate.
  - unfold ex_good, ex_pulse. repeat constructor; cbn; lia.
Qed.
