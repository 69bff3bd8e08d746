(** Properties C28, C29, C30 and C54: the local clock servo. *)
Require Import ZArith QArith Qabs Lqa List Bool Lia.
From Verif Require Import Base ListLib QLib TimeSpec TimeModel TimeProof FilterSpec FilterModel FilterProof StatsSpec StatsModel SrvSpec SrvModel SrvProof.
Import ListNotations.
Open Scope Z_scope.

(** ** Examples used below *)
Definition nic : kclk := mkClk None true false 0 (inject_Z 1000000) (inject_Z 100) false true.
Definition nic_lrc : kclk := mkClk None true false 0 (inject_Z 1000000) 0 true true.
Definition sysclk : kclk :=
  mkClk (Some (inject_Z 100, inject_Z 500000)) false false 0 (inject_Z 100500000) 0 false true.
(** clock 0: system; clock 1: reference; others: NICs *)
Definition world (c : nat) : kclk := match c with O => sysclk | 1%nat => nic_lrc | _ => nic end.
Definition cfg_ (c : ctrl) (g : guard) : scfg := mkCfg c g (inject_Z 500000000).
Definition create_ c g := servo_create (cfg_ c g) 0 (4#10) (3#100) 0.
Definition T (s ns : Z) : ts := mkTs s ns 0.
(** a comparison: difference [ds] s [dn] ns, slave and master at [s], [m] s *)
Definition sync_ (ds dn s m now : Z) (os : Z) : sop :=
  Sync (mkIn world (inr (T ds dn, T s 0, T m 0)) (T now 0) (now * 1000000000) (inr (T 7 0)) os 0).
Definition fail_ (now : Z) : sop :=
  Sync (mkIn world (inl 61) (T now 0) (now * 1000000000) (inr (T 7 0)) 0 0).
Definition set_ : sop := SetClocks world 1 2 0.
Definition hist c g l := do v <- create_ c g; srun 0 v l.
Definition TODAY : Z := 1700000000.

Lemma world_wf : forall c, clk_wf (world c).
Proof.
  intros [|[|c]]; cbn; (split; [discriminate|]); [|exact I|exact I].
  exists 100. split; [reflexivity|]. split; [lia|]. split; [exists 1000; reflexivity|]. split; [discriminate|].
  reflexivity.
Qed.

(** ** C28: the frequency limit *)

(** The limits sfptpd computes for its clocks meet [clk_wf]: for the system
    clock the combination of tick and frequency limits, for a NIC the smaller
    of what the device reports and the configured limit. *)
Theorem C28_limits : forall h maxf dev limit,
  (h = 100 \/ h = 250 \/ h = 1000) -> (0 <= maxf)%Q -> 0 <= dev -> (0 <= limit)%Q ->
  clk_wf (mkClk (Some (inject_Z h, maxf)) false false 0 (system_max (inject_Z h) maxf) 0 false true) /\
  (0 <= nic_max dev limit <= limit /\ nic_max dev limit <= inject_Z dev)%Q.
Proof.
  intros h maxf dev limit Hh Hm Hd Hl. split.
  - assert (E : (system_max (inject_Z h) maxf == inject_Z 100000000 + maxf)%Q).
    { unfold system_max. destruct Hh as [-> |[-> | ->]]; apply Qplus_comp; reflexivity. }
    assert (0 <= system_max (inject_Z h) maxf)%Q by (change (inject_Z 100000000) with 100000000%Q in E; lra).
    split; [assumption|]. cbn [k_sys k_max]. exists h.
    split; [reflexivity|]. split; [lia|]. split; [|split; [assumption|exact E]].
    destruct Hh as [-> |[-> | ->]]; [exists 1000|exists 400|exists 100]; reflexivity.
  - assert (0 <= inject_Z dev)%Q by (change 0%Q with (inject_Z 0); rewrite <- Zle_Qle; assumption).
    unfold nic_max. qb; lra.
Qed.
Print Assumptions C28_limits.

(** Every frequency request made by the servo, in any history, is for its
    slave clock, which is then writable (not read-only, not blocked), and
    amounts to at most the clock's limit plus half a unit of the kernel's
    frequency field (0.0076 ppb). *)
Theorem C28_frequency : forall sys v l v' lg n o ev rc c t x,
  srun sys v l = Some (v', lg) ->
  nth_error l n = Some o -> nth_error lg n = Some (ev, rc) -> In (KFreq c t x) ev ->
  let k := op_world o c in
  clk_wf k ->
  k_ro k = false /\ k_blocked k <= 0 /\ (k_sys k = None -> k_phc k = true) /\
  (Qabs (realised (hz_of k) t x) <= k_max k + half_unit)%Q.
Proof.
  intros sys v l v' lg n o ev rc c t x H Hn Hl HI k W.
  destruct (srun_nth _ _ _ _ _ _ _ _ _ H Hn Hl) as [v1 [lg1 [v2 [_ HS]]]].
  destruct (sstep_freq _ _ _ _ _ _ _ _ _ HS HI) as [[W1 [W2 W3]] [_ HK]].
  split; [exact W1|]. split; [exact W2|]. split; [exact W3|].
  apply Qabs_Qle_condition. exact (kernel_bound _ _ _ _ W HK).
Qed.
Print Assumptions C28_frequency.

(** ... and it is the slave clock last given to the servo. *)
Theorem C28_slave : forall sys g interval kp ki ct v0 l v lg o v' ev rc c t x,
  servo_create g interval kp ki ct = Some v0 -> srun sys v0 l = Some (v, lg) ->
  sstep sys v o = Some (v', ev, rc) -> In (KFreq c t x) ev ->
  exists m, last_clocks (l ++ [o]) = Some (m, c).
Proof.
  intros sys g interval kp ki ct v0 l v lg o v' ev rc c t x HC HR HS HI.
  destruct (history_facts _ _ _ _ _ _ _ _ _ _ HC HR) as [_ [H2 _]].
  destruct (sstep_freq _ _ _ _ _ _ _ _ _ HS HI) as [_ [H3 _]].
  unfold last_clocks. rewrite fold_left_app. cbn [fold_left]. fold (last_clocks l). rewrite <- H2.
  destruct (clocks_op (v_clocks v) o) as [[m s]|]; [|discriminate]. injection H3 as ->. exists m. reflexivity.
Qed.
Print Assumptions C28_slave.

(** The frequency the servo reports is within the slave's limit after every
    history, and is what was requested: exactly, to within half a field unit,
    and for a system clock request outside its fine range to within half a
    tick step (see C54). *)
Theorem C28_reported : forall sys kmax g interval kp ki ct v0 l v lg o v' ev rc,
  servo_create g interval kp ki ct = Some v0 ->
  Forall (world_ok kmax) (l ++ [o]) ->
  srun sys v0 l = Some (v, lg) -> sstep sys v o = Some (v', ev, rc) ->
  (forall m s, last_clocks (l ++ [o]) = Some (m, s) -> (Qabs (l_adj (v_flt v')) <= kmax s)%Q) /\
  (forall c t x, In (KFreq c t x) ev -> clk_wf (op_world o c) ->
     let slack := (match k_sys (op_world o c) with
        | Some (hz, maxf) => if Qle_bool (Qabs (l_adj (v_flt v'))) maxf then 0 else inject_Z 500 * hz
        | None => 0 end + half_unit)%Q in
     (Qabs (realised (hz_of (op_world o c)) t x - l_adj (v_flt v')) <= slack)%Q).
Proof.
  intros sys kmax g interval kp ki ct v0 l v lg o v' ev rc HC HW HR HS.
  assert (HR' : srun sys v0 (l ++ [o]) = Some (v', lg ++ [(ev, rc)])).
  { rewrite srun_app, HR. cbn [bind fst snd srun]. rewrite HS. reflexivity. }
  pose proof (limits_run _ _ _ _ _ _ HW (limits_create kmax _ _ _ _ _ _ HC) HR') as [L1 [L2 L3]].
  destruct (history_facts _ _ _ _ _ _ _ _ _ _ HC HR') as [_ [HL _]].
  split.
  - intros m s E. rewrite <- HL in E. apply L3 in E. rewrite <- E. apply Qabs_Qle_condition. assumption.
  - intros c t x HI W slack.
    destruct (sstep_freq _ _ _ _ _ _ _ _ _ HS HI) as [_ [H3 HK]].
    destruct (history_facts _ _ _ _ _ _ _ _ _ _ HC HR) as [_ [HL2 _]].
    assert (E : (clamp (k_max (op_world o c)) (l_adj (v_flt v')) == l_adj (v_flt v'))%Q).
    { apply clamp_id. 
      assert (K : l_max (v_flt v') = kmax c).
      { destruct (sstep_facts _ _ _ _ _ _ HS) as [_ [S2 _]].
        destruct (clocks_op (v_clocks v) o) as [[m s]|]; [|discriminate]. injection H3 as ->. apply (L3 m). assumption. }
      apply Forall_app in HW. destruct HW as [_ HW]. inversion HW as [|? ? HW1 _]; subst.
      destruct o; try (destruct (HW1 c) as [_ [HW2 _]]; rewrite HW2, <- K; exact L1).
      cbn [sstep] in HS. injection HS as <- <- <-. destruct HI. }
    pose proof (kernel_accuracy _ _ _ _ W HK) as A. cbv zeta in A. rewrite E in A.
    apply Qabs_Qle_condition. exact A.
Qed.
Print Assumptions C28_reported.
Example C28_reported_witness : exists v0 l v lg o v' ev rc c t x,
  create_ SLEW_AND_STEP CORRECT_CLOCK = Some v0 /\
  Forall (world_ok (fun c => k_max (world c))) (l ++ [o]) /\
  srun 0 v0 l = Some (v, lg) /\ sstep 0 v o = Some (v', ev, rc) /\ In (KFreq c t x) ev /\ clk_wf (op_world o c) /\
  (0 < l_adj (v_flt v'))%Q.
Proof.
  eexists. exists [set_; sync_ 0 200 TODAY TODAY 100 0]. eexists. eexists. exists (sync_ 0 210 TODAY TODAY 101 0).
  eexists. eexists. eexists. exists 2%nat. eexists. eexists.
  split; [vm_compute; reflexivity|].
  split. { repeat apply Forall_cons; try apply Forall_nil; intros [|[|c]]; cbn; repeat split; discriminate. }
  split; [vm_compute; reflexivity|]. split; [vm_compute; reflexivity|].
  split; [left; reflexivity|]. split; [apply world_wf|]. vm_compute. reflexivity.
Qed.

(** The frequency correction kept for a clock is always within its limit:
    whatever a file held, and whatever is saved from the servo. *)
Theorem C28_correction : forall k c file os x,
  (0 <= k_max k)%Q -> (Qabs (k_corr k) <= k_max k)%Q ->
  (Qabs (k_corr (fst (fst (load_corr k c file os)))) <= k_max k)%Q /\
  (Qabs (k_corr (fst (save_corr k x os))) <= k_max k)%Q /\
  k_max (fst (fst (load_corr k c file os))) = k_max k /\ k_max (fst (save_corr k x os)) = k_max k /\
  (k_persist k = true -> forall y, file = Some y -> (Qabs y <= k_max k)%Q ->
     k_corr (fst (fst (load_corr k c file os))) = y /\ snd (load_corr k c file os) = 0) /\
  (k_persist k = false -> k_corr (fst (fst (load_corr k c file os))) = 0%Q) /\
  ((Qabs x <= k_max k)%Q -> k_corr (fst (save_corr k x os)) = x /\ snd (save_corr k x os) = os) /\
  (~ (Qabs x <= k_max k)%Q -> fst (save_corr k x os) = k /\ snd (save_corr k x os) = ERANGE).
Proof.
  intros k c file os x Hm Hc. apply Qabs_Qle_condition in Hc.
  unfold load_corr, save_corr.
  repeat match goal with |- _ /\ _ => split end.
  - apply Qabs_Qle_condition. destruct (k_persist k); [destruct file|]; cbv beta iota;
      (destruct (_ || _) eqn:E; cbn [fst set_corr k_corr]; [split; lra|]);
      apply orb_false_iff in E; destruct E as [E1 E2]; apply Qlt_bool_false in E1; apply Qlt_bool_false in E2; split; lra.
  - apply Qabs_Qle_condition. destruct (_ || _) eqn:E; cbn [fst set_corr k_corr]; [split; lra|].
    apply orb_false_iff in E; destruct E as [E1 E2]; apply Qlt_bool_false in E1; apply Qlt_bool_false in E2; split; lra.
  - destruct (k_persist k); [destruct file|]; cbv beta iota; destruct (_ || _); reflexivity.
  - destruct (_ || _); reflexivity.
  - intros -> y -> Hy. apply Qabs_Qle_condition in Hy. cbv beta iota.
    replace (_ || _) with false; [split; reflexivity|]. symmetry. apply orb_false_iff.
    split; apply Qlt_bool_false; lra.
  - intros ->. cbv beta iota. replace (_ || _) with false; [reflexivity|]. symmetry. apply orb_false_iff.
    split; apply Qlt_bool_false; lra.
  - intros Hx. apply Qabs_Qle_condition in Hx.
    replace (_ || _) with false; [split; reflexivity|]. symmetry. apply orb_false_iff.
    split; apply Qlt_bool_false; lra.
  - intros Hx. replace (_ || _) with true; [split; reflexivity|]. symmetry. apply orb_true_iff.
    destruct (Qlt_bool (k_max k) x) eqn:E1; [left; reflexivity|]. right.
    destruct (Qlt_bool x (- k_max k)) eqn:E2; [reflexivity|]. exfalso. apply Hx.
    apply Qlt_bool_false in E1. apply Qlt_bool_false in E2. apply Qabs_Qle_condition. split; lra.
Qed.
Print Assumptions C28_correction.

(** Saving the state of a servo stores exactly its reported frequency in the
    slave clock, if the servo is synchronised, and never fails for range. *)
Theorem C28_save_state : forall sys kmax g interval kp ki ct v0 l v lg m s k os,
  servo_create g interval kp ki ct = Some v0 -> Forall (world_ok kmax) l ->
  srun sys v0 l = Some (v, lg) -> last_clocks l = Some (m, s) -> k_max k = kmax s ->
  (v_sync v = true -> save_state v k os = (set_corr k (l_adj (v_flt v)), os)) /\
  (v_sync v = false -> save_state v k os = (k, 0)).
Proof.
  intros sys kmax g interval kp ki ct v0 l v lg m s k os HC HW HR HL HK.
  pose proof (limits_run _ _ _ _ _ _ HW (limits_create kmax _ _ _ _ _ _ HC) HR) as [L1 [_ L3]].
  destruct (history_facts _ _ _ _ _ _ _ _ _ _ HC HR) as [_ [H2 _]].
  rewrite HL in H2. apply L3 in H2. rewrite H2, <- HK in L1.
  unfold save_state. split; intros ->; [|reflexivity].
  unfold save_corr. replace (_ || _) with false; [reflexivity|]. symmetry. apply orb_false_iff.
  split; apply Qlt_bool_false; lra.
Qed.
Print Assumptions C28_save_state.

(** ** C54: the system clock runs at the frequency requested *)

(** Full statement: the frequency given to the kernel is the requested one,
    limited to the clock's maximum, to within the resolution of the frequency
    field.  True of NIC clocks and of system clock requests within the
    frequency field's own range; otherwise to within half a tick step. *)
Theorem C54_partial : forall k f t x, clk_wf k -> kernel_values k f = (t, x) ->
  let slack := (match k_sys k with
     | Some (hz, maxf) => if Qle_bool (Qabs f) maxf then 0 else inject_Z 500 * hz
     | None => 0 end + half_unit)%Q in
  (Qabs (realised (hz_of k) t x - clamp (k_max k) f) <= slack)%Q.
Proof.
  intros k f t x W E. apply Qabs_Qle_condition. exact (kernel_accuracy k f t x W E).
Qed.
Print Assumptions C54_partial.
(** Refuted beyond that: at 100 Hz with a 500 ppm frequency field, a request of
    540 ppm gets 500 ppm: the tick is rounded to the nearest step and the
    remainder no longer fits. *)
Theorem C54_refuted : exists k t x, clk_wf k /\ kernel_values k (inject_Z 540000) = (t, x) /\
  (inject_Z 540000 < k_max k)%Q /\ (realised (hz_of k) t x == inject_Z 500000)%Q.
Proof.
  exists sysclk. eexists. eexists. split; [exact (world_wf 0)|]. split; [vm_compute; reflexivity|].
  split; reflexivity.
Qed.
Print Assumptions C54_refuted.
Example C54_large : exists t x, kernel_values sysclk (inject_Z 2000000) = (t, x) /\
  t = Some 10015 /\ (realised (hz_of sysclk) t x == inject_Z 2000000)%Q.
Proof. eexists. eexists. split; [vm_compute; reflexivity|]. split; reflexivity. Qed.

(** ** C29: stepping *)

(** When clock control permits a step of the slave: [l] is the history so far,
    [d] how far the slave is ahead. *)
Definition step_permitted (g : scfg) (l : list sop) (m : nat) (i : sin) (d : ts) : Prop :=
  match g_ctrl g with
  | SLEW_AND_STEP => True
  | STEP_AT_STARTUP => seen l = false       (** no comparison succeeded before *)
  | STEP_ON_FIRST_LOCK =>
      seen l = false \/
      (** the reference is locked, and no synchronisation has been completed
          with it locked *)
      (k_locked (i_w i m) = true /\ ~ lock_seen (g_guard g) l)
  | STEP_FORWARD => instant d < 0           (** the slave is behind *)
  | NO_STEP | NO_ADJUST => False
  end.

Lemma may_step_permitted : forall sys g interval kp ki ct v0 l v lg v1 m i d,
  servo_create g interval kp ki ct = Some v0 -> srun sys v0 l = Some (v, lg) ->
  v_cfg v1 = v_cfg v -> v_stepped v1 = v_stepped v -> (v_active v = true -> v_active v1 = true) ->
  (may_step v1 (k_locked (i_w i m)) (to_float_ns d) = true -> step_permitted g l m i d) /\
  (v_active v1 = v_active v -> step_permitted g l m i d -> may_step v1 (k_locked (i_w i m)) (to_float_ns d) = true).
Proof.
  intros sys g interval kp ki ct v0 l v lg v1 m i d HC HR E1 E2 E3.
  destruct (history_facts _ _ _ _ _ _ _ _ _ _ HC HR) as [H1 [_ [H3 [H4 _]]]].
  unfold may_step, step_permitted. rewrite E1, H1.
  assert (F : Qlt_bool (to_float_ns d) 0 = true <-> instant d < 0).
  { rewrite Qlt_bool_iff, float_ns. unfold ns_of.
    split; intros H.
    - apply Z.lt_nge. intros C. apply Qlt_not_le in H. apply H.
      apply Qle_shift_div_l; [reflexivity|]. rewrite Qmult_0_l. change 0%Q with (inject_Z 0). rewrite <- Zle_Qle. assumption.
    - apply Qlt_shift_div_r; [reflexivity|]. rewrite Qmult_0_l. change 0%Q with (inject_Z 0). rewrite <- Zlt_Qlt. assumption. }
  destruct (g_ctrl g).
  - tauto.
  - rewrite <- H3. split; [|intros ->; intros ->; reflexivity].
    intros H. destruct (v_active v); [rewrite E3 in H by reflexivity; discriminate|reflexivity].
  - split; [discriminate|tauto].
  - split; [discriminate|tauto].
  - rewrite F. tauto.
  - rewrite <- H3, <- H4, E2. split.
    + intros H. apply orb_true_iff in H. destruct H as [H|H].
      * left. destruct (v_active v); [rewrite E3 in H by reflexivity; discriminate|reflexivity].
      * right. apply andb_true_iff in H. destruct H as [H5 H6]. split; [assumption|].
        destruct (v_stepped v); [discriminate H5|discriminate].
    + intros ->. intros [->|[-> HS]]; [reflexivity|].
      destruct (v_stepped v); [exfalso; apply HS; reflexivity|]. rewrite orb_true_r. reflexivity.
Qed.

Definition beyond (thr : Q) (d : ts) : Prop := (ns_of d <= - thr \/ thr <= ns_of d)%Q.

(** A synchronisation steps a clock only if that clock is writable and either
    the step corrects a clock found near the epoch, where the epoch guard says
    so; or the clock is the slave, clock control permits it, the offset is at
    least the threshold, and the step is exactly the offset, negated. *)
Theorem C29_step_only_if : forall sys g interval kp ki ct v0 l v lg i v' ev rc c x,
  servo_create g interval kp ki ct = Some v0 -> srun sys v0 l = Some (v, lg) ->
  sstep sys v (Sync i) = Some (v', ev, rc) -> In (KStep c x) ev ->
  exists m s d st mt, last_clocks l = Some (m, s) /\ i_cmp i = inr (d, st, mt) /\
    k_ro (i_w i c) = false /\ k_blocked (i_w i c) <= 0 /\
    ( (g_guard g = CORRECT_CLOCK /\ c <> sys /\
       (c = m /\ near_epoch (ns_of mt) \/ c = s /\ near_epoch (ns_of st)) /\
       exists y, i_setcmp i = inr y /\ x = instant y)
      \/
      (c = s /\ beyond (g_thr g) d /\ step_permitted g l m i d /\
       (normal d -> - 2^63 < sec d -> x = - instant d)) ).
Proof.
  intros sys g interval kp ki ct v0 l v lg i v' ev rc c x HC HR HS HI.
  destruct (history_facts _ _ _ _ _ _ _ _ _ _ HC HR) as [H1 [H2 _]].
  cbn [sstep] in HS. unfold synchronize in HS.
  destruct (do_sync sys v i) as [[[v1 e1] r1]|] eqn:E; cbn [bind] in HS; [|discriminate].
  injection HS as <- <- <-. apply do_sync_cases in E. destruct E as [m [s [EC D]]].
  destruct D as [rc0 Hc|d st mt v1 ev Hc Hs P1 P2 P3 P4 P5 P6 P7 P8 P9 P10 P11 P12 P13 P14 P15
                |d st mt v2 v1 ev1 ev2 rc0 Hc Hs P1 P2 P3 P4 P5 P6 P7 P8 P9 P10 P11 P12 P13 P14 P15].
  - destruct HI.
  - destruct (P14 _ _ HI) as [G1 [G2 [[G3 [G4 _]] [G5 G6]]]].
    exists m, s, d, st, mt. split; [congruence|]. split; [assumption|]. split; [assumption|]. split; [assumption|].
    left. split; [congruence|]. split; [assumption|]. split; [|assumption].
    destruct G5 as [[G5 G7]|[G5 [G7 _]]]; [left|right]; split; try assumption; apply near_iff; assumption.
  - apply in_app_or in HI. destruct HI as [HI|HI]; [exfalso; exact (P14 _ _ HI)|].
    destruct (may_step _ _ _ && _) eqn:MS.
    + apply andb_true_iff in MS. destruct MS as [MS TH].
      destruct P15 as [v3 [G1 G2]]. apply step_clock_spec in G1.
      destruct G1 as [m' [s' [neg [K1 [K2 [-> _]]]]]].
      rewrite P2, EC in K1. injection K1 as <- <-.
      apply in_app_or in HI. destruct HI as [HI|HI];
        [|apply adjust_frequency_ev in HI; destruct HI as [_ HI]; discriminate].
      apply adjust_time_ev in HI. destruct HI as [[W1 [W2 _]] HI]. injection HI as -> ->.
      exists m, s, d, st, mt. split; [congruence|]. split; [assumption|]. split; [assumption|]. split; [assumption|].
      right. split; [reflexivity|]. split.
      { unfold beyond. rewrite <- float_ns, <- H1. apply orb_true_iff in TH. rewrite !Qle_bool_iff in TH. exact TH. }
      split.
      { apply (proj1 (may_step_permitted sys g interval kp ki ct v0 l v lg v2 m i d HC HR P1 P3
          ltac:(intros A; rewrite P4, A; reflexivity))). assumption. }
      intros N1 N2. apply negate_instant; assumption.
    + apply slew_spec in P15. destruct P15 as [-> _].
      apply adjust_frequency_ev in HI. destruct HI as [_ HI]. discriminate.
Qed.
Print Assumptions C29_step_only_if.

(** Conversely, away from the epoch, a step that is permitted and due is made
    and nothing else than the slave's own frequency is touched. *)
Theorem C29_step_if : forall sys g interval kp ki ct v0 l v lg i v' ev rc m s d st mt,
  servo_create g interval kp ki ct = Some v0 -> srun sys v0 l = Some (v, lg) ->
  sstep sys v (Sync i) = Some (v', ev, rc) ->
  last_clocks l = Some (m, s) -> i_cmp i = inr (d, st, mt) ->
  ~ near_epoch (ns_of st) -> ~ near_epoch (ns_of mt) ->
  normal d -> - 2^63 < sec d ->
  beyond (g_thr g) d -> step_permitted g l m i d -> writable (i_w i s) ->
  exists t x, ev = [KStep s (- instant d); KFreq s t x].
Proof.
  intros sys g interval kp ki ct v0 l v lg i v' ev rc m s d st mt HC HR HS HL Hcmp NS NM N1 N2 HB HP HW.
  destruct (history_facts _ _ _ _ _ _ _ _ _ _ HC HR) as [H1 [H2 _]].
  cbn [sstep] in HS. unfold synchronize in HS.
  destruct (do_sync sys v i) as [[[v1 e1] r1]|] eqn:E; cbn [bind] in HS; [|discriminate].
  injection HS as <- <- <-.
  assert (NS' : near (to_float_ns st) = false) by (destruct (near (to_float_ns st)) eqn:Q; [exfalso; apply NS, near_iff; assumption|reflexivity]).
  assert (NM' : near (to_float_ns mt) = false) by (destruct (near (to_float_ns mt)) eqn:Q; [exfalso; apply NM, near_iff; assumption|reflexivity]).
  unfold do_sync in E. rewrite H2, HL in E. cbn [bind] in E. rewrite Hcmp in E. cbv zeta in E.
  unfold epoch_master in E. rewrite NM' in E. unfold epoch_slave in E. rewrite NS' in E.
  set (vb := set_near (set_near v false) false) in E.
  rewrite (proj2 (may_step_permitted sys g interval kp ki ct v0 l v lg vb m i d HC HR eq_refl eq_refl
        ltac:(intros A; exact A)) eq_refl HP) in E.
  replace (Qle_bool (to_float_ns d) (- g_thr (v_cfg vb)) || Qle_bool (g_thr (v_cfg vb)) (to_float_ns d)) with true in E.
  2: { symmetry. apply orb_true_iff. rewrite !Qle_bool_iff, float_ns.
       change (v_cfg vb) with (v_cfg v). rewrite H1. exact HB. }
  cbn [andb] in E.
  destruct (step_clock (i_w i) vb d (i_os1 i) (i_os2 i)) as [[[v2 ev3] rc3]|] eqn:SC; cbn [bind] in E; [|discriminate].
  injection E as <- <- <-. cbn [app].
  apply step_clock_spec in SC. destruct SC as [m' [s' [neg [K1 [K2 [-> _]]]]]].
  change (v_clocks vb) with (v_clocks v) in K1. rewrite H2, HL in K1. injection K1 as <- <-.
  apply refused_writable in HW. unfold adjust_time, adjust_frequency. rewrite HW.
  destruct (kernel_values _ _) as [t x]. cbn [fst app].
  rewrite (negate_instant d neg N1 N2 K2). exists t, x. reflexivity.
Qed.
Print Assumptions C29_step_if.
Example C29_step_witness : exists v0 l v lg i v' ev rc, create_ STEP_AT_STARTUP CORRECT_CLOCK = Some v0 /\
  srun 0 v0 l = Some (v, lg) /\ sstep 0 v (Sync i) = Some (v', ev, rc) /\ In (KStep 2 (5 * s_unit)) ev /\ l = [set_; fail_ 1].
Proof.
  eexists. exists [set_; fail_ 1]. eexists. eexists.
  exists (match sync_ (-5) 0 TODAY (TODAY + 5) 2 0 with Sync i => i | _ => mkIn world (inl 0) (T 0 0) 0 (inl 0) 0 0 end).
  eexists. eexists. eexists.
  split; [vm_compute; reflexivity|]. split; [vm_compute; reflexivity|]. split; [vm_compute; reflexivity|].
  split; [left; reflexivity|reflexivity].
Qed.

(** With the step-at-startup policy, at most one synchronisation ever steps the
    slave (epoch corrections apart), and it is the first with a successful
    comparison. *)
Theorem C29_startup_once : forall sys g interval kp ki ct v0 l v lg n1 n2 i1 i2 ev1 ev2 rc1 rc2 c1 c2 x1 x2,
  servo_create g interval kp ki ct = Some v0 -> srun sys v0 l = Some (v, lg) ->
  g_ctrl g = STEP_AT_STARTUP -> g_guard g <> CORRECT_CLOCK ->
  nth_error l n1 = Some (Sync i1) -> nth_error lg n1 = Some (ev1, rc1) -> In (KStep c1 x1) ev1 ->
  nth_error l n2 = Some (Sync i2) -> nth_error lg n2 = Some (ev2, rc2) -> In (KStep c2 x2) ev2 ->
  n1 = n2.
Proof.
  assert (W : forall sys g interval kp ki ct v0 l v lg n1 n2 i1 i2 ev1 ev2 rc1 rc2 c1 c2 x1 x2,
    servo_create g interval kp ki ct = Some v0 -> srun sys v0 l = Some (v, lg) ->
    g_ctrl g = STEP_AT_STARTUP -> g_guard g <> CORRECT_CLOCK ->
    nth_error l n1 = Some (Sync i1) -> nth_error lg n1 = Some (ev1, rc1) -> In (KStep c1 x1) ev1 ->
    nth_error l n2 = Some (Sync i2) -> nth_error lg n2 = Some (ev2, rc2) -> In (KStep c2 x2) ev2 ->
    ~ (n1 < n2)%nat).
  { intros sys g interval kp ki ct v0 l v lg n1 n2 i1 i2 ev1 ev2 rc1 rc2 c1 c2 x1 x2 HC HR Hs Hg A1 A2 A3 B1 B2 B3 LT.
    destruct (srun_nth _ _ _ _ _ _ _ _ _ HR A1 A2) as [va [lga [va' [RA SA]]]].
    destruct (srun_nth _ _ _ _ _ _ _ _ _ HR B1 B2) as [vb [lgb [vb' [RB SB]]]].
    destruct (C29_step_only_if _ _ _ _ _ _ _ _ _ _ _ _ _ _ _ _ HC RA SA A3) as [ma [sa [da [sta [mta [_ [CA _]]]]]]].
    destruct (C29_step_only_if _ _ _ _ _ _ _ _ _ _ _ _ _ _ _ _ HC RB SB B3) as [mb [sb [db [stb [mtb [_ [CB [_ [_ [[G _]|[_ [_ [P _]]]]]]]]]]]]].
    - contradiction.
    - unfold step_permitted in P. rewrite Hs in P. unfold seen in P.
      assert (existsb seen_op (firstn n2 l) = true); [|congruence].
      apply existsb_exists. exists (Sync i1). split; [|cbn; rewrite CA; reflexivity].
      apply nth_error_In with (n := n1). 
      clear - A1 LT. revert n1 n2 A1 LT. induction l as [|a l IH]; intros [|n1] [|n2] A1 LT; try discriminate; try lia.
      + exact A1.
      + cbn in *. apply IH; [assumption|lia]. }
  intros sys g interval kp ki ct v0 l v lg n1 n2 i1 i2 ev1 ev2 rc1 rc2 c1 c2 x1 x2 HC HR Hs Hg A1 A2 A3 B1 B2 B3.
  pose proof (W _ _ _ _ _ _ _ _ _ _ _ _ _ _ _ _ _ _ _ _ _ _ HC HR Hs Hg A1 A2 A3 B1 B2 B3).
  pose proof (W _ _ _ _ _ _ _ _ _ _ _ _ _ _ _ _ _ _ _ _ _ _ HC HR Hs Hg B1 B2 B3 A1 A2 A3). lia.
Qed.
Print Assumptions C29_startup_once.

(** A read-only clock (no-adjust, or listed as such) or a blocked clock is left
    alone by every operation, in every state. *)
Theorem C29_read_only : forall sys v o v' ev rc c,
  sstep sys v o = Some (v', ev, rc) ->
  k_ro (op_world o c) = true \/ 0 < k_blocked (op_world o c) ->
  (forall x, ~ In (KStep c x) ev) /\ (forall t x, ~ In (KFreq c t x) ev).
Proof.
  intros sys v o v' ev rc c H HR.
  assert (NW : ~ writable (op_world o c)).
  { intros [W1 [W2 _]]. destruct HR as [HR|HR]; [congruence|lia]. }
  split.
  - intros x HI. apply NW. destruct o; cbn [sstep op_world] in *.
    + unfold set_clocks in H.
      destruct (match v_clocks v with Some (m0, s0) => Nat.eqb m0 m && Nat.eqb s0 s | None => false end).
      * cbn [bind fst snd] in H. injection H as <- <- <-. destruct HI.
      * cbv zeta in H. destruct (pid_set_i_max _ _); cbn [bind] in H; [|discriminate].
        destruct (adjust_frequency _ _ _ _) as [e r] eqn:A. cbn [bind fst snd] in H. injection H as <- <- <-.
        pose proof (adjust_frequency_ev (w s) s (k_corr (w s)) os (KStep c x)) as Q. rewrite A in Q.
        destruct (Q HI) as [_ ?]. discriminate.
    + apply step_clock_spec in H. destruct H as [m [s [neg [_ [_ [-> _]]]]]].
      apply in_app_or in HI. destruct HI as [HI|HI].
      * apply adjust_time_ev in HI. destruct HI as [W HI]. injection HI as -> ->. assumption.
      * apply adjust_frequency_ev in HI. destruct HI as [_ HI]. discriminate.
    + cbv zeta in H. injection H as <- <- <-. destruct HI.
    + unfold synchronize in H. destruct (do_sync sys v i) as [[[v1 e1] r1]|] eqn:E; cbn [bind] in H; [|discriminate].
      injection H as <- <- <-. apply do_sync_cases in E. destruct E as [m [s [EC D]]].
      destruct D as [rc0 Hc|d st mt v1 ev Hc Hs P1 P2 P3 P4 P5 P6 P7 P8 P9 P10 P11 P12 P13 P14 P15
                    |d st mt v2 v1 ev1 ev2 rc0 Hc Hs P1 P2 P3 P4 P5 P6 P7 P8 P9 P10 P11 P12 P13 P14 P15].
      * destruct HI.
      * destruct (P14 _ _ HI) as [_ [_ [W _]]]. assumption.
      * apply in_app_or in HI. destruct HI as [HI|HI]; [exfalso; exact (P14 _ _ HI)|].
        destruct (may_step _ _ _ && _).
        -- destruct P15 as [v3 [G1 _]]. apply step_clock_spec in G1. destruct G1 as [m' [s' [neg [_ [_ [-> _]]]]]].
           apply in_app_or in HI. destruct HI as [HI|HI].
           ++ apply adjust_time_ev in HI. destruct HI as [W HI]. injection HI as -> ->. assumption.
           ++ apply adjust_frequency_ev in HI. destruct HI as [_ HI]. discriminate.
        -- apply slew_spec in P15. destruct P15 as [-> _].
           apply adjust_frequency_ev in HI. destruct HI as [_ HI]. discriminate.
  - intros t x HI. apply NW. destruct (sstep_freq _ _ _ _ _ _ _ _ _ H HI) as [W _]. assumption.
Qed.
Print Assumptions C29_read_only.

(** Refuted: "Never step the clock" (config/option-examples.cfg:60).  With
    no-step control and the default epoch guard, a clock near the epoch is
    stepped to system time. *)
Theorem C29_no_step_refuted : exists v lg ev rc,
  hist NO_STEP CORRECT_CLOCK [set_; sync_ 0 0 5 TODAY 1 0] = Some (v, lg) /\
  nth_error lg 1 = Some (ev, rc) /\ In (KStep 2 (7 * s_unit)) ev.
Proof.
  eexists. eexists. eexists. eexists. split; [vm_compute; reflexivity|]. split; [reflexivity|].
  right. left. reflexivity.
Qed.
Print Assumptions C29_no_step_refuted.
(** Refuted: "the step at startup is made when the first comparison is beyond
    the threshold".  If the slave's time is near the epoch at that moment (a
    NIC that was never set) and the epoch guard does not correct clocks, the
    servo marks itself active before deciding, and never steps: it is left to
    slew decades of offset. *)
Theorem C29_startup_lost_refuted : exists v lg ev rc,
  hist STEP_AT_STARTUP PREVENT_SYNC [set_; sync_ (- TODAY) 0 0 TODAY 1 0] = Some (v, lg) /\
  nth_error lg 1 = Some (ev, rc) /\ (forall x, ~ In (KStep 2 x) ev) /\ rc = 0 /\
  step_permitted (cfg_ STEP_AT_STARTUP PREVENT_SYNC) [set_] 1
    (match sync_ (- TODAY) 0 0 TODAY 1 0 with Sync i => i | _ => mkIn world (inl 0) (T 0 0) 0 (inl 0) 0 0 end)
    (T (- TODAY) 0) /\
  beyond (g_thr (cfg_ STEP_AT_STARTUP PREVENT_SYNC)) (T (- TODAY) 0).
Proof.
  eexists. eexists. eexists. eexists. split; [vm_compute; reflexivity|]. split; [reflexivity|].
  split. { intros x [H|[H|[]]]; discriminate. }
  split; [reflexivity|]. split; [reflexivity|]. left. vm_compute. discriminate.
Qed.
Print Assumptions C29_startup_lost_refuted.
(** Refuted: "a step the kernel rejects is reported as a failure".  The result
    of the step is overwritten by that of the frequency reset. *)
Theorem C29_failure_refuted : exists v lg ev rc,
  hist SLEW_AND_STEP CORRECT_CLOCK [set_; sync_ (-5) 0 TODAY (TODAY + 5) 1 1 (* EPERM *)] = Some (v, lg) /\
  nth_error lg 1 = Some (ev, rc) /\ In (KStep 2 (5 * s_unit)) ev /\ rc = 0 /\ a_ctrl (v_al v) = true.
Proof.
  eexists. eexists. eexists. eexists. split; [vm_compute; reflexivity|]. split; [reflexivity|].
  split; [left; reflexivity|]. split; reflexivity.
Qed.
Print Assumptions C29_failure_refuted.

(** ** C30: epoch guard *)

(** Full statement: with the guard set to prevent synchronisation, no clock is
    adjusted when either clock's time is near the epoch.  Proved for the
    reference clock. *)
Theorem C30_prevent_master_partial : forall sys v i v' ev rc d st mt,
  g_guard (v_cfg v) = PREVENT_SYNC -> i_cmp i = inr (d, st, mt) -> near_epoch (ns_of mt) ->
  sstep sys v (Sync i) = Some (v', ev, rc) ->
  rc = EAGAIN /\ a_near (v_al v') = true /\
  (forall c x, ~ In (KStep c x) ev) /\ (forall c t x, ~ In (KFreq c t x) ev) /\
  l_adj (v_flt v') = l_adj (v_flt v).
Proof.
  intros sys v i v' ev rc d st mt HG Hcmp HN HS. apply near_iff in HN.
  cbn [sstep] in HS. unfold synchronize in HS.
  destruct (do_sync sys v i) as [[[v1 e1] r1]|] eqn:E; cbn [bind] in HS; [|discriminate].
  injection HS as <- <- <-.
  destruct (track_spec v1 r1 (i_now i)) as [_ [_ [T3 [_ [_ [_ [T4 _]]]]]]]. rewrite T3, T4.
  apply do_sync_cases in E. destruct E as [m [s [EC D]]].
  destruct D as [rc0 Hc|d0 st0 mt0 v1 ev Hc Hs P1 P2 P3 P4 P5 P6 P7 P8 P9 P10 P11 P12 P13 P14 P15
                |d0 st0 mt0 v2 v1 ev1 ev2 rc0 Hc Hs P1 P2 P3 P4 P5 P6 P7 P8 P9 P10 P11 P12 P13 P14 P15];
    rewrite Hcmp in Hc; try discriminate; injection Hc as <- <- <-.
  - split; [reflexivity|]. rewrite P8. split; [reflexivity|]. split; [|split; [exact P13|exact P10]].
    intros c x C. destruct (P14 _ _ C) as [G _]. congruence.
  - exfalso. rewrite HG in Hs. cbn [stops] in Hs. congruence.
Qed.
Print Assumptions C30_prevent_master_partial.
Example C30_prevent_witness : exists v lg, hist SLEW_AND_STEP PREVENT_SYNC [set_; sync_ 0 0 TODAY 5 1 0] = Some (v, lg) /\
  nth_error lg 1 = Some ([EpochAlarm 2], EAGAIN) /\ a_near (v_al v) = true.
Proof. eexists. eexists. split; [vm_compute; reflexivity|]. split; reflexivity. Qed.
(** Refuted for the slave: with the guard set to prevent, a slave near the epoch
    is synchronised (here stepped) all the same. *)
Theorem C30_prevent_slave_refuted : exists v lg ev rc,
  hist SLEW_AND_STEP PREVENT_SYNC [set_; sync_ (- TODAY) 0 0 TODAY 1 0] = Some (v, lg) /\
  nth_error lg 1 = Some (ev, rc) /\ In (KStep 2 (TODAY * s_unit)) ev /\ near_epoch (ns_of (T 0 0)).
Proof.
  eexists. eexists. eexists. eexists. split; [vm_compute; reflexivity|]. split; [reflexivity|].
  split; [right; left; reflexivity|]. left. reflexivity.
Qed.
Print Assumptions C30_prevent_slave_refuted.

(** With the guard set to correct clocks, a clock near the epoch is set to
    system time and nothing else is adjusted. *)
Theorem C30_correct : forall sys v i v' ev rc d st mt m s,
  g_guard (v_cfg v) = CORRECT_CLOCK -> i_cmp i = inr (d, st, mt) -> v_clocks v = Some (m, s) ->
  near_epoch (ns_of mt) \/ near_epoch (ns_of st) ->
  sstep sys v (Sync i) = Some (v', ev, rc) ->
  rc = EAGAIN /\ a_near (v_al v') = true /\ l_adj (v_flt v') = l_adj (v_flt v) /\
  (forall c t x, ~ In (KFreq c t x) ev) /\
  exists c, (c = m /\ near_epoch (ns_of mt) \/ c = s /\ near_epoch (ns_of st)) /\
    (forall c' x, In (KStep c' x) ev -> c' = c /\ c <> sys /\ exists y, i_setcmp i = inr y /\ x = instant y) /\
    (c <> sys -> writable (i_w i c) -> forall y, i_setcmp i = inr y -> In (KStep c (instant y)) ev).
Proof.
  intros sys v i v' ev rc d st mt m s HG Hcmp HCl HN HS.
  cbn [sstep] in HS. unfold synchronize in HS.
  destruct (do_sync sys v i) as [[[v1 e1] r1]|] eqn:E; cbn [bind] in HS; [|discriminate].
  injection HS as <- <- <-.
  destruct (track_spec v1 r1 (i_now i)) as [_ [_ [T3 [_ [_ [_ [T4 _]]]]]]]. rewrite T3, T4.
  apply do_sync_cases in E. destruct E as [m0 [s0 [EC D]]]. rewrite HCl in EC. injection EC as <- <-.
  destruct D as [rc0 Hc|d0 st0 mt0 v1 ev Hc Hs P1 P2 P3 P4 P5 P6 P7 P8 P9 P10 P11 P12 P13 P14 P15
                |d0 st0 mt0 v2 v1 ev1 ev2 rc0 Hc Hs P1 P2 P3 P4 P5 P6 P7 P8 P9 P10 P11 P12 P13 P14 P15];
    rewrite Hcmp in Hc; try discriminate; injection Hc as <- <- <-.
  - split; [reflexivity|]. rewrite P8. split; [reflexivity|]. split; [assumption|]. split; [assumption|].
    cbv zeta in P15.
    destruct (near (to_float_ns mt)) eqn:NM.
    + exists m. split; [left; split; [reflexivity|apply near_iff; assumption]|]. split; [|exact (P15 HG)].
      intros c' x C. destruct (P14 _ _ C) as [_ [G2 [_ [[[G3 _]|[_ [_ G3]]] G4]]]]; [|congruence]. subst c'.
      split; [reflexivity|]. split; assumption.
    + assert (NS : near_epoch (ns_of st)) by (destruct HN as [HN|HN]; [apply near_iff in HN; congruence|assumption]).
      exists s. split; [right; split; [reflexivity|assumption]|]. split; [|exact (P15 HG)].
      intros c' x C. destruct (P14 _ _ C) as [_ [G2 [_ [[[_ G3]|[G3 _]] G4]]]]; [congruence|]. subst c'.
      split; [reflexivity|]. split; assumption.
  - exfalso. rewrite HG in Hs. cbn [stops] in Hs. apply orb_false_iff in Hs. destruct Hs as [Ha Hb].
    destruct HN as [HN|HN]; apply near_iff in HN; congruence.
Qed.
Print Assumptions C30_correct.

(** The alarm after a synchronisation whose comparison succeeded. *)
Theorem C30_alarm : forall sys v i v' ev rc d st mt,
  i_cmp i = inr (d, st, mt) -> sstep sys v (Sync i) = Some (v', ev, rc) ->
  (a_near (v_al v') = true <->
   near_epoch (ns_of st) \/ (g_guard (v_cfg v) <> ALARM_ONLY /\ near_epoch (ns_of mt))).
Proof.
  intros sys v i v' ev rc d st mt Hcmp HS.
  cbn [sstep] in HS. unfold synchronize in HS.
  destruct (do_sync sys v i) as [[[v1 e1] r1]|] eqn:E; cbn [bind] in HS; [|discriminate].
  injection HS as <- <- <-.
  destruct (track_spec v1 r1 (i_now i)) as [_ [_ [_ [_ [_ [_ [T4 _]]]]]]]. rewrite T4.
  apply do_sync_cases in E. destruct E as [m [s [EC D]]].
  destruct D as [rc0 Hc|d0 st0 mt0 v1 ev Hc Hs P1 P2 P3 P4 P5 P6 P7 P8 P9 P10 P11 P12 P13 P14 P15
                |d0 st0 mt0 v2 v1 ev1 ev2 rc0 Hc Hs P1 P2 P3 P4 P5 P6 P7 P8 P9 P10 P11 P12 P13 P14 P15];
    rewrite Hcmp in Hc; try discriminate; injection Hc as <- <- <-.
  - rewrite P8. cbn [a_near]. split; [intros _|reflexivity].
    destruct (g_guard (v_cfg v)); cbn [stops] in Hs; [discriminate| |].
    + right. split; [discriminate|apply near_iff; assumption].
    + apply orb_true_iff in Hs. destruct Hs as [Hs|Hs]; [right; split; [discriminate|apply near_iff; assumption]|left; apply near_iff; assumption].
  - assert (A : a_near (v_al v1) = near (to_float_ns st)).
    { destruct (may_step _ _ _ && _).
      - destruct P15 as [v3 [G1 G2]]. apply step_clock_spec in G1.
        destruct G1 as [m' [s' [neg [K1 [K2 [K3 [K4 [K5 [K6 [K7 [K8 [K9 [K10 [K11 [K12 _]]]]]]]]]]]]]]].
        subst v1. rewrite P8 in K12. destruct (k_locked (i_w i m)); exact K12.
      - apply slew_spec in P15. destruct P15 as [K1 [K2 [K3 [K4 [K5 [K6 [K7 [K8 [K9 _]]]]]]]]]. rewrite P8 in K9. exact K9. }
    rewrite A, near_iff. split; [auto|]. intros [H|[H1 H2]]; [assumption|].
    apply near_iff in H2. exfalso. destruct (g_guard (v_cfg v)); cbn [stops] in Hs; [contradiction|congruence|].
    rewrite H2 in Hs. discriminate.
Qed.
Print Assumptions C30_alarm.
(** Refuted: "a reference clock near the epoch raises the alarm": with the
    alarm-only guard the alarm is raised and then cleared again in the same
    call by the check of the slave, and raised afresh (counted in the
    statistics) on every call. *)
Theorem C30_alarm_only_refuted : exists v lg,
  hist SLEW_AND_STEP ALARM_ONLY [set_; sync_ 0 100 TODAY 5 1 0; sync_ 0 100 TODAY 6 2 0] = Some (v, lg) /\
  a_near (v_al v) = false /\
  (exists ev1 ev2 rc1 rc2, nth_error lg 1 = Some (EpochAlarm 2 :: ev1, rc1) /\
                           nth_error lg 2 = Some (EpochAlarm 2 :: ev2, rc2)).
Proof.
  eexists. eexists. split; [vm_compute; reflexivity|]. split; [reflexivity|].
  eexists. eexists. eexists. eexists. split; reflexivity.
Qed.
Print Assumptions C30_alarm_only_refuted.

(** Sustained failure: the alarm is up exactly when the synchronisations since
    the last success have all failed and one of them came at least 30 s after
    the first of them. *)
Theorem C30_sustained : forall sys g interval kp ki ct v0 l v lg,
  servo_create g interval kp ki ct = Some v0 -> srun sys v0 l = Some (v, lg) ->
  a_sust (v_al v) = sustained (30 * 1000000000) (trailing_failures (outcomes l lg) []).
Proof.
  intros sys g interval kp ki ct v0 l v lg HC HR.
  destruct (history_facts _ _ _ _ _ _ _ _ _ _ HC HR) as [_ [_ [_ [_ F]]]].
  unfold fail_inv in F. change (30 * 1000000000) with FAILURE_PERIOD.
  destruct (v_state v).
  - destruct F as [-> ->]. reflexivity.
  - destruct F as [_ [-> ->]]. reflexivity.
  - destruct F as [-> ->]. reflexivity.
Qed.
Print Assumptions C30_sustained.
Example C30_sustained_witness : 
  (exists v lg, hist SLEW_AND_STEP CORRECT_CLOCK [set_; fail_ 1; fail_ 30] = Some (v, lg) /\ a_sust (v_al v) = false) /\
  (exists v lg, hist SLEW_AND_STEP CORRECT_CLOCK [set_; fail_ 1; fail_ 30; fail_ 31] = Some (v, lg) /\ a_sust (v_al v) = true) /\
  (exists v lg, hist SLEW_AND_STEP CORRECT_CLOCK [set_; fail_ 1; fail_ 31; sync_ 0 1 TODAY TODAY 32 0] = Some (v, lg) /\
     a_sust (v_al v) = false).
Proof. repeat split; eexists; eexists; (split; [vm_compute; reflexivity|reflexivity]). Qed.

(** When the alarm is raised the clock stops being reported as synchronised. *)
Theorem C30_unsynchronised : forall sys v i v' ev rc,
  a_sust (v_al v) = false -> sstep sys v (Sync i) = Some (v', ev, rc) -> a_sust (v_al v') = true ->
  v_sync v' = false.
Proof.
  intros sys v i v' ev rc A H A'. pose proof (sstep_facts _ _ _ _ _ _ H) as [_ [_ [_ [_ F]]]].
  cbn [sstep] in H. unfold synchronize in H.
  destruct (do_sync sys v i) as [[[v1 e1] r1]|] eqn:E; cbn [bind] in H; [|discriminate].
  injection H as <- <- <-.
  assert (A1 : a_sust (v_al v1) = false).
  { apply do_sync_cases in E. destruct E as [m [s [EC D]]].
    destruct D as [rc0 Hc|d0 st0 mt0 v1 ev Hc Hs P1 P2 P3 P4 P5 P6 P7 P8 P9 P10 P11 P12 P13 P14 P15
                |d0 st0 mt0 v2 v1 ev1 ev2 rc0 Hc Hs P1 P2 P3 P4 P5 P6 P7 P8 P9 P10 P11 P12 P13 P14 P15].
    - assumption.
    - rewrite P8. assumption.
    - destruct (may_step _ _ _ && _).
      + destruct P15 as [v3 [G1 G2]]. apply step_clock_spec in G1.
        destruct G1 as [m' [s' [neg [K1 [K2 [K3 [K4 [K5 [K6 [K7 [K8 [K9 [K10 [K11 [K12 [K13 _]]]]]]]]]]]]]]]].
        subst v1. rewrite P8 in K13. cbn [a_sust] in K13. rewrite A in K13. destruct (k_locked (i_w i m)); exact K13.
      + apply slew_spec in P15. destruct P15 as [K1 [K2 [K3 [K4 [K5 [K6 [K7 [K8 [K9 [K10 _]]]]]]]]]].
        rewrite P8 in K10. cbn [a_sust] in K10. congruence. }
  unfold track in *. destruct (v_state v1) eqn:Es, (r1 =? 0);
    try destruct (FAILURE_PERIOD <=? i_now i - v_begin v1); cbn in A' |- *; try congruence; reflexivity.
Qed.
Print Assumptions C30_unsynchronised.
(** Refuted: "while the alarm is up the clock is not reported as
    synchronised": if the failures are failures to adjust the clock, the next
    one reports it as synchronised again. *)
Definition perm_fail (now : Z) : sop := sync_ 0 1 TODAY TODAY now 1.
Theorem C30_synchronised_refuted : exists v lg,
  hist SLEW_AND_STEP CORRECT_CLOCK [set_; perm_fail 1; perm_fail 31; perm_fail 61; perm_fail 62] = Some (v, lg) /\
  a_sust (v_al v) = true /\ v_sync v = true /\ Forall (fun r => snd r = 1) (skipn 1 lg).
Proof.
  eexists. eexists. split; [vm_compute; reflexivity|]. split; [reflexivity|]. split; [reflexivity|].
  repeat constructor.
Qed.
Print Assumptions C30_synchronised_refuted.
