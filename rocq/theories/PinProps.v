(** C72: a running PTP instance and what it tells the engine. *)
Require Import ZArith QArith Qabs List Bool Lia.
Require Import Verif.Base Verif.QLib Verif.FilterModel Verif.StatsModel Verif.PinSpec Verif.PinModel Verif.PinProof Verif.PinProof2 Verif.PinProof3.
Import ListNotations.
Open Scope Z_scope.

(** ** Examples: a port that becomes slave of a grandmaster of class 6. *)
Definition x_pa : parent := mkPa [1;2;3;4;5;6;7;8] 1 [9;9;9;9;9;9;9;9] 6 33 20000 128 128 32 [10;0;0;1].
Definition x_d (s : pst) (off : Q) (l61 : bool) : data := mkD s 0 2 1 off x_pa false l61 true true 2.
Definition x_al (a : Z) (off : Q) : data := mkD Slave a 2 1 off x_pa false false true true 2.
Definition x_e (t : Z) (d : data) : env := mkE d (fun _ _ => 0) None true true (Some t).
Definition x_i : inst := match start 5 0 (x_d Listening 0 false) 0 3%nat with Some i => i | None => mkN 0 0 false false 0 0 (x_d Init 0 false) 0 0 0 (mkConv 0 0 0 0 0) 0 false end.

(** ** Translations *)
(** The state reported for a state of the port is that of the table. *)
Theorem C72_states : forall p t, translate p = t <-> In (p, t) state_table.
Proof.
  intros p t. split; [intros <-; destruct p; cbn; auto 12|]. intro H. cbn in H.
  repeat (destruct H as [H|H]; [injection H as <- <-; reflexivity|]). destruct H.
Qed.
Print Assumptions C72_states.
Example C72_states_ex : translate Uncal = SFaulty /\ translate Init = SListening. Proof. split; reflexivity. Qed.

(** The class reported for a code of IEEE 1588 is that of the table, and unknown for every other code; a known class
    survives being sent to another node. *)
Theorem C72_class : forall z c,
  (class_from z = c <-> In (z, c) class_table \/ (c = UnknownClass /\ forall c', ~ In (z, c') class_table)) /\
  (c <> UnknownClass -> class_from (class_to c) = c) /\ 0 <= class_to c < 256.
Proof.
  intros z c. split; [apply class_from_spec|]. destruct c; (split; [intro H; try reflexivity; congruence|cbn; lia]).
Qed.
Print Assumptions C72_class.
Example C72_class_ex : class_from 13 = Locked /\ class_from 100 = UnknownClass. Proof. split; reflexivity. Qed.
(** Full form, false: every class survives.  An unknown class arrives as free running. *)
Theorem C72_class_refuted : class_from (class_to UnknownClass) = Freerunning.
Proof. reflexivity. Qed.
Print Assumptions C72_class_refuted.

(** An accuracy is sent as the first code of the table whose bound is not exceeded, and as 254 if all are; a code received
    is read as its bound, and as unknown if it is not in the table; so what is read back is a bound on what was sent. *)
Theorem C72_accuracy : forall q z b,
  ((exists a c m t, accuracy_table = a ++ (c, m) :: t /\ acc_to (Some q) = c /\ (Qabs q <= inject_Z m)%Q /\
      forall p, In p a -> (inject_Z (snd p) < Qabs q)%Q) \/
   (acc_to (Some q) = 254 /\ forall p, In p accuracy_table -> (inject_Z (snd p) < Qabs q)%Q)) /\
  (acc_from z = Some b <-> In (z, b) accuracy_table) /\
  (acc_from (acc_to (Some q)) = Some b -> (Qabs q <= inject_Z b)%Q) /\ acc_to None = 254.
Proof.
  intros q z b. split; [apply acc_to_spec|]. split; [apply acc_from_spec|]. split; [|reflexivity].
  intro H. destruct (acc_to_spec q) as [(a & c & m & t & E & Q1 & Q2 & _)|(Q1 & _)].
  - rewrite Q1 in H. assert (X : In (c, m) accuracy_table) by (rewrite E; apply in_or_app; right; left; reflexivity).
    apply acc_from_spec in X. rewrite X in H. injection H as <-. exact Q2.
  - rewrite Q1 in H. discriminate H.
Qed.
Print Assumptions C72_accuracy.
Example C72_accuracy_ex : acc_to (Some (101#1)) = 34 /\ acc_from 34 = Some 250 /\ acc_to (Some (-25#1)) = 32 /\ acc_from 49 = None.
Proof. repeat split; reflexivity. Qed.

(** ** Reports *)
(** What an instance answers when asked after a tick: the state, the alarms, its own priority; the offset of a slave, else 0;
    steps and grandmaster in the states that have one, else none; whether the grandmaster is remote; the variance only of a
    remote one; the accuracy of timestamps. *)
Theorem C72_status : forall i0 l e i x hw caps, run i0 (l ++ [Tick e]) = Some (i, x) ->
  let s := get_status i hw caps in let d := k_data e in
  In (d_state d, s_state s) state_table /\
  s_alarms s = Z.lor (n_alarms i) (d_alarms d) /\ s_prio s = n_prio i0 /\
  s_off s = (match d_state d with Slave => d_off d | _ => 0%Q end) /\
  s_acc s = (if caps && hw then 50 else 50000) /\
  s_tt s = d_tt d /\ s_ft s = d_ft d /\
  (s_remote s = true <-> d_state d = Slave) /\
  s_var s = (match d_state d with Slave => Some (pa_var (d_parent d)) | _ => None end) /\
  match d_state d with
  | Slave | Master | Passive =>
      s_steps s = d_steps d /\ s_gm s = pa_gm (d_parent d) /\ s_src s = pa_src (d_parent d) /\
      (forall c, In (pa_class (d_parent d), c) class_table -> s_class s = c) /\
      (forall b, s_macc s = Some b <-> In (pa_acc (d_parent d), b) accuracy_table)
  | _ => s_steps s = 0 /\ s_gm s = [0;0;0;0;0;0;0;0] /\ s_src s = 160 /\ s_class s = Freerunning /\ s_macc s = None
  end.
Proof.
  intros i0 l e i x hw caps R. cbv zeta. destruct (run_snoc _ _ _ _ _ R) as (j & y & z & R1 & Q & _).
  assert (PR : n_prio i = n_prio i0).
  { revert R. apply (run_ind (fun l i x => n_prio i = n_prio i0) i0); [reflexivity|].
    intros l' o j' y' k' z' _ P Q'. rewrite (proj2 (step_cfg _ _ _ _ Q')). exact P. }
  destruct (tick_inv _ _ _ _ Q) as (c1 & c2 & b & _ & _ & K & _).
  unfold get_status, report, alarms.
  cbn [s_state s_alarms s_prio s_off s_acc s_tt s_ft s_remote s_var s_steps s_gm s_src s_class s_macc].
  rewrite PR. rewrite K. cbn [n_snap n_alarms n_alarms0]. unfold snap_of. cbn [d_state d_alarms d_off d_steps d_parent d_tt d_ft].
  split; [apply C72_states; reflexivity|]. split; [reflexivity|]. split; [reflexivity|]. split; [destruct (d_state _); reflexivity|].
  split; [reflexivity|]. split; [reflexivity|]. split; [reflexivity|].
  destruct (d_state (k_data e)); cbn [translate is_slave]; (split; [split; congruence|]); (split; [reflexivity|]);
    try (repeat split; reflexivity);
    (split; [reflexivity|]; split; [reflexivity|]; split; [reflexivity|]; split; [intros c Hc; apply class_from_spec; auto|intro b0; apply acc_from_spec]).
Qed.
Print Assumptions C72_status.
Example C72_status_ex : exists i x, run x_i [Tick (x_e 10 (x_d Slave 700 false))] = Some (i, x) /\
  s_state (get_status i true true) = SSlave /\ s_macc (get_status i true true) = Some 100 /\ s_class (get_status i true true) = Locked.
Proof. eexists _, _. split; [vm_compute; reflexivity|]. vm_compute. auto. Qed.

(** The engine, told the status once at the start and then only of changes, always knows what the instance would answer: state, alarms,
    priority, grandmaster and steps; the clock, unless the links changed since the last tick; and the clustering score found
    at the last tick.  This holds after every history of ticks, control requests, alarms and changes of links. *)
Theorem C72_view : forall prio thr d al c i0 hw caps l i x hw' caps', start prio thr d al c = Some i0 -> run i0 l = Some (i, x) ->
  let v := view (get_status i0 hw caps) x in
  core v = core (get_status i hw' caps') /\ (settled l -> s_clock v = s_clock (get_status i hw' caps')) /\ s_score v = n_score i.
Proof.
  intros prio thr d al c i0 hw caps l i x hw' caps' S R v.
  destruct (okview_run i0 l i x _ (start_okview _ _ _ _ _ _ hw caps S) R) as (O1 & O2 & O3). split; [apply O1|]. split; [|exact O3].
  intro ST. apply O2. eapply settled_bond; eauto. eapply start_bond; eauto.
Qed.
Print Assumptions C72_view.
Example C72_view_ex : exists i x, start 5 0 (x_d Listening 0 false) 0 3%nat = Some x_i /\
  run x_i [Tick (x_e 10 (x_d Slave 700 false)); Control 1 1; Link (Some 4%nat); Tick (x_e 11 (x_d Slave 700 false))] = Some (i, x) /\
  s_clock (view (get_status x_i true true) x) = 4%nat /\ s_state (view (get_status x_i true true) x) = SSlave /\ length x = 7%nat.
Proof. eexists _, _. split; [vm_compute; reflexivity|]. split; [vm_compute; reflexivity|]. vm_compute. auto. Qed.
(** Full form, false: the engine knows all that the instance would answer.  Traceability, the offset and the accuracy of
    timestamps (when another instance on the interface changes their kind) may change without a word. *)
Theorem C72_view_traceable_refuted : exists i x,
  run x_i [Tick (x_e 10 (mkD Slave 0 2 1 700 x_pa false false false false 2)); Tick (x_e 11 (x_d Slave 700 false))] = Some (i, x) /\
  s_tt (view (get_status x_i true true) x) = false /\ s_tt (get_status i true true) = true.
Proof. eexists _, _. split; [vm_compute; reflexivity|]. vm_compute. auto. Qed.
Print Assumptions C72_view_traceable_refuted.
Theorem C72_view_offset_refuted : exists i x,
  run x_i [Tick (x_e 10 (x_d Slave 700 false)); Tick (x_e 11 (x_d Slave 900000 false))] = Some (i, x) /\
  s_off (view (get_status x_i true true) x) = 700%Q /\ s_off (get_status i true true) = 900000%Q.
Proof. eexists _, _. split; [vm_compute; reflexivity|]. vm_compute. auto. Qed.
Print Assumptions C72_view_offset_refuted.
Theorem C72_view_accuracy_refuted : exists i x,
  run x_i [Tick (x_e 10 (x_d Slave 700 false)); Tick (mkE (x_d Slave 700 false) (fun _ _ => 0) None false true (Some 11))] = Some (i, x) /\
  s_acc (view (get_status x_i true true) x) = 50 /\ s_acc (get_status i false true) = 50000.
Proof. eexists _, _. split; [vm_compute; reflexivity|]. vm_compute. auto. Qed.
Print Assumptions C72_view_accuracy_refuted.

(** The engine is told at a tick exactly if the links changed, or the state, the interface of the last Sync, the parent, the steps, the
    clustering score or the alarms did; what it is told is what the instance would answer, with the score. *)
Theorem C72_event : forall i e k z s, step i (Tick e) = Some (k, z) ->
  let p := n_snap k in let old := n_snap i in
  ((exists t, In (State t) z) <-> ~ (n_bond i = false /\ d_state p = d_state old /\ d_last p = d_last old /\ d_parent p = d_parent old /\
      d_steps p = d_steps old /\ k_score e (d_off old) (n_clock i) = n_score i /\ alarms k = alarms i)) /\
  (In (State s) z -> let g := get_status k (k_hw e) (k_caps e) in
     core s = core g /\ s_clock s = s_clock g /\ s_off s = s_off g /\ s_acc s = s_acc g /\ s_tt s = s_tt g /\ s_ft s = s_ft g /\
     s_score s = n_score k).
Proof.
  intros i e k z s H p old. pose proof (snap_tick _ _ _ _ H) as SN. split.
  - assert (X : (exists t, In (State t) z) <-> changed i e || n_bond i = true).
    { split; [intros (t & T); apply (state_in _ _ _ _ _ H) in T; tauto|]. intro C. eexists. apply (state_in _ _ _ _ _ H). split; [exact C|reflexivity]. }
    rewrite X. clear X. assert (AK : alarms k = Z.lor (d_alarms (snap_of (k_data e))) (n_alarms i)).
    { destruct (tick_inv _ _ _ _ H) as (c1 & c2 & b & _ & _ & -> & _). apply Z.lor_comm. }
    rewrite AK. subst p old. rewrite SN. pose proof (changed_iff i e) as C. unfold same_data in C. cbv zeta in C.
    destruct (changed i e); destruct (n_bond i); cbn [orb]; intuition congruence.
  - intros T g. apply (state_in _ _ _ _ _ H) in T as (_ & ->). subst g. unfold get_status. rewrite SN, slave_off. repeat split.
Qed.
Print Assumptions C72_event.
Example C72_event_ex : exists k z s, step x_i (Tick (x_e 10 (x_d Master 0 false))) = Some (k, z) /\ In (State s) z /\ s_state s = SMaster.
Proof. eexists _, _, _. split; [vm_compute; reflexivity|]. split; [right; left; reflexivity|reflexivity]. Qed.

(** The clustering score is that of the offset found at the tick before. *)
Theorem C72_score : forall i e k z, step i (Tick e) = Some (k, z) -> n_score k = k_score e (d_off (n_snap i)) (n_clock i).
Proof. intros i e k z H. destruct (tick_inv _ _ _ _ H) as (c1 & c2 & b & _ & _ & -> & _). reflexivity. Qed.
Print Assumptions C72_score.
(** Full form, false: the score told to the engine is that of the offset told with it. *)
Theorem C72_score_refuted : exists k z s, step x_i (Tick (mkE (x_d Slave 700 false) (fun q _ => if Qeq_bool q 0 then 0 else 1) None true true (Some 10))) = Some (k, z) /\
  In (State s) z /\ s_off s = 700%Q /\ s_score s = 0.
Proof. eexists _, _, _. split; [vm_compute; reflexivity|]. split; [right; left; reflexivity|]. split; reflexivity. Qed.
Print Assumptions C72_score_refuted.
(** Full form, false: the answer has the clustering score, or leaves that which the engine set before it asked.  It says 0,
    whatever the score (1 here). *)
Theorem C72_score_answer_refuted : exists i x,
  run x_i [Tick (mkE (x_d Slave 700 false) (fun _ _ => 1) None true true (Some 10))] = Some (i, x) /\
  s_score (view (get_status x_i true true) x) = 1 /\ s_score (get_status i true true) = 0.
Proof. eexists _, _. split; [vm_compute; reflexivity|]. vm_compute. auto. Qed.
Print Assumptions C72_score_answer_refuted.

(** ** Synchronised *)
(** An instance calls itself synchronised after a tick only if it is slave, has no alarm, timestamps are processed, and there was a
    tick at least 60 s before such that at every tick since it was slave, with the offset within the threshold
    whenever there was no alarm and timestamps were processed. *)
Theorem C72_sync : forall prio thr d al c i0 l e i x, start prio thr d al c = Some i0 -> run i0 (l ++ [Tick e]) = Some (i, x) -> n_syn i = true ->
  let good j := d_state (n_snap j) = Slave /\ (alarms j = 0 -> Z.testbit (n_flags j) TIMESTAMPS = true -> (Qabs (d_off (n_snap j)) <= c_max (n_conv j))%Q) in
  alarms i = 0 /\ Z.testbit (n_flags i) TIMESTAMPS = true /\
  exists t a e0 b t0, k_time e = Some t /\ l ++ [Tick e] = a ++ Tick e0 :: b /\ k_time e0 = Some t0 /\ t0 + 60 <= t /\
    forall b1 e' b2 j y, l ++ [Tick e] = b1 ++ Tick e' :: b2 -> (length a <= length b1)%nat -> run i0 (b1 ++ [Tick e']) = Some (j, y) -> good j.
Proof.
  intros prio thr d al c i0 l e i x S R SY good. destruct (run_snoc _ _ _ _ _ R) as (j & y & z & R1 & Q & _).
  destruct (okconv_step i0 l j y (Tick e) i z R1 (okconv_run _ _ _ _ _ _ _ _ _ S R1) Q) as (_ & O).
  destruct (O e eq_refl SY) as (_ & O2 & O3 & t & T & t0 & (a & e0 & b & E & T0 & G) & L). split; [exact O2|]. split; [exact O3|].
  exists t, a, e0, b, t0. split; [exact T|]. split; [exact E|]. split; [exact T0|]. split; [exact L|].
  intros b1 e' b2 j' y' E' LE R'. exact (G b1 e' b2 E' LE j' y' R').
Qed.
Print Assumptions C72_sync.
Example C72_sync_ex : exists i x,
  run x_i [Tick (x_e 10 (x_d Slave 700 false)); Tick (x_e 40 (x_d Slave (-1000) false)); Tick (x_e 70 (x_d Slave 10 false))] = Some (i, x) /\ n_syn i = true.
Proof. eexists _, _. split; [vm_compute; reflexivity|]. reflexivity. Qed.
(** Full form, false: the offset was within the threshold for 60 s.  While an alarm lasted it may have been anything (a second here). *)
Theorem C72_sync_alarm_refuted : exists i x,
  run x_i [Tick (x_e 10 (x_d Slave 700 false)); Tick (x_e 40 (x_al 1 1000000000)); Tick (x_e 70 (x_d Slave 10 false))] = Some (i, x) /\ n_syn i = true.
Proof. eexists _, _. split; [vm_compute; reflexivity|]. reflexivity. Qed.
Print Assumptions C72_sync_alarm_refuted.

(** It does so: if from some tick on it is slave without alarms, processes timestamps, and its offset stays within the
    threshold, then at every tick 60 s later or more it calls itself synchronised.  Fewer than 2^32 - 2 events have happened
    (the count of samples wraps), and the clock does not go back. *)
Theorem C72_sync_reached : forall prio thr d al c i0 l i x e0 es e t0 t k z, start prio thr d al c = Some i0 -> run i0 l = Some (i, x) ->
  settled l -> n_alarms i = 0 -> Z.testbit (n_flags i) TIMESTAMPS = true ->
  Forall (calm (c_max (n_conv i))) (e0 :: es ++ [e]) -> k_time e0 = Some t0 -> rising t0 (es ++ [e]) -> k_time e = Some t -> t0 + 60 <= t ->
  Z.of_nat (length l) + Z.of_nat (length es) + 2 < 2^32 ->
  run i (Tick e0 :: map Tick (es ++ [e])) = Some (k, z) -> n_syn k = true.
Proof.
  intros prio thr d al c i0 l i x e0 es e t0 t k z S R ST A TS F T0 RI T L N H.
  assert (BO : n_bond i = false) by (eapply settled_bond; eauto; eapply start_bond; eauto).
  pose proof (okconv_run _ _ _ _ _ _ _ _ _ S R) as (MN & _).
  assert (N0 : c_num (n_conv i0) = 0).
  { unfold start in S. destruct (set_thr _ _ _) eqn:E; [|discriminate]. injection S as <-. apply set_thr_parts in E. cbn [n_conv]. tauto. }
  pose proof (num_le _ _ _ _ R ltac:(lia)) as NB. rewrite N0 in NB.
  inversion F as [|a b C F']; subst. cbn [run] in H. destruct (step i (Tick e0)) as [[j w]|] eqn:E; [|discriminate]. cbn [bind fst snd] in H.
  destruct (run j (map Tick (es ++ [e]))) as [[k' z']|] eqn:R2; [|discriminate]. cbn [bind fst snd] in H. injection H as <- _.
  pose proof (first_tick _ _ _ _ _ _ A TS BO eq_refl MN ltac:(lia) ltac:(lia) C T0 E) as G.
  eapply going_run; [exact G|exact F'|exact RI| |exact R2|exact T|exact L]. lia.
Qed.
Print Assumptions C72_sync_reached.
Example C72_sync_reached_ex : calm (c_max (n_conv x_i)) (x_e 10 (x_d Slave 700 false)) /\ settled [] /\ rising 10 [x_e 70 (x_d Slave (-1000) false)].
Proof.
  split; [|split].
  - repeat split; [vm_compute; discriminate|eexists; reflexivity].
  - intros [|o a] c b E; discriminate E.
  - cbn. lia.
Qed.

(** The threshold in use is that configured; if none is, that of hardware timestamps at the start, and after each change of links
    that of the kind of timestamps then found. *)
Theorem C72_threshold : forall prio thr d al c i0, start prio thr d al c = Some i0 ->
  c_max (n_conv i0) = thr_of thr true /\
  (forall a k b e i x, existsb is_tick b = false -> run i0 ((a ++ Link k :: b) ++ [Tick e]) = Some (i, x) -> c_max (n_conv i) = thr_of thr (k_hw e)) /\
  (forall l o i x j y, run i0 l = Some (i, x) -> settled l -> step i o = Some (j, y) -> c_max (n_conv j) = c_max (n_conv i)).
Proof.
  intros prio thr d al c i0 S. assert (TH : n_thr i0 = thr /\ c_max (n_conv i0) = thr_of thr true /\ n_bond i0 = false).
  { unfold start in S. destruct (set_thr _ _ _) eqn:E; [|discriminate]. injection S as <-. cbn [n_thr n_conv n_bond]. apply set_thr_max in E. auto. }
  destruct TH as (T1 & T2 & T3). split; [exact T2|]. split.
  - intros a k b e i x NB R. destruct (run_snoc _ _ _ _ _ R) as (j & y & z & R1 & Q & _).
    rewrite (step_max _ _ _ _ Q). pose proof (thr_run _ _ _ _ R1) as TJ.
    change (a ++ Link k :: b) with (a ++ [Link k] ++ b) in R1. rewrite app_assoc, run_app in R1.
    destruct (run i0 (a ++ [Link k])) as [[j1 y1]|] eqn:RA; [|discriminate]. cbn [bind fst snd] in R1.
    destruct (run j1 b) as [[j2 y2]|] eqn:RB; [|discriminate]. cbn [bind fst snd] in R1. injection R1 as -> _.
    destruct (run_snoc _ _ _ _ _ RA) as (j0 & y0 & z0 & _ & QL & _).
    rewrite (bond_after_link b j1 j y2 NB (step_bond _ _ _ _ QL) RB), TJ, T1. reflexivity.
  - intros l o i x j y R ST Q. rewrite (step_max _ _ _ _ Q). rewrite (settled_bond _ _ _ _ T3 R ST). destruct o; reflexivity.
Qed.
Print Assumptions C72_threshold.
Example C72_threshold_ex : exists i x, run x_i ([] ++ Link None :: [] ++ [Tick (mkE (x_d Slave 700 false) (fun _ _ => 0) None false true (Some 10))]) = Some (i, x) /\
  c_max (n_conv i) = 100000%Q.
Proof. eexists _, _. split; [vm_compute; reflexivity|]. reflexivity. Qed.
(** Full form, false: with software timestamps the threshold is that of software timestamps.  From the start on, without
    change of links, it is that of hardware: a slave that stays within 50 us is never synchronised. *)
Theorem C72_threshold_software_refuted : forall prio d al c i0 es i x, start prio 0 d al c = Some i0 ->
  run i0 (map Tick es) = Some (i, x) -> Forall (fun e => k_hw e = false /\ d_off (k_data e) = (50000#1)%Q) es -> c_max (n_conv i) = 1000%Q /\ n_syn i = false.
Proof.
  intros prio d al c i0 es i x S R F. destruct (ticks_max _ _ _ _ (start_bond _ _ _ _ _ _ S) R) as (M & _).
  rewrite (proj1 (C72_threshold _ _ _ _ _ _ S)) in M. split; [exact M|].
  destruct (n_syn i) eqn:SY; [|reflexivity]. exfalso. destruct es as [|e es _] using rev_ind.
  - cbn in R. injection R as <- _. unfold start in S. destruct (set_thr _ _ _); [|discriminate]. injection S as <-. discriminate SY.
  - rewrite map_app in R. cbn [map] in R. destruct (C72_sync _ _ _ _ _ _ _ _ _ _ S R SY) as (A1 & A2 & t & a & e0 & b & t0 & _ & E & _ & _ & G).
    apply Forall_app in F as (_ & F). inversion F as [|p q (F1 & F2) _]; subst.
    assert (LL : (length a <= length (map Tick es))%nat). { apply (f_equal (@length op)) in E. rewrite !app_length in E. cbn in E. lia. }
    destruct (G (map Tick es) e [] i x eq_refl LL R) as (SL & RA). specialize (RA A1 A2). rewrite M in RA.
    destruct (run_snoc _ _ _ _ _ R) as (j & y & z & _ & Q & _). rewrite (snap_tick _ _ _ _ Q) in SL, RA. cbn [snap_of d_state d_off] in SL, RA.
    rewrite SL in RA. cbn [is_slave] in RA. rewrite F2 in RA. revert RA. vm_compute. intro X. apply X. reflexivity.
Qed.
Print Assumptions C72_threshold_software_refuted.

(** With a threshold that is not negative and times far from the ends of their type, no history fails. *)
Theorem C72_defined : forall prio thr d al c l, (0 <= thr)%Q -> Forall good_env l ->
  exists i0 i x, start prio thr d al c = Some i0 /\ run i0 l = Some (i, x).
Proof.
  intros prio thr d al c l T F. unfold start. destruct (set_thr_def thr true (conv_reset (mkConv 60 (1000#1) 0 0 0)) T) as (c1 & E). rewrite E. cbn [bind].
  eexists. apply set_thr_parts in E as (E1 & E2 & E3).
  destruct (run_def l (mkN prio thr false false 2 0 (snap_of d) al 0 0 c1 c false)) as (i & x & R); [|exact F|].
  - split; [exact T|]. cbn [n_conv]. split; [exact E1|left; exact E2].
  - exists i, x. split; [reflexivity|exact R].
Qed.
Print Assumptions C72_defined.
Example C72_defined_ex : Forall good_env [Tick (x_e 10 (x_d Slave 700 false)); Control 1 1]. Proof. repeat constructor; cbn; lia. Qed.
(** Full form, false: whatever threshold is configured.  The parser takes a negative one, and the daemon aborts. *)
Theorem C72_threshold_negative_refuted : forall prio thr d al c, (thr < 0)%Q -> start prio thr d al c = None.
Proof.
  intros prio thr d al c H. unfold start, set_thr. destruct (Qeq_bool thr 0) eqn:E.
  - apply Qeq_bool_iff in E. rewrite E in H. exfalso. revert H. apply Qlt_irrefl.
  - unfold Qlt_bool. assert (X : Qle_bool thr 0 = true) by (apply Qle_bool_iff; apply Qlt_le_weak; exact H). rewrite X. reflexivity.
Qed.
Print Assumptions C72_threshold_negative_refuted.

(** ** Publishing *)
(** After every tick what was last published is right about alarms and selection, and about being synchronised, unless that changed at
    this very tick; then the next tick publishes. *)
Theorem C72_published : forall prio thr d al c i0 l e i x a s y, start prio thr d al c = Some i0 -> run i0 (l ++ [Tick e]) = Some (i, x) ->
  published x = Some (a, s, y) ->
  a = alarms i /\ s = Z.testbit (n_flags i) SELECTED /\
  (y = n_syn i \/ forall e' k z, step i (Tick e') = Some (k, z) -> published z = Some (alarms k, Z.testbit (n_flags k) SELECTED, n_syn k)).
Proof.
  intros prio thr d al c i0 l e i x a s y S R P. destruct (okpub_run _ _ _ _ _ _ _ _ _ S R) as (_ & O). destruct (O _ _ _ P) as (O1 & O2 & O3).
  destruct (run_snoc _ _ _ _ _ R) as (j & w & v & _ & Q & _). destruct (flags_tick _ _ _ _ Q) as (F1 & F2).
  split; [exact O1|]. split; [rewrite O2, F1, F2; reflexivity|]. destruct O3 as [O3|(_ & O4)]; [left; exact O3|right].
  intros e' k z H. rewrite (published_tick _ _ _ _ H).
  assert (X : inst_changed i = true). { unfold inst_changed. destruct (n_syn i), (n_syn0 i); cbn; congruence. }
  rewrite X, orb_true_r. reflexivity.
Qed.
Print Assumptions C72_published.
Example C72_published_ex : exists i x, run x_i [Tick (x_e 10 (x_d Slave 700 false)); Control 1 1; Tick (x_e 40 (x_d Slave 10 false))] = Some (i, x) /\
  published x = Some (0, true, false).
Proof. eexists _, _. split; [vm_compute; reflexivity|]. reflexivity. Qed.
(** Full form, false: what was published is right about being synchronised. *)
Theorem C72_published_late_refuted : exists i x,
  run x_i [Tick (x_e 10 (x_d Slave 700 false)); Tick (x_e 40 (x_d Slave 10 false)); Tick (x_e 70 (x_d Slave 10 false))] = Some (i, x) /\
  n_syn i = true /\ published x = Some (0, false, false).
Proof. eexists _, _. split; [vm_compute; reflexivity|]. split; reflexivity. Qed.
Print Assumptions C72_published_late_refuted.

(** ** Leap seconds *)
(** A tick announces or withdraws a leap second exactly if the instance is selected, slave, and the flags changed since the tick
    before; the guard interval is two announce intervals; removing a second goes before adding one. *)
Theorem C72_leap : forall i e k z g, step i (Tick e) = Some (k, z) ->
  let d := k_data e in
  let now := Z.testbit (n_flags i) SELECTED = true /\ d_state d = Slave /\ (d_l59 d <> d_l59 (n_snap i) \/ d_l61 d <> d_l61 (n_snap i)) in
  (In (Leap59 g) z <-> now /\ d_l59 d = true /\ g = (2 * d_ann d)%Q) /\
  (In (Leap61 g) z <-> now /\ d_l59 d = false /\ d_l61 d = true /\ g = (2 * d_ann d)%Q) /\
  (In Cancel z <-> now /\ d_l59 d = false /\ d_l61 d = false) /\ d_l59 (n_snap k) = d_l59 d /\ d_l61 (n_snap k) = d_l61 d.
Proof.
  intros i e k z g H d now. subst d now. rewrite <- leap_changed_iff. rewrite (leap_in _ _ _ _ (Leap59 g) H I), (leap_in _ _ _ _ (Leap61 g) H I), (leap_in _ _ _ _ Cancel H I).
  rewrite (snap_tick _ _ _ _ H). cbn [snap_of d_l59 d_l61].
  destruct (d_l59 (k_data e)), (d_l61 (k_data e)); repeat split; intros; intuition congruence.
Qed.
Print Assumptions C72_leap.
Example C72_leap_ex : exists i x, run x_i [Control 1 1; Tick (x_e 10 (x_d Slave 700 true))] = Some (i, x) /\ In (Leap61 4) x.
Proof. eexists _, _. split; [vm_compute; reflexivity|]. cbn; auto 12. Qed.
(** Full form, false: a selected slave whose master announces a leap second announces it.  If the flag came before the instance was
    selected, it never does, as long as the flags stay. *)
Theorem C72_leap_late_refuted : exists i x, run x_i [Tick (x_e 10 (x_d Slave 700 true)); Control 1 1] = Some (i, x) /\
  Z.testbit (n_flags i) SELECTED = true /\ d_state (n_snap i) = Slave /\ d_l61 (n_snap i) = true /\
  forall es k z o, Forall (fun e => d_l59 (k_data e) = false /\ d_l61 (k_data e) = true) es -> run i (map Tick es) = Some (k, z) ->
    In o (x ++ z) -> match o with Leap59 _ | Leap61 _ | Cancel => False | _ => True end.
Proof.
  eexists _, _. split; [vm_compute; reflexivity|]. split; [reflexivity|]. split; [reflexivity|]. split; [reflexivity|].
  intros es k z o F R O. apply in_app_or in O as [O|O].
  - cbn in O. repeat (destruct O as [<-|O]; [exact I|]). destruct O.
  - eapply no_leap; [|exact R|exact O]. exact F.
Qed.
Print Assumptions C72_leap_late_refuted.

(** ** Clustering *)
(** The clustering is told at a tick exactly if the instance is the determinant and the offset changed; it is told the offset of the
    tick before, valid if not 0. *)
Theorem C72_cluster : forall i e k z c q v, step i (Tick e) = Some (k, z) ->
  (In (Cluster c q v) z <-> Z.testbit (n_flags i) DETERMINANT = true /\ ~ (d_off (n_snap k) == d_off (n_snap i))%Q /\
     c = n_clock k /\ q = d_off (n_snap i) /\ (v = true <-> ~ (q == 0)%Q)).
Proof.
  intros i e k z c q v H. rewrite (cluster_in _ _ _ _ _ _ _ H). rewrite <- !Qeq_bool_iff.
  assert (X : forall b : bool, b = false <-> b <> true) by (intros []; intuition congruence). rewrite <- X. split.
  - intros (A & B & C & -> & ->). repeat (split; [assumption || reflexivity|]). rewrite <- X, negb_true_iff. tauto.
  - intros (A & B & C & -> & D). repeat (split; [assumption || reflexivity|]). rewrite <- X in D. destruct (Qeq_bool (d_off (n_snap i)) 0), v; cbn; intuition congruence.
Qed.
Print Assumptions C72_cluster.
(** Full form, false: the clustering has the present offset, or none of an instance that is no longer slave.  After the loss of the master it is told, as valid,
    the last offset, and then nothing as long as there is no master. *)
Theorem C72_cluster_stale_refuted : exists i x,
  run x_i [Control 16 16; Tick (x_e 10 (x_d Slave 700 false)); Tick (x_e 11 (x_d Listening 0 false))] = Some (i, x) /\
  forall es k z, Forall (fun e => d_state (k_data e) <> Slave) es -> run i (map Tick es) = Some (k, z) ->
    clustered None (x ++ z) = Some (3%nat, 700%Q, true).
Proof.
  eexists _, _. split; [vm_compute; reflexivity|]. intros es k z F R. unfold clustered. rewrite fold_left_app.
  change (clustered (Some (3%nat, 700%Q, true)) z = Some (3%nat, 700%Q, true)). eapply no_cluster; [|exact F|exact R]. reflexivity.
Qed.
Print Assumptions C72_cluster_stale_refuted.

(** ** Requests *)
(** Control flags change under the mask, and the protocol engine is told exactly of changes, which is all that happens. *)
Theorem C72_control : forall i f m k z n, 0 <= n_flags i < 2^32 -> step i (Control f m) = Some (k, z) -> 0 <= n < 32 ->
  Z.testbit (n_flags k) n = (if Z.testbit m n then Z.testbit f n else Z.testbit (n_flags i) n) /\
  z = (if n_flags k =? n_flags i then [] else [Ctl (n_flags k)]) /\
  n_flags0 k = n_flags0 i /\ n_snap k = n_snap i /\ n_syn k = n_syn i /\ n_clock k = n_clock i /\ n_conv k = n_conv i /\ n_bond k = n_bond i.
Proof.
  intros i f m k z n F H N. cbn [step control] in H. unfold control in H. cbv zeta in H. injection H as <- <-. cbn [n_flags n_flags0 n_snap n_syn n_clock n_conv n_bond].
  split; [apply control_bits; assumption|]. repeat split.
Qed.
Print Assumptions C72_control.
Example C72_control_ex : exists k, step x_i (Control 5 7) = Some (k, [Ctl 5]) /\ step x_i (Control 2 2) = Some (x_i, []).
Proof. eexists. split; vm_compute; reflexivity. Qed.

(** The grandmaster's new class and accuracy go to all instances but the one they came from; a leap second to all. *)
Theorem C72_gm : forall insts orig c acc t, NoDup insts ->
  map (fun r => fst (fst r)) (update_gm insts orig c acc) = filter (fun j => match orig with Some k => negb (j =? k)%nat | None => true end) insts /\
  (forall j k a, In (j, k, a) (update_gm insts orig c acc) <-> In j insts /\ orig <> Some j /\ k = class_to c /\ a = acc_to acc) /\
  (forall j a b, In (j, a, b) (update_leap insts t) <-> In j insts /\ (a = true <-> t = Some false) /\ (b = true <-> t = Some true)).
Proof.
  intros insts orig c acc t ND. split; [unfold update_gm; rewrite map_map; apply map_id|]. split.
  - intros j k a. unfold update_gm. rewrite in_map_iff. split.
    + intros (j' & E & F). injection E as <- <- <-. apply filter_In in F as (F1 & F2). repeat split; [exact F1|].
      intros ->. rewrite Nat.eqb_refl in F2. discriminate F2.
    + intros (A & B & -> & ->). exists j. split; [reflexivity|]. apply filter_In. split; [exact A|]. destruct orig as [o|]; [|reflexivity].
      destruct (j =? o)%nat eqn:E; [apply Nat.eqb_eq in E; congruence|reflexivity].
  - intros j a b. unfold update_leap. rewrite in_map_iff. split.
    + intros (j' & E & F). injection E as <- <- <-. split; [exact F|]. destruct t as [[]|]; split; split; congruence.
    + intros (A & B & C). exists j. split; [|exact A]. destruct t as [[]|], a, b; try reflexivity; exfalso; intuition congruence.
Qed.
Print Assumptions C72_gm.
Example C72_gm_ex : update_gm [2;1;0]%nat (Some 1%nat) Holdover (Some (50#1)) = [(2%nat, 7, 33); (0%nat, 7, 33)]. Proof. vm_compute. reflexivity. Qed.

(** ** Discriminator *)
(** Offset of the discriminator: a clock's difference, if it can be measured; for another instance, run by another thread, the difference of
    its clock less its offset, unless that is 0 or the instance does not answer. *)
Theorem C72_discriminator_partial : forall d reply cmp, d <> ByInstance true -> exists r, measure d reply cmp = Some r /\
  match d with
  | NoDisc => r = None
  | ByClock c => (fst (cmp c) = true -> r = Some (snd (cmp c))) /\ (fst (cmp c) = false -> r = None)
  | ByInstance _ =>
      forall off c, reply = Some (off, c) -> (off == 0 -> r = None)%Q /\ (fst (cmp c) = true -> ~ (off == 0)%Q -> r = Some (snd (cmp c) - off)%Q)
  end.
Proof.
  intros d reply cmp N. destruct d as [|c|[]]; [eexists; split; reflexivity| |congruence|]; cbn [measure].
  - destruct (fst (cmp c)); eexists; (split; [reflexivity|]); split; congruence.
  - destruct reply as [(off, c)|]; [|eexists; split; [reflexivity|discriminate]].
    destruct (Qeq_bool off 0) eqn:E; eexists; (split; [reflexivity|]); intros off' c' E'; injection E' as <- <-; split; intros; try reflexivity; exfalso.
    + apply Qeq_bool_iff in E. auto.
    + apply Qeq_bool_iff in H. congruence.
Qed.
Print Assumptions C72_discriminator_partial.
Example C72_discriminator_ex : measure (ByInstance false) (Some (5#1, 1%nat)) (fun _ => (true, 12#1)) = Some (Some (7#1)). Proof. reflexivity. Qed.
(** Full form, false: an offset that could not be measured is not used.  If the comparison of clocks fails, what it left (0 here) is used. *)
Theorem C72_discriminator_failed_refuted : measure (ByInstance false) (Some (5#1, 1%nat)) (fun _ => (false, 0%Q)) = Some (Some (-5#1)).
Proof. reflexivity. Qed.
Print Assumptions C72_discriminator_failed_refuted.
(** Full form, false: the discriminator can be any instance.  For another PTP instance, which the same thread runs, the measurement never returns. *)
Theorem C72_discriminator_self_refuted : forall reply cmp, measure (ByInstance true) reply cmp = None.
Proof. reflexivity. Qed.
Print Assumptions C72_discriminator_self_refuted.
