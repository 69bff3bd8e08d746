(** Properties C04-C08: filters. *)
Require Import ZArith QArith Qabs Lia List Bool Arith Lqa.
Require Import Verif.Base Verif.TimeSpec Verif.TimeModel Verif.QLib Verif.ListLib.
Require Import Verif.FilterSpec Verif.FilterModel Verif.FilterProof.
Import ListNotations.
Open Scope Q_scope.

(** C04: for every stiffness 1..128, whatever the array held before, and after any
    history of updates and resets, the next output is the arithmetic mean of the last
    [stiffness] samples supplied since the last reset (of all of them if fewer). *)
Theorem C04_fir_is_moving_average : forall junk stiffness ops x,
  (1 <= stiffness <= 128)%nat -> length junk = 128%nat ->
  exists f0 f1 f2 out,
    fir_init junk stiffness = Some f0 /\ fir_run f0 ops = Some f1 /\
    fir_update f1 x = Some (f2, out) /\
    out == Qmean (lastn stiffness (since_reset ops ++ [x])).
Proof.
  intros junk n ops x Hn Hl. destruct (fir_init_inv junk n) as [f0 [H0 [I0 S0]]]; auto.
  destruct (fir_run_inv ops f0 [] I0) as [f1 [H1 [S1 I1]]].
  destruct (fir_update_inv f1 _ x I1) as [f2 [r [H2 [_ [_ H3]]]]].
  exists f0, f1, f2, r. rewrite S1, S0 in H3. auto.
Qed.
Print Assumptions C04_fir_is_moving_average.

Example C04_ex : forall f0 f1, fir_init (repeat 99 128) 2 = Some f0 ->
  fir_run f0 [Push 7; Reset; Push 1; Push 2; Push 4] = Some f1 ->
  exists f2 r, fir_update f1 6 = Some (f2, r) /\ r == 5.
Proof.
  intros f0 f1 H0 H1. vm_compute in H0. injection H0 as <-. vm_compute in H1. injection H1 as <-.
  eexists _, _. split; [vm_compute; reflexivity|]. reflexivity.
Qed.

(** Without a reset in between, older samples never matter. *)
Theorem C04_fir_forgets : forall junk n ops1 ops2 tail x f0 f1 f2 r1 r2 g1 g2,
  (1 <= n <= 128)%nat -> length junk = 128%nat -> (n <= S (length tail))%nat ->
  fir_init junk n = Some f0 ->
  fir_run f0 (ops1 ++ map Push tail) = Some f1 -> fir_update f1 x = Some (g1, r1) ->
  fir_run f0 (ops2 ++ map Push tail) = Some f2 -> fir_update f2 x = Some (g2, r2) ->
  r1 == r2.
Proof.
  intros junk n ops1 ops2 tail x f0 f1 f2 r1 r2 g1 g2 Hn Hl Ht H0 A1 B1 A2 B2.
  assert (SR : forall ops, exists pre, since_reset (ops ++ map Push tail) = pre ++ tail).
  { intros ops. exists (since_reset ops). clear. induction tail as [|y tail IH] using rev_ind.
    - cbn. rewrite !app_nil_r. reflexivity.
    - rewrite map_app, app_assoc. cbn [map]. rewrite since_reset_app, IH, app_assoc. reflexivity. }
  assert (LN : forall pre, lastn n ((pre ++ tail) ++ [x]) = lastn n (tail ++ [x])).
  { intros pre. rewrite <- app_assoc. unfold lastn. rewrite !app_length; cbn.
    rewrite skipn_app.
    rewrite skipn_all2 by lia. cbn. f_equal. lia. }
  destruct (C04_fir_is_moving_average junk n (ops1 ++ map Push tail) x Hn Hl)
    as [a0 [a1 [a2 [a [E0 [E1 [E2 E3]]]]]]].
  destruct (C04_fir_is_moving_average junk n (ops2 ++ map Push tail) x Hn Hl)
    as [b0 [b1 [b2 [b [F0 [F1 [F2 F3]]]]]]].
  assert (a0 = f0) by congruence. assert (b0 = f0) by congruence. subst.
  assert (a1 = f1) by congruence. assert (b1 = f2) by congruence. subst.
  assert (a = r1) by congruence. assert (b = r2) by congruence. subst.
  destruct (SR ops1) as [p1 S1], (SR ops2) as [p2 S2]. rewrite S1, LN in E3. rewrite S2, LN in F3.
  rewrite E3, F3. reflexivity.
Qed.
Print Assumptions C04_fir_forgets.

(** Stiffness 0 passes the code's assertion but its first update divides by zero. *)
Theorem C04_fir_zero_stiffness_refuted : exists f0, fir_init (repeat 0 128) 0 = Some f0 /\
  fir_update f0 1 = None.
Proof. eexists. split; [vm_compute; reflexivity|]. vm_compute. reflexivity. Qed.
Print Assumptions C04_fir_zero_stiffness_refuted.

(** C05: after any sequence of updates (with or without times), resets, gain changes and
    interval changes the accumulated term stays within the configured limit, and each
    output is minus the proportional term minus the accumulated term before the update,
    so it never exceeds |kp * delta| + limit in magnitude. *)
Theorem C05_pid_bounded : forall kp ki kd interval m ops f0 f d t f',
  0 < interval -> 0 < m ->
  pid_set_i_max (pid_init kp ki kd interval) m = Some f0 ->
  pid_run f0 ops = Some f -> pid_update f d t = Some f' ->
  Qabs (i_term f) <= m /\ Qabs (i_term f') <= m /\
  freq_adjust f' == - (k_p f * d) - i_term f /\
  Qabs (freq_adjust f') <= Qabs (k_p f * d) + m.
Proof.
  intros kp ki kd T m ops f0 f d t f' HT Hm H0 H1 H2.
  destruct (pid_init_inv kp ki kd T m HT Hm) as [g0 [G0 I0]].
  assert (g0 = f0) by congruence. subst g0.
  pose proof (pid_run_inv m ops f0 f Hm I0 H1) as I1.
  assert (I2 : pid_inv m f').
  { apply (pid_step_inv m f (PUpdate d t) f' Hm I1 H2). }
  destruct I1 as [J1 [[J2 J2'] [J3 _]]], I2 as [K1 [[K2 K2'] _]].
  assert (F : freq_adjust f' == - (k_p f * d) - i_term f).
  { unfold pid_update in H2. destruct (pid_interval f t) as [[[iv avg] last]|]; [|discriminate].
    cbn [bind] in H2. injection H2 as <-. cbn [freq_adjust]. rewrite J3. ring. }
  assert (B1 : Qabs (i_term f) <= m) by (apply Qabs_Qle_condition; lra).
  split; [assumption|]. split; [apply Qabs_Qle_condition; lra|]. split; [assumption|].
  rewrite F. eapply Qle_trans; [apply Qabs_triangle|].
  rewrite !Qabs_opp. lra.
Qed.
Print Assumptions C05_pid_bounded.

(** Every measured interval used is within [avg/2, 2 avg] and the average stays positive,
    so no sequence of time stamps can make the integral term jump by more than
    2 * avg * ki * delta. *)
Theorem C05_pid_interval_clamped : forall kp ki kd interval m ops f0 f d now f',
  0 < interval -> 0 < m ->
  pid_set_i_max (pid_init kp ki kd interval) m = Some f0 ->
  pid_run f0 ops = Some f -> pid_update f d (Some now) = Some f' ->
  exists T, 0 < T /\ i_term f' == saturate m (i_term f + k_i f * T * d) /\
    (is_zero (last_update f) = true -> T == conf_interval f) /\
    (is_zero (last_update f) = false ->
       (1#2) * avg_interval f <= T <= 2 * avg_interval f /\
       avg_interval f' == (15 * avg_interval f + T) / 16) /\
    0 < avg_interval f'.
Proof.
  intros kp ki kd T m ops f0 f d now f' HT Hm H0 H1 H2.
  destruct (pid_init_inv kp ki kd T m HT Hm) as [g0 [G0 I0]].
  assert (g0 = f0) by congruence. subst g0.
  pose proof (pid_run_inv m ops f0 f Hm I0 H1) as [J1 [J2 [J3 [J4 J5]]]].
  unfold pid_update in H2.
  destruct (pid_interval f (Some now)) as [[[iv avg] last]|] eqn:E; [|discriminate].
  cbn [bind] in H2. injection H2 as <-. cbn [i_term avg_interval].
  destruct (pid_interval_pos _ _ _ _ _ J4 J5 E) as [P1 P2].
  exists iv. split; [assumption|]. split; [rewrite J1; reflexivity|].
  unfold pid_interval in E. destruct (is_zero (last_update f)).
  - injection E as <- <- <-. split; [reflexivity|]. split; [discriminate|assumption].
  - destruct (subtract now (last_update f)) as [dd|]; [|discriminate]. cbn [bind] in E.
    injection E as <- <- <-. split; [discriminate|]. split; [|assumption]. intros _.
    split; [apply clamp_bound; assumption|]. reflexivity.
Qed.
Print Assumptions C05_pid_interval_clamped.

(** Closed form with no saturation and no time stamps: the output after deltas
    d1..dn is - kp*dn - ki*T*(d1+...+d(n-1)). *)
Theorem C05_pid_closed_form : forall kp ki kd interval deltas d f f',
  pid_run (pid_init kp ki kd interval) (map (fun x => PUpdate x None) deltas) = Some f ->
  pid_update f d None = Some f' ->
  freq_adjust f' == - (kp * d) - ki * interval * Qsum deltas.
Proof.
  intros kp ki kd T ds d f f' H1 H2.
  assert (Z1 : i_max (pid_init kp ki kd T) == 0) by reflexivity.
  assert (Z2 : d_term (pid_init kp ki kd T) == 0) by reflexivity.
  destruct (pid_plain_run ds _ f Z1 Z2 H1) as [A [B [C [D [E F]]]]].
  unfold pid_update, pid_interval in H2. cbn [bind] in H2. injection H2 as <-.
  cbn [freq_adjust]. rewrite A, B, D. unfold pid_init, pid_reset.
  cbn [k_p k_i i_term d_term conf_interval]. ring.
Qed.
Print Assumptions C05_pid_closed_form.

Example C05_ex : exists f f', 
  pid_run (pid_init (2#5) (3#100) 0 1) (map (fun x => PUpdate x None) [10; 20]) = Some f /\
  pid_update f 5 None = Some f' /\ freq_adjust f' == - (29 # 10).
Proof. eexists _, _. split; [vm_compute; reflexivity|]. split; [vm_compute; reflexivity|]. reflexivity. Qed.
Example C05_ex_bound : exists f0 f f', pid_set_i_max (pid_init 1 1 0 1) 3 = Some f0 /\
  pid_run f0 [PUpdate 100 (Some (mkTs 5 0 0)); PUpdate 100 (Some (mkTs 500 0 0)); PAdjust (Some 2) None None false] = Some f /\
  pid_update f 1 (Some (mkTs 501 0 0)) = Some f' /\ freq_adjust f' == -5.
Proof. eexists _, _, _. split; [vm_compute; reflexivity|]. split; [vm_compute; reflexivity|].
  split; [vm_compute; reflexivity|]. reflexivity. Qed.

(** C06: for every history of samples with non-decreasing monotonic times and any resets,
    an update returns the eligible sample of least aged delay among the last [max] samples
    since the reset, or the newest sample when none is eligible; and it never asserts. *)
Theorem C06_smallest_picks_least_aged : forall max coeff timeout ops s f,
  smallest_create max coeff timeout = Some f -> (timeout < 2^60)%Z ->
  nondecreasing (pushes (ops ++ [Push s])) ->
  Forall sane_sample (pushes (ops ++ [Push s])) ->
  exists f1 f2 r, smallest_run f ops = Some f1 /\ smallest_update f1 s = Some (f2, r) /\
    picks max coeff timeout (since_reset ops) s r.
Proof.
  intros max coeff timeout ops s f Hf Ht Hd Hs.
  unfold pushes in Hd, Hs. rewrite flat_map_app in Hd, Hs. cbn [flat_map app] in Hd, Hs.
  destruct (smallest_run_inv ops max coeff timeout f Hf Ht) as [f1 [R1 [I1 [E1 [E2 E3]]]]].
  { eapply nondecreasing_prefix; eassumption. }
  { apply Forall_app in Hs. apply Hs. }
  destruct (smallest_create_inv _ _ _ _ Hf) as [_ [_ [_ [_ Htp]]]].
  destruct (since_reset_suffix ops) as [pre Epre]. unfold pushes in Epre.
  rewrite Epre in Hd, Hs. rewrite <- app_assoc in Hd, Hs. apply nondecreasing_suffix in Hd.
  apply Forall_app in Hs as [_ Hs].
  destruct (smallest_update_inv f1 (since_reset ops) s timeout I1 E3) as [f2 [r [U [_ [_ [_ [_ P]]]]]]].
  { lia. } { apply nondecreasing_mono_ok; assumption. }
  exists f1, f2, r. rewrite E1, E2 in P. auto.
Qed.
Print Assumptions C06_smallest_picks_least_aged.

(** The code asserts that a stored sample is never newer than the one supplied; a
    history that goes backwards therefore aborts. *)
Theorem C06_backwards_time_refuted : exists f f1 s,
  smallest_create 3 1 10 = Some f /\
  smallest_run f [Push (mkSample (mkTs 5 0 0) 1)] = Some f1 /\
  sane_sample s /\ smallest_update f1 s = None.
Proof.
  eexists _, _, (mkSample (mkTs 3 0 0) 1). split; [vm_compute; reflexivity|].
  split; [vm_compute; reflexivity|]. split; [|vm_compute; reflexivity].
  unfold sane_sample, normal; cbn. lia.
Qed.
Print Assumptions C06_backwards_time_refuted.

Example C06_ex : exists f f1 f2,
  smallest_create 3 1 10 = Some f /\
  smallest_run f [Push (mkSample (mkTs 1 0 0) 1); Push (mkSample (mkTs 20 0 0) 5);
                  Push (mkSample (mkTs 21 0 0) (-(3)))] = Some f1 /\
  smallest_update f1 (mkSample (mkTs 22 0 0) 8) = Some (f2, mkSample (mkTs 20 0 0) 5).
Proof. eexists _, _, _. split; [vm_compute; reflexivity|]. split; [vm_compute; reflexivity|]. vm_compute; reflexivity. Qed.

(** C07 (notch): accepts exactly the values within [width] of the centre. *)
Theorem C07_notch_accepts_iff : forall mid width n x,
  notch_init mid width = Some n ->
  (notch_update n x = true <-> Qabs (x - mid) <= width).
Proof.
  intros mid width n x H. unfold notch_init in H.
  destruct (Qlt_bool 0 width); [|discriminate]. injection H as <-.
  unfold notch_update; cbn [n_min n_max].
  rewrite andb_true_iff, !Qle_bool_iff, Qabs_Qle_condition. split; intros [A B]; split; lra.
Qed.
Print Assumptions C07_notch_accepts_iff.

Example C07_notch_ex : exists n, notch_init 10 2 = Some n /\ notch_update n 12 = true /\
  notch_update n (25#2) = false /\ notch_update n 8 = true.
Proof. eexists. split; [vm_compute; reflexivity|]. repeat split. Qed.

(** C07 (Peirce): for every stream of samples the k-th verdict is "outlier" exactly when
    at least five samples are stored and the sample deviates from the mean of the stored
    window (last [max]) by more than the criterion times its standard deviation; what is
    stored for it is the sample or, for an outlier, the weighted value.  The filter
    neither asserts nor indexes out of range. *)
Theorem C07_peirce_verdicts : forall max weight f xs,
  peirce_create max weight = Some f ->
  exists outs f' ys, peirce_run f xs = Some (outs, f') /\
    length outs = length xs /\ length ys = length xs /\
    forall k x, nth_error xs k = Some x ->
      exists out y, nth_error outs k = Some out /\ nth_error ys k = Some y /\
        verdict_ok peirce_table 5 max weight (firstn k ys) x out y.
Proof.
  intros max weight f xs Hf. destruct (peirce_create_inv _ _ _ Hf) as [I [E1 E2]].
  destruct (peirce_run_inv xs f [] I) as [outs [f' [ys [R [L1 [L2 K]]]]]].
  rewrite E1, E2 in K. exists outs, f', ys. auto.
Qed.
Print Assumptions C07_peirce_verdicts.

(** The criterion is strictly increasing in the number of samples and at most 2.67
    standard deviations. *)
Theorem C07_criterion_increasing : forall i j a b, (i < j)%nat ->
  nth_error peirce_table i = Some a -> nth_error peirce_table j = Some b ->
  a < b /\ b <= 267 # 100.
Proof.
  assert (S : forall l, (fix ok (l : list Q) := match l with
     | [] => true | a :: t => forallb (fun b => Qlt_bool a b && Qle_bool b (267#100)) t && ok t end) l = true ->
     forall i j a b, (i < j)%nat -> nth_error l i = Some a -> nth_error l j = Some b ->
       a < b /\ b <= 267 # 100).
  { induction l as [|h t IH]; intros H i j a b Hij Ha Hb; [destruct i; discriminate|].
    apply andb_prop in H as [H1 H2]. destruct j as [|j]; [lia|]. cbn in Hb.
    destruct i as [|i]; cbn in Ha.
    - injection Ha as <-. rewrite forallb_forall in H1. apply nth_error_In in Hb.
      apply H1 in Hb. apply andb_prop in Hb as [P R]. apply Qlt_bool_iff in P.
      apply Qle_bool_iff in R. auto.
    - apply (IH H2 i j a b); [lia|assumption|assumption]. }
  intros i j a b. apply S. vm_compute. reflexivity.
Qed.
Print Assumptions C07_criterion_increasing.

Example C07_peirce_ex : exists f outs f', peirce_create 6 (1#2) = Some f /\
  peirce_run f [1; 2; 1; 2; 1; 50; 2; 40] = Some (outs, f') /\
  outs = [false; false; false; false; false; true; false; true].
Proof. eexists _, _, _. split; [vm_compute; reflexivity|]. split; [vm_compute; reflexivity|]. vm_compute; reflexivity. Qed.

(** C08: after any sequence of additions and removals (of samples that are there), the
    reported mean is the mean of the remaining samples and the value whose square root
    is reported is their variance, which is never negative. *)
Theorem C08_running_variance : forall ops l,
  remaining ops [] = Some l -> l <> [] ->
  exists s m v, sd_run sd_init ops = Some s /\ sd_get s = Some (m, v) /\
    m == Qmean l /\ v == Qvar l /\ 0 <= v.
Proof.
  intros ops l H Hne. destruct (sd_run_inv ops sd_init [] l) as [s [H1 H2]]; auto.
  { unfold sd_inv; cbn. repeat split; reflexivity. }
  destruct (sd_get_inv s l H2 Hne) as [m [v [G [A B]]]].
  exists s, m, v. repeat split; auto. rewrite B. apply Qvar_nonneg.
Qed.
Print Assumptions C08_running_variance.

(** The measure of an emptied history is undefined: the code asserts. *)
Theorem C08_empty_is_error : forall ops s, remaining ops [] = Some [] ->
  sd_run sd_init ops = Some s -> sd_get s = None.
Proof.
  intros ops s H H1. destruct (sd_run_inv ops sd_init [] [] ) as [s' [H2 H3]]; auto.
  { unfold sd_inv; cbn. repeat split; reflexivity. }
  assert (s' = s) by congruence. subst. destruct H3 as [E _]. unfold sd_get. rewrite E. reflexivity.
Qed.
Print Assumptions C08_empty_is_error.

Example C08_ex : exists s m v, sd_run sd_init [SdAdd 2; SdAdd 100; SdAdd 4; SdRemove 100; SdAdd 6] = Some s /\
  sd_get s = Some (m, v) /\ m == 4 /\ v == 8 # 3.
Proof. eexists _, _, _. split; [vm_compute; reflexivity|]. split; [vm_compute; reflexivity|]. split; reflexivity. Qed.
