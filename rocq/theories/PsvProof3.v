(** Proofs about the PTP slave servo: state and history. *)
Require Import ZArith QArith Qabs Qround List Bool Lia Lqa Permutation ZifyBool.
From Verif Require Import Base ListLib QLib TimeSpec TimeModel TimeProof FilterSpec FilterModel FilterProof
  SrvSpec SrvModel SrvProof FltModel FltProof PsvSpec PsvModel PsvProof PsvProof2.
From Verif Require TsdSpec TsdModel TsdProof FltSpec.
Import ListNotations.
Open Scope Z_scope.

Definition crep (v : view) (c : cpart) (gain : option Q * option Q * option Q) : Prop :=
  q_corr c = w_corr v /\ k_p (q_pid c) = w_kp v /\ q_first c = w_moved v /\ q_steps c = u32 (w_steps v) /\
  d_term (q_pid c) = 0%Q /\ TsdSpec.sane (last_update (q_pid c)) /\
  (forall x, fst (fst gain) = Some x -> x = w_kp v) /\
  k_i (q_pid c) = w_ki v /\ i_max (q_pid c) = w_max v /\ (0 < conf_interval (q_pid c))%Q /\
  (0 < avg_interval (q_pid c))%Q /\ (forall x, snd (fst gain) = Some x -> x = w_ki v).

Definition reset_m (m : mpart) : mpart :=
  mkM TsdModel.tsd_init (small_reset (m_small m)) (peirce_clear (m_peirce m))
      (fir_reset (m_fir m)) 0 0 (m_samples m) (m_outliers m).

Lemma sane_null : TsdSpec.sane null_time.
Proof. unfold TsdSpec.sane, normal, null_time. cbn. lia. Qed.

Lemma reset_freq_eq : forall s k os,
  reset_freq s k os =
  (mkPsv (p_opts s) (p_gain s) (p_clock s) (p_ts s) (p_cc s) (p_m s)
     (mkC (pid_reset (q_pid (p_c s))) (k_corr k) (k_corr k) (q_first (p_c s))
          (negb (snd (adjust_frequency k (p_clock s) (k_corr k) os) =? 0)) (q_aclus (p_c s)) (q_steps (p_c s))),
   fst (adjust_frequency k (p_clock s) (k_corr k) os)).
Proof.
  intros s k os. unfold reset_freq, servo_adjust_frequency. cbn [with_c p_clock].
  destruct (adjust_frequency k (p_clock s) (k_corr k) os) as [ev rc]. reflexivity.
Qed.

Lemma step_clock_eq : forall s k off os1 os2 s' ev b, servo_step_clock s k off os1 os2 = Some (s', ev, b) ->
  (o_ctrl (p_opts s) = NO_ADJUST /\ s' = s /\ ev = [] /\ b = false) \/
  (o_ctrl (p_opts s) <> NO_ADJUST /\ b = true /\ exists neg, negate off = Some neg /\
   ev = fst (adjust_time k (p_clock s) neg os1) ++ fst (adjust_frequency k (p_clock s) (k_corr k) os2) /\
   s' = mkPsv (p_opts s) (p_gain s) (p_clock s) (p_ts s) (p_cc s) (reset_m (p_m s))
     (mkC (pid_reset (pid_reset (q_pid (p_c s)))) (k_corr k) (k_corr k) (q_first (p_c s))
          (negb (snd (adjust_frequency k (p_clock s) (k_corr k) os2) =? 0)) (q_aclus (p_c s))
          (u32 (q_steps (p_c s) + 1)))).
Proof.
  intros s k off os1 os2 s' ev b H. unfold servo_step_clock in H.
  assert (D : o_ctrl (p_opts s) = NO_ADJUST \/ o_ctrl (p_opts s) <> NO_ADJUST) by (destruct (o_ctrl (p_opts s)); auto; right; discriminate).
  destruct D as [D|D].
  - left. rewrite D in H. injection H as <- <- <-. auto.
  - right. split; [exact D|].
    destruct (o_ctrl (p_opts s)); try congruence;
    (destruct (negate off) as [neg|]; cbn [bind] in H; [|discriminate];
     destruct (adjust_time k (p_clock s) neg os1) as [ev1 rc] eqn:A1;
     rewrite reset_freq_eq in H; injection H as <- <- <-; split; [reflexivity|]; exists neg;
     split; [reflexivity|]; rewrite A1; split; reflexivity).
Qed.

Lemma freq_eq : forall s k f os,
  servo_adjust_frequency s k f os =
  (with_c s (mkC (q_pid (p_c s)) (q_corr (p_c s)) (q_adj (p_c s)) (q_first (p_c s))
      (negb (snd (adjust_frequency k (p_clock s) f os) =? 0)) (q_aclus (p_c s)) (q_steps (p_c s))),
   fst (adjust_frequency k (p_clock s) f os)).
Proof.
  intros s k f os. unfold servo_adjust_frequency.
  destruct (adjust_frequency k (p_clock s) f os) as [ev rc]. reflexivity.
Qed.

Lemma pid_update_facts : forall f ofm now f', TsdSpec.sane now -> pid_update f ofm (Some now) = Some f' ->
  k_p f' = k_p f /\ d_term f' = d_term f /\ last_update f' = now /\
  freq_adjust f' = (0 - k_p f * ofm - i_term f - d_term f)%Q.
Proof.
  intros f ofm now f' SN H. unfold pid_update, pid_interval in H.
  destruct (is_zero (last_update f)).
  - cbn [bind] in H. injection H as <-. auto.
  - destruct (subtract now (last_update f)) as [d|]; cbn [bind] in H; [|discriminate].
    injection H as <-. auto.
Qed.
Lemma saturate_limited : forall m x, (saturate m x == limited m x)%Q.
Proof.
  intros m x. unfold saturate, limited, Qlt_bool at 1. destruct (Qle_bool m 0) eqn:E; cbn [negb]; [reflexivity|].
  apply clamp_model. apply Qnot_lt_le. intros X. apply Qlt_le_weak in X. apply Qle_bool_iff in X. congruence.
Qed.
Lemma pid_update_integral : forall f ofm now f', (0 < conf_interval f)%Q -> (0 < avg_interval f)%Q ->
  pid_update f ofm (Some now) = Some f' ->
  k_i f' = k_i f /\ i_max f' = i_max f /\ conf_interval f' = conf_interval f /\ (0 < avg_interval f')%Q /\
  exists T, (0 < T)%Q /\ (i_term f' == limited (i_max f) (i_term f + k_i f * T * ofm))%Q.
Proof.
  intros f ofm now f' C A H. unfold pid_update in H.
  destruct (pid_interval f (Some now)) as [[[t avg] last]|] eqn:E; cbn [bind] in H; [|discriminate].
  destruct (pid_interval_pos _ _ _ _ _ C A E) as [P1 P2]. injection H as <-.
  cbn [k_i i_max conf_interval avg_interval i_term]. do 4 (split; [auto|]).
  exists t. split; [exact P1|]. apply saturate_limited.
Qed.

(** ** Acting on the clock *)
Lemma update_clock_ok : forall rd g v s u s' ev stepped locked,
  FltSpec.rounding rd -> clock_ok (u_w u (p_clock s)) -> TsdSpec.sane (u_now u) ->
  conf_of (p_opts s) = g -> p_clock s = w_clock v -> p_cc s = w_cc v -> crep v (p_c s) (p_gain s) ->
  servo_update_clock rd s u = Some (s', ev, stepped, locked) ->
  steers g v u (m_ofm (p_m s)) (i_term (q_pid (p_c s))) (mkEntry ev true stepped locked) (q_adj (p_c s'))
    (i_term (q_pid (p_c s'))) /\
  q_aclus (p_c s') = u_out u /\
  p_opts s' = p_opts s /\ p_gain s' = p_gain s /\ p_clock s' = p_clock s /\ p_ts s' = p_ts s /\ p_cc s' = p_cc s /\
  p_m s' = (if stepped then reset_m (p_m s) else p_m s) /\
  q_corr (p_c s') = (if stepped then k_corr (u_w u (p_clock s)) else q_corr (p_c s)) /\
  k_p (q_pid (p_c s')) = k_p (q_pid (p_c s)) /\ q_first (p_c s') = q_first (p_c s) || (p_cc s && negb (u_out u)) /\
  q_steps (p_c s') = u32 (q_steps (p_c s) + b2z stepped) /\ d_term (q_pid (p_c s')) = 0%Q /\
  TsdSpec.sane (last_update (q_pid (p_c s'))) /\
  k_i (q_pid (p_c s')) = k_i (q_pid (p_c s)) /\ i_max (q_pid (p_c s')) = i_max (q_pid (p_c s)) /\
  conf_interval (q_pid (p_c s')) = conf_interval (q_pid (p_c s)) /\ (0 < avg_interval (q_pid (p_c s')))%Q.
Proof.
  intros rd g v s u s' ev stepped locked RD WK SN EG EC ECC [R1 [R2 [R3 [R4 [R5 [R6 [R7 [R8 [R9 [R10 [R11 R12]]]]]]]]]]] H.
  assert (U0 : u32 (q_steps (p_c s) + 0) = q_steps (p_c s)).
  { rewrite Z.add_0_r, R4. unfold u32. rewrite Z.mod_mod by lia. reflexivity. }
  unfold servo_update_clock in H. cbv zeta in H.
  set (k := u_w u (p_clock s)) in *. set (ofm := m_ofm (p_m s)) in *.
  assert (CG : c_ctrl g = o_ctrl (p_opts s)) by (rewrite <- EG; reflexivity).
  assert (CT : c_thr g = o_thr (p_opts s)) by (rewrite <- EG; reflexivity).
  unfold steers. rewrite <- EC, <- ECC, CT, CG, <- R1, <- R2, <- R3, <- R8, <- R9. fold k. cbn [e_ev e_stepped e_locked].
  destruct (u_out u) eqn:EO.
  { injection H as <- <- <- <-. cbn. rewrite andb_false_r, orb_false_r, U0. repeat split; auto; apply R6. }
  cbn [negb]. rewrite andb_true_r.
  change (p_opts (set_clus s false)) with (p_opts s) in H. change (p_cc (set_clus s false)) with (p_cc s) in H.
  destruct (Qle_bool (o_thr (p_opts s)) (Qabs ofm)) eqn:ET.
  - apply Qle_bool_iff in ET.
    assert (NL : ~ (Qabs ofm < o_thr (p_opts s))%Q) by (intros X; apply (Qlt_not_le _ _ X ET)).
    destruct (p_cc s) eqn:PC; cbn [negb] in H |- *.
    2: { injection H as <- <- <- <-. cbn. rewrite orb_false_r, U0.
         repeat split; auto; try apply R6; intros X; contradiction. }
    change (q_first (p_c (set_clus s false))) with (q_first (p_c s)) in H.
    destruct (may_step (o_ctrl (p_opts s)) (q_first (p_c s)) ofm) eqn:MS.
    + destruct (of_float_ns rd ofm) as [st|] eqn:OF; cbn [bind] in H; [|discriminate].
      destruct (servo_step_clock (set_clus s false) k st (u_os1 u) (u_os2 u)) as [[[s1 ev1] b1]|] eqn:SC;
        cbn [bind] in H; [|discriminate].
      injection H as <- <- <- <-.
      assert (PM : permitted (o_ctrl (p_opts s)) (q_first (p_c s)) ofm) by (apply may_step_iff; exact MS).
      apply step_clock_eq in SC. destruct SC as [[SC _]|[SC1 [-> [neg [NG [-> ->]]]]]].
      { change (p_opts (set_clus s false)) with (p_opts s) in SC. rewrite SC in PM. destruct PM. }
      split.
      { split; [reflexivity|]. split; [|intros X; contradiction]. intros _.
        split; [|intros X; contradiction]. intros _. split; [reflexivity|]. split; [reflexivity|]. intros BD.
        apply (step_request_ok k (p_clock s)); [exact WK|]. eapply negate_amount; eassumption. }
      cbn. rewrite orb_true_r. repeat split; auto; apply sane_null.
    + assert (NP : ~ permitted (o_ctrl (p_opts s)) (q_first (p_c s)) ofm).
      { intros X. apply may_step_iff in X. congruence. }
      assert (D : o_ctrl (p_opts s) = NO_ADJUST \/ o_ctrl (p_opts s) <> NO_ADJUST) by (destruct (o_ctrl (p_opts s)); auto; right; discriminate).
      destruct D as [D|D].
      * rewrite D in H. injection H as <- <- <- <-. cbn. rewrite orb_true_r, U0. rewrite D.
        repeat split; auto; try apply R6; try (intros; contradiction); try (intros X; congruence).
      * assert (H' : (let a := if Qlt_bool ofm 0 then k_max k else (- k_max k)%Q in
             let '(s1, ev) := servo_adjust_frequency (set_adj (set_clus s false) a) k a (u_os1 u) in
             Some (set_first s1, ev, false, true)) = Some (s', ev, stepped, locked)).
        { destruct (o_ctrl (p_opts s)); try congruence; exact H. }
        clear H. cbv zeta in H'. rewrite freq_eq in H'. injection H' as <- <- <- <-.
        cbn. rewrite orb_true_r, U0.
        split.
        { split; [reflexivity|]. split; [|intros X; contradiction]. intros _. split; [intros X; contradiction|].
          intros _. split; [reflexivity|]. split; [reflexivity|]. split; [intros X; contradiction|].
          unfold Qlt_bool. split.
          - intros _ Y. destruct (Qle_bool 0 ofm) eqn:Q0; [apply Qle_bool_iff in Q0; exfalso; apply (Qlt_not_le _ _ Y Q0)|].
            cbn [negb]. split; [apply adjust_frequency_request; exact WK|reflexivity].
          - intros _ Y. apply Qle_bool_iff in Y. rewrite Y. cbn [negb].
            split; [apply adjust_frequency_request; exact WK|reflexivity]. }
        repeat split; auto; apply R6.
  - assert (NT : (Qabs ofm < o_thr (p_opts s))%Q).
    { apply Qnot_le_lt. intros X. apply Qle_bool_iff in X. congruence. }
    assert (NL : ~ (o_thr (p_opts s) <= Qabs ofm)%Q) by (apply Qlt_not_le; exact NT).
    destruct (p_cc s) eqn:PC; cbn [negb].
    2: { injection H as <- <- <- <-. cbn. rewrite orb_false_r, U0.
         split; [split; [repeat split|split; [reflexivity|intros _; reflexivity]]|]. repeat split; auto; apply R6. }
    change (q_pid (p_c (set_adj (set_clus s false) (q_corr (p_c (set_clus s false)))))) with (q_pid (p_c s)) in H.
    destruct (pid_update (q_pid (p_c s)) ofm (Some (u_now u))) as [f|] eqn:PU; cbn [bind] in H; [|discriminate].
    destruct (pid_update_facts _ _ _ _ SN PU) as [F1 [F2 [F3 F4]]].
    destruct (pid_update_integral _ _ _ _ R10 R11 PU) as [F5 [F6 [F7 [F8 F9]]]].
    rewrite freq_eq in H. injection H as <- <- <- <-.
    cbn [set_first with_c p_c q_adj q_corr set_adj set_clus set_pid q_pid q_first q_steps q_aclus p_opts p_gain
         p_clock p_ts p_cc p_m b2z].
    rewrite orb_true_r, U0.
    set (a0 := (q_corr (p_c s) + freq_adjust f)%Q).
    assert (EA : (a0 == q_corr (p_c s) - k_p (q_pid (p_c s)) * ofm - i_term (q_pid (p_c s)))%Q).
    { unfold a0. rewrite F4, R5. ring. }
    assert (EA2 : ((if Qlt_bool (k_max k) a0 then k_max k else if Qlt_bool a0 (- k_max k) then - k_max k else a0)
       == clamp (k_max k) a0)%Q) by (apply clamp_model, WK).
    assert (EA3 : (clamp (k_max k) a0 == clamp (k_max k) (q_corr (p_c s) - k_p (q_pid (p_c s)) * ofm - i_term (q_pid (p_c s))))%Q).
    { clearbody a0. set (z := (q_corr (p_c s) - k_p (q_pid (p_c s)) * ofm - i_term (q_pid (p_c s)))%Q) in *. clearbody z.
      assert (X1 : Qle_bool a0 (- k_max k) = Qle_bool z (- k_max k)) by (rewrite EA; reflexivity).
      assert (X2 : Qle_bool (k_max k) a0 = Qle_bool (k_max k) z) by (rewrite EA; reflexivity).
      unfold clamp. rewrite X1, X2. destruct (Qle_bool z _); [reflexivity|].
      destruct (Qle_bool _ z); [reflexivity|exact EA]. }
    split.
    { split; [reflexivity|]. split; [intros X; contradiction|]. intros _. split; [reflexivity|].
      split.
      - eapply freq_request_clamp; [exact WK| |apply adjust_frequency_request; exact WK].
        rewrite EA2, EA3. reflexivity.
      - split; [rewrite EA2, EA3; reflexivity|]. exact F9. }
    rewrite F1, F2, F3, F5, F6, F7. repeat split; auto; apply SN.
Qed.
