(** Proofs about the PTP slave servo: whole histories. *)
Require Import ZArith QArith Qabs Qround Qpower List Bool Lia Lqa Permutation ZifyBool.
From Verif Require Import Base ListLib QLib TimeSpec TimeModel TimeProof FilterSpec FilterModel FilterProof
  SrvSpec SrvModel SrvProof FltModel FltProof PsvSpec PsvModel PsvProof PsvProof2 PsvProof3.
From Verif Require TsdSpec TsdModel TsdProof FltSpec.
Import ListNotations.
Open Scope Z_scope.

Definition rep (g : conf) (l : list sop) (v : view) (s : psv) : Prop :=
  conf_of (p_opts s) = g /\ (0 < o_fir (p_opts s))%nat /\
  p_ts s = w_ts v /\ p_cc s = w_cc v /\ p_clock s = w_clock v /\
  mrep g (moments l) (w_ops v) (w_sets v) (w_samples v) (w_rejected v) (p_m s) /\
  crep v (p_c s) (p_gain s).

Lemma frep_reset : forall g moms sets m, frep g moms sets m -> frep g moms [] (reset_m m).
Proof.
  intros g moms sets m [A [[h [B1 B2]] [C [ys [acc [xs [D1 [D2 [D3 [D4 D5]]]]]]]]]].
  split; [exact A|]. split; [exists []; split; [eapply small_reset_inv; exact B1|constructor]|].
  split; [intros d []|]. exists [], [], [].
  split; [constructor|]. split; [eapply peirce_clear_inv; exact D2|].
  split; [eapply fir_reset_inv; exact D3|]. split; [constructor|]. split; reflexivity.
Qed.
Lemma mrep_reset : forall g moms ops sets ns nr m, mrep g moms ops sets ns nr m ->
  mrep g moms [] [] ns nr (reset_m m).
Proof.
  intros g moms ops sets ns nr m [A [B [C [D E]]]]. split; [constructor|]. split; [reflexivity|].
  split; [eapply frep_reset; exact C|]. split; assumption.
Qed.
Lemma mrep_moms : forall g moms moms' ops sets ns nr m, (forall x, In x moms -> In x moms') ->
  mrep g moms ops sets ns nr m -> mrep g moms' ops sets ns nr m.
Proof.
  intros g moms moms' ops sets ns nr m I [A [B [C [D E]]]]. split; [exact A|]. split; [exact B|].
  split; [eapply frep_moms; eassumption|]. split; assumption.
Qed.
Lemma mrep_tsd0 : forall g moms ops sets ns nr m, mrep g moms ops sets ns nr m ->
  mrep g moms [] sets ns nr (set_tsd m TsdModel.tsd_init).
Proof.
  intros g moms ops sets ns nr m [A [B [C [D E]]]]. split; [constructor|]. split; [reflexivity|].
  split; [exact C|]. split; assumption.
Qed.

Lemma moments_app : forall a b, moments (a ++ b) = moments a ++ moments b.
Proof. intros. apply flat_map_app. Qed.

Lemma timeout_range : forall n si, 10 <= filter_timeout n si <= 20.
Proof.
  intros n si. unfold filter_timeout. set (t := Qtrunc _). clearbody t. cbv zeta.
  destruct (t <? 10) eqn:A; [lia|]. destruct (20 <? t) eqn:B; lia.
Qed.

Lemma pow2_pos : forall n, (0 < Qpower (inject_Z 2) n)%Q.
Proof.
  intros n. assert (A : (0 <= Qpower (inject_Z 2) n)%Q) by (apply Qpower_pos; discriminate).
  assert (B : ~ (Qpower (inject_Z 2) n == 0)%Q) by (apply Qpower_not_0; intros X; discriminate X).
  lra.
Qed.

Lemma init_ok : forall o gain c k os1 os2 s ev l, servo_init o gain c k os1 os2 = Some (s, ev) ->
  (0 < o_fir o)%nat -> clock_ok k ->
  exists kp ki, fst (fst gain) = Some kp /\ snd (fst gain) = Some ki /\
    rep (conf_of o) l (view0 c (k_corr k) kp ki (k_max k)) s /\ i_term (q_pid (p_c s)) = 0%Q /\ p_gain s = gain /\ p_opts s = o /\
    p_clock s = c /\
    exists ev1 ev2, ev = ev1 ++ ev2 /\ freq_request k c (k_corr k) ev1 /\ freq_request k c (k_corr k) ev2.
Proof.
  intros o gain c k os1 os2 s ev l H FP WK. destruct gain as [[gp gi] gd]. unfold servo_init in H.
  destruct (small_create _ _ _) as [sm|] eqn:E1; cbn [bind] in H; [|discriminate].
  destruct (peirce_create _ _) as [pe|] eqn:E2; cbn [bind] in H; [|discriminate].
  destruct (fir_init _ _) as [fi|] eqn:E3; cbn [bind] in H; [|discriminate].
  destruct gp as [kp|]; cbn [bind] in H; [|discriminate].
  destruct gi as [ki|]; cbn [bind] in H; [|discriminate].
  destruct gd as [kd|]; cbn [bind] in H; [|discriminate].
  unfold set_slave_clock in H. rewrite reset_freq_eq in H.
  cbn [p_opts p_gain p_clock p_ts p_cc p_m p_c q_pid q_first q_aclus q_steps] in H.
  destruct (pid_set_i_max _ _) as [f|] eqn:E4; cbn [bind] in H; [|discriminate].
  unfold servo_reset in H. rewrite reset_freq_eq in H. injection H as <- <-.
  exists kp, ki. do 2 (split; [reflexivity|]).
  unfold pid_set_i_max in E4. destruct (Qle_bool 0 (k_max k)); [|discriminate]. injection E4 as <-.
  split.
  { split; [reflexivity|]. split; [exact FP|]. do 3 (split; [reflexivity|]).
    split.
    { split; [constructor|]. split; [reflexivity|]. split; [|split; reflexivity].
      apply frep_reset with (sets := []) (m := mkM TsdModel.tsd_init sm pe fi 0 0 0 0).
      unfold small_create in E1. destruct ((0 <? o_smax o)%nat && (0 <? filter_timeout (o_smax o) (o_si o))) eqn:B1; [|discriminate].
      injection E1 as <-. destruct (peirce_create_inv _ _ _ E2) as [PI [P1 P2]].
      assert (FI : fir_inv fi [] /\ f_stiff fi = o_fir o).
      { assert (LE : (o_fir o <= FIR_MAX)%nat).
        { unfold fir_init in E3. destruct (o_fir o <=? FIR_MAX)%nat eqn:X; [lia|discriminate]. }
        destruct (fir_init_inv (repeat 0%Q FIR_MAX) (o_fir o)) as [fi' [X1 [X2 X3]]]; [lia|apply repeat_length|].
        rewrite E3 in X1. injection X1 as <-. auto. }
      destruct FI as [FI FS].
      pose proof (timeout_range (o_smax o) (o_si o)) as TR.
      split.
      { unfold conf_of. cbn [m_small q_max q_ageing q_timeout m_peirce m_fir c_smax c_ageing c_timeout c_pmax c_weight c_table c_pmin c_fir].
        repeat split; auto; lia. }
      split.
      { exists []. split; [|constructor]. unfold small_inv; cbn [m_small q_max q_data q_num q_widx].
        split; [lia|]. split; [apply repeat_length|]. apply ring_inv_init. rewrite repeat_length. lia. }
      split; [intros d []|]. exists [], [], []. cbn [m_peirce m_fir m_ofm m_mpd].
      split; [constructor|]. split; [exact PI|]. split; [exact FI|]. split; [constructor|]. split; reflexivity. }
    unfold crep. cbn. pose proof (pow2_pos (o_si o)).
    repeat split; auto; try apply sane_null; intros x X; injection X as <-; reflexivity. }
  do 4 (split; [reflexivity|]).
  eexists _, _. split; [reflexivity|]. split; apply adjust_frequency_request; exact WK.
Qed.

Lemma nondecreasing_last : forall l x y, nondecreasing (l ++ [y]) -> In x l -> (instant (s_mono x) <= instant (s_mono y))%Z.
Proof.
  intros l x y H I. apply in_split in I as [l1 [l2 ->]]. apply (H l1 x l2 y []).
  rewrite <- app_assoc. reflexivity.
Qed.

(** one call *)
Lemma call_ok : forall rd g l v s o s' e, FltSpec.rounding rd -> rep g l v s -> hist_ok (l ++ [o]) ->
  call rd s o = Some (s', e) ->
  rep g (l ++ [o]) (view_step g v o e) s' /\
  acts g v o e (i_term (q_pid (p_c s))) (i_term (q_pid (p_c s'))) (q_adj (p_c s')) (q_aclus (p_c s')).
Proof.
  intros rd g l v s o s' e RD [RG [RF [RT [RC [RK [RM RQ]]]]]] [HO HN] H.
  assert (OK : op_ok o) by (apply Forall_app in HO as [_ HO]; inversion HO; assumption).
  assert (IM : forall x, In x (moments l) -> In x (moments (l ++ [o]))) by (intros x Hx; rewrite moments_app; apply in_or_app; left; exact Hx).
  pose proof (mrep_moms _ _ _ _ _ _ _ _ IM RM) as RM1.
  destruct o as [m u|t cc w|off w os1 os2|w os|c w os|t|kp ki kd r| |w os1 os2].
  - (* Give *)
    destruct OK as [OK1 [OK2 OK3]]. cbn [call] in H. cbn [view_step acts].
    destruct (provide_ok g (moments (l ++ [Give m u])) (w_ops v) (w_sets v) (w_samples v) (w_rejected v)
               (p_m s) (p_ts s) m RM1 OK1) as [m1 [acc [PR DT]]].
    { intros n G. rewrite moments_app in *. unfold moments at 2 in HN. unfold moments at 2 4. cbn [flat_map] in *. rewrite G in *. cbn [app] in *.
      split; [apply in_or_app; right; left; reflexivity|].
      intros x Hx. apply in_app_or in Hx as [Hx|[<-|[]]]; [|cbn; lia].
      apply (nondecreasing_last _ _ _ HN Hx). }
    rewrite PR in H. cbn [bind] in H. rewrite RT in *.
    assert (CLK : p_clock (with_m s m1) = w_clock v) by exact RK.
    destruct (from_master m && acc) eqn:FA.
    + apply andb_prop in FA as [FA1 ->].
      destruct (servo_update_clock rd (with_m s m1) u) as [[[[s2 ev] st] lk]|] eqn:UC; cbn [bind] in H; [|discriminate].
      injection H as <- <-.
      destruct (update_clock_ok rd g v (with_m s m1) u s2 ev st lk) as
        [ST [CL [Q1 [Q2 [Q3 [Q4 [Q5 [Q6 [Q7 [Q8 [Q9 [Q10 [Q11 [Q12 [Q13 [Q14 [Q15 Q16]]]]]]]]]]]]]]]]]; auto.
      destruct (completes (w_ts v) (w_ops v) m) as [d|] eqn:CO; [|destruct DT as [X _]; discriminate].
      destruct DT as [MR [c [y [ys [accd [CH [RE [CC [JU RE']]]]]]]]].
      assert (WT : w_ts v = true) by (unfold completes in CO; destruct (w_ts v); [reflexivity|discriminate]).
      destruct RQ as [R1 [R2 [R3 [R4 [R5 [R6 [R7 [R8 [R9 [R10 [R11 R12]]]]]]]]]]].
      cbn [with_m p_c p_cc p_m p_opts p_gain p_clock p_ts] in *.
      split.
      * unfold rep, taken. rewrite CO, WT. cbn [e_acc e_stepped]. rewrite FA1. cbn [andb negb b2z] in *.
        assert (CR : crep (mkView (w_ts v) (w_cc v) (w_clock v) [] [] (w_moved v || (w_cc v && negb (u_out u)))
                    (if st then k_corr (u_w u (w_clock v)) else w_corr v) (w_kp v) (w_ki v) (w_max v) (w_steps v + b2z st) 0 0)
                  (p_c s2) (p_gain s2)).
        { unfold crep. cbn [w_corr w_kp w_ki w_max w_moved w_steps]. rewrite Q7, Q8, Q9, Q10, Q2, Q13, Q14, Q15, R3, RK, RC, R1, R2, R4.
          split; [reflexivity|]. split; [reflexivity|]. split; [reflexivity|].
          split; [unfold u32; rewrite Z.add_mod_idemp_l by lia; reflexivity|].
          split; [exact Q11|]. split; [exact Q12|]. split; [exact R7|]. auto 10. }
        rewrite Q1, Q3, Q4, Q5, Q6.
        split; [exact RG|]. split; [exact RF|]. 
        destruct st; cbn [clean w_ts w_cc w_clock w_ops w_sets w_samples w_rejected].
        -- split; [congruence|]. split; [exact RC|]. split; [exact RK|].
           split; [eapply mrep_reset; exact MR|]. exact CR.
        -- split; [congruence|]. split; [exact RC|]. split; [exact RK|].
           split; [exact MR|]. exact CR.
      * exists ys, accd, c, y. split; [exact CH|]. split; [exact CC|]. split; [exact JU|].
        cbn [e_acc]. rewrite FA1. cbn [andb]. split; [discriminate|]. intros _. split; [exact CL|].
        eexists _, _. split; [exact RE'|]. exact ST.
    + injection H as <- <-. cbn [e_acc].
      assert (CR : crep (taken v m u (mkEntry [] acc false false)) (p_c s) (p_gain s)).
      { unfold taken. cbn [e_stepped e_acc]. destruct RQ as [R1 [R2 [R3 [R4 R5]]]].
        unfold crep. cbn [w_corr w_kp w_ki w_max w_moved w_steps b2z]. rewrite Z.add_0_r, FA. cbn [andb]. rewrite orb_false_r.
        split; [exact R1|]. split; [exact R2|]. split; [exact R3|]. split; [exact R4|exact R5]. }
      destruct (completes (w_ts v) (w_ops v) m) as [d|] eqn:CO.
      * destruct DT as [MR [c [y [ys [accd [CH [RE [CC [JU RE']]]]]]]]].
        assert (WT : w_ts v = true) by (unfold completes in CO; destruct (w_ts v); [reflexivity|discriminate]).
        split.
        -- split; [exact RG|]. split; [exact RF|]. revert CR. unfold taken. rewrite CO. cbn [e_stepped e_acc].
           intros CR. rewrite WT. cbn [with_m p_ts p_cc p_clock p_m p_c p_gain w_ts w_cc w_clock w_ops w_sets w_samples w_rejected].
           split; [congruence|]. split; [exact RC|]. split; [exact RK|]. split; [exact MR|].
           rewrite WT in CR. exact CR.
        -- exists ys, accd, c, y. split; [exact CH|]. split; [exact CC|]. split; [exact JU|].
           split; [intros _; split; [repeat split|reflexivity]|]. rewrite andb_comm, FA. discriminate.
      * destruct DT as [-> [E1 [E2 MR]]]. split.
        -- split; [exact RG|]. split; [exact RF|]. revert CR. unfold taken. rewrite CO. cbn [e_stepped e_acc].
           intros CR. cbn [with_m p_ts p_cc p_clock p_m p_c p_gain w_ts w_cc w_clock w_ops w_sets w_samples w_rejected].
           split; [exact RT|]. split; [exact RC|]. split; [exact RK|]. split; [rewrite !Z.add_0_r; exact MR|]. exact CR.
        -- split; [reflexivity|]. split; [repeat split|reflexivity].
  - (* Control *)
    cbn [call] in H. injection H as <- <-.
    split; [|split; [repeat split|unfold servo_control; cbn [p_c]; rewrite RC; destruct (w_cc v && negb cc); reflexivity]].
    destruct RQ as [R1 [R2 [R3 [R4 [R5 [R6 [R7 [R8 [R9 [R10 [R11 R12]]]]]]]]]]].
    unfold rep, servo_control. cbn [view_step p_opts p_gain p_clock p_ts p_cc p_m p_c w_ts w_cc w_clock w_ops w_sets w_samples w_rejected].
    split; [exact RG|]. split; [exact RF|]. do 2 (split; [reflexivity|]). split; [exact RK|].
    split.
    { rewrite RT. destruct (w_ts v && negb t); [eapply mrep_tsd0; exact RM1|exact RM1]. }
    unfold crep. cbn [w_corr w_kp w_ki w_max w_moved w_steps]. rewrite RC, RK.
    destruct (w_cc v && negb cc); cbn; repeat split; auto; try apply sane_null; apply R6.
  - (* StepUser *)
    destruct OK as [OK1 OK2]. cbn [call] in H.
    destruct (servo_step_clock s (w (p_clock s)) off os1 os2) as [[[s1 ev] b]|] eqn:SC; cbn [bind] in H; [|discriminate].
    injection H as <- <-. cbn [acts e_ev e_stepped e_locked].
    assert (CG : c_ctrl g = o_ctrl (p_opts s)) by (rewrite <- RG; reflexivity).
    apply step_clock_eq in SC. cbn [view_step]. rewrite CG, <- RK.
    destruct SC as [[SC [-> [-> ->]]]|[SC [-> [neg [NG [-> ->]]]]]].
    + rewrite SC. split; [|split; [intros _; split; [repeat split|reflexivity]|intros X; congruence]].
      split; [exact RG|]. split; [exact RF|]. split; [exact RT|]. split; [exact RC|]. split; [exact RK|].
      split; [exact RM1|exact RQ].
    + destruct RQ as [R1 [R2 [R3 [R4 [R5 [R6 [R7 [R8 [R9 [R10 [R11 R12]]]]]]]]]]]. split.
      * assert (X : rep g (l ++ [StepUser off w os1 os2])
           (mkView (w_ts v) (w_cc v) (w_clock v) [] [] (w_moved v) (k_corr (w (p_clock s))) (w_kp v) (w_ki v) (w_max v) (w_steps v + 1) (w_samples v) (w_rejected v))
           (mkPsv (p_opts s) (p_gain s) (p_clock s) (p_ts s) (p_cc s) (reset_m (p_m s))
             (mkC (pid_reset (pid_reset (q_pid (p_c s)))) (k_corr (w (p_clock s))) (k_corr (w (p_clock s))) (q_first (p_c s))
                (negb (snd (adjust_frequency (w (p_clock s)) (p_clock s) (k_corr (w (p_clock s))) os2) =? 0)) (q_aclus (p_c s))
                (u32 (q_steps (p_c s) + 1))))).
        { unfold rep. cbn. split; [exact RG|]. split; [exact RF|]. split; [exact RT|]. split; [exact RC|]. split; [exact RK|].
          split; [eapply mrep_reset; exact RM1|]. unfold crep. cbn. rewrite R4, u32_S. repeat split; auto; apply sane_null. }
        destruct (o_ctrl (p_opts s)); try congruence; exact X.
      * split; [intros X; congruence|]. intros _. split; [reflexivity|]. split; [reflexivity|]. split; [reflexivity|].
        apply step_request_ok; [apply OK2|].
        destruct OK1 as [N1 N2]. rewrite (negate_instant off neg N1 ltac:(lia) NG), ns_of_opp.
        setoid_replace (- TsdSpec.ns_of (instant off) - - TsdSpec.ns_of (instant off))%Q with 0%Q by ring.
        discriminate.
  - (* ResetServo *)
    cbn [call] in H. unfold servo_reset in H. rewrite reset_freq_eq in H. injection H as <- <-.
    destruct RQ as [R1 [R2 [R3 [R4 [R5 [R6 [R7 [R8 [R9 [R10 [R11 R12]]]]]]]]]]].
    cbn. rewrite <- RK. split.
    + unfold rep. cbn. split; [exact RG|]. split; [exact RF|]. split; [exact RT|]. split; [exact RC|]. split; [exact RK|].
      split; [eapply mrep_reset; exact RM1|]. unfold crep. cbn. repeat split; auto; apply sane_null.
    + do 3 (split; [reflexivity|]). apply adjust_frequency_request. apply OK.
  - (* SetClock *)
    cbn [call] in H. unfold set_slave_clock in H. rewrite reset_freq_eq in H.
    cbn [p_opts p_gain p_clock p_ts p_cc p_m p_c q_pid q_first q_aclus q_steps] in H.
    destruct (pid_set_i_max _ _) as [f|] eqn:E4; cbn [bind fst snd] in H; [|discriminate].
    unfold pid_set_i_max in E4. destruct (Qle_bool 0 (k_max (w c))); [|discriminate]. injection E4 as <-.
    injection H as <- <-. destruct RQ as [R1 [R2 [R3 [R4 [R5 [R6 [R7 [R8 [R9 [R10 [R11 R12]]]]]]]]]]].
    cbn. split.
    + unfold rep. cbn. split; [exact RG|]. split; [exact RF|]. split; [exact RT|]. split; [exact RC|]. split; [reflexivity|].
      split; [exact RM1|]. unfold crep. cbn. repeat split; auto; apply sane_null.
    + do 3 (split; [reflexivity|]). apply adjust_frequency_request. apply OK.
  - (* SetInterval *)
    cbn [call] in H. destruct (pid_set_interval _ _) as [f|] eqn:E4; cbn [bind] in H; [|discriminate].
    unfold pid_set_interval in E4. destruct (Qlt_bool 0 t) eqn:T0; [|discriminate]. apply Qlt_bool_iff in T0. injection E4 as <-. injection H as <- <-.
    destruct RQ as [R1 [R2 [R3 [R4 [R5 [R6 [R7 [R8 [R9 [R10 [R11 R12]]]]]]]]]]].
    split; [|split; [repeat split|reflexivity]]. cbn. unfold rep. cbn.
    split; [exact RG|]. split; [exact RF|]. split; [exact RT|]. split; [exact RC|]. split; [exact RK|].
    split; [exact RM1|]. unfold crep. cbn. repeat split; auto; apply R6.
  - (* PidAdjust *)
    cbn [call] in H. injection H as <- <-.
    destruct RQ as [R1 [R2 [R3 [R4 [R5 [R6 [R7 [R8 [R9 [R10 [R11 R12]]]]]]]]]]].
    split; [|split; [repeat split|destruct r; reflexivity]]. cbn [view_step]. unfold rep.
    cbn [p_opts p_gain p_clock p_ts p_cc p_m p_c w_ts w_cc w_clock w_ops w_sets w_samples w_rejected].
    split; [exact RG|]. split; [exact RF|]. split; [exact RT|]. split; [exact RC|]. split; [exact RK|].
    split; [exact RM1|]. unfold crep, pid_adjust. destruct r; cbn; rewrite R2, R8.
    + repeat split; auto; try apply sane_null. all: intros x X; rewrite X; reflexivity.
    + repeat split; auto; try apply R6. all: intros x X; rewrite X; reflexivity.
  - (* ResetCounters *)
    cbn [call] in H. injection H as <- <-. destruct RQ as [R1 [R2 [R3 [R4 [R5 [R6 [R7 [R8 [R9 [R10 [R11 R12]]]]]]]]]]].
    split; [|split; [repeat split|reflexivity]]. cbn. unfold rep. cbn.
    split; [exact RG|]. split; [exact RF|]. split; [exact RT|]. split; [exact RC|]. split; [exact RK|].
    destruct RM1 as [M1 [M2 [M3 _]]].
    split; [split; [exact M1|]; split; [exact M2|]; split; [exact M3|split; reflexivity]|].
    unfold crep. cbn. repeat split; auto; apply R6.
  - (* Restart *)
    cbn [call] in H. destruct (servo_init _ _ _ _ _ _) as [[s1 ev]|] eqn:SI; cbn [bind fst snd] in H; [|discriminate].
    injection H as <- <-.
    destruct (init_ok _ _ _ _ _ _ _ _ (l ++ [Restart w os1 os2]) SI RF) as [kp [ki [G1 [G1' [RP [G0 [G2 [G3 [G4 EV]]]]]]]]]; [apply OK|].
    destruct RQ as [_ [_ [_ [_ [_ [_ [R7 [_ [_ [_ [_ R12]]]]]]]]]]]. specialize (R7 _ G1). specialize (R12 _ G1'). subst kp ki.
    rewrite RG, RK in RP. cbn [view_step acts e_ev e_stepped e_locked]. rewrite RK in EV.
    split; [exact RP|]. do 2 (split; [reflexivity|]). split; [exact G0|]. exact EV.
Qed.
