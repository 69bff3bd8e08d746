(** Proofs about the PPS module: runs, what the engine is told, definedness. *)
Require Import ZArith QArith Qminmax List Bool Arith Lia Lqa.
Require Import Verif.Base Verif.TimeSpec Verif.TimeModel Verif.TimeProof Verif.QLib Verif.ListLib Verif.SrvSpec
  Verif.FilterSpec Verif.FilterModel Verif.FilterProof Verif.StatsModel Verif.PpsSpec Verif.PpsModel Verif.PpsProof.
Require Verif.FltModel Verif.FltSpec Verif.FltProof Verif.PsvModel Verif.PsvProof.
Import ListNotations.
Open Scope Z_scope.



Lemma tolds_none : forall l, tolds l ->
  existsb is_step l = false /\ existsb is_report l = false /\ existsb is_act l = false.
Proof.
  induction l as [|o l IH]; intros H; [auto|]. inversion H; subst. destruct (IH H3) as [A [B C]].
  destruct o; try discriminate. cbn. auto.
Qed.
Lemma pulsed_app : forall g v p seq t hs tl, tolds tl -> pulsed g v p seq t (hs ++ tl) = pulsed g v p seq t hs.
Proof.
  intros g v p seq t hs tl H. destruct (tolds_none _ H) as [A [B C]].
  unfold pulsed. rewrite !existsb_app, A, B, C, !orb_false_r. reflexivity.
Qed.

Lemma rest_tolds : forall a av n a' outs, rest a av n = Some (a', outs) -> tolds outs.
Proof.
  intros a av n a' outs E. unfold rest in E. bnd E a2 E1. injection E as _ <-.
  destruct (_ || _); repeat constructor.
Qed.
(** Alarms after the rest of a poll. *)
Lemma rest_facts : forall a av n a' outs, rest a av n = Some (a', outs) ->
  a_al a' = (match av with Some ok => al_set_day (a_al a) (negb ok) | None => a_al a end) /\
  a_state a' = a_state a /\ a_prev a' = a_state a /\ a_pal a' = a_al a' /\ a_offset a' = a_offset a /\ a_ts a' = a_ts a.
Proof.
  intros a av n a' outs E. unfold rest in E. bnd E a2 E1. injection E as <- _. aproj.
  assert (C : forall x y, converge x n = Some y -> a_al y = a_al x /\ a_state y = a_state x /\ a_offset y = a_offset x /\ a_ts y = a_ts x).
  { intros x y H. unfold converge in H. destruct n as [t|]; [|injection H as <-; aproj; auto].
    destruct (a_state x) eqn:ST; try (injection H as <-; aproj; auto).
    destruct (_ || _); [injection H as <-; auto|]. bnd H r H1. injection H as <-. aproj. auto. }
  destruct (C _ _ E1) as [C1 [C2 [C3 C4]]]. destruct av; aproj; rewrite C1, C2, C3, C4; auto 8.
Qed.

Definition result (g : conf) (v : view) (o : iop) (outs : list out) : Prop :=
  match o with
  | Poll p =>
      exists hs tl, outs = hs ++ tl /\ tolds tl /\
        match i_got p with
        | Pulse seq t => heard peirce_table PEIRCE_MIN g v p t hs
        | _ => hs = []
        end
  | StepBy off corr => exists b, outs = [Step b; Freq corr; TellDay] /\ instant b = - instant off
  | _ => outs = []
  end.

Lemma istep_ok : forall g a v o a' outs, conf_ok g -> R g a v -> op_ok o -> istep g a o = Some (a', outs) ->
  R g a' (view_step g v o outs) /\ result g v o outs.
Proof.
  intros g a v o a' outs CO H OK E. destruct o as [p|now|now|tp cc|off corr|kp ki kd rs]; cbn [istep] in E.
  - unfold poll in E. bnd E r E1. bnd E s E2. injection E as <- <-. destruct r as [a1 o1], s as [a2 o2]. cbn [fst snd] in *.
    pose proof (rest_tolds _ _ _ _ _ E2) as TL. cbn [view_step result op_ok] in *. unfold on_got in E1.
    destruct OK as [OK1 [OK2 OK3]].
    destruct (i_got p) as [seq t| |].
    + destruct OK1 as [NT _]. destruct (pulse_ok g a v p seq t a1 o1 CO H NT OK2 OK3 E1) as [R1 [_ [_ [_ [_ HD]]]]].
      destruct (R_rest _ _ _ _ _ _ _ R1 E2) as [R2 _]. rewrite pulsed_app by exact TL.
      split; [exact R2|]. exists o1, o2. auto.
    + bnd E1 x E3. injection E1 as <- <-. destruct (R_nothing _ _ _ _ _ H OK2 E3) as [R1 _].
      destruct (R_rest _ _ _ _ _ _ _ R1 E2) as [R2 _]. split; [exact R2|]. exists [], o2. auto.
    + injection E1 as <- <-. destruct (R_rest _ _ _ _ _ _ _ (R_error _ _ _ H) E2) as [R2 _].
      split; [exact R2|]. exists [], o2. auto.
  - bnd E a1 E1. injection E as <- <-. split; [|reflexivity]. exact (proj1 (R_nothing _ _ _ _ _ H OK E1)).
  - bnd E a1 E1. injection E as <- <-. split; [|reflexivity]. cbn [view_step]. unfold check in E1.
    assert (K : forall x s e, R g x v -> R g (set_started x s e) v).
    { intros x s e [A1 A2 A3 A4 A5 A6 A7 A8 A9 A10 A11 A12 A13 A14 A15 A16 A17]. constructor; aproj; auto. }
    destruct (a_started a) as [s|]; [|injection E1 as <-; apply K, H].
    destruct (a_expired a); [injection E1 as <-; exact H|]. bnd E1 iv E2. bnd E1 gg E3.
    destruct gg; injection E1 as <-; [|exact H].
    destruct (_ <? _); [apply R_set_al; [apply K, H|reflexivity]|apply K, H].
  - injection E as <- <-. split; [|reflexivity]. cbn [view_step]. unfold on_control.
    destruct H as [A1 A2 A3 A4 A5 A6 A7 A8 A9 A10 A11 A12 A13 A14 A15 A16 A17].
    assert (PR : periods (if v_ts v && negb tp then gap_head (v_pulses v) else v_pulses v) = periods (v_pulses v)).
    { destruct (v_ts v && negb tp); [|reflexivity]. destruct (v_pulses v) as [|q [|q2 r]]; reflexivity. }
    assert (SS : forall s c i, stepped (mkView tp c (v_state v) (if v_ts v && negb tp then gap_head (v_pulses v) else v_pulses v)
             (v_pend v) (v_last v) (v_seq v) (v_period v) (v_xs v) (v_diffs v) (v_acted v) (v_base v) (v_kp v) (v_ki v) i) = s <-> stepped v = s).
    { intros s c i. unfold stepped; vproj. destruct (v_ts v && negb tp); [|tauto]. destruct (v_pulses v); cbn; tauto. }
    set (v1 := mkView tp cc _ _ _ _ _ _ _ _ _ _ _ _ _) in *.
    assert (S1 : stepped v1 = stepped v) by (apply SS; reflexivity).
    set (a1 := if a_cc a && negb cc then _ else a).
    assert (F : a_ts a1 = a_ts a /\ a_state a1 = a_state a /\ a_last a1 = a_last a /\ a_seq a1 = a_seq a /\ a_step a1 = a_step a /\
                a_time a1 = a_time a /\ a_good a1 = a_good a /\ a_al a1 = a_al a /\ a_period a1 = a_period a /\ a_peirce a1 = a_peirce a /\
                a_fir a1 = a_fir a /\ a_offset a1 = a_offset a /\ a_active a1 = a_active a /\ a_base a1 = a_base a).
    { unfold a1. destruct (a_cc a && negb cc); aproj; auto 20. }
    destruct F as [F1 [F2 [F3 [F4 [F5 [F6 [F7 [F8 [F9 [F10 [F11 [F12 [F13 F14]]]]]]]]]]]]].
    assert (PI : pids g (a_pid a1) (v_kp v) (v_ki v) (if v_cc v && negb cc then 0%Q else v_int v)).
    { unfold a1. rewrite A2. destruct (v_cc v && negb cc); aproj; [|exact A16].
      destruct A16 as [P1 [P2 [P3 [P4 P5]]]]. split; [|split; [exact P2|split; [exact P3|split; [exact P4|reflexivity]]]].
      eapply (pid_step_inv _ _ PReset); [exact (proj1 CO)|exact P1|reflexivity]. }
    assert (TT : time_ok v1 (a_time (if a_ts a1 && negb tp then set_time a1 null_time else a1))).
    { intros X. rewrite S1 in X. specialize (A7 X). rewrite F1, A1. unfold v1; vproj.
      destruct (v_ts v && negb tp); aproj; [|rewrite F6; exact A7].
      destruct (v_pulses v); reflexivity. }
    assert (NF : Forall (fun p => normal (u_time p)) (v_pulses v1)).
    { unfold v1; vproj. destruct (v_ts v && negb tp); [|exact A8]. destruct A8; constructor; assumption. }
    destruct (a_ts a1 && negb tp); constructor; aproj; unfold v1; vproj; rewrite ?PR; try congruence; auto.
    all: try (rewrite F5, A6; symmetry; exact S1). all: try (rewrite F3; exact A4). all: try (rewrite F9; exact A11).
    all: try (rewrite F10; exact A12). all: try (rewrite F11, F12; exact A13). all: try (rewrite F14; exact A15).
    all: intros X; rewrite (A17 X); destruct (v_ts v && negb tp); reflexivity.
  - cbn [istep] in E. unfold step_clock in E. bnd E ng E1. injection E as <- <-.
    destruct (subtract_exact _ _ _ normal_null OK E1) as [_ I3].
    split; [|exists ng; split; [reflexivity|rewrite I3; unfold instant, null_time; cbn [sec nsec frac]; lia]].
    cbn [view_step].
    destruct H as [A1 A2 A3 A4 A5 A6 A7 A8 A9 A10 A11 A12 A13 A14 A15 A16 A17].
    assert (PR : periods (step_head (v_pulses v)) = periods (v_pulses v)) by (destruct (v_pulses v) as [|q [|q2 r]]; reflexivity).
    constructor; aproj; vproj; rewrite ?PR; auto; try reflexivity.
    + unfold stepped; vproj. destruct (v_pulses v); reflexivity.
    + intros X. unfold stepped in X; vproj. destruct (v_pulses v); discriminate.
    + destruct A8; constructor; assumption.
    + destruct A13 as [B1 [[h [B2 B3]] B4]]. split; [exact B1|]. split; [|reflexivity]. exists [].
      split; [eapply fir_reset_inv; exact B2|constructor].
    + destruct A16 as [P1 [P2 [P3 [P4 P5]]]]. split; [|split; [exact P2|split; [exact P3|split; [exact P4|reflexivity]]]].
      eapply (pid_step_inv _ _ PReset); [exact (proj1 CO)|exact P1|reflexivity].
    + intros X. rewrite (A17 X). reflexivity.
  - injection E as <- <-. split; [|reflexivity]. cbn [view_step].
    destruct H as [A1 A2 A3 A4 A5 A6 A7 A8 A9 A10 A11 A12 A13 A14 A15 A16 A17].
    constructor; aproj; vproj; auto.
    destruct A16 as [P1 [P2 [P3 [P4 P5]]]].
    assert (PV : pid_inv (g_max g) (pid_adjust (a_pid a) kp ki kd rs)).
    { eapply (pid_step_inv _ _ (PAdjust kp ki kd rs)); [exact (proj1 CO)|exact P1|reflexivity]. }
    split; [exact PV|]. clear PV. unfold pid_adjust.
    destruct rs; cbn [pid_reset k_p k_i i_term conf_interval]; destruct kp, ki; repeat split; try reflexivity; assumption.
Qed.

Lemma irun_ok : forall g l a v a' log, conf_ok g -> R g a v -> Forall op_ok l -> irun g a l = Some (a', log) ->
  R g a' (view_of g v l log).
Proof.
  intros g l. induction l as [|o l IH]; intros a v a' log CO H OK E; cbn [irun] in E.
  - injection E as <- <-. exact H.
  - bnd E x E1. bnd E y E2. injection E as <- <-. inversion OK; subst. destruct x as [a1 o1], y as [a2 o2]. cbn [fst snd] in *.
    cbn [view_of]. eapply IH; eauto. eapply istep_ok; eauto.
Qed.

Lemma start_R : forall g b a, conf_ok g -> List.length (b_junk b) = FIR_MAX ->
  start g b = Some (0, Some a) -> R g a (view0 (b_corr b) (b_kp b) (b_ki b)).
Proof.
  intros g b a [C1 C2] J E. unfold start in E. bnd E cv E1.
  destruct (negb (b_stats b =? 0)) eqn:ST; [injection E as E _; lia|].
  bnd E n E2. bnd E f E3. bnd E pc E4.
  assert (FI : (g_fir g <= FIR_MAX)%nat).
  { unfold fir_init in E3. destruct (g_fir g <=? FIR_MAX)%nat eqn:L; [lia|discriminate]. }
  destruct (fir_init_inv (b_junk b) (g_fir g) (conj C2 FI) J) as [f' [F1 [F2 F3]]]. rewrite F1 in E3. injection E3 as <-.
  assert (OU : forall pf, pc = Some pf -> outl g pf []).
  { intros pf ->. unfold outl. destruct (g_out g) as [[n0 w]|].
    - destruct (b_alloc b); [|discriminate]. bnd E4 x E5. injection E4 as <-.
      destruct (peirce_create_inv _ _ _ E5) as [X1 [X2 X3]]. split; [exact X2|]. split; [exact X3|]. exists []. split; [constructor|exact X1].
    - injection E4 as <-. exact I. }
  destruct pc as [pf|]; [|discriminate]. specialize (OU pf eq_refl).
  destruct (negb (b_clock b =? 0)); [discriminate|]. bnd E p1 E5. injection E as <-.
  unfold pid_set_i_max in E5. destruct (Qle_bool 0 (g_max g)) eqn:Q0; [|discriminate]. injection E5 as <-.
  constructor; aproj; unfold view0; vproj; auto; try reflexivity.
  - split; [reflexivity|apply normal_null].
  - intros _. reflexivity.
  - eapply outl_clear. exact OU.
  - split; [exact F3|]. split; [|reflexivity]. exists []. split; [eapply fir_reset_inv; exact F2|constructor].
  - unfold pid_init, pid_reset; cbn [k_p k_i k_d conf_interval avg_interval last_update i_max p_term i_term d_term freq_adjust].
    split; [|cbn [k_p k_i conf_interval i_term]; repeat split; reflexivity].
    unfold pid_inv; cbn [i_max i_term d_term conf_interval avg_interval]. repeat split; try reflexivity; lra.
Qed.

Lemma live_ok : forall g b l a log, conf_ok g -> List.length (b_junk b) = FIR_MAX -> Forall op_ok l ->
  live g b l = Some (a, log) -> R g a (view_of g (view0 (b_corr b) (b_kp b) (b_ki b)) l log).
Proof.
  intros g b l a log CO J OK E. unfold live in E. bnd E r E1. destruct r as [z [a0|]]; destruct z; try discriminate.
  eapply irun_ok; eauto. apply start_R; assumption.
Qed.

(** ** What the engine is told *)
Definition T (a : inst) (k : st * bool) : Prop :=
  match a_prev a with
  | LISTENING => True
  | SLAVE => k = (SLAVE, negb (quiet (a_pal a)))
  | FAULTY => fst k = FAULTY
  end.
Lemma told_app : forall k l l', told_of k (l ++ l') = told_of (told_of k l) l'.
Proof. intros. unfold told_of. apply fold_left_app. Qed.
Lemma told_none : forall l k, existsb is_told l = false -> told_of k l = k.
Proof.
  induction l as [|o l IH]; intros k H; [reflexivity|]. cbn in H. apply orb_false_iff in H as [H1 H2].
  destruct o; try discriminate; cbn; apply IH; exact H2.
Qed.
Lemma st_eqb_eq : forall a b, st_eqb a b = true <-> a = b.
Proof. intros [] []; cbn; split; congruence. Qed.

Lemma rest_T : forall a av n a' outs k, T a k -> rest a av n = Some (a', outs) -> T a' (told_of k outs).
Proof.
  intros a av n a' outs k H E. unfold rest in E. bnd E a2 E1. injection E as <- <-. unfold T in *. aproj.
  assert (C : a_prev a2 = a_prev a /\ a_pal a2 = a_pal a).
  { unfold converge in E1. destruct n as [t|].
    2:{ injection E1 as <-; destruct av; aproj; auto. }
    destruct (a_state _) in E1; try (injection E1 as <-; destruct av; aproj; auto).
    destruct (_ || _) in E1; [injection E1 as <-; destruct av; aproj; auto|]. bnd E1 r E2. injection E1 as <-.
    destruct av; aproj; auto. }
  destruct C as [C1 C2]. rewrite <- C1, <- C2 in H.
  destruct (a_state a2) eqn:S.
  - exact I.
  - destruct (a_prev a2) eqn:P; cbn [st_eqb negb orb andb].
    + reflexivity.
    + destruct (Bool.eqb (quiet (a_al a2)) (quiet (a_pal a2))) eqn:Q; cbn [negb orb].
      * apply Bool.eqb_prop in Q. destruct (negb (a_score a2 =? a_pscore a2)); cbn; [reflexivity|]. rewrite Q. exact H.
      * reflexivity.
    + reflexivity.
  - destruct (a_prev a2) eqn:P; cbn [st_eqb negb orb andb].
    + reflexivity.
    + reflexivity.
    + destruct (negb (a_score a2 =? a_pscore a2)); cbn; [reflexivity|exact H].
Qed.
Lemma T_same : forall a a' k, a_prev a' = a_prev a -> a_pal a' = a_pal a -> T a k -> T a' k.
Proof. intros a a' k A B H. unfold T in *. rewrite A, B. exact H. Qed.
Lemma nothing_T : forall a now a' k, T a k -> on_nothing a now = Some a' -> T a' k.
Proof.
  intros a now a' k H E. unfold on_nothing in E. destruct (a_state a).
  - injection E as <-. exact H.
  - bnd E iv E1. bnd E t1 E2. destruct t1; [injection E as <-; exact I|]. bnd E t2 E3.
    destruct (_ && _); injection E as <-; exact H.
  - injection E as <-. exact I.
Qed.
Lemma istep_T : forall g a v o a' outs k, conf_ok g -> R g a v -> op_ok o -> T a k -> istep g a o = Some (a', outs) ->
  T a' (told_of k outs).
Proof.
  intros g a v o a' outs k CO H OK HT E. destruct o as [p|now|now|tp cc|off corr|kp ki kd rs]; cbn [istep] in E.
  - unfold poll in E. bnd E r E1. bnd E s E2. injection E as <- <-. destruct r as [a1 o1], s as [a2 o2]. cbn [fst snd] in *.
    rewrite told_app. eapply rest_T; [|exact E2]. unfold on_got in E1. destruct OK as [OK1 [OK2 OK3]].
    destruct (i_got p) as [seq t| |].
    + destruct OK1 as [NT _]. destruct (pulse_ok g a v p seq t a1 o1 CO H NT OK2 OK3 E1) as [_ [_ [P1 [P2 [P3 _]]]]].
      rewrite told_none by exact P3. eapply T_same; eauto.
    + bnd E1 x E3. injection E1 as <- <-. eapply nothing_T; eauto.
    + injection E1 as <- <-. unfold on_error. destruct (a_state a); try exact HT; exact I.
  - bnd E a1 E1. injection E as <- <-. eapply nothing_T; eauto.
  - bnd E a1 E1. injection E as <- <-. unfold check in E1. destruct (a_started a); [|injection E1 as <-; exact HT].
    destruct (a_expired a); [injection E1 as <-; exact HT|]. bnd E1 iv E2. bnd E1 gg E3. destruct gg; injection E1 as <-; [|exact HT].
    destruct (_ <? _); exact HT.
  - injection E as <- <-. eapply T_same; [| |exact HT]; unfold on_control;
      destruct (a_cc a && negb cc); aproj; destruct (a_ts a && negb tp); reflexivity.
  - unfold step_clock in E. bnd E ng E1. injection E as <- <-. exact HT.
  - injection E as <- <-. exact HT.
Qed.
Lemma irun_T : forall g l a v a' log k, conf_ok g -> R g a v -> Forall op_ok l -> T a k -> irun g a l = Some (a', log) ->
  T a' (told_of k (concat log)).
Proof.
  intros g l. induction l as [|o l IH]; intros a v a' log k CO H OK HT E; cbn [irun] in E.
  - injection E as <- <-. exact HT.
  - bnd E x E1. bnd E y E2. injection E as <- <-. inversion OK; subst. destruct x as [a1 o1], y as [a2 o2]. cbn [fst snd concat] in *.
    rewrite told_app. destruct (istep_ok _ _ _ _ _ _ CO H H2 E1) as [R1 _].
    apply (IH a1 (view_step g v o o1) a2 o2); auto. apply (istep_T g a v o); auto.
Qed.
Lemma start_T : forall g b a, start g b = Some (0, Some a) -> a_prev a = LISTENING.
Proof.
  intros g b a E. unfold start in E. bnd E cv E1.
  destruct (negb (b_stats b =? 0)); [discriminate|]. bnd E n E2. bnd E f E3. bnd E pc E4. destruct pc; [|discriminate].
  destruct (negb (b_clock b =? 0)); [discriminate|]. bnd E p1 E5. injection E as <-. reflexivity.
Qed.
