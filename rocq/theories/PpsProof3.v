(** Proofs about the PPS module: a run from sane inputs is defined; the time of day. *)
Require Import ZArith QArith Qminmax List Bool Arith Lia Lqa.
Require Import Verif.Base Verif.TimeSpec Verif.TimeModel Verif.TimeProof Verif.QLib Verif.ListLib Verif.SrvSpec
  Verif.FilterSpec Verif.FilterModel Verif.FilterProof Verif.StatsModel Verif.PpsSpec Verif.PpsModel Verif.PpsProof Verif.PpsProof2.
Require Verif.FltModel Verif.FltSpec Verif.FltProof Verif.PsvModel Verif.PsvProof.
Import ListNotations.
Open Scope Z_scope.

Lemma sane_ok : forall o, op_sane o -> op_ok o.
Proof.
  intros [p|n|n|x y|o c|a b c d] H; cbn in *; unfold sane in *; try tauto.
  destruct (i_got p); tauto.
Qed.

Record D (n : Z) (a : inst) : Prop := mkD {
  D_time : sane (a_time a);
  D_last : sane (a_last a);
  D_good : 0 <= a_good a <= n;
  D_conv : - 2^61 < c_start (a_conv a) < 2^61 /\ - 2^61 < c_min (a_conv a) < 2^61;
  D_started : match a_started a with Some s => sane s | None => True end }.

Lemma sane_null : sane null_time.
Proof. split; [apply normal_null|cbn; lia]. Qed.
Lemma D_le : forall n m a, n <= m -> D n a -> D m a.
Proof. intros n m a L [A1 A2 A3 A4 A5]. constructor; auto; lia. Qed.
Lemma D_reset : forall n a, 0 <= n -> D n a -> D n (sm_reset a).
Proof. intros n a L [A1 A2 A3 A4 A5]. constructor; aproj; auto; [apply sane_null|lia]. Qed.

Lemma sub_def : forall a b, sane a -> sane b -> exists c, subtract a b = Some c /\ normal c /\ - 2^62 < sec c < 2^62.
Proof.
  intros a b [NA A] [NB B]. destruct (proj2 (subtract_defined a b NA NB)) as [c E].
  - destruct NA as [? [? ?]], NB as [? [? ?]]. unfold representable, instant, s_unit. lia.
  - exists c. split; [exact E|]. destruct (subtract_exact _ _ _ NA NB E) as [NC I]. split; [exact NC|].
    destruct NA as [? [? ?]], NB as [? [? ?]], NC as [? [? ?]]. unfold instant in I. lia.
Qed.
Lemma ge_def : forall c k, normal c -> - 2^62 < sec c < 2^62 -> normal k -> 0 <= sec k < 100 -> exists r, is_ge c k = Some r.
Proof. intros c k A B C E. apply is_ge_defined; auto; lia. Qed.

Lemma nothing_def : forall n a now, 0 <= n -> D n a -> sane now -> exists a', on_nothing a now = Some a' /\ D n a'.
Proof.
  intros n a now L H S. unfold on_nothing. destruct (a_state a).
  - eexists; split; [reflexivity|exact H].
  - destruct (sub_def _ _ S (D_last _ _ H)) as [c [E [N B]]]. rewrite E. cbn [bind].
    destruct (ge_def c timeout_interval N B) as [r1 E1]; [unfold normal, timeout_interval; cbn; lia|cbn; lia|].
    destruct (ge_def c alarm_interval N B) as [r2 E2]; [unfold normal, alarm_interval; cbn; lia|cbn; lia|].
    rewrite E1. cbn [bind]. destruct r1; [eexists; split; [reflexivity|apply D_reset; assumption]|].
    rewrite E2. cbn [bind]. destruct (_ && _); eexists; (split; [reflexivity|]); [|exact H].
    destruct H; constructor; aproj; auto.
  - eexists; split; [reflexivity|apply D_reset; assumption].
Qed.

Lemma rest_def : forall n a av m, D n a -> match m with Some t => sane t | None => True end ->
  exists a' outs, rest a av m = Some (a', outs) /\ D n a'.
Proof.
  intros n a av m H M. unfold rest.
  set (a1 := match av with Some ok => _ | None => a end).
  assert (H1 : D n a1). { unfold a1. destruct av; [|exact H]. destruct H; constructor; aproj; auto. }
  assert (K : exists a2, converge a1 m = Some a2 /\ D n a2).
  { assert (Z : forall b, D n (set_sync a1 b (conv_reset (a_conv a1)))).
    { intros b. destruct H1. constructor; aproj; auto. cbn [conv_reset c_start c_min]. lia. }
    unfold converge. destruct m as [t|]; [|eexists; split; [reflexivity|apply Z]].
    destruct (a_state a1); try (eexists; split; [reflexivity|apply Z]).
    destruct (_ || _); [eexists; split; [reflexivity|exact H1]|].
    destruct H1 as [B1 B2 B3 [B4 B5] B6]. unfold conv_update. destruct M as [_ M].
    destruct (_ || _); cbn [bind fst snd].
    { eexists; split; [reflexivity|]. constructor; aproj; auto. cbn [conv_reset c_start c_min]. lia. }
    destruct (sec t <? c_start (a_conv a1)); cbn [bind fst snd].
    { eexists; split; [reflexivity|]. constructor; aproj; auto. }
    set (s := if c_num (a_conv a1) =? 0 then sec t else c_start (a_conv a1)).
    assert (S : - 2^61 < s < 2^61) by (unfold s; destruct (_ =? 0); lia).
    unfold chk_s64, fits_s64. replace (_ && _) with true by lia. cbn [bind fst snd].
    eexists; split; [reflexivity|]. constructor; aproj; auto. }
  destruct K as [a2 [E K]]. rewrite E. cbn [bind]. eexists _, _. split; [reflexivity|].
  destruct K; constructor; aproj; auto.
Qed.

Lemma combine_def : forall day t, sane day -> sane t -> exists c, combine day t = Some c /\ sec c < 2^62 /\ - 2^62 < sec c.
Proof.
  intros day t [_ A] [_ B]. unfold combine, chk_s64, fits_s64.
  destruct (500000000 <=? nsec day); [replace (_ && _) with true by lia|]; cbn [bind];
    (destruct (500000000 <=? nsec t); [replace (_ && _) with true by lia|]; cbn [bind]; eexists; (split; [reflexivity|cbn [sec]; lia])).
Qed.

Lemma servo_def : forall g n a h t day corr, 0 <= n -> D n a -> fir_inv (a_fir a) h -> sane t -> sane day ->
  exists a' acts, servo_update g a t day corr = Some (a', acts) /\ D n a'.
Proof.
  intros g n a h t day corr L H F ST SD. unfold servo_update.
  destruct (combine_def _ _ SD ST) as [c [E [B1 B2]]]. rewrite E. cbn [bind].
  destruct (combine_exact _ _ _ (proj1 SD) (proj1 ST) E) as [NC _].
  destruct (_ && _).
  - destruct (a_cc a); [|eexists _, _; split; [reflexivity|exact H]].
    unfold step_clock. destruct (proj2 (subtract_defined null_time c normal_null NC)) as [ng E2].
    { destruct NC as [? [? ?]]. unfold representable, instant, s_unit, null_time; cbn [sec nsec frac]. lia. }
    rewrite E2. cbn [bind]. eexists _, _. split; [reflexivity|]. destruct H; constructor; aproj; auto. apply sane_null.
  - destruct (fir_update_inv (a_fir a) h (FltModel.to_float_ns c - g_delay g)%Q F) as [f' [r [U _]]]. rewrite U. cbn [bind fst snd].
    destruct (a_cc a).
    + unfold pid_update, pid_interval. cbn [bind]. eexists _, _. split; [reflexivity|]. destruct H; constructor; aproj; auto.
    + eexists _, _. split; [reflexivity|]. destruct H; constructor; aproj; auto.
Qed.

Lemma pulse_def : forall g n a v p seq t, conf_ok g -> 0 <= n -> n + 1 < 2^31 -> D n a -> R g a v ->
  sane t -> sane (i_now p) -> sane (i_day p) ->
  exists a' outs, on_pulse g a seq t (i_now p) (i_day p) (i_corr p) (i_score p) = Some (a', outs) /\ D (n + 1) a'.
Proof.
  intros g n a v p seq t CO L N H HR ST SN SD. unfold on_pulse.
  assert (K : exists a1 outs, match a_state a with FAULTY | LISTENING => Some (set_period (set_state a SLAVE) 0, [])
              | SLAVE => on_slave g a seq t (i_day p) (i_corr p) (i_score p) end = Some (a1, outs) /\ D (n + 1) a1).
  { assert (H0 : D (n + 1) a) by (eapply D_le; [|exact H]; lia).
    destruct (a_state a).
    - eexists _, _. split; [reflexivity|]. destruct H0; constructor; aproj; auto.
    - unfold on_slave. set (l := if _ && _ then _ else _).
      assert (H1 : D n (set_al a l)) by (destruct H; constructor; aproj; auto).
      assert (H1' : D (n + 1) (set_al a l)) by (destruct H0; constructor; aproj; auto).
      destruct (negb (a_ts (set_al a l))); [eexists _, _; split; [reflexivity|exact H1']|].
      destruct (a_step (set_al a l)); [eexists _, _; split; [reflexivity|]; destruct H1'; constructor; aproj; auto; apply sane_null|].
      assert (K : exists a2, on_period (set_al a l) t = Some a2 /\ D (n + 1) a2 /\ a_fir a2 = a_fir a /\ a_peirce a2 = a_peirce a).
      { unfold on_period. destruct (_ =? 0); [eexists; split; [reflexivity|]; aproj; auto|].
        destruct (sub_def _ _ ST (D_time _ _ H)) as [c [E [NC BC]]]. aproj. rewrite E. cbn [bind].
        change (the_notch) with (Some (mkNotch (inject_Z 1000000000 - inject_Z 100000000) (inject_Z 1000000000 + inject_Z 100000000))).
        cbn [bind]. destruct (notch_update _ _).
        - unfold chk_s32. pose proof (D_good _ _ H). replace (_ && _) with true by lia. cbn [bind].
          eexists. split; [reflexivity|]. aproj. split; [|auto]. destruct H; constructor; aproj; auto. lia.
        - eexists. split; [reflexivity|]. aproj. split; [|auto]. destruct H; constructor; aproj; auto. lia. }
      destruct K as [a2 [E [H2 [K1 K2]]]]. rewrite E. cbn [bind]. unfold on_trust.
      destruct (_ <=? _); [|eexists _, _; split; [reflexivity|exact H2]].
      set (a3 := set_al a2 _). assert (H3 : D (n + 1) a3) by (destruct H2; constructor; unfold a3; aproj; auto).
      assert (K : exists ou a4, match a_peirce a3 with
              | Some f => do x <- peirce_update f (a_period a3); Some (fst x, set_peirce a3 (Some (snd x)))
              | None => Some (false, a3) end = Some (ou, a4) /\ D (n + 1) a4 /\ a_fir a4 = a_fir a).
      { destruct (a_peirce a3) as [f|] eqn:PF.
        - pose proof (R_out _ _ _ HR) as O. unfold a3 in PF. aproj. rewrite K2 in PF. unfold outl in O. rewrite PF in O.
          destruct (g_out g) as [[m w]|]; [|contradiction]. destruct O as [_ [_ [ys [_ O]]]].
          destruct (peirce_update_inv f ys (a_period a3) O) as [ou [f' [y [U _]]]]. rewrite U. cbn [bind].
          eexists _, _. split; [reflexivity|]. unfold a3 in *. aproj. split; [|exact K1]. destruct H3; constructor; aproj; auto.
        - eexists _, _. split; [reflexivity|]. split; [exact H3|]. unfold a3. aproj. exact K1. }
      destruct K as [ou [a4 [E4 [H4 K4]]]]. rewrite E4. cbn [bind fst snd].
      destruct ou; [eexists _, _; split; [reflexivity|exact H4]|].
      destruct (R_fir _ _ _ HR) as [_ [[h [F _]] _]]. rewrite <- K4 in F.
      destruct (servo_def g (n + 1) a4 h t (i_day p) (i_corr p) ltac:(lia) H4 F ST SD) as [a5 [acts [E5 H5]]].
      rewrite E5. cbn [bind fst snd]. eexists _, _. split; [reflexivity|]. destruct H5; constructor; aproj; auto.
    - eexists _, _. split; [reflexivity|]. destruct H0; constructor; aproj; auto. }
  destruct K as [a1 [outs [E K]]]. rewrite E. cbn [bind fst snd]. eexists _, _. split; [reflexivity|].
  destruct (a_ts _); destruct K; constructor; aproj; auto.
Qed.

Lemma istep_def : forall g n a v o, conf_ok g -> 0 <= n -> n + 1 < 2^31 -> D n a -> R g a v -> op_sane o ->
  exists a' outs, istep g a o = Some (a', outs) /\ D (n + 1) a'.
Proof.
  intros g n a v o CO L N H HR OK. pose proof (D_le n (n + 1) a ltac:(lia) H) as H0.
  destruct o as [p|now|now|tp cc|off corr|kp ki kd rs]; cbn [istep op_sane] in *.
  - destruct OK as [O1 [O2 [O3 O4]]]. unfold poll.
    assert (K : exists a1 outs, on_got g a p = Some (a1, outs) /\ D (n + 1) a1).
    { unfold on_got. destruct (i_got p) as [seq t| |].
      - apply (pulse_def g n a v); tauto.
      - destruct (nothing_def (n + 1) a (i_now p) ltac:(lia) H0 O2) as [a1 [E K]]. rewrite E. cbn [bind]. eexists _, _. split; [reflexivity|exact K].
      - eexists _, _. split; [reflexivity|]. pose proof (D_reset (n + 1) a ltac:(lia) H0) as K. unfold on_error.
        destruct (a_state a); try exact H0; destruct K; constructor; aproj; auto. }
    destruct K as [a1 [outs [E K]]]. rewrite E. cbn [bind fst snd].
    destruct (rest_def (n + 1) a1 (i_avail p) (i_conv p) K O4) as [a2 [o2 [E2 K2]]]. rewrite E2. cbn [bind fst snd].
    eexists _, _. split; [reflexivity|exact K2].
  - destruct (nothing_def (n + 1) a now ltac:(lia) H0 OK) as [a1 [E K]]. rewrite E. cbn [bind]. eexists _, _. split; [reflexivity|exact K].
  - unfold check. pose proof (D_started _ _ H) as DS. destruct (a_started a) as [s|] eqn:AS.
    + destruct (a_expired a); [cbn [bind]; eexists _, _; split; [reflexivity|exact H0]|].
      destruct (sub_def _ _ OK DS) as [c [E [NC BC]]]. rewrite E. cbn [bind].
      destruct (ge_def c pulse_timeout_interval NC BC) as [r1 E1]; [unfold normal, pulse_timeout_interval; cbn; lia|cbn; lia|].
      rewrite E1. cbn [bind]. destruct r1; cbn [bind]; [|eexists _, _; split; [reflexivity|exact H0]].
      eexists _, _. split; [reflexivity|]. destruct (_ <? _); destruct H0; constructor; aproj; auto.
    + cbn [bind]. eexists _, _. split; [reflexivity|]. destruct H0; constructor; aproj; auto.
  - eexists _, _. split; [reflexivity|]. unfold on_control.
    destruct (a_cc a && negb cc); aproj; destruct (a_ts a && negb tp); destruct H0; constructor; aproj; auto; apply sane_null.
  - unfold step_clock. destruct (sub_def _ _ sane_null OK) as [c [E _]]. rewrite E. cbn [bind].
    eexists _, _. split; [reflexivity|]. destruct H0; constructor; aproj; auto. apply sane_null.
  - eexists _, _. split; [reflexivity|]. destruct H0; constructor; aproj; auto.
Qed.

Lemma irun_def : forall g l n a v, conf_ok g -> 0 <= n -> n + Z.of_nat (List.length l) < 2^31 -> D n a -> R g a v ->
  Forall op_sane l -> exists a' log, irun g a l = Some (a', log).
Proof.
  intros g l. induction l as [|o l IH]; intros n a v CO L N H HR OK; cbn [irun].
  - eexists _, _. reflexivity.
  - inversion OK; subst. cbn [List.length] in N.
    destruct (istep_def g n a v o CO L ltac:(lia) H HR H2) as [a1 [o1 [E K]]]. rewrite E. cbn [bind fst snd].
    destruct (istep_ok _ _ _ _ _ _ CO HR (sane_ok _ H2) E) as [R1 _].
    destruct (IH (n + 1) a1 _ CO ltac:(lia) ltac:(lia) K R1 H3) as [a2 [log E2]]. rewrite E2. cbn [bind].
    eexists _, _. reflexivity.
Qed.

Definition boot_ok (g : conf) (b : boot) : Prop :=
  b_stats b = 0 /\ b_alloc b = true /\ b_clock b = 0 /\ - 2^61 < b_conv_min b < 2^61 /\ (0 < b_conv_max b)%Q /\
  List.length (b_junk b) = FIR_MAX /\ (g_fir g <= FIR_MAX)%nat /\
  match g_out g with Some (n, w) => (0 < n <= PEIRCE_MAX)%nat /\ (0 <= w <= 1)%Q | None => True end.

Lemma start_def : forall g b, conf_ok g -> boot_ok g b -> exists a, start g b = Some (0, Some a) /\ D 0 a.
Proof.
  intros g b [C1 C2] [B1 [B2 [B3 [B4 [B5 [B6 [B7 B8]]]]]]]. unfold start, conv_init.
  replace (Qlt_bool 0 (b_conv_max b)) with true by (symmetry; apply Qlt_bool_iff; exact B5). cbn [bind].
  rewrite B1. cbn [Z.eqb negb].
  change (the_notch) with (Some (mkNotch (inject_Z 1000000000 - inject_Z 100000000) (inject_Z 1000000000 + inject_Z 100000000))).
  cbn [bind]. unfold fir_init. replace (g_fir g <=? FIR_MAX)%nat with true by lia. cbn [bind].
  assert (K : exists pf, match g_out g with
              | Some (size, w) => if b_alloc b then do x <- peirce_create size w; Some (Some (Some x)) else Some None
              | None => Some (Some None) end = Some (Some pf)).
  { destruct (g_out g) as [[n w]|]; [|eexists; reflexivity]. rewrite B2. unfold peirce_create. destruct B8 as [X [Y Z]].
    replace (0 <? n)%nat with true by lia. replace (n <=? PEIRCE_MAX)%nat with true by lia.
    apply Qle_bool_iff in Y, Z. rewrite Y, Z. cbn [andb bind]. eexists; reflexivity. }
  destruct K as [pf K]. rewrite K. cbn [bind]. rewrite B3. cbn [Z.eqb negb]. unfold pid_set_i_max.
  replace (Qle_bool 0 (g_max g)) with true by (symmetry; apply Qle_bool_iff; lra). cbn [bind].
  eexists. split; [reflexivity|]. constructor; aproj; try apply sane_null; try exact I; [lia|]. cbn [conv_reset c_start c_min]. lia.
Qed.

(** ** Where the time of day comes from *)
Lemma mstep1_day : forall g d a o d' a' outs, mop_ok o -> mstep1 g d a o = Some (d', a', outs) ->
  (d_off d' = d_off d /\ no_step outs) \/ d_off d' = null_time \/ (exists x, o = MPoll x /\ given x (d_off d')).
Proof.
  intros g d a o d' a' outs OK E. destruct o as [x|o]; cbn [mstep1] in E.
  - bnd E r E1. bnd E e E2. bnd E s E3. injection E as <- <- <-. destruct r as [a1 o1], e as [d1 av], s as [a2 o2]. cbn [fst snd] in *.
    pose proof (rest_tolds _ _ _ _ _ E3) as TL. destruct (tolds_none _ TL) as [NS _].
    assert (Z : (d_off (zero_day d o1) = d_off d /\ no_step (o1 ++ o2)) \/ d_off (zero_day d o1) = null_time).
    { unfold zero_day, no_step. destruct (existsb is_step o1) eqn:X; [right; reflexivity|left].
      rewrite existsb_app, X, NS. auto. }
    set (d0 := zero_day d o1) in *. unfold day_poll in E2. bnd E2 lf E4.
    destruct (0 <=? sec lf); [injection E2 as <- <-; tauto|]. bnd E2 s0 E5. bnd E2 d3 E6. injection E2 as <- <-.
    cbn [d_src d_off d_next d_slave] in *.
    set (d2 := if d_src d0 then _ else _) in E6.
    assert (Z2 : (d_off d2 = d_off d /\ no_step (o1 ++ o2)) \/ d_off d2 = null_time).
    { unfold d2. destruct (d_src d0); [exact Z|]. destruct (e_found _); [right; reflexivity|exact Z]. }
    destruct (d_src d2); [|injection E6 as <-; tauto].
    destruct (e_status (x_day x)) as [[sl off]|] eqn:ES; [|injection E6 as <-; tauto].
    bnd E6 o3 E7. injection E6 as <-. cbn [d_off]. right. right. exists x. split; [reflexivity|].
    unfold given. exists sl, off. split; [exact ES|]. cbn [mop_ok] in OK. rewrite ES in OK. destruct OK as [N1 N2].
    destruct (is_zero off) eqn:IZ.
    { left. injection E7 as <-. unfold is_zero in IZ. unfold instant. lia. }
    right. split.
    { unfold is_zero in IZ. unfold normal in N1. unfold instant. lia. }
    destruct (e_cmp (x_day x)) as [c|]; [|injection E7 as <-; lia].
    exact (proj2 (add_exact _ _ _ N1 N2 E7)).
  - assert (K : forall x, (do r <- x; Some (zero_day d (snd r), fst r, snd r)) = Some (d', a', outs) ->
       (d_off d' = d_off d /\ no_step outs) \/ d_off d' = null_time).
    { intros x H. bnd H r H1. injection H as <- <- <-. unfold zero_day, no_step. destruct (existsb is_step (snd r)); auto. }
    destruct o; try discriminate; destruct (K _ E) as [X|X]; auto.
Qed.

Lemma mrun_day : forall l m m' log, Forall (fun io => mop_ok (snd io)) l -> mrun m l = Some (m', log) ->
  (d_off (fst m') = d_off (fst m) /\ Forall no_step log) \/ d_off (fst m') = null_time \/
  (exists l1 i x l2 log1 outs log2, l = l1 ++ (i, MPoll x) :: l2 /\ log = log1 ++ outs :: log2 /\
     List.length log1 = List.length l1 /\ Forall no_step log2 /\ given x (d_off (fst m'))).
Proof.
  induction l as [|[i o] l IH]; intros m m' log OK E; cbn [mrun] in E.
  - injection E as <- <-. left. auto.
  - bnd E x E1. bnd E y E2. injection E as <- <-. destruct x as [m1 o1], y as [m2 o2]. cbn [fst snd] in *.
    inversion OK; subst. cbn [snd] in *.
    unfold mstep in E1. bnd E1 ga E3. bnd E1 r E4. destruct r as [[d a] outs]. injection E1 as <- <-. cbn [fst] in *.
    destruct (IH _ _ _ H2 E2) as [[X Y]|[X|[l1 [j [z [l2 [g1 [os [g2 [A [B [C [N G]]]]]]]]]]]]]; cbn [fst] in *.
    + destruct (mstep1_day _ _ _ _ _ _ _ H1 E4) as [[P Q]|[P|[z [P Q]]]].
      * left. split; [congruence|]. constructor; assumption.
      * right. left. congruence.
      * right. right. exists [], i, z, l, [], outs, o2. subst o. rewrite X. auto 8.
    + right. left. exact X.
    + right. right. exists ((i, o) :: l1), j, z, l2, (outs :: g1), os, g2. subst.
      cbn [app List.length]. rewrite C. auto 8.
Qed.
Lemma mrun_len : forall l m m' log, mrun m l = Some (m', log) -> List.length (snd m') = List.length (snd m) /\
  Forall (fun io => (fst io < List.length (snd m))%nat) l.
Proof.
  induction l as [|[i o] l IH]; intros m m' log E; cbn [mrun] in E.
  - injection E as <- <-. auto.
  - bnd E x E1. bnd E y E2. injection E as <- <-. destruct x as [m1 o1], y as [m2 o2]. cbn [fst snd] in *.
    unfold mstep in E1. bnd E1 ga E3. bnd E1 r E4. destruct r as [[d a] outs]. injection E1 as <- <-.
    destruct (IH _ _ _ E2) as [A B]. cbn [snd] in *. rewrite set_nth_length in A, B. split; [exact A|].
    constructor; [cbn; apply nth_error_Some; congruence|exact B].
Qed.

(** A poll in the module is a poll of the instance with the shared offset. *)
Lemma mstep1_poll : forall g d a x d' a' outs, mstep1 g d a (MPoll x) = Some (d', a', outs) ->
  exists av, istep g a (Poll (mkPin (x_got x) (x_now x) (d_off d) (x_corr x) (x_score x) av (x_conv x))) = Some (a', outs).
Proof.
  intros g d a x d' a' outs E. cbn [mstep1] in E. bnd E r E1. bnd E e E2. bnd E s E3. injection E as _ <- <-.
  exists (snd e). cbn [istep]. unfold poll.
  assert (X : on_got g a (mkPin (x_got x) (x_now x) (d_off d) (x_corr x) (x_score x) (snd e) (x_conv x)) = Some r) by exact E1.
  rewrite X. cbn [bind i_avail i_conv]. rewrite E3. reflexivity.
Qed.

(** ** The convergence measure *)
Lemma Forall_firstn_ok : forall n l, Forall op_ok l -> Forall op_ok (firstn n l).
Proof. induction n; intros [|x l] H; cbn; auto. inversion H; subst. constructor; auto. Qed.

Lemma nothing_conv : forall a now a', on_nothing a now = Some a' -> c_max (a_conv a') = c_max (a_conv a).
Proof.
  intros a now a' E. unfold on_nothing in E. destruct (a_state a).
  - injection E as <-. reflexivity.
  - bnd E iv E1. bnd E t1 E2. destruct t1; [injection E as <-; reflexivity|]. bnd E t2 E3.
    destruct (_ && _); injection E as <-; reflexivity.
  - injection E as <-. reflexivity.
Qed.
Lemma step_conv : forall a o c a' outs, step_clock a o c = Some (a', outs) -> c_max (a_conv a') = c_max (a_conv a).
Proof. intros a o c a' outs E. unfold step_clock in E. bnd E n E1. injection E as <- _. reflexivity. Qed.
Lemma on_got_conv : forall g a p a' outs, on_got g a p = Some (a', outs) -> c_max (a_conv a') = c_max (a_conv a).
Proof.
  intros g a p a' outs E. unfold on_got in E. destruct (i_got p).
  - unfold on_pulse in E. bnd E r E1. injection E as <- _.
    assert (X : c_max (a_conv (fst r)) = c_max (a_conv a)).
    { destruct (a_state a); try (injection E1 as <-; reflexivity).
      unfold on_slave in E1. set (a1 := set_al a _) in E1.
      change (a_conv a) with (a_conv a1). clearbody a1.
      destruct (negb (a_ts a1)); [injection E1 as <-; reflexivity|].
      destruct (a_step a1); [injection E1 as <-; reflexivity|].
      bnd E1 a2 E2.
      assert (Y : a_conv a2 = a_conv a1).
      { unfold on_period in E2. destruct (sec (a_time a1) =? 0); [injection E2 as <-; reflexivity|].
        bnd E2 x E3. bnd E2 n E4. destruct (notch_update n _); [bnd E2 k E5|]; injection E2 as <-; reflexivity. }
      rewrite <- Y. clear Y E2. unfold on_trust in E1. destruct (REQUIRED <=? a_good a2); [|injection E1 as <-; reflexivity].
      bnd E1 q E3.
      assert (Y : a_conv (snd q) = a_conv a2).
      { destruct (a_peirce _) in E3; [bnd E3 z E4|]; injection E3 as <-; reflexivity. }
      rewrite <- Y. destruct (fst q); [injection E1 as <-; reflexivity|].
      bnd E1 s E4. injection E1 as <-. unfold servo_update in E4. bnd E4 df E5.
      destruct (_ && _) in E4.
      - destruct (a_cc _) in E4; [|injection E4 as <-; reflexivity]. bnd E4 w E6. injection E4 as <-. destruct w.
        apply step_conv in E6. exact E6.
      - bnd E4 w E6. destruct (a_cc _) in E4; [bnd E4 pp E7|]; injection E4 as <-; reflexivity. }
    destruct (a_ts _); exact X.
  - bnd E x E1. injection E as <- _. eapply nothing_conv; eauto.
  - injection E as <- _. unfold on_error. destruct (a_state a); reflexivity.
Qed.
Lemma conv_update_max : forall c t x c' r, conv_update c t x = Some (c', r) ->
  c_max c' = c_max c /\ (r = true -> (- c_max c <= x <= c_max c)%Q).
Proof.
  intros c t x c' r E. unfold conv_update in E.
  destruct (Qlt_bool x (- c_max c)) eqn:A; [injection E as <- <-; split; [reflexivity|discriminate]|].
  destruct (Qlt_bool (c_max c) x) eqn:B; [injection E as <- <-; split; [reflexivity|discriminate]|]. cbn [orb] in E.
  assert (X : (- c_max c <= x <= c_max c)%Q).
  { split; apply Qnot_lt_le; intros H; apply Qlt_bool_iff in H; congruence. }
  destruct (t <? c_start c); [injection E as <- <-; split; [reflexivity|discriminate]|].
  bnd E lim E1. injection E as <- _. split; [reflexivity|]. intros _. exact X.
Qed.
Lemma rest_conv : forall a av n a' outs, rest a av n = Some (a', outs) -> c_max (a_conv a') = c_max (a_conv a).
Proof.
  intros a av n a' outs E. unfold rest in E. bnd E a2 E1. injection E as <- _. aproj.
  assert (C : forall x y, converge x n = Some y -> c_max (a_conv y) = c_max (a_conv x)).
  { intros x y H. unfold converge in H. destruct n as [t|]; [|injection H as <-; reflexivity].
    destruct (a_state x); try (injection H as <-; reflexivity).
    destruct (_ || _); [injection H as <-; reflexivity|]. bnd H r H1. injection H as <-. destruct r as [c r].
    exact (proj1 (conv_update_max _ _ _ _ _ H1)). }
  rewrite (C _ _ E1). destruct av; reflexivity.
Qed.
Lemma istep_conv : forall g a o a' outs, istep g a o = Some (a', outs) -> c_max (a_conv a') = c_max (a_conv a).
Proof.
  intros g a o a' outs E. destruct o; cbn [istep] in E.
  - unfold poll in E. bnd E r E1. bnd E s E2. injection E as <- _. destruct r, s. cbn [fst snd] in *.
    rewrite (rest_conv _ _ _ _ _ E2). eapply on_got_conv; eauto.
  - bnd E x E1. injection E as <- _. eapply nothing_conv; eauto.
  - bnd E x E1. injection E as <- _. unfold check in E1. destruct (a_started a); [|injection E1 as <-; reflexivity].
    destruct (a_expired a); [injection E1 as <-; reflexivity|]. bnd E1 iv E2. bnd E1 gg E3.
    destruct gg; injection E1 as <-; [|reflexivity]. destruct (_ <? _); reflexivity.
  - injection E as <- _. unfold on_control. destruct (_ && _); aproj; destruct (_ && _); reflexivity.
  - eapply step_conv; eauto.
  - injection E as <- _. reflexivity.
Qed.
Lemma irun_conv : forall g l a a' log, irun g a l = Some (a', log) -> c_max (a_conv a') = c_max (a_conv a).
Proof.
  intros g l. induction l as [|o l IH]; intros a a' log E; cbn [irun] in E.
  - injection E as <- _. reflexivity.
  - bnd E x E1. bnd E y E2. injection E as <- _. destruct x, y. cbn [fst snd] in *.
    rewrite (IH _ _ _ E2). eapply istep_conv; eauto.
Qed.
Lemma live_conv : forall g b l a log, live g b l = Some (a, log) -> c_max (a_conv a) = b_conv_max b.
Proof.
  intros g b l a log E. unfold live in E. bnd E r E1. destruct r as [z [a0|]]; destruct z; try discriminate.
  rewrite (irun_conv _ _ _ _ _ E). unfold start in E1. bnd E1 cv E2.
  unfold conv_init in E2. destruct (Qlt_bool _ _) in E2; [|discriminate]. injection E2 as <-.
  destruct (negb _) in E1; [discriminate|]. bnd E1 n E3. bnd E1 f E4. bnd E1 pc E5. destruct pc; [|discriminate].
  destruct (negb _) in E1; [discriminate|]. bnd E1 p1 E6. injection E1 as <-. reflexivity.
Qed.
Lemma rest_sync : forall a av n a' outs m, rest a av n = Some (a', outs) -> c_max (a_conv a) = m -> a_sync a' = true ->
  a_state a' = SLAVE /\ (quiet (a_al a') = true -> a_ts a' = true -> (- m <= a_offset a' <= m)%Q).
Proof.
  intros a av n a' outs m E <- Y. unfold rest in E. bnd E a2 E1. injection E as <- _. aproj.
  set (a1 := match av with Some _ => _ | None => _ end) in *.
  assert (CA : a_conv a1 = a_conv a) by (unfold a1; destruct av; reflexivity). rewrite <- CA. clearbody a1. clear CA.
  unfold converge in E1. destruct n as [t|]; [|injection E1 as <-; discriminate].
  destruct (a_state a1) eqn:S; try (injection E1 as <-; discriminate).
  destruct (negb (quiet (a_al a1)) || negb (a_ts a1)) eqn:Z.
  - injection E1 as <-. split; [exact S|]. intros Q1 Q2. rewrite Q1, Q2 in Z. discriminate.
  - bnd E1 r E2. injection E1 as <-. aproj. split; [exact S|]. intros _ _. destruct r as [c r].
    exact (proj2 (conv_update_max _ _ _ _ _ E2) Y).
Qed.
