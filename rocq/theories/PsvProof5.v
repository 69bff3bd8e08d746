(** Proofs about the PTP slave servo: bounds, definedness, and the life of a servo. *)
Require Import ZArith QArith Qabs Qround List Bool Lia Lqa ZifyBool.
From Verif Require Import Base ListLib QLib TimeSpec TimeModel TimeProof FilterSpec FilterModel FilterProof
  SrvSpec SrvModel SrvProof FltModel FltProof PsvSpec PsvModel PsvProof PsvProof2 PsvProof3 PsvProof4.
From Verif Require TsdSpec TsdModel TsdProof FltSpec.
Import ListNotations.
Open Scope Z_scope.

(** ** Histories *)
Lemma calls_snoc : forall rd l s o s' log', calls rd s (l ++ [o]) = Some (s', log') ->
  exists s1 log e, calls rd s l = Some (s1, log) /\ call rd s1 o = Some (s', e) /\ log' = log ++ [e].
Proof.
  intros rd l. induction l as [|x l IH]; intros s o s' log' H.
  - cbn [app calls] in H. destruct (call rd s o) as [[s1 e]|] eqn:E; cbn [bind fst snd] in H; [|discriminate].
    injection H as <- <-. exists s, [], e. auto.
  - cbn [app calls] in H. destruct (call rd s x) as [[s1 e]|] eqn:E; cbn [bind fst snd] in H; [|discriminate].
    destruct (calls rd s1 (l ++ [o])) as [[s2 lg]|] eqn:E2; cbn [bind fst snd] in H; [|discriminate].
    injection H as <- <-. destruct (IH _ _ _ _ E2) as [s3 [lg3 [e3 [A [B ->]]]]].
    exists s3, (e :: lg3), e3. cbn [calls]. rewrite E. cbn [bind fst snd]. rewrite A. auto.
Qed.
Lemma calls_snoc_some : forall rd l s o s1 log, calls rd s l = Some (s1, log) ->
  calls rd s (l ++ [o]) = match call rd s1 o with Some (s', e) => Some (s', log ++ [e]) | None => None end.
Proof.
  intros rd l. induction l as [|x l IH]; intros s o s1 log H.
  - cbn [calls] in H. injection H as <- <-. cbn [app calls]. destruct (call rd s o) as [[s' e]|]; reflexivity.
  - cbn [app calls] in *. destruct (call rd s x) as [[s2 e]|]; cbn [bind fst snd] in *; [|discriminate].
    destruct (calls rd s2 l) as [[s3 lg]|] eqn:E2; cbn [bind fst snd] in H; [|discriminate]. injection H as <- <-.
    rewrite (IH _ o _ _ E2). destruct (call rd s3 o) as [[s' e']|]; reflexivity.
Qed.
Lemma calls_length : forall rd l s s' log, calls rd s l = Some (s', log) -> length log = length l.
Proof.
  intros rd l. induction l as [|x l IH]; intros s s' log H; cbn [calls] in H.
  - injection H as <- <-. reflexivity.
  - destruct (call rd s x) as [[s1 e]|]; cbn [bind fst snd] in H; [|discriminate].
    destruct (calls rd s1 l) as [[s2 lg]|] eqn:E2; cbn [bind fst snd] in H; [|discriminate].
    injection H as <- <-. cbn [length]. rewrite (IH _ _ _ E2). reflexivity.
Qed.
Lemma view_of_snoc : forall g l log v o e, length log = length l ->
  view_of g v (l ++ [o]) (log ++ [e]) = view_step g (view_of g v l log) o e.
Proof.
  intros g l. induction l as [|x l IH]; intros [|y log] v o e H; try discriminate; [reflexivity|].
  cbn [app view_of]. apply IH. injection H as H. exact H.
Qed.
Lemma nondecreasing_prefix : forall a b, nondecreasing (a ++ b) -> nondecreasing a.
Proof.
  intros a b H l1 x l2 y l3 E. apply (H l1 x l2 y (l3 ++ b)). rewrite E.
  rewrite <- !app_assoc. cbn [app]. rewrite <- app_assoc. reflexivity.
Qed.
Lemma hist_ok_prefix : forall a b, hist_ok (a ++ b) -> hist_ok a.
Proof.
  intros a b [A B]. apply Forall_app in A as [A _]. split; [exact A|].
  rewrite moments_app in B. apply nondecreasing_prefix in B. exact B.
Qed.

Lemma live_snoc : forall rd f l o s' ev log', live rd f (l ++ [o]) = Some (s', ev, log') ->
  exists s log e, live rd f l = Some (s, ev, log) /\ call rd s o = Some (s', e) /\ log' = log ++ [e] /\
    length log = length l.
Proof.
  intros rd f l o s' ev log' H. unfold live in H.
  destruct (servo_init _ _ _ _ _ _) as [[s0 ev0]|] eqn:SI; cbn [bind fst snd] in H; [|discriminate].
  destruct (calls rd s0 (l ++ [o])) as [[s1 lg]|] eqn:CS; cbn [bind fst snd] in H; [|discriminate].
  injection H as <- <- <-. destruct (calls_snoc _ _ _ _ _ _ CS) as [s2 [lg2 [e [A [B ->]]]]].
  exists s2, lg2, e. unfold live. rewrite SI. cbn [bind fst snd]. rewrite A. cbn [bind fst snd].
  split; [reflexivity|]. split; [exact B|]. split; [reflexivity|]. eapply calls_length; exact A.
Qed.

Lemma live_ok : forall rd f l s ev log, FltSpec.rounding rd -> life_ok f -> hist_ok l ->
  live rd f l = Some (s, ev, log) ->
  rep (conf_of (f_opts f)) l (known f l log) s /\ length log = length l /\
  exists ev1 ev2, ev = ev1 ++ ev2 /\
    freq_request (f_w f (f_c f)) (f_c f) (k_corr (f_w f (f_c f))) ev1 /\
    freq_request (f_w f (f_c f)) (f_c f) (k_corr (f_w f (f_c f))) ev2.
Proof.
  intros rd f l s ev log RD [L1 L2]. revert s ev log. induction l as [|o l IH] using rev_ind; intros s ev log HO H.
  - unfold live in H. destruct (servo_init _ _ _ _ _ _) as [[s0 ev0]|] eqn:SI; cbn [bind fst snd calls] in H; [|discriminate].
    injection H as <- <- <-. destruct (init_ok _ _ _ _ _ _ _ _ [] SI L1 (L2 _)) as [kp [ki [G1 [G2 [RP [_ [_ [_ [_ EV]]]]]]]]].
    injection G1 as <-. injection G2 as <-. split; [exact RP|]. split; [reflexivity|exact EV].
  - destruct (live_snoc _ _ _ _ _ _ _ H) as [s1 [lg [e [A [B [-> LN]]]]]].
    destruct (IH _ _ _ (hist_ok_prefix _ _ HO) A) as [RP [_ EV]].
    destruct (call_ok rd _ l _ s1 o s e RD RP HO B) as [RP' _].
    split; [|split; [rewrite !app_length, LN; reflexivity|exact EV]].
    unfold known in *. rewrite view_of_snoc by exact LN. exact RP'.
Qed.

(** ** Bounds *)
Lemma latest_m2s_within : forall B h m, Forall (op_within B) h -> TsdSpec.latest_m2s h = Some m -> meas_within B m.
Proof.
  intros B h m F. induction F as [|o h A F IH]; intros H; [discriminate|].
  destruct o; cbn in H; try discriminate; try (apply IH; exact H). injection H as <-. exact A.
Qed.
Lemma latest_s2m_within : forall B h m, Forall (op_within B) h -> TsdSpec.latest_s2m h = Some m -> meas_within B m.
Proof.
  intros B h m F. induction F as [|o h A F IH]; intros H; [discriminate|].
  destruct o; cbn in H; try discriminate; try (apply IH; exact H). injection H as <-. exact A.
Qed.
Lemma latest_p2p_within : forall B h a b, 0 <= B -> Forall (op_within B) h -> TsdSpec.latest_p2p h = Some (a, b) ->
  meas_within B a /\ meas_within B b.
Proof.
  intros B h a b P F. induction F as [|o h A F IH]; intros H; [discriminate|].
  destruct o; cbn in H; try discriminate; try (apply IH; exact H). injection H as <- <-.
  destruct A as [A1 [A2 [A3 [A4 A5]]]]. unfold meas_within. cbn. lia.
Qed.
Lemma transit_within : forall B m, meas_within B m -> Z.abs (TsdSpec.transit m) <= 3 * B.
Proof. intros B m [A [C D]]. unfold TsdSpec.transit. lia. Qed.

Definition fits (B : Z) (d : dset) : Prop := (Qabs (d_off d) <= TsdSpec.ns_of (6 * B))%Q.

Lemma dset_fits : forall B now m rt, Z.abs (TsdSpec.transit m) <= 3 * B ->
  Z.abs (2 * TsdSpec.transit m - rt) <= 12 * B -> fits B (dset_of now m rt).
Proof.
  intros B now m rt H1 H2. unfold fits, dset_of, TsdSpec.ns_of. cbn [d_off].
  apply Qabs_case; intros _; unfold Qle, Qminus, Qplus, Qopp, Qdiv, Qmult, Qinv, inject_Z; cbn -[Z.mul]; lia.
Qed.
Lemma completes_fits : forall B on h m d, 0 <= B -> Forall (op_within B) (m :: h) ->
  completes on h m = Some d -> fits B d.
Proof.
  intros B on h m d P F H. unfold completes in H. destruct on; [|discriminate].
  destruct (given_at m) as [now|]; [|discriminate]. unfold dataset in H.
  destruct (TsdSpec.latest_m2s (m :: h)) as [x|] eqn:E1; [|discriminate].
  pose proof (transit_within _ _ (latest_m2s_within _ _ _ F E1)) as W1.
  destruct (TsdSpec.latest_s2m (m :: h)) as [y|] eqn:E2.
  - injection H as <-. pose proof (transit_within _ _ (latest_s2m_within _ _ _ F E2)) as W2.
    apply dset_fits; lia.
  - destruct (TsdSpec.latest_p2p (m :: h)) as [[a b]|] eqn:E3; [|discriminate]. injection H as <-.
    destruct (latest_p2p_within _ _ _ _ P F E3) as [W2 W3]. apply transit_within in W2, W3.
    apply dset_fits; lia.
Qed.

Definition vfits (B : Z) (v : view) : Prop := Forall (op_within B) (w_ops v) /\ Forall (fits B) (w_sets v).

Lemma view_step_fits : forall B g v o e, 0 <= B -> vfits B v ->
  match o with Give m _ => op_within B m | _ => True end -> vfits B (view_step g v o e).
Proof.
  intros B g v o e P [F1 F2] W. assert (E : vfits B (clean v 0)) by (split; constructor).
  destruct o as [m u|t cc w|off w os1 os2|w os|c w os|t|kp ki kd r| |w os1 os2]; cbn [view_step].
  - unfold taken. destruct (e_stepped e); [split; constructor|].
    split; cbn [w_ops w_sets].
    + constructor; [|exact F1]. destruct (w_ts v); [exact W|]. destruct m; exact I.
    + destruct (completes (w_ts v) (w_ops v) m) as [d|] eqn:C; [|exact F2].
      apply Forall_app. split; [exact F2|]. constructor; [|constructor].
      eapply completes_fits; [exact P| |exact C]. constructor; assumption.
  - split; cbn [w_ops w_sets]; [|exact F2]. destruct (w_ts v && negb t); [constructor|exact F1].
  - destruct (c_ctrl g); (split; cbn [clean w_ops w_sets]; [first [exact F1|constructor]|first [exact F2|constructor]]).
  - split; constructor.
  - split; assumption.
  - split; assumption.
  - split; assumption.
  - split; assumption.
  - split; constructor.
Qed.
Lemma known_fits : forall B f l log, 0 <= B -> within B l -> length log = length l -> vfits B (known f l log).
Proof.
  intros B f l. induction l as [|o l IH] using rev_ind; intros log P W LN.
  - destruct log; [|discriminate]. split; constructor.
  - assert (D : exists log1 e, log = log1 ++ [e]).
    { destruct (exists_last (l := log)) as [a [b E]]; [intros ->; rewrite app_length in LN; cbn in LN; lia|eauto]. }
    destruct D as [log1 [e ->]]. rewrite !app_length in LN. cbn [length] in LN.
    assert (LN1 : length log1 = length l) by lia.
    apply Forall_app in W as [W1 W2]. unfold known. rewrite view_of_snoc by exact LN1.
    apply view_step_fits; [exact P|apply (IH _ P W1 LN1)|]. inversion W2; assumption.
Qed.

Lemma chosen_in : forall g h d c, chosen g h d c -> In c (h ++ [d]).
Proof.
  intros g h d c [[A _]|[-> _]].
  - apply in_lastn in A. exact A.
  - apply in_or_app. right. left. reflexivity.
Qed.
Lemma chain_in : forall g sets ys acc, chain g sets ys acc -> forall d, In d acc -> In d sets.
Proof.
  intros g sets ys acc H. induction H as [|sets ys acc d c out y C IH CH J]; intros x Hx; [destruct Hx|].
  destruct out.
  - apply in_or_app. left. apply IH. exact Hx.
  - apply in_app_or in Hx as [Hx|[<-|[]]]; [apply in_or_app; left; apply IH; exact Hx|].
    apply (chosen_in _ _ _ _ CH).
Qed.
Lemma Qsum_abs : forall K l, (forall x, In x l -> (Qabs x <= K)%Q) -> (Qabs (Qsum l) <= Qlen l * K)%Q.
Proof.
  intros K l. induction l as [|a l IH]; intros H.
  - cbn. unfold Qlen. cbn. setoid_replace (inject_Z 0 * K)%Q with 0%Q by ring. discriminate.
  - assert (A : (Qabs a <= K)%Q) by (apply H; left; reflexivity).
    assert (B : (Qabs (Qsum l) <= Qlen l * K)%Q) by (apply IH; intros x Hx; apply H; right; exact Hx).
    assert (E : (Qlen (a :: l) == 1 + Qlen l)%Q).
    { unfold Qlen. cbn [length]. rewrite Nat2Z.inj_succ, <- Z.add_1_l, inject_Z_plus. reflexivity. }
    rewrite E. rewrite Qsum_cons. eapply Qle_trans; [apply Qabs_triangle|]. lra.
Qed.
Lemma Qmean_abs : forall K l, (0 <= K)%Q -> (forall x, In x l -> (Qabs x <= K)%Q) -> (Qabs (Qmean l) <= K)%Q.
Proof.
  intros K l P H. destruct l as [|a l].
  - exact P.
  - pose proof (Qsum_abs K (a :: l) H) as S1. unfold Qmean.
    assert (L : (0 < Qlen (a :: l))%Q).
    { unfold Qlen. cbn [length]. change 0%Q with (inject_Z 0). rewrite <- Zlt_Qlt. lia. }
    unfold Qdiv. rewrite Qabs_Qmult, (Qabs_pos (/ Qlen (a :: l))).
    + apply Qle_shift_div_r; [exact L|]. rewrite Qmult_comm. exact S1.
    + apply Qlt_le_weak, Qinv_lt_0_compat, L.
Qed.
Lemma reported_fits : forall B g sets ys acc ofm mpd, 0 <= B -> Forall (fits B) sets ->
  chain g sets ys acc -> reported g acc ofm mpd -> (Qabs ofm <= TsdSpec.ns_of (6 * B))%Q.
Proof.
  intros B g sets ys acc ofm mpd P F C R.
  assert (K0 : (0 <= TsdSpec.ns_of (6 * B))%Q) by (unfold Qle, TsdSpec.ns_of; cbn [Qnum Qden]; lia).
  destruct acc as [|d acc]; destruct R as [R _]; rewrite R; [exact K0|].
  apply Qmean_abs; [exact K0|]. intros x Hx. apply in_lastn in Hx.
  apply in_map_iff in Hx as [y [<- Hy]]. rewrite Forall_forall in F. apply F.
  apply (chain_in _ _ _ _ C). exact Hy.
Qed.

(** ** Definedness *)
Lemma sane_subtract : forall a b, TsdSpec.sane a -> TsdSpec.sane b -> exists c, subtract a b = Some c.
Proof.
  intros a b [A1 A2] [B1 B2]. apply subtract_defined; [exact A1|exact B1|].
  destruct A1 as [? [? ?]], B1 as [? [? ?]]. unfold representable, instant, s_unit. lia.
Qed.
Lemma pid_update_defined : forall f x now, TsdSpec.sane now -> TsdSpec.sane (last_update f) ->
  exists f', pid_update f x (Some now) = Some f'.
Proof.
  intros f x now A B. unfold pid_update, pid_interval. destruct (is_zero (last_update f)); [eexists; reflexivity|].
  destruct (sane_subtract now (last_update f) A B) as [d ->]. eexists. reflexivity.
Qed.
Lemma step_clock_defined : forall s k off os1 os2, normal off -> - 2^63 < sec off ->
  exists r, servo_step_clock s k off os1 os2 = Some r.
Proof.
  intros s k off os1 os2 A B. unfold servo_step_clock.
  destruct (negate_exact off A B) as [n [N _]].
  destruct (o_ctrl (p_opts s)); try (eexists; reflexivity);
  (rewrite N; cbn [bind]; destruct (adjust_time k (p_clock s) n os1); rewrite reset_freq_eq; eexists; reflexivity).
Qed.

(** 6 * 2^60 seconds *)
Definition far : Z := 2^60 * s_unit.
Lemma sane_within : forall t, TsdSpec.sane t -> Z.abs (instant t) <= far.
Proof. intros t [[A [B C]] D]. unfold instant, far, s_unit. lia. Qed.
Lemma sane_op_within : forall m, TsdSpec.sane_op m -> op_within far m.
Proof.
  intros m H. destruct m; cbn in *; try exact I; unfold TsdSpec.sane_meas in H; unfold meas_within;
  repeat match goal with |- _ /\ _ => split end; apply sane_within; tauto.
Qed.
Lemma hist_within : forall l, hist_ok l -> within far l.
Proof.
  intros l [H _]. unfold within. eapply Forall_impl; [|exact H].
  intros o Ho. destruct o; try exact I. apply sane_op_within. apply Ho.
Qed.

Lemma convert_defined : forall rd x, FltSpec.no_carry rd x -> (Qabs x <= TsdSpec.ns_of (6 * far))%Q ->
  exists t, of_float_ns rd x = Some t /\ normal t /\ - 2^63 < sec t.
Proof.
  intros rd x NC B. apply Qabs_Qle_condition in B as [B1 B2].
  assert (IR : in_range x).
  { unfold in_range. split.
    - eapply Qle_trans; [|exact B1]. vm_compute. discriminate.
    - eapply Qle_lt_trans; [exact B2|]. vm_compute. reflexivity. }
  destruct (of_float_ns_exact rd x NC IR) as [t [E [N I1]]]. exists t. split; [exact E|]. split; [exact N|].
  assert (LB : - (2^63 - 1) * s_unit <= instant t).
  { rewrite I1. unfold FltSpec.units_floor. rewrite <- (Qfloor_Z (- (2^63 - 1) * s_unit)). apply Qfloor_resp_le.
    setoid_replace (inject_Z (- (2^63 - 1) * s_unit))%Q
      with ((inject_Z (- (2^63 - 1)) * inject_Z 1000000000) * inject_Z (2^32))%Q by (vm_compute; reflexivity).
    apply Qmult_le_compat_r; [|discriminate]. eapply Qle_trans; [|exact B1]. vm_compute. discriminate. }
  destruct N as [N1 [N2 N3]]. unfold instant, s_unit in LB. lia.
Qed.

Lemma update_clock_defined : forall rd s u, (forall x, FltSpec.no_carry rd x) -> TsdSpec.sane (u_now u) ->
  TsdSpec.sane (last_update (q_pid (p_c s))) -> (Qabs (m_ofm (p_m s)) <= TsdSpec.ns_of (6 * far))%Q ->
  exists r, servo_update_clock rd s u = Some r.
Proof.
  intros rd s u NC SN SL B. unfold servo_update_clock. cbv zeta.
  destruct (u_out u); [eexists; reflexivity|].
  destruct (Qle_bool _ _).
  - destruct (negb _); [eexists; reflexivity|]. destruct (may_step _ _ _).
    + destruct (convert_defined rd _ (NC (m_ofm (p_m s))) B) as [t [-> [N1 N2]]]. cbn [bind].
      destruct (step_clock_defined (set_clus s false) (u_w u (p_clock s)) t (u_os1 u) (u_os2 u) N1 N2) as [[[s1 ev] b] ->].
      eexists. reflexivity.
    + destruct (o_ctrl _); try (eexists; reflexivity); rewrite freq_eq; eexists; reflexivity.
  - destruct (p_cc _); [|eexists; reflexivity].
    destruct (pid_update_defined (q_pid (p_c s)) (m_ofm (p_m s)) (u_now u) SN SL) as [f F].
    change (q_pid (p_c (set_adj (set_clus s false) (q_corr (p_c (set_clus s false)))))) with (q_pid (p_c s)).
    rewrite F. cbn [bind]. rewrite freq_eq. eexists. reflexivity.
Qed.

Definition gains_ok (g : option Q * option Q * option Q) : Prop :=
  fst (fst g) <> None /\ snd (fst g) <> None /\ snd g <> None.

Lemma init_defined : forall o gain c k os1 os2, opts_ok o -> gains_ok gain -> clock_ok k ->
  exists s ev, servo_init o gain c k os1 os2 = Some (s, ev) /\ p_opts s = o /\ p_gain s = gain.
Proof.
  intros o [[gp gi] gd] c k os1 os2 [A [B [[C1 C2] D]]] [G1 [G2 G3]] [K _]. cbn [fst snd] in *.
  unfold servo_init, small_create. pose proof (timeout_range (o_smax o) (o_si o)) as T.
  assert (E1 : ((0 <? o_smax o)%nat && (0 <? filter_timeout (o_smax o) (o_si o))) = true) by lia.
  rewrite E1. cbn [bind]. unfold peirce_create.
  apply Qle_bool_iff in C1, C2. rewrite C1, C2.
  assert (E2 : ((0 <? o_pmax o) && (o_pmax o <=? PEIRCE_MAX))%nat = true) by lia.
  rewrite E2. cbn [andb bind]. unfold fir_init.
  assert (E3 : (o_fir o <=? FIR_MAX)%nat = true) by lia. rewrite E3. cbn [bind].
  destruct gp; [|congruence]. destruct gi; [|congruence]. destruct gd; [|congruence]. cbn [bind].
  unfold set_slave_clock. rewrite reset_freq_eq. unfold pid_set_i_max. apply Qle_bool_iff in K.
  cbn [p_c q_pid]. rewrite K. cbn [bind]. unfold servo_reset. rewrite reset_freq_eq.
  eexists _, _. split; [reflexivity|]. split; reflexivity.
Qed.

Lemma call_defined : forall rd g l v s o, FltSpec.rounding rd -> (forall x, FltSpec.no_carry rd x) -> rep g l v s ->
  hist_ok (l ++ [o]) -> call_pre o -> vfits far v ->
  opts_ok (p_opts s) -> gains_ok (p_gain s) ->
  exists s' e, call rd s o = Some (s', e) /\ opts_ok (p_opts s') /\ gains_ok (p_gain s').
Proof.
  intros rd g l v s o RD NC RP HO PRE VF OO GO.
  pose proof RP as [RG [RF [RT [RC [RK [RM RQ]]]]]]. pose proof HO as [HF HN].
  assert (OK : op_ok o) by (apply Forall_app in HF as [_ HF]; inversion HF; assumption).
  destruct o as [m u|t cc w|off w os1 os2|w os|c w os|t|kp ki kd r| |w os1 os2].
  - destruct OK as [OK1 [OK2 OK3]]. cbn [call].
    assert (IM : forall x, In x (moments l) -> In x (moments (l ++ [Give m u]))) by (intros x Hx; rewrite moments_app; apply in_or_app; left; exact Hx).
    pose proof (mrep_moms _ _ _ _ _ _ _ _ IM RM) as RM1.
    destruct (provide_ok g (moments (l ++ [Give m u])) (w_ops v) (w_sets v) (w_samples v) (w_rejected v)
               (p_m s) (p_ts s) m RM1 OK1) as [m1 [acc [PR DT]]].
    { intros n G. rewrite moments_app in *. unfold moments at 2 in HN. unfold moments at 2 4. cbn [flat_map] in *. rewrite G in *. cbn [app] in *.
      split; [apply in_or_app; right; left; reflexivity|].
      intros x Hx. apply in_app_or in Hx as [Hx|[<-|[]]]; [|cbn; lia].
      apply (nondecreasing_last _ _ _ HN Hx). }
    rewrite PR. cbn [bind]. destruct (from_master m && acc) eqn:FA.
    + apply andb_prop in FA as [FA ->]. rewrite RT in *.
      destruct (completes (w_ts v) (w_ops v) m) as [d|] eqn:CO; [|destruct DT as [X _]; discriminate].
      destruct DT as [MR _]. destruct MR as [_ [_ [FR _]]]. destruct FR as [_ [_ [_ [ys [acc [xs [CH [_ [_ [_ RE]]]]]]]]]].
      assert (BD : (Qabs (m_ofm m1) <= TsdSpec.ns_of (6 * far))%Q).
      { eapply (reported_fits far); [vm_compute; discriminate| |exact CH|exact RE].
        apply Forall_app. split; [apply VF|]. constructor; [|constructor].
        eapply completes_fits; [vm_compute; discriminate| |exact CO]. constructor; [apply sane_op_within; exact OK1|apply VF]. }
      destruct (update_clock_defined rd (with_m s m1) u NC OK2) as [[[[s2 ev] st] lk] UC]; [apply RQ|exact BD|].
      rewrite UC. cbn [bind]. eexists _, _. split; [reflexivity|].
      destruct (update_clock_ok rd g v (with_m s m1) u s2 ev st lk) as [_ [_ [Q1 [Q2 _]]]]; auto.
      rewrite Q1, Q2. auto.
    + eexists _, _. split; [reflexivity|]. auto.
  - eexists _, _. split; [reflexivity|]. auto.
  - cbn [call]. destruct OK as [[N1 N2] OK].
    destruct (step_clock_defined s (w (p_clock s)) off os1 os2 N1 ltac:(lia)) as [[[s1 ev] b] E].
    rewrite E. cbn [bind]. eexists _, _. split; [reflexivity|].
    apply step_clock_eq in E. destruct E as [[_ [-> _]]|[_ [_ [neg [_ [_ ->]]]]]]; auto.
  - cbn [call]. unfold servo_reset. rewrite reset_freq_eq. eexists _, _. split; [reflexivity|]. auto.
  - cbn [call]. unfold set_slave_clock. rewrite reset_freq_eq. unfold pid_set_i_max.
    destruct (OK c) as [K _]. apply Qle_bool_iff in K. cbn [p_c q_pid]. rewrite K. cbn [bind].
    eexists _, _. split; [reflexivity|]. auto.
  - cbn [call]. unfold pid_set_interval. apply Qlt_bool_iff in PRE. rewrite PRE. cbn [bind].
    eexists _, _. split; [reflexivity|]. auto.
  - cbn [call]. eexists _, _. split; [reflexivity|]. split; [exact OO|]. exact PRE.
  - eexists _, _. split; [reflexivity|]. auto.
  - cbn [call]. destruct (init_defined (p_opts s) (p_gain s) (p_clock s) (w (p_clock s)) os1 os2 OO GO (OK _)) as [s1 [ev [-> [P1 P2]]]].
    cbn [bind]. eexists _, _. split; [reflexivity|]. cbn [fst]. rewrite P1, P2. auto.
Qed.

Lemma live_defined : forall rd f l, FltSpec.rounding rd -> (forall x, FltSpec.no_carry rd x) ->
  opts_ok (f_opts f) -> (forall c, clock_ok (f_w f c)) -> hist_ok l -> Forall call_pre l ->
  exists s ev log, live rd f l = Some (s, ev, log) /\ opts_ok (p_opts s) /\ gains_ok (p_gain s).
Proof.
  intros rd f l RD NC OO CK. induction l as [|o l IH] using rev_ind; intros HO PR.
  - destruct (init_defined (f_opts f) (Some (f_kp f), Some (f_ki f), Some (f_kd f)) (f_c f) (f_w f (f_c f)) (f_os1 f) (f_os2 f))
      as [s [ev [E [P1 P2]]]]; auto.
    { repeat split; discriminate. }
    exists s, ev, []. unfold live. rewrite E. cbn. split; [reflexivity|]. rewrite P1, P2. split; [exact OO|]. repeat split; discriminate.
  - apply Forall_app in PR as [PR1 PR2]. inversion PR2 as [|? ? PR3 _]; subst.
    destruct (IH (hist_ok_prefix _ _ HO) PR1) as [s [ev [log [E [P1 P2]]]]].
    assert (LO : life_ok f) by (split; [apply OO|exact CK]).
    destruct (live_ok rd f l s ev log RD LO (hist_ok_prefix _ _ HO) E) as [RP [LN _]].
    destruct (call_defined rd _ l _ s o RD NC RP HO PR3) as [s' [e [C [Q1 Q2]]]]; auto.
    { apply known_fits; [vm_compute; discriminate|apply hist_within, (hist_ok_prefix _ _ HO)|exact LN]. }
    exists s', ev, (log ++ [e]). split; [|auto].
    unfold live in *. destruct (servo_init _ _ _ _ _ _) as [[s0 ev0]|]; cbn [bind fst snd] in *; [|discriminate].
    destruct (calls rd s0 l) as [[s1 lg]|] eqn:CS; cbn [bind fst snd] in E; [|discriminate]. injection E as -> -> ->.
    rewrite (calls_snoc_some _ _ _ o _ _ CS), C. reflexivity.
Qed.
