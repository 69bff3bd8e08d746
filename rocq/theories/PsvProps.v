(** Properties of the PTP slave servo (C61). *)
Require Import ZArith QArith Qabs Qround List Bool Lia Lqa.
From Verif Require Import Base ListLib QLib TimeSpec TimeModel FilterSpec FilterModel SrvSpec SrvModel
  PsvSpec PsvModel PsvProof PsvProof2 PsvProof3 PsvProof4 PsvProof5 PsvProof6.
From Verif Require TsdSpec FltSpec.
Import ListNotations.
Open Scope Z_scope.

(** Everything below is about a servo that was initialised ([live] starts with
    servo_init) and then used by any history of calls whose times are
    representable and whose monotonic time does not go backwards ([hist_ok]);
    [known f l log] is what can be told from the calls [l] and what was seen of
    them. *)

(** What is reported: the offset is the mean of the last accepted offsets, the path
    delay that of the last accepted data set, where the data sets are those
    completed since the last reset, each replaced by the one with the smallest
    aged path delay in the window and judged by the outlier filter ([chain]); the
    counters count. *)
Theorem C61_measured : forall rd f l s ev log, FltSpec.rounding rd -> life_ok f -> hist_ok l ->
  live rd f l = Some (s, ev, log) ->
  let v := known f l log in
  (exists ys acc, chain (conf_of (f_opts f)) (w_sets v) ys acc /\
     reported (conf_of (f_opts f)) acc (m_ofm (p_m s)) (m_mpd (p_m s))) /\
  m_samples (p_m s) = u32 (w_samples v) /\ m_outliers (p_m s) = u32 (w_rejected v) /\
  q_steps (p_c s) = u32 (w_steps v).
Proof.
  intros rd f l s ev log RD LO HO H v.
  destruct (live_ok rd f l s ev log RD LO HO H) as [[_ [_ [_ [_ [_ [[_ [_ [FR [E1 E2]]]] RQ]]]]]] _].
  destruct FR as [_ [_ [_ [ys [acc [xs [CH [_ [_ [_ RE]]]]]]]]]].
  split; [exists ys, acc; auto|]. split; [exact E1|]. split; [exact E2|]. apply RQ.
Qed.
Print Assumptions C61_measured.

(** What is done: each call does exactly what [acts] says of it, in particular a
    measurement only leads to a request when it completes a data set, comes from
    the master and is accepted, and then to what [steers] says. *)
Theorem C61_acts : forall rd f l o s ev log s' ev' log', FltSpec.rounding rd -> life_ok f -> hist_ok (l ++ [o]) ->
  live rd f l = Some (s, ev, log) -> live rd f (l ++ [o]) = Some (s', ev', log') ->
  exists e, log' = log ++ [e] /\
    acts (conf_of (f_opts f)) (known f l log) o e
         (i_term (q_pid (p_c s))) (i_term (q_pid (p_c s'))) (q_adj (p_c s')) (q_aclus (p_c s')).
Proof.
  intros rd f l o s ev log s' ev' log' RD LO HO H1 H2.
  destruct (live_snoc _ _ _ _ _ _ _ H2) as [s1 [lg [e [A [B [-> LN]]]]]].
  rewrite H1 in A. injection A as <- <- <-.
  destruct (live_ok rd f l s ev log RD LO (hist_ok_prefix _ _ HO) H1) as [RP _].
  destruct (call_ok rd _ l _ s o s' e RD RP HO B) as [_ AC]. exists e. auto.
Qed.
Print Assumptions C61_acts.

(** The configuration as used: the path delay filter forgets data sets after the
    time its length covers at the configured rate of Sync messages, but at least 10
    and at most 20 seconds; the rest is as configured. *)
Theorem C61_settings : forall o, let g := conf_of o in
  c_ctrl g = o_ctrl o /\ c_thr g = o_thr o /\ c_smax g = o_smax o /\ c_ageing g = o_ageing o /\
  c_pmax g = o_pmax o /\ c_weight g = o_weight o /\ c_fir g = o_fir o /\
  c_timeout g = Z.max 10 (Z.min 20 (Qfloor (inject_Z (Z.of_nat (o_smax o)) * Qpower (inject_Z 2) (o_si o)))).
Proof.
  intros o g. repeat (split; [reflexivity|]). unfold g, conf_of. cbn [c_timeout]. unfold filter_timeout.
  assert (P : (0 <= inject_Z (Z.of_nat (o_smax o)) * Qpower (inject_Z 2) (o_si o))%Q).
  { apply Qmult_le_0_compat; [change 0%Q with (inject_Z 0); rewrite <- Zle_Qle; lia|]. apply Qlt_le_weak, pow2_pos. }
  set (q := (_ * _)%Q) in *. assert (E : FltModel.Qtrunc q = Qfloor q) by (unfold FltModel.Qtrunc; destruct (Qlt_le_dec q 0) as [K|K]; [exfalso; apply (Qlt_not_le _ _ K P)|reflexivity]).
  rewrite E. cbv zeta. destruct (Qfloor q <? 10) eqn:A; [lia|]. destruct (20 <? Qfloor q) eqn:B; lia.
Qed.
Print Assumptions C61_settings.
Example C61_settings_ex : c_timeout (conf_of (mkRopts NO_STEP 0 15 0 0 4 1 2)) = 15 /\
  c_timeout (conf_of (mkRopts NO_STEP 0 15 0 (-3) 4 1 2)) = 10.
Proof. split; reflexivity. Qed.

(** When it is initialised: the clock is set to its stored frequency correction,
    twice, and to nothing else. *)
Theorem C61_init : forall rd f l s ev log, FltSpec.rounding rd -> life_ok f -> hist_ok l ->
  live rd f l = Some (s, ev, log) ->
  exists ev1 ev2, ev = ev1 ++ ev2 /\
    freq_request (f_w f (f_c f)) (f_c f) (k_corr (f_w f (f_c f))) ev1 /\
    freq_request (f_w f (f_c f)) (f_c f) (k_corr (f_w f (f_c f))) ev2.
Proof. intros. eapply live_ok; eassumption. Qed.
Print Assumptions C61_init.

(** With the policies that permit a step only at startup or on first lock, two steps
    made by the servo itself are always separated by a restart of the port. *)
Theorem C61_once : forall rd f l1 m1 u1 l2 m2 u2 l3 s ev log1 e1 log2 e2 log3,
  FltSpec.rounding rd -> life_ok f ->
  (o_ctrl (f_opts f) = STEP_AT_STARTUP \/ o_ctrl (f_opts f) = STEP_ON_FIRST_LOCK) ->
  hist_ok (l1 ++ Give m1 u1 :: l2 ++ Give m2 u2 :: l3) ->
  live rd f (l1 ++ Give m1 u1 :: l2 ++ Give m2 u2 :: l3) = Some (s, ev, log1 ++ e1 :: log2 ++ e2 :: log3) ->
  length log1 = length l1 -> length log2 = length l2 ->
  jumped e1 -> jumped e2 -> existsb is_restart l2 = true.
Proof. exact once. Qed.
Print Assumptions C61_once.

(** With the policies that never step, no measurement makes the clock jump. *)
Theorem C61_never : forall rd f l1 m u l2 s ev log1 e log2, FltSpec.rounding rd -> life_ok f ->
  (o_ctrl (f_opts f) = NO_STEP \/ o_ctrl (f_opts f) = NO_ADJUST) ->
  hist_ok (l1 ++ Give m u :: l2) ->
  live rd f (l1 ++ Give m u :: l2) = Some (s, ev, log1 ++ e :: log2) -> length log1 = length l1 ->
  ~ jumped e.
Proof.
  intros rd f l1 m u l2 s ev log1 e log2 RD LO PO HO H LN J.
  destruct (acts_at rd f l1 _ _ s ev _ RD LO HO H) as [lgA [eA [lgA2 [i [i' [adj [clus [E1 [L1 [_ A]]]]]]]]]].
  assert (X : lgA = log1 /\ eA :: lgA2 = e :: log2) by (apply app_inj_len; [congruence|symmetry; exact E1]).
  destruct X as [-> X]. injection X as -> ->.
  destruct (give_jump _ _ _ _ _ _ _ _ _ A J) as [_ [ofm P]].
  unfold conf_of in P. cbn [c_ctrl] in P. destruct PO as [PO|PO]; rewrite PO in P; exact P.
Qed.
Print Assumptions C61_never.

(** With the policy to step forward only, no measurement makes the clock jump back
    (for times up to 2^49 s, 17 million years, from the epoch). *)
Theorem C61_forward : forall rd f l1 m u l2 s ev log1 e log2 c off,
  FltSpec.rounding rd -> life_ok f -> o_ctrl (f_opts f) = STEP_FORWARD ->
  hist_ok (l1 ++ Give m u :: l2) -> within (2^49 * s_unit) (l1 ++ Give m u :: l2) ->
  live rd f (l1 ++ Give m u :: l2) = Some (s, ev, log1 ++ e :: log2) -> length log1 = length l1 ->
  In (KStep c off) (e_ev e) -> 0 <= off.
Proof. exact forward. Qed.
Print Assumptions C61_forward.

(** Every frequency requested is within the limit of the clock it is requested of. *)
Theorem C61_limit : forall rd f l1 o l2 s ev log1 e log2 c t x,
  FltSpec.rounding rd -> life_ok f -> hist_ok (l1 ++ o :: l2) -> within (2^49 * s_unit) (l1 ++ o :: l2) ->
  live rd f (l1 ++ o :: l2) = Some (s, ev, log1 ++ e :: log2) -> length log1 = length l1 ->
  In (KFreq c t x) (e_ev e) ->
  exists w, clocks_of o = Some w /\ (Qabs (realised (option_map fst (k_sys (w c))) t x) <= limit (w c))%Q.
Proof.
  intros rd f l1 o l2 s ev log1 e log2 c t x RD LO HO WI H LN I1.
  destruct (acts_at rd f l1 _ _ s ev _ RD LO HO H) as [lgA [eA [lgA2 [i [i' [adj [clus [E1 [L1 [_ A]]]]]]]]]].
  assert (X : lgA = log1 /\ eA :: lgA2 = e :: log2) by (apply app_inj_len; [congruence|symmetry; exact E1]).
  destruct X as [-> X]. injection X as -> ->.
  apply Forall_app in WI as [WI1 WI2]. inversion WI2 as [|? ? WI3 _]; subst.
  assert (VF : vfits (2^49 * s_unit) (known f l1 log1)) by (apply known_fits; [vm_compute; discriminate|exact WI1|exact LN]).
  pose proof (requests_at (2^49 * s_unit) _ _ _ _ _ _ _ _ ltac:(vm_compute; discriminate) ltac:(vm_compute; reflexivity) A VF WI3) as R.
  destruct HO as [HF _]. apply Forall_app in HF as [_ HF]. inversion HF as [|? ? OK _]; subst.
  destruct (clocks_of o) as [w|] eqn:CK; [|rewrite R in I1; destruct I1].
  exists w. split; [reflexivity|].
  assert (WK : forall c, clock_ok (w c)).
  { destruct o; cbn in CK; try discriminate; injection CK as <-; cbn in OK; apply OK. }
  destruct (requests_limit _ _ _ _ _ _ (WK _) R I1) as [-> B]. exact B.
Qed.
Print Assumptions C61_limit.

(** If no clock may be written to, nothing is ever requested. *)
Theorem C61_read_only : forall rd f l s ev log, FltSpec.rounding rd -> life_ok f -> hist_ok l ->
  within (2^49 * s_unit) l ->
  (forall c, k_ro (f_w f c) = true) ->
  (forall o w c, In o l -> clocks_of o = Some w -> k_ro (w c) = true) ->
  live rd f l = Some (s, ev, log) ->
  ev = [] /\ forall e, In e log -> e_ev e = [].
Proof.
  intros rd f l s ev log RD LO HO WI R0 RO H. split.
  - destruct (live_ok rd f l s ev log RD LO HO H) as [_ [_ [ev1 [ev2 [-> [F1 F2]]]]]].
    rewrite (freq_request_ro _ _ _ _ (R0 _) F1), (freq_request_ro _ _ _ _ (R0 _) F2). reflexivity.
  - intros e Ie. destruct (live_ok rd f l s ev log RD LO HO H) as [_ [LN _]].
    apply in_split in Ie as [lg1 [lg2 ->]].
    assert (SP : exists l1 o l2, l = l1 ++ o :: l2 /\ length l1 = length lg1).
    { clear -LN. revert l LN. induction lg1 as [|x lg1 IH]; intros l LN.
      - destruct l as [|o l2]; [discriminate|]. exists [], o, l2. auto.
      - destruct l as [|o l]; [discriminate|]. injection LN as LN. destruct (IH l LN) as [l1 [o' [l2 [-> E]]]].
        exists (o :: l1), o', l2. cbn [app length]. auto. }
    destruct SP as [l1 [o [l2 [-> L1]]]].
    destruct (acts_at rd f l1 _ _ s ev _ RD LO HO H) as [lgA [eA [lgA2 [i [i' [adj [clus [E1 [L1' [_ A]]]]]]]]]].
    assert (X : lgA = lg1 /\ eA :: lgA2 = e :: lg2) by (apply app_inj_len; [congruence|symmetry; exact E1]).
    destruct X as [-> X]. injection X as -> ->.
    apply Forall_app in WI as [WI1 WI2]. inversion WI2 as [|? ? WI3 _]; subst.
    assert (VF : vfits (2^49 * s_unit) (known f l1 lg1)) by (apply known_fits; [vm_compute; discriminate|exact WI1|congruence]).
    pose proof (requests_at (2^49 * s_unit) _ _ _ _ _ _ _ _ ltac:(vm_compute; discriminate) ltac:(vm_compute; reflexivity) A VF WI3) as R.
    destruct (clocks_of o) as [w|] eqn:CK; [|exact R].
    eapply requests_ro; [|exact R]. eapply RO; [|exact CK]. apply in_or_app. right. left. reflexivity.
Qed.
Print Assumptions C61_read_only.

(** Without clock control nothing is requested: full statement, for every history in
    which control is never given.  False: see the refutation; what holds is that
    the calls that are not themselves orders to touch the clock do not. *)
Definition gives_control (o : sop) : bool := match o with Control _ cc _ => cc | _ => false end.
Definition orders (o : sop) : bool :=
  match o with StepUser _ _ _ _ | ResetServo _ _ | SetClock _ _ _ | Restart _ _ _ => true | _ => false end.
Theorem C61_uncontrolled_partial : forall rd f l s ev log, FltSpec.rounding rd -> life_ok f -> hist_ok l ->
  existsb gives_control l = false -> live rd f l = Some (s, ev, log) ->
  forall i o e, nth_error l i = Some o -> nth_error log i = Some e -> orders o = false -> nothing e.
Proof.
  intros rd f l s ev log RD LO HO NC H i o e N1 N2 NO.
  destruct (nth_error_split _ _ N1) as [l1 [l2 [-> L1]]].
  destruct (nth_error_split _ _ N2) as [lg1 [lg2 [-> L2]]].
  destruct (acts_at rd f l1 _ _ s ev _ RD LO HO H) as [lgA [eA [lgA2 [j [j' [adj [clus [E1 [L1' [_ A]]]]]]]]]].
  assert (X : lgA = lg1 /\ eA :: lgA2 = e :: lg2) by (apply app_inj_len; [congruence|symmetry; exact E1]).
  destruct X as [-> X]. injection X as -> ->.
  assert (CC : w_cc (known f l1 lg1) = false).
  { rewrite existsb_app in NC. apply orb_false_elim in NC as [NC _]. unfold known.
    assert (G : forall v, w_cc v = false -> w_cc (view_of (conf_of (f_opts f)) v l1 lg1) = false).
    { clear -NC. revert lg1. induction l1 as [|x l1 IH]; intros [|y lg1] v V; try exact V.
      cbn [existsb] in NC. apply orb_false_elim in NC as [N1 N2]. cbn [view_of]. apply IH; [exact N2|].
      destruct x; cbn [view_step gives_control] in *; try exact V; try reflexivity.
      - unfold taken. destruct (e_stepped y); exact V.
      - exact N1.
      - destruct (c_ctrl _); exact V. }
    apply G. reflexivity. }
  destruct o; cbn [acts orders] in *; try discriminate; try apply A.
  destruct (completes _ _ _); [|apply A].
  destruct A as [ys [acc [c [y [_ [_ [_ [A1 A2]]]]]]]].
  destruct (e_acc e && from_master m); [|apply A1; reflexivity].
  destruct (A2 eq_refl) as [_ [ofm [mpd [_ ST]]]]. unfold steers in ST. cbv zeta in ST. rewrite CC in ST.
  destruct (u_out u); apply ST.
Qed.
Print Assumptions C61_uncontrolled_partial.

(** The clock control alarm after a measurement that led to a frequency request says
    whether that request failed.  (Full statement, for steps and resets too: false,
    see the refutations.) *)
Theorem C61_alarm_partial : forall rd f l m u s ev log s' ev' e, FltSpec.rounding rd -> life_ok f -> hist_ok (l ++ [Give m u]) ->
  live rd f l = Some (s, ev, log) -> live rd f (l ++ [Give m u]) = Some (s', ev', log ++ [e]) ->
  e_locked e = true -> e_stepped e = false -> o_ctrl (f_opts f) <> NO_ADJUST ->
  writable (u_w u (w_clock (known f l log))) ->
  q_actrl (p_c s') = negb (u_os1 u =? 0).
Proof.
  intros rd f l m u s ev log s' ev' e RD LO HO H1 H2 EL ES NA WR.
  destruct (live_snoc _ _ _ _ _ _ _ H2) as [s1 [lg [e1 [A [B [E LN]]]]]].
  rewrite H1 in A. injection A as <- <- <-. apply app_inj_tail in E as [_ <-].
  destruct (live_ok rd f l s ev log RD LO (hist_ok_prefix _ _ HO) H1) as [[RG [_ [_ [_ [RK _]]]]] _].
  assert (CT : o_ctrl (p_opts s) <> NO_ADJUST).
  { intros X. apply NA. change (c_ctrl (conf_of (f_opts f)) = NO_ADJUST). rewrite <- RG. exact X. }
  cbn [call] in B. destruct (provide _ _ _) as [[m1 acc]|]; cbn [bind] in B; [|discriminate].
  destruct (from_master m && acc).
  - destruct (servo_update_clock _ _ _) as [[[[s2 ev2] st] lk]|] eqn:UC; cbn [bind] in B; [|discriminate].
    injection B as <- <-. cbn [e_locked e_stepped] in *. subst.
    eapply update_clock_alarm; [exact UC|exact CT|]. cbn [with_m p_clock]. rewrite RK. exact WR.
  - injection B as <- <-. discriminate EL.
Qed.
Print Assumptions C61_alarm_partial.

(** No undefined behaviour, for options the filters accept, clocks with limits, gains
    that are numbers, positive intervals, and if the conversion of an offset to seconds
    never rounds up to the next second (with the processor's floating point it can:
    the conversion is then undefined, as refuted for C44). *)
Theorem C61_defined_partial : forall rd f l, FltSpec.rounding rd -> (forall x, FltSpec.no_carry rd x) ->
  opts_ok (f_opts f) -> (forall c, clock_ok (f_w f c)) -> hist_ok l -> Forall call_pre l ->
  live rd f l <> None.
Proof.
  intros rd f l RD NC OO CK HO PR.
  destruct (live_defined rd f l RD NC OO CK HO PR) as [s [ev [log [E _]]]]. rewrite E. discriminate.
Qed.
Print Assumptions C61_defined_partial.

(** ** Examples and refutations *)
Definition ex_rd (x : Q) : Q := x.
Lemma ex_rounding : FltSpec.rounding ex_rd.
Proof. split; [intros x y H; exact H|intros z _; reflexivity]. Qed.
Definition ex_k : kclk := mkClk None true false 0 (inject_Z 1000000) 25 false false.
Definition ex_w : nat -> kclk := fun _ => ex_k.
Definition ex_opts (p : ctrl) : ropts := mkRopts p (inject_Z 500000000) 3 0 0 4 1 2.
Definition ex_life (p : ctrl) : life := mkLife (ex_opts p) (1#10) (1#100) 0 0%nat ex_w 0 0.
Definition T (s n : Z) : ts := mkTs s n 0.
Definition to_master (off delay at_ : Z) : sop :=      (** slave to master *)
  Give (TsdSpec.SetS2M (TsdSpec.mkMeas (T (at_ + off) 0) (T at_ delay) (T 0 0)) (T at_ 0)) (mkUpd ex_w false (T at_ 0) 0 0).
Definition sync (off delay at_ : Z) : sop :=           (** master to slave *)
  Give (TsdSpec.SetM2S (TsdSpec.mkMeas (T at_ 0) (T (at_ + off) delay) (T 0 0)) (T at_ 0)) (mkUpd ex_w false (T at_ 0) 0 0).

(** The hypotheses of the theorems above. *)
Lemma ex_clock : forall c, clock_ok (ex_w c).
Proof. intros c. split; [discriminate|exact I]. Qed.
Lemma ex_life_ok : forall p, life_ok (ex_life p).
Proof. intros p. split; [cbn; lia|exact ex_clock]. Qed.
Lemma ex_hist : forall l, Forall op_ok l ->
  (fix ok (m : list sample) := match m with a :: ((b :: _) as m') => (instant (s_mono a) <=? instant (s_mono b)) && ok m' | _ => true end) (moments l) = true ->
  hist_ok l.
Proof.
  intros l F H. split; [exact F|]. revert H. generalize (moments l) as m. intros m H.
  assert (G : forall x m', m = x :: m' -> forall y, In y m' -> (instant (s_mono x) <= instant (s_mono y))%Z).
  { intros x m' ->. revert x H. induction m' as [|b m' IH]; intros x H y [].
    - subst. apply andb_prop in H as [H _]. lia.
    - apply andb_prop in H as [H1 H2]. specialize (IH b H2 y H0). lia. }
  intros l1 x l2 y l3 E. revert l1 E G H. induction m as [|a m IH]; intros l1 E G H; [destruct l1; discriminate|].
  destruct l1 as [|c l1]; cbn [app] in E; injection E as -> E.
  - apply (G x m eq_refl). rewrite E. apply in_or_app. right. left. reflexivity.
  - assert (H' : (fix ok (m : list sample) := match m with a :: ((b :: _) as m') => (instant (s_mono a) <=? instant (s_mono b)) && ok m' | _ => true end) m = true).
    { destruct m as [|b m]; [reflexivity|]. apply andb_prop in H as [_ H]. exact H. }
    apply (IH l1 E); [|exact H']. clear -H'. intros z m' ->. revert z H'. induction m' as [|b m' IH]; intros z H' y [].
    + subst. apply andb_prop in H' as [H' _]. lia.
    + apply andb_prop in H' as [H1 H2]. specialize (IH b H2 y H). lia.
Qed.
Ltac op_okt := repeat (constructor; [cbn; unfold TsdSpec.sane_meas, TsdSpec.sane, normal, T; cbn;
  repeat match goal with |- _ /\ _ => split end; try lia; try exact ex_clock; try exact I|]); try constructor.
Ltac histt := apply ex_hist; [op_okt|vm_compute; reflexivity].

(** a life: control is given, the offset is 2 s, the clock is stepped, then slewed *)
Definition ex_ops : list sop :=
  [Control true true ex_w; to_master 2 1000 100; sync 2 1000 101; to_master 0 3000 102; sync 0 7000 103; sync 0 9000 104].
Example C61_ex : hist_ok ex_ops /\ within (2^49 * s_unit) ex_ops /\
  match live ex_rd (ex_life STEP_AT_STARTUP) ex_ops with
  | Some (s, ev, log) =>
      ev = [KFreq 0 None 1638; KFreq 0 None 1638] /\
      map e_stepped log = [false; false; true; false; false; false] /\
      map e_ev log = [[]; []; [KStep 0 (-8589934592000000000); KFreq 0 None 1638]; [];
                      [KFreq 0 None (-11469)]; [KFreq 0 None (-12780)]] /\
      (m_ofm (p_m s) == 2000)%Q /\ (m_mpd (p_m s) == 5000)%Q /\ q_steps (p_c s) = 1 /\ m_samples (p_m s) = 3
  | None => False
  end.
Proof.
  split; [histt|]. split.
  - repeat (constructor; [cbn; unfold meas_within; cbn; repeat split; try (vm_compute; discriminate); exact I|]). constructor.
  - vm_compute. repeat split.
Qed.

(** the same seen by C61_acts: what [acts] asks of the last call *)
Example C61_acts_ex : exists s ev log s' e,
  live ex_rd (ex_life STEP_AT_STARTUP) (removelast ex_ops) = Some (s, ev, log) /\
  live ex_rd (ex_life STEP_AT_STARTUP) ex_ops = Some (s', ev, log ++ [e]) /\
  (i_term (q_pid (p_c s)) == 20)%Q /\ (i_term (q_pid (p_c s')) == 40)%Q /\ (q_adj (p_c s') == - (195))%Q.
Proof.
  destruct (live ex_rd (ex_life STEP_AT_STARTUP) (removelast ex_ops)) as [[[s ev] log]|] eqn:R1; [|vm_compute in R1; discriminate R1].
  destruct (live ex_rd (ex_life STEP_AT_STARTUP) ex_ops) as [[[s' ev'] log']|] eqn:R2; [|vm_compute in R2; discriminate R2].
  vm_compute in R1. vm_compute in R2. injection R1 as <- <- <-. injection R2 as <- <- <-.
  eexists _, _, _, _, _. split; [reflexivity|]. split; [reflexivity|].
  split; [vm_compute; reflexivity|]. split; vm_compute; reflexivity.
Qed.

(** steps forward only: an offset of -2 s is stepped away, one of +2 s slewed at the limit *)
Definition fwd_ops (off : Z) : list sop := [Control true true ex_w; to_master off 1000 100; sync off 1000 101].
Example C61_forward_ex :
  hist_ok (fwd_ops (-2)) /\ hist_ok (fwd_ops 2) /\
  match live ex_rd (ex_life STEP_FORWARD) (fwd_ops (-2)), live ex_rd (ex_life STEP_FORWARD) (fwd_ops 2) with
  | Some (_, _, l1), Some (_, _, l2) =>
      map e_ev l1 = [[]; []; [KStep 0 8589934592000000000; KFreq 0 None 1638]] /\
      map e_ev l2 = [[]; []; [KFreq 0 None (-65536000)]]
  | _, _ => False
  end.
Proof. split; [histt|]. split; [histt|]. vm_compute. repeat split. Qed.

(** never: the same offsets are slewed away *)
Example C61_never_ex :
  match live ex_rd (ex_life NO_STEP) (fwd_ops (-2)) with
  | Some (_, _, l1) => map e_ev l1 = [[]; []; [KFreq 0 None 65536000]]
  | _ => False
  end.
Proof. vm_compute. reflexivity. Qed.

(** the alarm: the kernel refuses (EPERM) the frequency *)
Example C61_alarm_ex :
  match live ex_rd (ex_life NO_STEP)
         (removelast (fwd_ops 0) ++ [Give (TsdSpec.SetM2S (TsdSpec.mkMeas (T 101 0) (T 101 5000) (T 0 0)) (T 101 0)) (mkUpd ex_w false (T 101 0) 1 0)]) with
  | Some (s, _, log) => map e_locked log = [false; false; true] /\ q_actrl (p_c s) = true
  | None => False
  end.
Proof. vm_compute. repeat split. Qed.

(** read-only clocks *)
Definition ro_w : nat -> kclk := fun _ => mkClk None true true 0 (inject_Z 1000000) 25 false false.
Example C61_read_only_ex :
  match live ex_rd (mkLife (ex_opts SLEW_AND_STEP) (1#10) (1#100) 0 0%nat ro_w 0 0)
             [Control true true ro_w;
              Give (TsdSpec.SetS2M (TsdSpec.mkMeas (T 102 0) (T 100 0) (T 0 0)) (T 100 0)) (mkUpd ro_w false (T 100 0) 0 0);
              Give (TsdSpec.SetM2S (TsdSpec.mkMeas (T 101 0) (T 103 0) (T 0 0)) (T 101 0)) (mkUpd ro_w false (T 101 0) 0 0)] with
  | Some (_, ev, log) => ev = [] /\ map e_stepped log = [false; false; true] /\ map e_ev log = [[]; []; []]
  | None => False
  end.
Proof. vm_compute. repeat split. Qed.

(** without control nothing happens *)
Example C61_uncontrolled_ex :
  match live ex_rd (ex_life SLEW_AND_STEP) [to_master 2 1000 100; sync 2 1000 101; sync 0 1000 102] with
  | Some (s, _, log) => map e_ev log = [[]; []; []] /\ map e_acc log = [false; true; true]
  | None => False
  end.
Proof. vm_compute. repeat split. Qed.

(** C61_defined_partial's hypotheses *)
Example C61_defined_ex : (forall x, FltSpec.no_carry ex_rd x) /\ opts_ok (ex_opts SLEW_AND_STEP) /\
  Forall call_pre (SetInterval (1#2) :: PidAdjust (Some 1%Q) (Some 1%Q) (Some 0%Q) true :: ex_ops).
Proof.
  split; [intros x; reflexivity|]. split; [unfold opts_ok, PEIRCE_MAX, FIR_MAX; cbn; repeat split; try lia; discriminate|].
  constructor; [reflexivity|]. constructor; [repeat split; discriminate|].
  repeat (constructor; [exact I|]). constructor.
Qed.

(** ** What does not hold *)

(** "Without clock control nothing is requested" is false: initialisation and a reset
    (when the best master changes, bmc.c:163-166) set the frequency of a clock that
    this servo was never given control of, which may be another servo's. *)
Theorem C61_uncontrolled_refuted : exists l s ev log e c t x,
  hist_ok l /\ existsb gives_control l = false /\
  live ex_rd (ex_life SLEW_AND_STEP) l = Some (s, ev, log) /\ ev <> [] /\ In e log /\ In (KFreq c t x) (e_ev e).
Proof.
  eexists [ResetServo ex_w 0], _, _, _, _, _, _, _. split; [histt|]. split; [reflexivity|].
  split; [vm_compute; reflexivity|]. split; [discriminate|]. split; [left; reflexivity|]. left. reflexivity.
Qed.
Print Assumptions C61_uncontrolled_refuted.

(** "With step-at-startup the clock is stepped at most once in the life of the daemon" is
    false: the port is initialised again after any fault (protocol.c:543), and the
    servo then steps again. *)
Definition restart_ops : list sop :=
  fwd_ops 2 ++ [Restart ex_w 0 0; Control true true ex_w; to_master 3 1000 200; sync 3 1000 201].
Theorem C61_restart_refuted : exists l s ev log,
  hist_ok l /\ live ex_rd (ex_life STEP_AT_STARTUP) l = Some (s, ev, log) /\
  length (filter (fun e => existsb (fun k => match k with KStep _ _ => true | _ => false end) (e_ev e)) log) = 2%nat.
Proof.
  eexists restart_ops, _, _, _. split; [histt|]. split; [vm_compute; reflexivity|]. vm_compute. reflexivity.
Qed.
Print Assumptions C61_restart_refuted.

(** Gains that are not numbers ("leave this one as it is") are kept in the running
    options (ptpd_lib.c:581-587): when the port is initialised again the filter is
    given them as they are. *)
Theorem C61_gains_refuted : exists l,
  hist_ok l /\ live ex_rd (ex_life SLEW_AND_STEP) l = None /\
  live ex_rd (ex_life SLEW_AND_STEP) (removelast l) <> None.
Proof.
  exists [PidAdjust (Some (1#2)) None None false; Restart ex_w 0 0]. split; [histt|].
  split; [vm_compute; reflexivity|]. vm_compute. discriminate.
Qed.
Print Assumptions C61_gains_refuted.

(** "After the clock is changed only measurements of the new clock count" is false:
    servo_set_slave_clock resets neither the measurements nor the filters, so the
    next data set pairs a new measurement with one of the old clock, and the average
    contains the old clock's offsets (ptpd_lib.c:647-655 resets the servo only if the
    kind of timestamp changed too). *)
Theorem C61_clock_change_refuted : exists l s ev log,
  hist_ok l /\ live ex_rd (ex_life NO_STEP) l = Some (s, ev, log) /\
  (exists l1 l2, l = l1 ++ SetClock 1 ex_w 0 :: l2 /\
     forall o, In o l2 -> o = sync 0 1000 300) /\
  (** offsets: 400 us measured of the old clock, half of that in the mixed data set *)
  (m_ofm (p_m s) == 300000)%Q.
Proof.
  eexists [Control true true ex_w;
           Give (TsdSpec.SetS2M (TsdSpec.mkMeas (T 100 400000) (T 100 1000) (T 0 0)) (T 100 0)) (mkUpd ex_w false (T 100 0) 0 0);
           Give (TsdSpec.SetM2S (TsdSpec.mkMeas (T 101 0) (T 101 401000) (T 0 0)) (T 101 0)) (mkUpd ex_w false (T 101 0) 0 0);
           SetClock 1 ex_w 0; sync 0 1000 300], _, _, _.
  split; [histt|]. split; [vm_compute; reflexivity|]. split.
  - eexists [_; _; _], [_]. split; [reflexivity|]. intros o [<-|[]]. reflexivity.
  - vm_compute. reflexivity.
Qed.
Print Assumptions C61_clock_change_refuted.

(** "A step that failed raises the clock control alarm" is false: the frequency reset
    that follows overwrites the alarm (servo.c:513-548, 155-175). *)
Theorem C61_step_alarm_refuted : exists l s ev log,
  hist_ok l /\ live ex_rd (ex_life SLEW_AND_STEP) l = Some (s, ev, log) /\
  In (StepUser (T 2 0) ex_w 1 0) l /\   (** the kernel answers EPERM, then 0 *)
  q_actrl (p_c s) = false.
Proof.
  eexists [StepUser (T 2 0) ex_w 1 0], _, _, _. split; [histt|]. split; [vm_compute; reflexivity|].
  split; [left; reflexivity|]. reflexivity.
Qed.
Print Assumptions C61_step_alarm_refuted.

(** "A reset whose frequency request failed raises the alarm" is false: servo_reset
    clears the alarms after having raised it (servo.c:178-187). *)
Theorem C61_reset_alarm_refuted : exists l s ev log,
  hist_ok l /\ live ex_rd (ex_life SLEW_AND_STEP) l = Some (s, ev, log) /\
  In (ResetServo ex_w 1) l /\ q_actrl (p_c s) = false.
Proof.
  eexists [ResetServo ex_w 1], _, _, _. split; [histt|]. split; [vm_compute; reflexivity|].
  split; [left; reflexivity|]. reflexivity.
Qed.
Print Assumptions C61_reset_alarm_refuted.
