(** Proofs about the servo and the clock operations. *)
Require Import ZArith QArith Qround Qabs Lqa List Bool Lia.
From Verif Require Import Base ListLib QLib TimeSpec TimeModel TimeProof FilterSpec FilterModel FilterProof StatsSpec StatsModel SrvSpec SrvModel.
Import ListNotations.
Open Scope Z_scope.

Ltac qb := repeat match goal with
  | |- context [Qlt_bool ?a ?b] => let E := fresh "E" in destruct (Qlt_bool a b) eqn:E;
      [apply Qlt_bool_iff in E | apply Qlt_bool_false in E]
  | H : context [Qlt_bool ?a ?b] |- _ => let E := fresh "E" in destruct (Qlt_bool a b) eqn:E;
      [apply Qlt_bool_iff in E | apply Qlt_bool_false in E]
  end.

(** ** Rounding *)
Lemma roundl_err : forall x, (- (1#2) <= inject_Z (roundl x) - x <= 1#2)%Q.
Proof.
  intros x. unfold roundl. destruct (Qle_bool 0 x) eqn:E.
  - pose proof (Qfloor_le (x + (1#2))). pose proof (Qlt_floor (x + (1#2))).
    rewrite inject_Z_plus in H0. change (inject_Z 1) with 1%Q in H0. split; lra.
  - pose proof (Qfloor_le (- x + (1#2))). pose proof (Qlt_floor (- x + (1#2))).
    rewrite inject_Z_plus in H0. change (inject_Z 1) with 1%Q in H0.
    rewrite inject_Z_opp. split; lra.
Qed.

Lemma Qfloor_unique : forall x z, (inject_Z z <= x)%Q -> (x < inject_Z z + 1)%Q -> Qfloor x = z.
Proof.
  intros x z H1 H2.
  pose proof (Qfloor_le x). pose proof (Qlt_floor x). rewrite inject_Z_plus in H0.
  change (inject_Z 1) with 1%Q in H0.
  assert (A : (inject_Z (Qfloor x) < inject_Z (z + 1))%Q).
  { rewrite inject_Z_plus. change (inject_Z 1) with 1%Q. lra. }
  assert (B : (inject_Z z < inject_Z (Qfloor x + 1))%Q).
  { rewrite inject_Z_plus. change (inject_Z 1) with 1%Q. lra. }
  rewrite <- Zlt_Qlt in A, B. lia.
Qed.

Lemma roundl_int : forall x z, (x == inject_Z z)%Q -> roundl x = z.
Proof.
  intros x z H. unfold roundl. destruct (Qle_bool 0 x) eqn:E.
  - apply Qfloor_unique; lra.
  - enough (Qfloor (- x + (1#2)) = - z) by lia.
    apply Qfloor_unique; rewrite inject_Z_opp; lra.
Qed.

Lemma roundl_nonneg : forall x, (0 <= x)%Q -> 0 <= roundl x.
Proof.
  intros x H. unfold roundl. apply Qle_bool_iff in H. rewrite H. apply Qle_bool_iff in H.
  change 0 with (Qfloor (0#1)). apply Qfloor_resp_le. lra.
Qed.

(** ** Clamping *)
Lemma sat_clamp : forall m x, (0 <= m)%Q -> (sat m x == clamp m x)%Q.
Proof.
  intros m x H. unfold sat, clamp. cbv zeta.
  destruct (Qle_bool x (- m)) eqn:E1; [apply Qle_bool_iff in E1|
    assert (~ (x <= - m)%Q) by (intro C; apply Qle_bool_iff in C; congruence)];
  (destruct (Qle_bool m x) eqn:E2; [apply Qle_bool_iff in E2|
    assert (~ (m <= x)%Q) by (intro C; apply Qle_bool_iff in C; congruence)]);
  qb; lra.
Qed.

Lemma clamp_bound : forall m x, (0 <= m)%Q -> (- m <= clamp m x <= m)%Q.
Proof.
  intros m x H. rewrite <- (sat_clamp m x H). unfold sat. cbv zeta. qb; lra.
Qed.

Lemma clamp_id : forall m x, (- m <= x <= m)%Q -> (clamp m x == x)%Q.
Proof.
  intros m x H. unfold clamp.
  destruct (Qle_bool x (- m)) eqn:E1; [apply Qle_bool_iff in E1; lra|].
  destruct (Qle_bool m x) eqn:E2; [apply Qle_bool_iff in E2; lra|]. lra.
Qed.

Lemma clamp_near : forall m x, (0 <= m)%Q -> (clamp m x <= m)%Q /\ (x <= m -> - m <= x -> clamp m x == x)%Q.
Proof. intros. split; [apply clamp_bound; assumption|]. intros; apply clamp_id; lra. Qed.

(** ** What the kernel is asked for *)

(** a clock as sfptpd creates it: a positive limit; the system clock's tick
    rate divides 100000 (100, 250 or 1000 Hz) and its limit is the combined
    one *)
Definition clk_wf (k : kclk) : Prop :=
  (0 <= k_max k)%Q /\
  match k_sys k with
  | None => True
  | Some (hz, maxf) =>
      exists h : Z, hz = inject_Z h /\ 0 < h /\ (h | 100000) /\ (0 <= maxf)%Q /\
                    (k_max k == inject_Z 100000000 + maxf)%Q
  end.

Definition hz_of (k : kclk) : option Q := option_map fst (k_sys k).

Lemma field_err : forall f,
  (- half_unit <= inject_Z (roundl (f * (inject_Z 65536 / inject_Z 1000))) * (inject_Z 1000 / inject_Z 65536) - f <= half_unit)%Q.
Proof.
  intros f. pose proof (roundl_err (f * (inject_Z 65536 / inject_Z 1000))) as H.
  revert H. generalize (inject_Z (roundl (f * (inject_Z 65536 / inject_Z 1000)))). intros r H.
  unfold half_unit.
  change (inject_Z 1000 / inject_Z 65536)%Q with (1000 # 65536)%Q.
  change (inject_Z 1000 / inject_Z 131072)%Q with (1000 # 131072)%Q.
  change (inject_Z 65536 / inject_Z 1000)%Q with (65536 # 1000)%Q in H.
  split; lra.
Qed.

(** the tick chosen: an integer, within the range, and what remains *)
Lemma tick_choice : forall (h n : Z) maxf f,
  0 < h -> 0 < n -> h * n = 100000 -> (0 <= maxf)%Q ->
  (- (inject_Z 100000000 + maxf) <= f <= inject_Z 100000000 + maxf)%Q ->
  let hz := inject_Z h in
  let res := (hz * inject_Z 1000)%Q in
  let max_tick := (inject_Z 100000 / hz)%Q in
  let tick :=
    if Qlt_bool maxf f then
      let t := inject_Z (roundl ((f - maxf) / res)) in
      if Qlt_bool max_tick t then max_tick else t
    else if Qlt_bool f (- maxf) then
      let t := (- inject_Z (roundl ((- f - maxf) / res)))%Q in
      if Qlt_bool t (- max_tick) then (- max_tick)%Q else t
    else 0%Q in
  exists T : Z, (tick == inject_Z T)%Q /\ - n <= T <= n /\
    ((maxf < f)%Q -> 0 <= T /\ (maxf - (1#2) * res <= f - inject_Z T * res <= maxf + (1#2) * res)%Q) /\
    ((f < - maxf)%Q -> T <= 0 /\ (- maxf - (1#2) * res <= f - inject_Z T * res <= - maxf + (1#2) * res)%Q) /\
    ((- maxf <= f <= maxf)%Q -> T = 0).
Proof.
  intros h n maxf f Hh Hn Hhn Hm Hf hz res max_tick.
  assert (Hhz : (0 < hz)%Q) by (unfold hz; change 0%Q with (inject_Z 0); rewrite <- Zlt_Qlt; lia).
  assert (Hres : (0 < res)%Q) by (unfold res; change (inject_Z 1000) with 1000%Q; lra).
  assert (Hmt : (max_tick == inject_Z n)%Q).
  { unfold max_tick. rewrite <- Hhn, inject_Z_mult. fold hz. field. lra. }
  assert (Hnr : (inject_Z n * res == inject_Z 100000000)%Q).
  { unfold res, hz. rewrite <- !inject_Z_mult. replace (n * (h * 1000)) with 100000000 by lia. reflexivity. }
  assert (DIV : forall y, (0 <= y <= inject_Z 100000000)%Q ->
    let r := roundl (y / res) in 0 <= r <= n /\ (- (1#2) * res <= y - inject_Z r * res <= (1#2) * res)%Q).
  { intros y Hy r.
    assert (E : (y == (y / res) * res)%Q) by (field; lra).
    pose proof (roundl_err (y / res)) as R. fold r in R.
    assert (Q0 : (0 <= y / res)%Q) by (apply Qle_shift_div_l; lra).
    assert (Q1 : (y / res <= inject_Z n)%Q) by (apply Qle_shift_div_r; lra).
    split.
    - split; [apply roundl_nonneg; assumption|].
      assert ((inject_Z r <= inject_Z n + (1#2))%Q) by lra.
      assert ((inject_Z r < inject_Z (n + 1))%Q).
      { rewrite inject_Z_plus. change (inject_Z 1) with 1%Q. lra. }
      rewrite <- Zlt_Qlt in H0. lia.
    - set (q := (y / res)%Q) in *. clearbody q. clearbody r. 
      assert ((- (1#2)) * res <= (inject_Z r - q) * res)%Q by (apply Qmult_le_compat_r; lra).
      assert ((inject_Z r - q) * res <= (1#2) * res)%Q by (apply Qmult_le_compat_r; lra).
      split; lra. }
  clearbody max_tick res. cbv zeta.
  destruct (Qlt_bool maxf f) eqn:E1; [apply Qlt_bool_iff in E1 | apply Qlt_bool_false in E1].
  - destruct (DIV (f - maxf)%Q ltac:(lra)) as [B C].
    assert (L : (inject_Z (roundl ((f - maxf) / res)) <= inject_Z n)%Q) by (rewrite <- Zle_Qle; lia).
    destruct (Qlt_bool max_tick _) eqn:E2; [apply Qlt_bool_iff in E2; exfalso; lra|].
    exists (roundl ((f - maxf) / res)). split; [reflexivity|]. split; [lia|].
    split; [intros _; split; [lia|split; lra]|]. split; intros; exfalso; lra.
  - destruct (Qlt_bool f (- maxf)) eqn:E2; [apply Qlt_bool_iff in E2 | apply Qlt_bool_false in E2].
    + destruct (DIV (- f - maxf)%Q ltac:(lra)) as [B C].
      assert (L : (inject_Z (roundl ((- f - maxf) / res)) <= inject_Z n)%Q) by (rewrite <- Zle_Qle; lia).
      destruct (Qlt_bool _ (- max_tick)) eqn:E3; [apply Qlt_bool_iff in E3; exfalso; lra|].
      exists (- roundl ((- f - maxf) / res)). split; [rewrite inject_Z_opp; reflexivity|]. split; [lia|].
      split; [intros; exfalso; lra|]. split.
      * intros _. split; [lia|]. rewrite inject_Z_opp. split; lra.
      * intros; exfalso; lra.
    + exists 0. split; [reflexivity|]. split; [lia|].
      split; [intros; exfalso; lra|]. split; [intros; exfalso; lra|]. reflexivity.
Qed.

(** the remainder put in the frequency field *)
Definition rem_freq (maxf f tick res : Q) : Q :=
  let fr := if Qlt_bool maxf f || Qlt_bool f (- maxf) then (f - tick * res)%Q else f in
  if Qlt_bool maxf fr then maxf else if Qlt_bool fr (- maxf) then (- maxf)%Q else fr.

Lemma kernel_sys : forall k hz maxf f0,
  k_sys k = Some (hz, maxf) -> clk_wf k ->
  exists T t x, kernel_values k f0 = (Some t, x) /\
    (inject_Z t - inject_Z 1000000 / hz == inject_Z T)%Q /\
    let f := clamp (k_max k) f0 in
    (- inject_Z 100000000 <= inject_Z T * (hz * inject_Z 1000) <= inject_Z 100000000)%Q /\
    exists fr, (- maxf <= fr <= maxf)%Q /\
      (- half_unit <= inject_Z x * (inject_Z 1000 / inject_Z 65536) - fr <= half_unit)%Q /\
      (- ((1#2) * (hz * inject_Z 1000)) <= inject_Z T * (hz * inject_Z 1000) + fr - f <= (1#2) * (hz * inject_Z 1000))%Q /\
      ((- maxf <= f <= maxf)%Q -> T = 0 /\ (fr == f)%Q).
Proof.
  intros k hz maxf f0 Hs [Hm Hwf]. rewrite Hs in Hwf. destruct Hwf as [h [-> [Hh [[n Hn] [Hmf Hk]]]]].
  assert (Hn0 : 0 < n) by nia.
  pose proof (sat_clamp (k_max k) f0 Hm) as SC. pose proof (clamp_bound (k_max k) f0 Hm) as CB.
  unfold kernel_values. rewrite Hs. cbv zeta.
  assert (Hf : (- (inject_Z 100000000 + maxf) <= sat (k_max k) f0 <= inject_Z 100000000 + maxf)%Q) by lra.
  destruct (tick_choice h n maxf (sat (k_max k) f0) Hh Hn0 ltac:(lia) Hmf Hf) as [T [HT [HTn [Ha [Hb Hc]]]]].
  cbv zeta in HT.
  set (tick := if Qlt_bool maxf (sat (k_max k) f0) then _ else _) in *.
  set (res := (inject_Z h * inject_Z 1000)%Q) in *.
  set (f := sat (k_max k) f0) in *.
  exists T. eexists. eexists. split; [reflexivity|].
  assert (Hres : (0 < res)%Q).
  { unfold res. assert (0 < inject_Z h)%Q by (change 0%Q with (inject_Z 0); rewrite <- Zlt_Qlt; lia). change (inject_Z 1000) with 1000%Q. lra. }
  assert (HH : (inject_Z 1000000 / inject_Z h == inject_Z (10 * n))%Q).
  { replace 1000000 with (10 * n * h) by lia. rewrite inject_Z_mult. field.
    intro C. change 0%Q with (inject_Z 0) in C. rewrite inject_Z_injective in C. lia. }
  split.
  { rewrite (roundl_int (tick + inject_Z 1000000 / inject_Z h) (T + 10 * n)).
    - rewrite HH, inject_Z_plus. lra.
    - rewrite HH, HT, inject_Z_plus. lra. }
  assert (Hnr : (inject_Z n * res == inject_Z 100000000)%Q).
  { unfold res. rewrite <- !inject_Z_mult. replace (n * (h * 1000)) with 100000000 by lia. reflexivity. }
  assert (HB : (- inject_Z 100000000 <= inject_Z T * res <= inject_Z 100000000)%Q).
  { rewrite <- Hnr. split.
    - assert ((- inject_Z n) * res <= inject_Z T * res)%Q; [|lra].
      apply Qmult_le_compat_r; [|lra]. rewrite <- inject_Z_opp, <- Zle_Qle. lia.
    - apply Qmult_le_compat_r; [|lra]. rewrite <- Zle_Qle. lia. }
  split; [exact HB|].
  fold (rem_freq maxf f tick res).
  exists (rem_freq maxf f tick res).
  assert (HTr : (tick * res == inject_Z T * res)%Q) by (rewrite HT; reflexivity).
  rewrite <- SC.
  assert (R : (- maxf <= rem_freq maxf f tick res <= maxf)%Q /\
     (- ((1#2) * res) <= inject_Z T * res + rem_freq maxf f tick res - f <= (1#2) * res)%Q /\
     ((- maxf <= f <= maxf)%Q -> T = 0 /\ (rem_freq maxf f tick res == f)%Q)).
  { unfold rem_freq. cbv zeta.
    destruct (Qlt_le_dec maxf f) as [G|G].
    - destruct (Ha G) as [HT0 HR].
      replace (Qlt_bool maxf f) with true by (symmetry; apply Qlt_bool_iff; assumption). cbn [orb].
      assert (BIG : (f <= inject_Z 100000000 + maxf)%Q) by lra.
      qb; (split; [lra|]; split; [lra|]; intros; exfalso; lra).
    - replace (Qlt_bool maxf f) with false by (symmetry; apply Qlt_bool_false; assumption).
      destruct (Qlt_le_dec f (- maxf)) as [G2|G2].
      + destruct (Hb G2) as [HT0 HR].
        replace (Qlt_bool f (- maxf)) with true by (symmetry; apply Qlt_bool_iff; assumption). cbn [orb].
        qb; (split; [lra|]; split; [lra|]; intros; exfalso; lra).
      + replace (Qlt_bool f (- maxf)) with false by (symmetry; apply Qlt_bool_false; assumption). cbn [orb].
        assert (T = 0) by (apply Hc; lra). rewrite H in *. change (inject_Z 0) with 0%Q in *.
        qb; (split; [lra|]; split; [lra|]; intros; split; [reflexivity|lra]). }
  destruct R as [R1 [R2 R3]].
  split; [exact R1|]. split; [apply field_err|]. split; [exact R2|exact R3].
Qed.

Lemma kernel_nic : forall k f0, k_sys k = None -> clk_wf k ->
  exists x, kernel_values k f0 = (None, x) /\
   (- half_unit <= inject_Z x * (inject_Z 1000 / inject_Z 65536) - clamp (k_max k) f0 <= half_unit)%Q.
Proof.
  intros k f0 Hs [Hm _]. unfold kernel_values. rewrite Hs. cbv zeta.
  eexists. split; [reflexivity|]. rewrite <- (sat_clamp _ _ Hm). apply field_err.
Qed.

Lemma kernel_bound : forall k f0 t x, clk_wf k -> kernel_values k f0 = (t, x) ->
  (- (k_max k + half_unit) <= realised (hz_of k) t x <= k_max k + half_unit)%Q.
Proof.
  intros k f0 t x W E. unfold realised, hz_of.
  destruct (k_sys k) as [[hz maxf]|] eqn:Hs.
  - destruct (kernel_sys k hz maxf f0 Hs W) as [T [t' [x' [E' [HT [HB [fr [F1 [F2 _]]]]]]]]].
    rewrite E in E'. injection E' as -> ->. cbn [option_map fst].
    destruct W as [Hm W]. rewrite Hs in W. destruct W as [h [_ [_ [_ [_ Hk]]]]].
    rewrite HT. split; lra.
  - destruct (kernel_nic k f0 Hs W) as [x' [E' HX]]. rewrite E in E'. injection E' as -> ->.
    cbn [option_map]. pose proof (clamp_bound (k_max k) f0 (proj1 W)).
    split; lra.
Qed.

Lemma kernel_accuracy : forall k f0 t x, clk_wf k -> kernel_values k f0 = (t, x) ->
  let slack := (match k_sys k with
                | Some (hz, maxf) => if Qle_bool (Qabs f0) maxf then 0 else inject_Z 500 * hz
                | None => 0 end + half_unit)%Q in
  (- slack <= realised (hz_of k) t x - clamp (k_max k) f0 <= slack)%Q.
Proof.
  intros k f0 t x W E. unfold realised, hz_of. cbv zeta.
  destruct (k_sys k) as [[hz maxf]|] eqn:Hs.
  - destruct (kernel_sys k hz maxf f0 Hs W) as [T [t' [x' [E' [HT [HB [fr [F1 [F2 [F3 F4]]]]]]]]]].
    rewrite E in E'. injection E' as -> ->. cbn [option_map fst].
    rewrite HT.
    destruct W as [Hm W]. rewrite Hs in W. destruct W as [h [_ [_ [_ [Hmf Hk]]]]].
    change (inject_Z 1000) with 1000%Q in *. change (inject_Z 500) with 500%Q in *.
    destruct (Qle_bool (Qabs f0) maxf) eqn:Eq.
    + apply Qle_bool_iff in Eq. apply Qabs_Qle_condition in Eq.
      change (inject_Z 100000000) with 100000000%Q in *.
      assert (C : (clamp (k_max k) f0 == f0)%Q) by (apply clamp_id; lra).
      destruct F4 as [-> F4]; [lra|]. change (inject_Z 0) with 0%Q. rewrite F4 in F2. split; lra.
    + split; lra.
  - destruct (kernel_nic k f0 Hs W) as [x' [E' HX]]. rewrite E in E'. injection E' as -> ->.
    cbn [option_map]. split; lra.
Qed.

Definition writable (k : kclk) : Prop :=
  k_ro k = false /\ k_blocked k <= 0 /\ (k_sys k = None -> k_phc k = true).

Lemma refused_writable : forall k, refused k = None <-> writable k.
Proof.
  intros k. unfold refused, writable.
  destruct (k_sys k), (k_phc k), (k_ro k), (0 <? k_blocked k) eqn:E; split; intros H;
    try discriminate; try (destruct H as [? [? H]]);
    try (apply Z.ltb_lt in E); try (apply Z.ltb_ge in E); try lia; try discriminate;
    repeat split; try reflexivity; try lia; try discriminate; try (specialize (H eq_refl); discriminate).
Qed.

Lemma adjust_frequency_ev : forall k c f os e, In e (fst (adjust_frequency k c f os)) ->
  writable k /\ e = KFreq c (fst (kernel_values k f)) (snd (kernel_values k f)).
Proof.
  intros k c f os e H. unfold adjust_frequency in H.
  destruct (refused k) eqn:E; [destruct H|]. apply refused_writable in E.
  destruct (kernel_values k f) as [t x]. destruct H as [<-|[]]. split; [assumption|reflexivity].
Qed.

Lemma adjust_time_ev : forall k c d os e, In e (fst (adjust_time k c d os)) ->
  writable k /\ e = KStep c (instant d).
Proof.
  intros k c d os e H. unfold adjust_time in H.
  destruct (refused k) eqn:E; [destruct H|]. apply refused_writable in E.
  destruct H as [<-|[]]. split; [assumption|reflexivity].
Qed.

Lemma set_time_ev : forall k c from cmp os e, In e (fst (set_time k c from cmp os)) ->
  writable k /\ c <> from /\ exists y, cmp = inr y /\ e = KStep c (instant y).
Proof.
  intros k c from cmp os e H. unfold set_time in H. destruct (Nat.eqb_spec c from); [destruct H|].
  destruct cmp as [rc|y]; [destruct H|]. apply adjust_time_ev in H. destruct H as [H1 H2].
  split; [assumption|]. split; [assumption|]. exists y. split; [reflexivity|assumption].
Qed.

(** ** One synchronisation *)
Lemma near_iff : forall t, near (to_float_ns t) = true <-> near_epoch (ns_of t).
Proof.
  intros t. unfold near, near_epoch.
  assert (E : (to_float_ns t == ns_of t)%Q).
  { unfold to_float_ns, ns_of, instant. rewrite !inject_Z_plus, !inject_Z_mult.
    rewrite inject_Z_plus, inject_Z_mult. field. discriminate. }
  rewrite orb_true_iff, !Qlt_bool_iff, E. reflexivity.
Qed.

Lemma float_ns : forall t, (to_float_ns t == ns_of t)%Q.
Proof.
  intros t. unfold to_float_ns, ns_of, instant. rewrite !inject_Z_plus, !inject_Z_mult.
  rewrite inject_Z_plus, inject_Z_mult. field. discriminate.
Qed.

Lemma step_clock_spec : forall w v off os1 os2 v' ev rc,
  step_clock w v off os1 os2 = Some (v', ev, rc) ->
  exists m s neg, v_clocks v = Some (m, s) /\ negate off = Some neg /\
    ev = fst (adjust_time (w s) s neg os1) ++ fst (adjust_frequency (w s) s (k_corr (w s)) os2) /\
    rc = snd (adjust_frequency (w s) s (k_corr (w s)) os2) /\
    v_cfg v' = v_cfg v /\ v_clocks v' = v_clocks v /\ v_active v' = v_active v /\
    v_stepped v' = v_stepped v /\ v_sync v' = v_sync v /\ v_state v' = v_state v /\ v_begin v' = v_begin v /\
    a_near (v_al v') = a_near (v_al v) /\ a_sust (v_al v') = a_sust (v_al v) /\
    a_ctrl (v_al v') = negb (snd (adjust_time (w s) s neg os1) =? 0) || negb (rc =? 0) /\
    v_conv v' = v_conv v /\
    l_adj (v_flt v') = k_corr (w s) /\ l_corr (v_flt v') = k_corr (w s) /\ l_max (v_flt v') = l_max (v_flt v) /\
    l_ofm (v_flt v') = 0%Q /\ l_pid (v_flt v') = pid_reset (l_pid (v_flt v)) /\
    l_fir (v_flt v') = fir_reset (l_fir (v_flt v)).
Proof.
  intros w v off os1 os2 v' ev rc H. unfold step_clock in H.
  destruct (v_clocks v) as [[m s]|] eqn:E1; cbn [bind snd] in H; [|discriminate].
  destruct (negate off) as [neg|] eqn:E2; cbn [bind] in H; [|discriminate].
  destruct (adjust_time (w s) s neg os1) as [ev1 rc1] eqn:A1.
  destruct (adjust_frequency (w s) s (k_corr (w s)) os2) as [ev2 rc2] eqn:A2.
  injection H as <- <- <-. exists m, s, neg.
  split; [reflexivity|]. split; [reflexivity|]. rewrite A1, A2. cbn [fst snd].
  split; [reflexivity|]. split; [reflexivity|].
  destruct (rc2 =? 0); destruct v as [cfg0 cl0 [] a0 s0 y0 t0 b0 [] cv0]; cbn in *;
   repeat match goal with |- _ /\ _ => split end; try reflexivity; try assumption;
   destruct (rc1 =? 0); reflexivity.
Qed.

Lemma slew_spec : forall v m s i d v' ev rc,
  slew v m s i d = Some (v', ev, rc) ->
  ev = fst (adjust_frequency (i_w i s) s (l_adj (v_flt v')) (i_os1 i)) /\
  rc = snd (adjust_frequency (i_w i s) s (l_adj (v_flt v')) (i_os1 i)) /\
  v_cfg v' = v_cfg v /\ v_clocks v' = v_clocks v /\ v_active v' = true /\
  v_stepped v' = v_stepped v || k_locked (i_w i m) /\ v_state v' = v_state v /\ v_begin v' = v_begin v /\
  a_near (v_al v') = a_near (v_al v) /\ a_sust (v_al v') = a_sust (v_al v) /\
  a_ctrl (v_al v') = negb (rc =? 0) /\
  l_corr (v_flt v') = l_corr (v_flt v) /\ l_max (v_flt v') = l_max (v_flt v) /\
  exists f p, fir_update (l_fir (v_flt v)) d = Some (f, l_ofm (v_flt v')) /\
    pid_update (l_pid (v_flt v)) (l_ofm (v_flt v')) (Some (i_time i)) = Some p /\
    l_fir (v_flt v') = f /\ l_pid (v_flt v') = p /\
    conv_update (v_conv v) (sec (i_time i)) (l_ofm (v_flt v')) = Some (v_conv v', v_sync v') /\
    ((0 <= l_max (v_flt v))%Q -> (l_adj (v_flt v') == clamp (l_max (v_flt v)) (l_corr (v_flt v) + freq_adjust p))%Q).
Proof.
  intros v m s i d v' ev rc H. unfold slew in H.
  destruct (fir_update (l_fir (v_flt v)) d) as [[f mean]|] eqn:E1; cbn [bind] in H; [|discriminate].
  destruct (pid_update (l_pid (v_flt v)) mean (Some (i_time i))) as [p|] eqn:E2; cbn [bind] in H; [|discriminate].
  cbv zeta in H.
  set (a := if Qlt_bool (l_max (v_flt v)) _ then _ else _) in H.
  assert (HA : (0 <= l_max (v_flt v))%Q -> (a == clamp (l_max (v_flt v)) (l_corr (v_flt v) + freq_adjust p))%Q).
  { intros Hm. unfold a, clamp.
    set (x := (l_corr (v_flt v) + freq_adjust p)%Q). clearbody x.
    destruct (Qle_bool x (- l_max (v_flt v))) eqn:G1; [apply Qle_bool_iff in G1|
    assert (~ (x <= - l_max (v_flt v))%Q) by (intro C; apply Qle_bool_iff in C; congruence)];
    (destruct (Qle_bool (l_max (v_flt v)) x) eqn:G2; [apply Qle_bool_iff in G2|
    assert (~ (l_max (v_flt v) <= x)%Q) by (intro C; apply Qle_bool_iff in C; congruence)]);
    qb; lra. }
  clearbody a.
  destruct (adjust_frequency (i_w i s) s a (i_os1 i)) as [ev2 rc2] eqn:A2.
  cbn [set_ctrlf with_al with_flt v_conv] in H.
  destruct (conv_update (v_conv v) (sec (i_time i)) mean) as [[cv sy]|] eqn:E3; cbn [bind fst snd] in H; [|discriminate].
  injection H as <- <- <-.
  destruct (k_locked (i_w i m)); destruct v as [cfg0 cl0 [] a0 s0 y0 t0 b0 [] cv0]; cbn -[adjust_frequency pid_update fir_update] in *;
    rewrite A2; cbn [fst snd];
    repeat match goal with |- _ /\ _ => split end; try reflexivity; try assumption;
    try (rewrite orb_true_r; reflexivity); try (rewrite orb_false_r; reflexivity);
    exists f, p; repeat match goal with |- _ /\ _ => split end; try reflexivity; try assumption.
Qed.

(** the two epoch checks together: how far a synchronisation gets *)
Definition stops (g : guard) (st mt : ts) : bool :=
  match g with
  | ALARM_ONLY => false
  | PREVENT_SYNC => near (to_float_ns mt)
  | CORRECT_CLOCK => near (to_float_ns mt) || near (to_float_ns st)
  end.

Inductive do_sync_case (sys : nat) (v : servo) (i : sin) (m s : nat) : servo -> list kev -> Z -> Prop :=
| DC_cmp : forall rc, i_cmp i = inl rc -> do_sync_case sys v i m s v [] rc
| DC_stop : forall d st mt v' ev,
    i_cmp i = inr (d, st, mt) -> stops (g_guard (v_cfg v)) st mt = true ->
    v_cfg v' = v_cfg v -> v_clocks v' = v_clocks v -> v_active v' = true -> v_stepped v' = v_stepped v ->
    v_sync v' = v_sync v -> v_state v' = v_state v -> v_begin v' = v_begin v ->
    v_al v' = mkAl true (a_ctrl (v_al v)) (a_sust (v_al v)) -> v_conv v' = v_conv v ->
    l_adj (v_flt v') = l_adj (v_flt v) -> l_corr (v_flt v') = l_corr (v_flt v) -> l_max (v_flt v') = l_max (v_flt v) ->
    (forall c t x, ~ In (KFreq c t x) ev) ->
    (forall c x, In (KStep c x) ev ->
       g_guard (v_cfg v) = CORRECT_CLOCK /\ c <> sys /\ writable (i_w i c) /\
       (c = m /\ near (to_float_ns mt) = true \/ c = s /\ near (to_float_ns st) = true /\ near (to_float_ns mt) = false) /\
       exists y, i_setcmp i = inr y /\ x = instant y) ->
    (g_guard (v_cfg v) = CORRECT_CLOCK ->
       let c := if near (to_float_ns mt) then m else s in
       c <> sys -> writable (i_w i c) -> forall y, i_setcmp i = inr y -> In (KStep c (instant y)) ev) ->
    do_sync_case sys v i m s v' ev EAGAIN
| DC_go : forall d st mt v1 v' ev1 ev2 rc,
    i_cmp i = inr (d, st, mt) -> stops (g_guard (v_cfg v)) st mt = false ->
    v_cfg v1 = v_cfg v -> v_clocks v1 = v_clocks v -> v_stepped v1 = v_stepped v ->
    v_active v1 = v_active v || near (to_float_ns mt) || near (to_float_ns st) ->
    v_sync v1 = v_sync v -> v_state v1 = v_state v -> v_begin v1 = v_begin v ->
    v_al v1 = mkAl (near (to_float_ns st)) (a_ctrl (v_al v)) (a_sust (v_al v)) -> v_conv v1 = v_conv v ->
    l_adj (v_flt v1) = l_adj (v_flt v) -> l_corr (v_flt v1) = l_corr (v_flt v) -> l_max (v_flt v1) = l_max (v_flt v) ->
    (forall c t x, ~ In (KFreq c t x) ev1) -> (forall c x, ~ In (KStep c x) ev1) ->
    (if may_step v1 (k_locked (i_w i m)) (to_float_ns d) &&
       (Qle_bool (to_float_ns d) (- g_thr (v_cfg v)) || Qle_bool (g_thr (v_cfg v)) (to_float_ns d))
     then exists v2, step_clock (i_w i) v1 d (i_os1 i) (i_os2 i) = Some (v2, ev2, rc) /\
            v' = (if k_locked (i_w i m) then with_stepped (with_active v2 true) true else with_active v2 true)
     else slew v1 m s i (to_float_ns d) = Some (v', ev2, rc)) ->
    do_sync_case sys v i m s v' (ev1 ++ ev2) rc.

(** what the epoch checks leave alone *)
Definition same_but_epoch (v v' : servo) : Prop :=
  v_cfg v' = v_cfg v /\ v_clocks v' = v_clocks v /\ v_stepped v' = v_stepped v /\
  v_sync v' = v_sync v /\ v_state v' = v_state v /\ v_begin v' = v_begin v /\ v_conv v' = v_conv v /\
  l_adj (v_flt v') = l_adj (v_flt v) /\ l_corr (v_flt v') = l_corr (v_flt v) /\ l_max (v_flt v') = l_max (v_flt v).

Lemma epoch_master_spec : forall sys v m s i d t v' ev stop,
  epoch_master sys v m s i d t = (v', ev, stop) ->
  same_but_epoch v v' /\ v_active v' = v_active v || near t /\
  v_al v' = mkAl (near t) (a_ctrl (v_al v)) (a_sust (v_al v)) /\
  stop = (near t && negb (guard_eqb (g_guard (v_cfg v)) ALARM_ONLY)) /\
  exists al, (forall e, In e al -> exists c, e = EpochAlarm c) /\
    ev = al ++ (if near t && guard_eqb (g_guard (v_cfg v)) CORRECT_CLOCK
                then fst (set_time (i_w i m) m sys (i_setcmp i) (i_os1 i)) else []).
Proof.
  intros sys v m s i d t v' ev stop H. unfold epoch_master in H. cbv zeta in H.
  unfold same_but_epoch.
  destruct (near t) eqn:N.
  - destruct (a_near (v_al v)), (g_guard (v_cfg v)) eqn:G; cbn [negb andb guard_eqb] in *;
      injection H as <- <- <-; rewrite orb_true_r;
      (split; [cbn; repeat split|]); (split; [reflexivity|]); (split; [reflexivity|]); (split; [reflexivity|]).
    + exists []. split; [intros e []|reflexivity].
    + exists []. split; [intros e []|reflexivity].
    + exists []. split; [intros e []|reflexivity].
    + exists [EpochAlarm s]. split; [intros e [<-|[]]; exists s; reflexivity|reflexivity].
    + exists [EpochAlarm s]. split; [intros e [<-|[]]; exists s; reflexivity|reflexivity].
    + exists [EpochAlarm s]. split; [intros e [<-|[]]; exists s; reflexivity|reflexivity].
  - injection H as <- <- <-. rewrite orb_false_r. cbn [andb].
    split; [cbn; repeat split|]. split; [reflexivity|]. split; [reflexivity|]. split; [reflexivity|].
    exists []. split; [intros e []|reflexivity].
Qed.

Lemma epoch_slave_spec : forall sys v s i t v' ev stop,
  epoch_slave sys v s i t = (v', ev, stop) ->
  same_but_epoch v v' /\ v_active v' = v_active v || near t /\
  v_al v' = mkAl (near t) (a_ctrl (v_al v)) (a_sust (v_al v)) /\
  stop = (near t && guard_eqb (g_guard (v_cfg v)) CORRECT_CLOCK) /\
  exists al, (forall e, In e al -> exists c, e = EpochAlarm c) /\
    ev = al ++ (if stop then fst (set_time (i_w i s) s sys (i_setcmp i) (i_os1 i)) else []).
Proof.
  intros sys v s i t v' ev stop H. unfold epoch_slave in H. cbv zeta in H.
  unfold same_but_epoch.
  destruct (near t) eqn:N.
  - destruct (a_near (v_al v)), (g_guard (v_cfg v)) eqn:G; cbn [negb andb guard_eqb] in *;
      injection H as <- <- <-; rewrite orb_true_r;
      (split; [cbn; repeat split|]); (split; [reflexivity|]); (split; [reflexivity|]); (split; [reflexivity|]).
    + exists []. split; [intros e []|reflexivity].
    + exists []. split; [intros e []|reflexivity].
    + exists []. split; [intros e []|reflexivity].
    + exists [EpochAlarm s]. split; [intros e [<-|[]]; exists s; reflexivity|reflexivity].
    + exists [EpochAlarm s]. split; [intros e [<-|[]]; exists s; reflexivity|reflexivity].
    + exists [EpochAlarm s]. split; [intros e [<-|[]]; exists s; reflexivity|reflexivity].
  - injection H as <- <- <-. rewrite orb_false_r. cbn [andb].
    split; [cbn; repeat split|]. split; [reflexivity|]. split; [reflexivity|]. split; [reflexivity|].
    exists []. split; [intros e []|reflexivity].
Qed.

Lemma alarm_only_ev : forall al : list kev, (forall e, In e al -> exists c, e = EpochAlarm c) ->
  (forall c t x, ~ In (KFreq c t x) al) /\ (forall c x, ~ In (KStep c x) al).
Proof.
  intros al H. split; intros; intro C; destruct (H _ C) as [c' E]; discriminate.
Qed.

Lemma set_time_in : forall k c from y os, writable k -> c <> from ->
  In (KStep c (instant y)) (fst (set_time k c from (inr y) os)).
Proof.
  intros k c from y os W Hne. unfold set_time. destruct (Nat.eqb_spec c from); [contradiction|].
  unfold adjust_time. apply refused_writable in W. rewrite W. left. reflexivity.
Qed.

Lemma do_sync_cases : forall sys v i v' ev rc, do_sync sys v i = Some (v', ev, rc) ->
  exists m s, v_clocks v = Some (m, s) /\ do_sync_case sys v i m s v' ev rc.
Proof.
  intros sys v i v' ev rc H. unfold do_sync in H.
  destruct (v_clocks v) as [[m s]|] eqn:EC; cbn [bind] in H; [|discriminate].
  exists m, s. split; [reflexivity|].
  destruct (i_cmp i) as [r|[[d st] mt]] eqn:EI; [injection H as <- <- <-; apply DC_cmp; assumption|].
  cbv zeta in H.
  destruct (epoch_master sys v m s i (to_float_ns d) (to_float_ns mt)) as [[va eva] sa] eqn:EM.
  apply epoch_master_spec in EM.
  destruct EM as [[A1 [A2 [A3 [A4 [A5 [A6 [A7 [A8 [A9 A10]]]]]]]]] [A11 [A12 [A13 [al [A14 A15]]]]]].
  destruct (alarm_only_ev al A14) as [A16 A17].
  destruct (near (to_float_ns mt)) eqn:NM.
  - destruct (g_guard (v_cfg v)) eqn:EG; cbn [guard_eqb negb andb] in A13, A15; subst sa.
    + (* alarm only: go on *)
      rewrite app_nil_r in A15. subst eva. cbn iota in H.
      destruct (epoch_slave sys va s i (to_float_ns st)) as [[vb evb] sb] eqn:ES.
      apply epoch_slave_spec in ES. rewrite A1, EG in ES.
      destruct ES as [[B1 [B2 [B3 [B4 [B5 [B6 [B7 [B8 [B9 B10]]]]]]]]] [B11 [B12 [B13 [bl [B14 B15]]]]]].
      destruct (alarm_only_ev bl B14) as [B16 B17].
      cbn [guard_eqb] in B13. rewrite andb_false_r in B13. subst sb. rewrite app_nil_r in B15. subst evb. cbn iota in H.
      rewrite B1, A1 in H.
      destruct (may_step vb _ _ && _) eqn:MS.
      * destruct (step_clock (i_w i) vb d (i_os1 i) (i_os2 i)) as [[[v2 ev3] rc3]|] eqn:SC; cbn [bind] in H; [|discriminate].
        injection H as <- <- <-.
        rewrite app_assoc. eapply DC_go with (v1 := vb); try eassumption; try congruence.
        all: try (rewrite EG; reflexivity).
        all: try (rewrite B12, A12; reflexivity).
        all: try (rewrite B11, A11, NM; reflexivity).
        { intros c t x C. apply in_app_or in C. destruct C as [C|C]; [exact (A16 _ _ _ C)|exact (B16 _ _ _ C)]. }
        { intros c x C. apply in_app_or in C. destruct C as [C|C]; [exact (A17 _ _ C)|exact (B17 _ _ C)]. }
        rewrite MS. exists v2. split; [assumption|reflexivity].
      * destruct (slew vb m s i (to_float_ns d)) as [[[v2 ev3] rc3]|] eqn:SC; cbn [bind] in H; [|discriminate].
        injection H as <- <- <-.
        rewrite app_assoc. eapply DC_go with (v1 := vb); try eassumption; try congruence.
        all: try (rewrite EG; reflexivity).
        all: try (rewrite B12, A12; reflexivity).
        all: try (rewrite B11, A11, NM; reflexivity).
        { intros c t x C. apply in_app_or in C. destruct C as [C|C]; [exact (A16 _ _ _ C)|exact (B16 _ _ _ C)]. }
        { intros c x C. apply in_app_or in C. destruct C as [C|C]; [exact (A17 _ _ C)|exact (B17 _ _ C)]. }
        rewrite MS. assumption.
    + (* prevent *)
      injection H as <- <- <-. rewrite app_nil_r in A15. subst eva.
      eapply DC_stop with (d := d) (st := st) (mt := mt); try eassumption; try congruence.
      * unfold stops. rewrite EG. assumption.
      * rewrite A11. apply orb_true_r.
      * intros c x C. exfalso. exact (A17 _ _ C).
    + (* correct *)
      injection H as <- <- <-. subst eva.
      eapply DC_stop with (d := d) (st := st) (mt := mt); try eassumption; try congruence.
      * unfold stops. rewrite EG, NM. reflexivity.
      * rewrite A11. apply orb_true_r.
      * intros c t x C. apply in_app_or in C. destruct C as [C|C]; [exact (A16 _ _ _ C)|].
        apply set_time_ev in C. destruct C as [_ [_ [y [_ C]]]]. discriminate.
      * intros c x C. apply in_app_or in C. destruct C as [C|C]; [exfalso; exact (A17 _ _ C)|].
        apply set_time_ev in C. destruct C as [W [Hne [y [Hy C]]]]. injection C as -> ->.
        split; [assumption|]. split; [assumption|]. split; [assumption|].
        split; [left; split; [reflexivity|assumption]|]. exists y. split; [assumption|reflexivity].
      * rewrite NM. intros _ c0 Hne W y Hy. apply in_or_app. right. rewrite Hy. apply set_time_in; assumption.
  - cbn [andb] in A13, A15. subst sa. rewrite app_nil_r in A15. subst eva. cbn iota in H.
    destruct (epoch_slave sys va s i (to_float_ns st)) as [[vb evb] sb] eqn:ES.
    apply epoch_slave_spec in ES. rewrite A1 in ES.
    destruct ES as [[B1 [B2 [B3 [B4 [B5 [B6 [B7 [B8 [B9 B10]]]]]]]]] [B11 [B12 [B13 [bl [B14 B15]]]]]].
    destruct (alarm_only_ev bl B14) as [B16 B17].
    destruct sb.
    + injection H as <- <- <-. subst evb. symmetry in B13. apply andb_true_iff in B13. destruct B13 as [NS GC].
      assert (EG : g_guard (v_cfg v) = CORRECT_CLOCK) by (destruct (g_guard (v_cfg v)); try discriminate; reflexivity).
      eapply DC_stop with (d := d) (st := st) (mt := mt); try eassumption; try congruence.
      * unfold stops. rewrite EG, NM, NS. reflexivity.
      * rewrite B11, NS. apply orb_true_r.
      * rewrite B12, A12, NS. reflexivity.
      * intros c t x C. apply in_app_or in C. destruct C as [C|C]; [exact (A16 _ _ _ C)|].
        apply in_app_or in C. destruct C as [C|C]; [exact (B16 _ _ _ C)|].
        apply set_time_ev in C. destruct C as [_ [_ [y [_ C]]]]. discriminate.
      * intros c x C. apply in_app_or in C. destruct C as [C|C]; [exfalso; exact (A17 _ _ C)|].
        apply in_app_or in C. destruct C as [C|C]; [exfalso; exact (B17 _ _ C)|].
        apply set_time_ev in C. destruct C as [W [Hne [y [Hy C]]]]. injection C as -> ->.
        split; [assumption|]. split; [assumption|]. split; [assumption|].
        split; [right; split; [reflexivity|split; assumption]|]. exists y. split; [assumption|reflexivity].
      * rewrite NM. intros _ c0 Hne W y Hy. apply in_or_app. right. apply in_or_app. right. rewrite Hy. apply set_time_in; assumption.
    + rewrite app_nil_r in B15. subst evb. cbn iota in H. rewrite B1, A1 in H.
      assert (ST : stops (g_guard (v_cfg v)) st mt = false).
      { unfold stops. rewrite NM. destruct (g_guard (v_cfg v)); try reflexivity.
        cbn [guard_eqb] in B13. rewrite andb_true_r in B13. symmetry. assumption. }
      destruct (may_step vb _ _ && _) eqn:MS.
      * destruct (step_clock (i_w i) vb d (i_os1 i) (i_os2 i)) as [[[v2 ev3] rc3]|] eqn:SC; cbn [bind] in H; [|discriminate].
        injection H as <- <- <-.
        rewrite app_assoc. eapply DC_go with (v1 := vb); try eassumption; try congruence.
        all: try (rewrite B12, A12; reflexivity).
        all: try (rewrite B11, A11, NM; reflexivity).
        { intros c t x C. apply in_app_or in C. destruct C as [C|C]; [exact (A16 _ _ _ C)|exact (B16 _ _ _ C)]. }
        { intros c x C. apply in_app_or in C. destruct C as [C|C]; [exact (A17 _ _ C)|exact (B17 _ _ C)]. }
        rewrite MS. exists v2. split; [assumption|reflexivity].
      * destruct (slew vb m s i (to_float_ns d)) as [[[v2 ev3] rc3]|] eqn:SC; cbn [bind] in H; [|discriminate].
        injection H as <- <- <-.
        rewrite app_assoc. eapply DC_go with (v1 := vb); try eassumption; try congruence.
        all: try (rewrite B12, A12; reflexivity).
        all: try (rewrite B11, A11, NM; reflexivity).
        { intros c t x C. apply in_app_or in C. destruct C as [C|C]; [exact (A16 _ _ _ C)|exact (B16 _ _ _ C)]. }
        { intros c x C. apply in_app_or in C. destruct C as [C|C]; [exact (A17 _ _ C)|exact (B17 _ _ C)]. }
        rewrite MS. assumption.
Qed.

(** ** Histories *)
Lemma srun_app : forall sys a b v, srun sys v (a ++ b) =
  do r <- srun sys v a; do r2 <- srun sys (fst r) b; Some (fst r2, snd r ++ snd r2).
Proof.
  intros sys a. induction a as [|o a IH]; intros b v.
  - cbn [app srun bind fst snd]. destruct (srun sys v b) as [[? ?]|]; reflexivity.
  - cbn [app srun]. destruct (sstep sys v o) as [[[v1 ev] rc]|]; cbn [bind]; [|reflexivity].
    rewrite IH. destruct (srun sys v1 a) as [[v2 l2]|]; cbn [bind fst snd]; [|reflexivity].
    destruct (srun sys v2 b) as [[v3 l3]|]; cbn [bind fst snd]; reflexivity.
Qed.

Lemma srun_snoc : forall sys l o v v' lg, srun sys v (l ++ [o]) = Some (v', lg) ->
  exists v1 lg1 ev rc, srun sys v l = Some (v1, lg1) /\ sstep sys v1 o = Some (v', ev, rc) /\ lg = lg1 ++ [(ev, rc)].
Proof.
  intros sys l o v v' lg H. rewrite srun_app in H.
  destruct (srun sys v l) as [[v1 lg1]|] eqn:E; cbn [bind fst snd srun] in H; [|discriminate].
  destruct (sstep sys v1 o) as [[[v2 ev] rc]|] eqn:E2; cbn [bind fst snd] in H; [|discriminate].
  injection H as <- <-. exists v1, lg1, ev, rc. split; [reflexivity|]. split; [assumption|reflexivity].
Qed.

Lemma srun_len : forall sys l v v' lg, srun sys v l = Some (v', lg) -> length lg = length l.
Proof.
  intros sys l. induction l as [|o l IH]; intros v v' lg H; cbn [srun] in H.
  - injection H as <- <-. reflexivity.
  - destruct (sstep sys v o) as [[[v1 ev] rc]|]; cbn [bind] in H; [|discriminate].
    destruct (srun sys v1 l) as [[v2 l2]|] eqn:E; cbn [bind fst snd] in H; [|discriminate].
    injection H as <- <-. cbn. f_equal. eapply IH; eassumption.
Qed.

(** every operation in a run was done in some state reached *)
Lemma srun_nth : forall sys l v v' lg n o ev rc, srun sys v l = Some (v', lg) ->
  nth_error l n = Some o -> nth_error lg n = Some (ev, rc) ->
  exists v1 lg1 v2, srun sys v (firstn n l) = Some (v1, lg1) /\ sstep sys v1 o = Some (v2, ev, rc).
Proof.
  intros sys l. induction l as [|o0 l IH]; intros v v' lg n o ev rc H Hn Hl.
  - destruct n; discriminate.
  - cbn [srun] in H. destruct (sstep sys v o0) as [[[v1 ev0] rc0]|] eqn:E; cbn [bind] in H; [|discriminate].
    destruct (srun sys v1 l) as [[v2 l2]|] eqn:E2; cbn [bind fst snd] in H; [|discriminate].
    injection H as <- <-. destruct n as [|n]; cbn [nth_error firstn srun] in *.
    + injection Hn as ->. injection Hl as -> ->. exists v, [], v1. split; [reflexivity|assumption].
    + destruct (IH _ _ _ _ _ _ _ E2 Hn Hl) as [va [lga [vb [G1 G2]]]].
      exists va, ((ev0, rc0) :: lga), vb. rewrite E. cbn [bind]. rewrite G1. cbn [bind fst snd].
      split; [reflexivity|assumption].
Qed.

Definition seen_op (o : sop) : bool :=
  match o with Sync i => match i_cmp i with inr _ => true | inl _ => false end | _ => false end.
Definition lock_op (g : guard) (cl : option (nat * nat)) (o : sop) : bool :=
  match o, cl with
  | Sync i, Some (m, _) =>
      match i_cmp i with
      | inr (_, st, mt) => negb (stops g st mt) && k_locked (i_w i m)
      | inl _ => false
      end
  | _, _ => false
  end.
Definition clocks_op (cl : option (nat * nat)) (o : sop) : option (nat * nat) :=
  match o with SetClocks _ m s _ => Some (m, s) | _ => cl end.
Definition trk (x : fstate * Z * bool) (o : sop) (rc : Z) : fstate * Z * bool :=
  match o with
  | Sync i =>
    let '(st, b, al) := x in
    match st with
    | S_OK => if rc =? 0 then x else (S_FAILED, i_now i, al)
    | S_FAILED => if rc =? 0 then (S_OK, b, al)
                  else if FAILURE_PERIOD <=? i_now i - b then (S_ALARMED, b, true) else x
    | S_ALARMED => if rc =? 0 then (S_OK, b, false) else x
    end
  | _ => x
  end.

Lemma track_spec : forall v rc now,
  v_cfg (track v rc now) = v_cfg v /\ v_clocks (track v rc now) = v_clocks v /\
  v_flt (track v rc now) = v_flt v /\ v_active (track v rc now) = v_active v /\
  v_stepped (track v rc now) = v_stepped v /\ v_conv (track v rc now) = v_conv v /\
  a_near (v_al (track v rc now)) = a_near (v_al v) /\ a_ctrl (v_al (track v rc now)) = a_ctrl (v_al v).
Proof.
  intros v rc now. unfold track.
  destruct (v_state v), (rc =? 0); try destruct (FAILURE_PERIOD <=? now - v_begin v); repeat split.
Qed.

Lemma track_trk : forall v i rc,
  (v_state (track v rc (i_now i)), v_begin (track v rc (i_now i)), a_sust (v_al (track v rc (i_now i))))
  = trk (v_state v, v_begin v, a_sust (v_al v)) (Sync i) rc.
Proof.
  intros v i rc. unfold track, trk.
  destruct (v_state v) eqn:E, (rc =? 0); try destruct (FAILURE_PERIOD <=? i_now i - v_begin v); cbn; rewrite ?E; reflexivity.
Qed.

Lemma sstep_facts : forall sys v o v' ev rc, sstep sys v o = Some (v', ev, rc) ->
  v_cfg v' = v_cfg v /\ v_clocks v' = clocks_op (v_clocks v) o /\
  v_active v' = v_active v || seen_op o /\
  v_stepped v' = v_stepped v || lock_op (g_guard (v_cfg v)) (v_clocks v) o /\
  (v_state v', v_begin v', a_sust (v_al v')) = trk (v_state v, v_begin v, a_sust (v_al v)) o rc.
Proof.
  intros sys v o v' ev rc H. destruct o; cbn [sstep] in H.
  - unfold set_clocks in H.
    destruct (match v_clocks v with Some (m0, s0) => Nat.eqb m0 m && Nat.eqb s0 s | None => false end) eqn:E.
    + cbn [bind fst snd] in H. injection H as <- <- <-. cbn [clocks_op seen_op lock_op trk]. rewrite !orb_false_r.
      split; [reflexivity|]. split; [|repeat split].
      destruct (v_clocks v) as [[m0 s0]|]; [|discriminate]. apply andb_true_iff in E. destruct E as [E1 E2].
      apply Nat.eqb_eq in E1. apply Nat.eqb_eq in E2. subst. reflexivity.
    + cbv zeta in H. destruct (pid_set_i_max _ _) as [p|]; cbn [bind] in H; [|discriminate].
      destruct (adjust_frequency _ _ _ _) as [e r]. cbn [bind fst snd] in H.
      injection H as <- <- <-. cbn. rewrite !orb_false_r. repeat split.
  - apply step_clock_spec in H.
    destruct H as [m [s [neg [H1 [H2 [H3 [H4 [H5 [H6 [H7 [H8 [H9 [H10 [H11 [H12 [H13 _]]]]]]]]]]]]]]]].
    cbn [clocks_op seen_op lock_op trk]. rewrite !orb_false_r.
    repeat split; congruence.
  - cbv zeta in H. injection H as <- <- <-. cbn. rewrite !orb_false_r. repeat split.
  - unfold synchronize in H. destruct (do_sync sys v i) as [[[v1 e1] r1]|] eqn:E; cbn [bind] in H; [|discriminate].
    injection H as <- <- <-. rewrite track_trk.
    destruct (track_spec v1 r1 (i_now i)) as [T1 [T2 [T3 [T4 [T5 _]]]]].
    rewrite T1, T2, T4, T5. clear T1 T2 T3 T4 T5.
    apply do_sync_cases in E. destruct E as [m [s [EC D]]]. cbn [clocks_op]. unfold seen_op, lock_op.
    destruct D as [rc0 Hc|d st mt v1 ev Hc Hs P1 P2 P3 P4 P5 P6 P7 P8 P9 P10 P11 P12 P13 P14 P15
                  |d st mt v2 v1 ev1 ev2 rc0 Hc Hs P1 P2 P3 P4 P5 P6 P7 P8 P9 P10 P11 P12 P13 P14 P15].
    + rewrite Hc, EC, !orb_false_r. repeat split.
    + rewrite Hc, EC, Hs. cbn [negb andb]. rewrite orb_true_r, orb_false_r, P1, P2, P3, P4, P6, P7, P8. repeat split. assumption.
    + rewrite Hc, EC, Hs. cbn [negb andb]. rewrite orb_true_r.
      destruct (may_step _ _ _ && _) eqn:MS.
      * destruct P15 as [v3 [G1 G2]]. apply step_clock_spec in G1.
        destruct G1 as [m' [s' [neg [H1 [H2 [H3 [H4 [H5 [H6 [H7 [H8 [H9 [H10 [H11 [H12 [H13 _]]]]]]]]]]]]]]]].
        rewrite P8 in H13. cbn [a_sust] in H13.
        subst v1. destruct (k_locked (i_w i m));
          cbn [with_active with_stepped v_cfg v_clocks v_active v_stepped v_state v_begin v_al];
          rewrite ?orb_true_r, ?orb_false_r, H5, H6, H10, H11, H13, P1, P2, P6, P7; repeat split; congruence.
      * apply slew_spec in P15.
        destruct P15 as [H1 [H2 [H3 [H4 [H5 [H6 [H7 [H8 [H9 [H10 _]]]]]]]]]].
        rewrite P8 in H10. cbn [a_sust] in H10.
        rewrite H3, H4, H5, H6, H7, H8, H10, P1, P2, P3, P6, P7. repeat split. congruence.
Qed.

(** the parts of the history the state remembers *)
Definition seen (l : list sop) : bool := existsb seen_op l.
Definition last_clocks (l : list sop) : option (nat * nat) := fold_left clocks_op l None.
Definition lock_seen (g : guard) (l : list sop) : Prop :=
  exists l1 o l2, l = l1 ++ o :: l2 /\ lock_op g (last_clocks l1) o = true.
Fixpoint outcomes (l : list sop) (lg : list (list kev * Z)) : list (Z * Z) :=
  match l, lg with
  | Sync i :: l', (_, rc) :: lg' => (rc, i_now i) :: outcomes l' lg'
  | _ :: l', _ :: lg' => outcomes l' lg'
  | _, _ => []
  end.

Lemma outcomes_snoc : forall l lg o ev rc, length lg = length l ->
  outcomes (l ++ [o]) (lg ++ [(ev, rc)]) =
  outcomes l lg ++ match o with Sync i => [(rc, i_now i)] | _ => [] end.
Proof.
  intros l. induction l as [|o0 l IH]; intros lg o ev rc H; destruct lg as [|[e0 r0] lg]; try discriminate.
  - cbn. destruct o; reflexivity.
  - cbn [app outcomes]. destruct o0; rewrite IH by (cbn in H; lia); reflexivity.
Qed.

Lemma trailing_app : forall a acc rc t,
  trailing_failures (a ++ [(rc, t)]) acc =
  if rc =? 0 then [] else trailing_failures a acc ++ [t].
Proof.
  intros a. induction a as [|[r0 t0] a IH]; intros acc rc t; cbn [app trailing_failures].
  - reflexivity.
  - apply IH.
Qed.

Lemma sustained_app : forall p t0 rest t, sustained p ((t0 :: rest) ++ [t]) =
  sustained p (t0 :: rest) || (p <=? t - t0).
Proof.
  intros. cbn [app sustained]. rewrite existsb_app. cbn [existsb]. rewrite orb_false_r. reflexivity.
Qed.

Definition fail_inv (x : fstate * Z * bool) (f : list Z) : Prop :=
  match x with
  | (S_OK, _, al) => f = [] /\ al = false
  | (S_FAILED, b, al) => (exists rest, f = b :: rest) /\ sustained FAILURE_PERIOD f = false /\ al = false
  | (S_ALARMED, b, al) => sustained FAILURE_PERIOD f = true /\ al = true
  end.

Lemma fail_inv_step : forall x o rc out, fail_inv x (trailing_failures out []) ->
  fail_inv (trk x o rc) (trailing_failures (out ++ match o with Sync i => [(rc, i_now i)] | _ => [] end) []).
Proof.
  intros [[st b] al] o rc out H. destruct o; try (cbn [trk]; rewrite app_nil_r; exact H).
  rewrite trailing_app. cbn [trk]. destruct (rc =? 0).
  - destruct st; cbn [fail_inv] in *; repeat split; try reflexivity; tauto.
  - destruct st; cbn [fail_inv] in *.
    + destruct H as [-> ->]. cbn. split; [exists []; reflexivity|]. split; reflexivity.
    + destruct H as [[rest H] [H2 ->]]. rewrite H in *. 
      destruct (FAILURE_PERIOD <=? i_now i - b) eqn:E; cbn [fail_inv].
      * split; [|reflexivity]. rewrite sustained_app, E. apply orb_true_r.
      * split; [exists (rest ++ [i_now i]); reflexivity|]. split; [|reflexivity].
        rewrite sustained_app, H2, E. reflexivity.
    + destruct H as [H ->]. split; [|reflexivity].
      destruct (trailing_failures out []) as [|t0 rest]; [discriminate|]. rewrite sustained_app, H. reflexivity.
Qed.

Lemma create_facts : forall g interval kp ki ct v, servo_create g interval kp ki ct = Some v ->
  v_cfg v = g /\ v_clocks v = None /\ v_active v = false /\ v_stepped v = false /\ v_sync v = false /\
  v_state v = S_OK /\ v_al v = mkAl false false false /\
  l_adj (v_flt v) = 0%Q /\ l_corr (v_flt v) = 0%Q /\ l_max (v_flt v) = 0%Q /\ l_ofm (v_flt v) = 0%Q.
Proof.
  intros g interval kp ki ct v H. unfold servo_create in H.
  destruct (fir_init _ _) as [f|]; cbn [bind] in H; [|discriminate].
  destruct (conv_init _ _) as [c|]; cbn [bind] in H; [|discriminate].
  injection H as <-. cbn. repeat split.
Qed.

Theorem history_facts : forall sys g interval kp ki ct v0 l v lg,
  servo_create g interval kp ki ct = Some v0 -> srun sys v0 l = Some (v, lg) ->
  v_cfg v = g /\ v_clocks v = last_clocks l /\ v_active v = seen l /\
  (v_stepped v = true <-> lock_seen (g_guard g) l) /\
  fail_inv (v_state v, v_begin v, a_sust (v_al v)) (trailing_failures (outcomes l lg) []).
Proof.
  intros sys g interval kp ki ct v0 l v lg HC. apply create_facts in HC.
  destruct HC as [C1 [C2 [C3 [C4 [_ [C6 [C7 _]]]]]]].
  revert v lg. induction l as [|o l IH] using rev_ind; intros v lg H.
  - cbn [srun] in H. injection H as <- <-. rewrite C1, C2, C3, C4, C6, C7.
    repeat split; try discriminate. intros [l1 [o [l2 [E _]]]]. destruct l1; discriminate.
  - apply srun_snoc in H. destruct H as [v1 [lg1 [ev [rc [H1 [H2 ->]]]]]].
    destruct (IH _ _ H1) as [I1 [I2 [I3 [I4 I5]]]].
    destruct (sstep_facts _ _ _ _ _ _ H2) as [S1 [S2 [S3 [S4 S5]]]].
    split; [congruence|]. split; [unfold last_clocks; rewrite fold_left_app; cbn; fold (last_clocks l); congruence|].
    split; [unfold seen; rewrite existsb_app; cbn; rewrite orb_false_r; fold (seen l); congruence|].
    split.
    + rewrite S4, orb_true_iff, I4, I1, I2. split.
      * intros [[l1 [o1 [l2 [E L]]]]|L].
        -- exists l1, o1, (l2 ++ [o]). split; [rewrite E, <- app_assoc; reflexivity|assumption].
        -- exists l, o, []. split; [reflexivity|assumption].
      * intros [l1 [o1 [l2 [E L]]]]. destruct (rev_ind (fun l2 => l2 = [] \/ exists l3 x, l2 = l3 ++ [x])
            (or_introl eq_refl) (fun x l0 _ => or_intror (ex_intro _ l0 (ex_intro _ x eq_refl))) l2) as [->|[l3 [x ->]]].
        -- apply app_inj_tail in E. destruct E as [-> ->]. right. assumption.
        -- left. rewrite app_comm_cons, app_assoc in E. apply app_inj_tail in E. destruct E as [-> ->].
           exists l1, o1, l3. split; [reflexivity|assumption].
    + rewrite outcomes_snoc by (eapply srun_len; eassumption). rewrite S5. apply fail_inv_step. assumption.
Qed.

(** ** Where kernel requests come from *)
Definition op_world (o : sop) : nat -> kclk :=
  match o with
  | SetClocks w _ _ _ => w
  | StepUser w _ _ _ => w
  | PidAdjust _ _ _ _ => fun _ => mkClk None false true 0 0 0 false false
  | Sync i => i_w i
  end.

Lemma sstep_freq : forall sys v o v' ev rc c t x, sstep sys v o = Some (v', ev, rc) ->
  In (KFreq c t x) ev ->
  writable (op_world o c) /\ option_map snd (clocks_op (v_clocks v) o) = Some c /\
  kernel_values (op_world o c) (l_adj (v_flt v')) = (t, x).
Proof.
  intros sys v o v' ev rc c t x H HI.
  assert (AF : forall k c' f os, In (KFreq c t x) (fst (adjust_frequency k c' f os)) ->
            writable k /\ c = c' /\ kernel_values k f = (t, x)).
  { intros k c' f os HH. apply adjust_frequency_ev in HH. destruct HH as [W E]. injection E as -> -> ->.
    split; [assumption|]. split; [reflexivity|]. destruct (kernel_values k f); reflexivity. }
  destruct o; cbn [sstep] in H.
  - unfold set_clocks in H.
    destruct (match v_clocks v with Some (m0, s0) => Nat.eqb m0 m && Nat.eqb s0 s | None => false end) eqn:E.
    + cbn [bind fst snd] in H. injection H as <- <- <-. destruct HI.
    + cbv zeta in H. destruct (pid_set_i_max _ _) as [p|]; cbn [bind] in H; [|discriminate].
      destruct (adjust_frequency _ _ _ _) as [e r] eqn:A. cbn [bind fst snd] in H.
      injection H as <- <- <-. cbn [op_world clocks_op option_map snd].
      specialize (AF (w s) s (k_corr (w s)) os). rewrite A in AF. destruct (AF HI) as [A1 [-> A2]].
      split; [assumption|]. split; [reflexivity|assumption].
  - apply step_clock_spec in H.
    destruct H as [m [s [neg [H1 [H2 [-> [H4 [H5 [H6 [H7 [H8 [H9 [H10 [H11 [H12 [H13 [H14 [H15 [H16 _]]]]]]]]]]]]]]]]]]].
    rewrite H16.
    cbn [op_world clocks_op]. rewrite H1. cbn [option_map snd].
    apply in_app_or in HI. destruct HI as [HI|HI].
    + apply adjust_time_ev in HI. destruct HI as [_ HI]. discriminate.
    + destruct (AF _ _ _ _ HI) as [A1 [-> A2]]. split; [assumption|]. split; [reflexivity|assumption].
  - cbv zeta in H. injection H as <- <- <-. destruct HI.
  - unfold synchronize in H. destruct (do_sync sys v i) as [[[v1 e1] r1]|] eqn:E; cbn [bind] in H; [|discriminate].
    injection H as <- <- <-. cbn [op_world clocks_op].
    destruct (track_spec v1 r1 (i_now i)) as [_ [_ [T3 _]]]. rewrite T3. clear T3.
    apply do_sync_cases in E. destruct E as [m [s [EC D]]]. rewrite EC. cbn [option_map snd].
    destruct D as [rc0 Hc|d st mt v1 ev Hc Hs P1 P2 P3 P4 P5 P6 P7 P8 P9 P10 P11 P12 P13 P14 P15
                  |d st mt v2 v1 ev1 ev2 rc0 Hc Hs P1 P2 P3 P4 P5 P6 P7 P8 P9 P10 P11 P12 P13 P14 P15].
    + destruct HI.
    + exfalso. exact (P13 _ _ _ HI).
    + apply in_app_or in HI. destruct HI as [HI|HI]; [exfalso; exact (P13 _ _ _ HI)|].
      destruct (may_step _ _ _ && _) eqn:MS.
      * destruct P15 as [v3 [G1 G2]]. apply step_clock_spec in G1.
        destruct G1 as [m' [s' [neg [H1 [H2 [-> [H4 [H5 [H6 [H7 [H8 [H9 [H10 [H11 [H12 [H13 [H14 [H15 [H16 _]]]]]]]]]]]]]]]]]]].
        replace (l_adj (v_flt v1)) with (k_corr (i_w i s')) by (subst v1; destruct (k_locked (i_w i m)); symmetry; exact H16).
        rewrite P2, EC in H1. injection H1 as <- <-.
        apply in_app_or in HI. destruct HI as [HI|HI].
        -- apply adjust_time_ev in HI. destruct HI as [_ HI]. discriminate.
        -- destruct (AF _ _ _ _ HI) as [A1 [-> A2]]. split; [assumption|]. split; [reflexivity|assumption].
      * apply slew_spec in P15. destruct P15 as [-> _].
        destruct (AF _ _ _ _ HI) as [A1 [-> A2]]. split; [assumption|]. split; [reflexivity|assumption].
Qed.

Lemma negate_instant : forall d n, normal d -> - 2^63 < sec d -> negate d = Some n -> instant n = - instant d.
Proof.
  intros d n Hn Hs H. destruct (negate_exact d Hn Hs) as [c [E [_ I]]]. rewrite H in E. injection E as ->. exact I.
Qed.

(** the reported frequency and the correction stay within the slave's limit *)
Definition world_ok (kmax : nat -> Q) (o : sop) : Prop :=
  match o with
  | PidAdjust _ _ _ _ => True
  | _ => forall c, (0 <= kmax c)%Q /\ k_max (op_world o c) = kmax c /\
                   (- kmax c <= k_corr (op_world o c) <= kmax c)%Q
  end.
Definition limits (kmax : nat -> Q) (v : servo) : Prop :=
  (- l_max (v_flt v) <= l_adj (v_flt v) <= l_max (v_flt v))%Q /\
  (- l_max (v_flt v) <= l_corr (v_flt v) <= l_max (v_flt v))%Q /\
  forall m s, v_clocks v = Some (m, s) -> l_max (v_flt v) = kmax s.

Lemma limits_step : forall sys kmax v o v' ev rc, world_ok kmax o -> limits kmax v ->
  sstep sys v o = Some (v', ev, rc) -> limits kmax v'.
Proof.
  intros sys kmax v o v' ev rc W [L1 [L2 L3]] H. destruct o; cbn [sstep] in H.
  - unfold set_clocks in H.
    destruct (match v_clocks v with Some (m0, s0) => Nat.eqb m0 m && Nat.eqb s0 s | None => false end) eqn:E.
    + cbn [bind fst snd] in H. injection H as <- <- <-. split; [|split]; assumption.
    + cbv zeta in H. destruct (pid_set_i_max _ _) as [p|]; cbn [bind] in H; [|discriminate].
      destruct (adjust_frequency _ _ _ _) as [e r]. cbn [bind fst snd] in H.
      injection H as <- <- <-. destruct (W s) as [W1 [W2 W3]]. cbn [op_world] in *.
      unfold limits. cbn. rewrite W2. split; [assumption|]. split; [assumption|].
      intros m' s' HH. injection HH as <- <-. reflexivity.
  - apply step_clock_spec in H.
    destruct H as [m [s [neg [H1 [H2 [H3 [H4 [H5 [H6 [H7 [H8 [H9 [H10 [H11 [H12 [H13 [H14 [H15 [H16 [H17 [H18 _]]]]]]]]]]]]]]]]]]]]].
    destruct (W s) as [W1 [W2 W3]]. cbn [op_world] in *. rewrite (L3 _ _ H1) in H18.
    unfold limits. rewrite H16, H17, H18. split; [assumption|]. split; [assumption|].
    intros m' s' HH. rewrite H6, H1 in HH. injection HH as <- <-. reflexivity.
  - cbv zeta in H. injection H as <- <- <-. unfold limits. cbn. split; [|split]; assumption.
  - unfold synchronize in H. destruct (do_sync sys v i) as [[[v1 e1] r1]|] eqn:E; cbn [bind] in H; [|discriminate].
    injection H as <- <- <-. unfold limits.
    destruct (track_spec v1 r1 (i_now i)) as [T1 [T2 [T3 _]]]. rewrite T2, T3. clear T1 T2 T3.
    apply do_sync_cases in E. destruct E as [m [s [EC D]]].
    destruct D as [rc0 Hc|d st mt v1 ev Hc Hs P1 P2 P3 P4 P5 P6 P7 P8 P9 P10 P11 P12 P13 P14 P15
                  |d st mt v2 v1 ev1 ev2 rc0 Hc Hs P1 P2 P3 P4 P5 P6 P7 P8 P9 P10 P11 P12 P13 P14 P15].
    + split; [|split]; assumption.
    + rewrite P2, P10, P11, P12. split; [|split]; assumption.
    + destruct (may_step _ _ _ && _) eqn:MS.
      * destruct P15 as [v3 [G1 G2]]. apply step_clock_spec in G1.
        destruct G1 as [m' [s' [neg [H1 [H2 [H3 [H4 [H5 [H6 [H7 [H8 [H9 [H10 [H11 [H12 [H13 [H14 [H15 [H16 [H17 [H18 _]]]]]]]]]]]]]]]]]]]]].
        rewrite P2, EC in H1. injection H1 as <- <-.
        destruct (W s) as [W1 [W2 W3]]. cbn [op_world] in *. rewrite P12, (L3 _ _ EC) in H18.
        subst v1. destruct (k_locked (i_w i m)); cbn [with_active with_stepped v_flt v_clocks];
          rewrite H16, H17, H18; (split; [assumption|]; split; [assumption|]);
          intros m' s' HH; rewrite H6, P2, EC in HH; injection HH as <- <-; reflexivity.
      * apply slew_spec in P15.
        destruct P15 as [H1 [H2 [H3 [H4 [H5 [H6 [H7 [H8 [H9 [H10 [H11 [H12 [H13 [f [p [H14 [H15 [H16 [H17 [H18 H19]]]]]]]]]]]]]]]]]]]].
        destruct (W s) as [W1 _]. rewrite <- (L3 _ _ EC), <- P12 in W1. specialize (H19 W1).
        pose proof (clamp_bound (l_max (v_flt v2)) (l_corr (v_flt v2) + freq_adjust p) W1) as CB.
        rewrite H12, H13. split; [rewrite H19; exact CB|]. split; [rewrite P11, P12; assumption|].
        intros m' s' HH. rewrite H4, P2, EC in HH. injection HH as <- <-. rewrite P12. apply (L3 _ _ EC).
Qed.

Lemma limits_run : forall sys kmax l v v' lg, Forall (world_ok kmax) l -> limits kmax v ->
  srun sys v l = Some (v', lg) -> limits kmax v'.
Proof.
  intros sys kmax l. induction l as [|o l IH]; intros v v' lg W L H; cbn [srun] in H.
  - injection H as <- <-. assumption.
  - inversion W as [|? ? W1 W2]; subst.
    destruct (sstep sys v o) as [[[v1 ev] rc]|] eqn:E; cbn [bind] in H; [|discriminate].
    destruct (srun sys v1 l) as [[v2 l2]|] eqn:E2; cbn [bind fst snd] in H; [|discriminate].
    injection H as <- <-. eapply IH; [exact W2| |exact E2]. eapply limits_step; eassumption.
Qed.

Lemma limits_create : forall kmax g interval kp ki ct v, servo_create g interval kp ki ct = Some v -> limits kmax v.
Proof.
  intros kmax g interval kp ki ct v H. apply create_facts in H.
  destruct H as [_ [H1 [_ [_ [_ [_ [_ [H2 [H3 [H4 _]]]]]]]]]].
  unfold limits. rewrite H1, H2, H3, H4. split; [split; discriminate|]. split; [split; discriminate|]. discriminate.
Qed.
