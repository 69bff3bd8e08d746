Require Import ZArith QArith Lia List Bool Lqa.
Require Import ZifyBool.
Require Import Verif.Base Verif.TimeSpec Verif.TimeModel Verif.TimeProof Verif.TsdSpec Verif.TsdModel.
Import ListNotations.
Open Scope Z_scope.

Lemma to_float_ns_instant : forall t, (to_float_ns t == ns_of (instant t))%Q.
Proof.
  intros t. unfold to_float_ns, ns_of, instant.
  unfold Qeq, Qplus, Qmult, Qdiv, Qinv, inject_Z. cbn. lia.
Qed.

Lemma ns_of_plus : forall a b, (ns_of (a + b) == ns_of a + ns_of b)%Q.
Proof. intros. unfold ns_of, Qeq, Qplus; cbn. lia. Qed.
Lemma ns_of_minus : forall a b, (ns_of (a - b) == ns_of a - ns_of b)%Q.
Proof. intros. unfold ns_of, Qeq, Qminus, Qplus, Qopp; cbn. lia. Qed.

Lemma sub_sane : forall a b, normal a -> normal b ->
  - 2^62 < sec a < 2^62 -> - 2^62 < sec b < 2^62 ->
  exists c, subtract a b = Some c /\ normal c /\ instant c = instant a - instant b.
Proof.
  intros a b Ha Hb H1 H2.
  destruct (proj2 (subtract_defined a b Ha Hb)) as [c Hc].
  - destruct Ha as [? [? ?]], Hb as [? [? ?]]. unfold representable, instant, s_unit. lia.
  - exists c. split; [assumption|]. apply subtract_exact; assumption.
Qed.

Lemma add_sane : forall a b, normal a -> normal b ->
  - 2^62 < sec a < 2^62 -> - 2^62 < sec b < 2^62 ->
  exists c, add a b = Some c /\ normal c /\ instant c = instant a + instant b.
Proof.
  intros a b Ha Hb H1 H2.
  destruct (proj2 (add_defined a b Ha Hb)) as [c Hc].
  - destruct Ha as [? [? ?]], Hb as [? [? ?]]. unfold representable, instant, s_unit. lia.
  - exists c. split; [assumption|]. apply add_exact; assumption.
Qed.

Lemma sec_bound : forall t k, normal t -> 0 < k ->
  - k * s_unit < instant t < k * s_unit -> - k <= sec t < k.
Proof.
  intros t k [H1 [H2 H3]] Hk H. unfold instant, s_unit in H. lia.
Qed.

Lemma sane_instant : forall t, sane t -> - 2^60 * s_unit < instant t < 2^60 * s_unit.
Proof. intros t [[H1 [H2 H3]] H]. unfold instant, s_unit. lia. Qed.

Lemma roundtrip_sane : forall a b c d, sane a -> sane b -> sane c -> sane d ->
  exists x y z, subtract a b = Some x /\ subtract c d = Some y /\ add x y = Some z /\
    instant z = instant a - instant b + (instant c - instant d).
Proof.
  intros a b c d Ha Hb Hc Hd.
  pose proof (sane_instant _ Ha). pose proof (sane_instant _ Hb).
  pose proof (sane_instant _ Hc). pose proof (sane_instant _ Hd).
  destruct Ha as [Ha Ha'], Hb as [Hb Hb'], Hc as [Hc Hc'], Hd as [Hd Hd'].
  destruct (sub_sane a b) as [x [Hx [Hxn Hxi]]]; try lia; try assumption.
  destruct (sub_sane c d) as [y [Hy [Hyn Hyi]]]; try lia; try assumption.
  pose proof (sec_bound x (2^61) Hxn ltac:(lia) ltac:(unfold s_unit in *; lia)).
  pose proof (sec_bound y (2^61) Hyn ltac:(lia) ltac:(unfold s_unit in *; lia)).
  destruct (add_sane x y) as [z [Hz [Hzn Hzi]]]; try lia; try assumption.
  exists x, y, z. repeat split; try assumption. lia.
Qed.

Lemma e2e_delay_spec : forall t,
  sane_meas (dd_m (s2m t)) -> sane_meas (dd_m (m2s t)) ->
  exists q, e2e_delay t = Some q /\
    (q == ns_of (transit (dd_m (s2m t)) + transit (dd_m (m2s t))) / inject_Z 2)%Q.
Proof.
  intros t [H1 [H2 H3]] [H4 [H5 H6]]. unfold e2e_delay, transit.
  destruct (roundtrip_sane (m_rx (dd_m (s2m t))) (m_tx (dd_m (s2m t)))
     (m_rx (dd_m (m2s t))) (m_tx (dd_m (m2s t)))) as [x [y [z [Hx [Hy [Hz Hi]]]]]];
    try assumption.
  rewrite Hx; cbn [bind]; rewrite Hy; cbn [bind]; rewrite Hz; cbn [bind].
  eexists; split; [reflexivity|]. rewrite !to_float_ns_instant, Hi.
  rewrite !ns_of_plus, !ns_of_minus. field; try discriminate.
Qed.

Lemma p2p_delay_spec : forall t,
  sane_meas (dd_m (s2p t)) -> sane_meas (dd_m (p2s t)) ->
  instant (m_corr (dd_m (s2p t))) = 0 ->
  exists q, p2p_delay t = Some q /\
    (q == ns_of (transit (dd_m (s2p t)) + transit (dd_m (p2s t))) / inject_Z 2)%Q.
Proof.
  intros t [H1 [H2 H3]] [H4 [H5 H6]] Hz0. unfold p2p_delay, transit. rewrite Hz0.
  destruct (roundtrip_sane (m_rx (dd_m (s2p t))) (m_tx (dd_m (s2p t)))
     (m_rx (dd_m (p2s t))) (m_tx (dd_m (p2s t)))) as [x [y [z [Hx [Hy [Hz Hi]]]]]];
    try assumption.
  rewrite Hx; cbn [bind]; rewrite Hy; cbn [bind]; rewrite Hz; cbn [bind].
  eexists; split; [reflexivity|]. rewrite !to_float_ns_instant, Hi.
  rewrite !ns_of_plus, !ns_of_minus. change (ns_of 0) with (0 # 4294967296).
  unfold Qminus. setoid_replace (0 # 4294967296) with 0%Q by reflexivity.
  field; try discriminate.
Qed.

(** What the data set must report, given the current measurements. *)
Definition reports (t : tsd) (m : meas) (rt : Z) : Prop :=
  (path_delay t == ns_of rt / inject_Z 2)%Q /\
  (offset_from_master t == ns_of (transit m) - ns_of rt / inject_Z 2)%Q.

Lemma finish_spec : forall t pd, sane_meas (dd_m (m2s t)) ->
  exists t', finish t pd = Some t' /\ complete t' = true /\ path_delay t' = pd /\
    (offset_from_master t' == ns_of (transit (dd_m (m2s t))) - pd)%Q /\
    s2m t' = s2m t /\ m2s t' = m2s t /\ s2p t' = s2p t /\ p2s t' = p2s t.
Proof.
  intros t pd [H1 [H2 H3]]. unfold finish.
  destruct (sub_sane (m_rx (dd_m (m2s t))) (m_tx (dd_m (m2s t)))) as [b [Hb [_ Hi]]];
    try apply H1; try apply H2; try (destruct H1, H2; lia).
  rewrite Hb; cbn [bind]. eexists; split; [reflexivity|]. cbn. repeat split.
  rewrite !to_float_ns_instant, Hi. unfold transit. rewrite !ns_of_minus. ring.
Qed.

(** Representation invariant linking state and history. *)
Definition view (d : delay_data) : option meas := if dd_valid d then Some (dd_m d) else None.

Definition inv (h : list op) (t : tsd) : Prop :=
  view (m2s t) = latest_m2s h /\ view (s2m t) = latest_s2m h /\
  (match latest_p2p h with
   | Some (a, b) => view (s2p t) = Some a /\ view (p2s t) = Some b
   | None => view (s2p t) = None /\ view (p2s t) = None
   end) /\
  sane_meas (dd_m (m2s t)) /\ sane_meas (dd_m (s2m t)) /\
  sane_meas (dd_m (s2p t)) /\ sane_meas (dd_m (p2s t)) /\
  instant (m_corr (dd_m (s2p t))) = 0 /\
  (complete t = true -> exists m, latest_m2s h = Some m /\
     ((exists s, latest_s2m h = Some s /\ reports t m (transit s + transit m)) \/
      (latest_s2m h = None /\ exists a b, latest_p2p h = Some (a, b) /\
         reports t m (transit a + transit b)))) /\
  (* right after a set operation the flag is exact *)
  (match h with
   | (SetM2S _ _ | SetS2M _ _ | SetP2P _ _ _ _ _ _) :: _ =>
       complete t = true <-> (latest_m2s h <> None /\ (latest_s2m h <> None \/ latest_p2p h <> None))
   | _ => True
   end).

Lemma sane_null : sane null_time.
Proof. unfold sane, normal, null_time; cbn; lia. Qed.

Lemma reports_eq : forall t m rt rt', rt = rt' -> reports t m rt -> reports t m rt'.
Proof. intros; subst; assumption. Qed.

(** Core: tsd_update re-establishes the invariant for a pre-update state [t]
    whose fields already reflect history [h]. *)
Lemma update_inv : forall h t o,
  match o with SetM2S _ _ | SetS2M _ _ | SetP2P _ _ _ _ _ _ => True | _ => False end ->
  view (m2s t) = latest_m2s (o :: h) -> view (s2m t) = latest_s2m (o :: h) ->
  (match latest_p2p (o :: h) with
   | Some (a, b) => view (s2p t) = Some a /\ view (p2s t) = Some b
   | None => view (s2p t) = None /\ view (p2s t) = None
   end) ->
  sane_meas (dd_m (m2s t)) -> sane_meas (dd_m (s2m t)) ->
  sane_meas (dd_m (s2p t)) -> sane_meas (dd_m (p2s t)) ->
  instant (m_corr (dd_m (s2p t))) = 0 ->
  exists t', tsd_update t = Some t' /\ inv (o :: h) t'.
Proof.
  intros h t o Ho Hm Hs Hp S1 S2 S3 S4 Hz. unfold tsd_update.
  unfold view in *.
  destruct (dd_valid (m2s t)) eqn:Vm; cbn [andb].
  - destruct (dd_valid (s2m t)) eqn:Vs; cbn [andb].
    + destruct (e2e_delay_spec t S2 S1) as [q [Hq Eq]]. rewrite Hq; cbn [bind].
      destruct (finish_spec t q S1) as [t' [Hf [Hc [Hpd [Hoff [E1 [E2 [E3 E4]]]]]]]].
      exists t'. split; [assumption|]. unfold inv, view.
      rewrite E1, E2, E3, E4, Vm, Vs. repeat split; auto; try apply S1; try apply S2;
        try apply S3; try apply S4.
      * intros _. exists (dd_m (m2s t)). split; [congruence|]. left.
        exists (dd_m (s2m t)). split; [congruence|]. split.
        -- rewrite Hpd. assumption.
        -- rewrite Hoff, Eq. reflexivity.
      * destruct o; try contradiction; rewrite Hc; split; intros; try reflexivity;
          (split; [congruence|left; congruence]).
    + destruct (latest_p2p (o :: h)) as [[a b]|] eqn:El.
      * destruct Hp as [Hp1 Hp2].
        destruct (dd_valid (s2p t)) eqn:V3; [|discriminate].
        destruct (dd_valid (p2s t)) eqn:V4; [|discriminate]. cbn [andb].
        destruct (p2p_delay_spec t S3 S4 Hz) as [q [Hq Eq]]. rewrite Hq; cbn [bind].
        destruct (finish_spec t q S1) as [t' [Hf [Hc [Hpd [Hoff [E1 [E2 [E3 E4]]]]]]]].
        exists t'. split; [assumption|]. unfold inv, view.
        rewrite E1, E2, E3, E4, Vm, Vs, V3, V4, El.
        repeat split; auto; try apply S1; try apply S2; try apply S3; try apply S4.
        -- intros _. exists (dd_m (m2s t)). split; [congruence|]. right.
           split; [congruence|]. exists a, b. split; [reflexivity|].
           injection Hp1 as <-. injection Hp2 as <-. split.
           ++ rewrite Hpd. assumption.
           ++ rewrite Hoff, Eq. reflexivity.
        -- destruct o; try contradiction; rewrite Hc; split; intros; try reflexivity;
             (split; [congruence|right; congruence]).
      * destruct Hp as [Hp1 Hp2].
        destruct (dd_valid (s2p t)) eqn:V3; [discriminate|]. cbn [andb].
        eexists; split; [reflexivity|]. unfold inv, view; cbn [m2s s2m s2p p2s complete].
        rewrite Vm, Vs, V3, El. repeat split; auto; try apply S1; try apply S2;
          try apply S3; try apply S4; try discriminate.
        destruct o; try contradiction; split; intros X; try discriminate;
          destruct X as [X1 [X2|X2]]; congruence.
  - eexists; split; [reflexivity|]. unfold inv, view; cbn [m2s s2m s2p p2s complete].
    rewrite Vm. repeat split; auto; try apply S1; try apply S2;
          try apply S3; try apply S4; try discriminate.
    destruct o; try contradiction; split; intros X; try discriminate;
          destruct X as [X1 X2]; congruence.
Qed.

Lemma sane_meas_null : sane_meas (mkMeas null_time null_time null_time).
Proof. repeat split; cbn; lia. Qed.

Lemma run_inv : forall h, Forall sane_op h -> exists t, run h = Some t /\ inv h t.
Proof.
  induction h as [|o h IH]; intros Hs.
  - exists tsd_init. split; [reflexivity|]. unfold inv; cbn.
    repeat split; auto; try discriminate; cbn; lia.
  - inversion Hs as [|? ? Ho Hs']; subst. destruct (IH Hs') as [t [Hr Hi]].
    cbn [run]. rewrite Hr; cbn [bind].
    destruct Hi as [I1 [I2 [I3 [S1 [S2 [S3 [S4 [Z0 [I4 _]]]]]]]]].
    destruct o as [m now|m now|a b c d k now| | |]; cbn [step].
    + destruct Ho as [Ho _].
      apply update_inv; cbn [m2s s2m s2p p2s latest_m2s latest_s2m latest_p2p dd_valid dd_m invalidate]; unfold view; cbn [dd_valid dd_m]; auto.
    + destruct Ho as [Ho _].
      apply update_inv; cbn [m2s s2m s2p p2s latest_m2s latest_s2m latest_p2p dd_valid dd_m invalidate]; unfold view; cbn [dd_valid dd_m]; auto.
    + destruct Ho as [A [B [C [D [K _]]]]].
      apply update_inv; cbn [m2s s2m s2p p2s latest_m2s latest_s2m latest_p2p dd_valid dd_m invalidate]; unfold view; cbn [dd_valid dd_m]; auto; cbn [dd_m]; auto.
      * repeat split; cbn; try apply A; try apply B; lia.
      * repeat split; cbn; try apply C; try apply D; try apply K.
    + eexists; split; [reflexivity|].
      unfold inv; cbn [m2s s2m s2p p2s complete latest_m2s latest_s2m latest_p2p invalidate dd_m].
      split; [reflexivity|]. repeat split; auto; try apply S1; try apply S2;
        try apply S3; try apply S4; discriminate.
    + eexists; split; [reflexivity|].
      unfold inv; cbn [m2s s2m s2p p2s complete latest_m2s latest_s2m latest_p2p invalidate dd_m].
      split; [assumption|]. split; [reflexivity|]. repeat split; auto; try apply S1; try apply S2;
        try apply S3; try apply S4; discriminate.
    + eexists; split; [reflexivity|].
      unfold inv; cbn [m2s s2m s2p p2s complete latest_m2s latest_s2m latest_p2p invalidate dd_m].
      split; [assumption|]. split; [assumption|].
      split; [split; reflexivity|].
      repeat split; auto; try apply S1; try apply S2;
        try apply S3; try apply S4; discriminate.
Qed.

(** Symmetric path: algebra. *)
Lemma half_algebra : forall m s theta d1 d2,
  transit m = theta + d1 -> transit s = d2 - theta ->
  forall t, reports t m (transit s + transit m) ->
  (path_delay t == ns_of (d1 + d2) / inject_Z 2)%Q /\
  (offset_from_master t == ns_of theta + ns_of (d1 - d2) / inject_Z 2)%Q.
Proof.
  intros m s theta d1 d2 H1 H2 t [Hp Ho]. split.
  - rewrite Hp, H1, H2. replace (d2 - theta + (theta + d1)) with (d1 + d2) by lia. reflexivity.
  - rewrite Ho, H1, H2. replace (d2 - theta + (theta + d1)) with (d1 + d2) by lia.
    rewrite !ns_of_plus, ns_of_minus. field; try discriminate.
Qed.
