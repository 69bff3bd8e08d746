(** Proofs about the floating point conversions. *)
Require Import ZArith QArith Qround Qabs List Bool Lia Lqa.
From Verif Require Import Base TimeSpec TimeModel TimeProof FltSpec FltModel.
Open Scope Z_scope.

Lemma Qfloor_unique x z : (inject_Z z <= x)%Q -> (x < inject_Z (z + 1))%Q -> Qfloor x = z.
Proof.
  intros H1 H2. pose proof (Qfloor_le x) as A. pose proof (Qlt_floor x) as B.
  assert (inject_Z z < inject_Z (Qfloor x + 1))%Q by (eapply Qle_lt_trans; eauto).
  assert (inject_Z (Qfloor x) < inject_Z (z + 1))%Q by (eapply Qle_lt_trans; eauto).
  rewrite <- Zlt_Qlt in *. lia.
Qed.
Lemma Qfloor_bounds x : (inject_Z (Qfloor x) <= x)%Q /\ (x < inject_Z (Qfloor x) + 1)%Q.
Proof. split; [apply Qfloor_le|]. pose proof (Qlt_floor x) as B. rewrite inject_Z_plus in B. exact B. Qed.

Lemma Qtrunc_nonneg x : (0 <= x)%Q -> Qtrunc x = Qfloor x.
Proof. intros H. unfold Qtrunc. destruct (Qlt_le_dec x 0); [exfalso; lra|reflexivity]. Qed.

Lemma normalise_normal s n f : normal (mkTs s n f) -> normalise (mkTs s n f) = Some (mkTs s n f).
Proof.
  intros (A & B & C). cbn in A, B, C. unfold normalise. cbn [sec nsec frac].
  assert (E : s32 n = n) by (unfold s32; lia). rewrite E.
  rewrite Z.quot_small by lia. unfold chk_s64, fits_s64.
  replace (s + 0) with s by lia.
  destruct (- 2 ^ 63 <=? s) eqn:E1; [|lia]. destruct (s <? 2 ^ 63) eqn:E2; [|lia]. cbn [bind andb].
  replace (n - 0 * 1000000000) with n by lia. destruct (n <? 0) eqn:E3; [lia|].
  rewrite u32_id by lia. reflexivity.
Qed.

(** The part common to both conversions: [ns] nanoseconds with [s] whole seconds. *)
Definition build (ns : Q) (s : Z) : option ts :=
  let nsecf := (ns - inject_Z s * inject_Z 1000000000)%Q in
  let n := u32 (Qtrunc nsecf) in
  let f := Qtrunc (inject_Z (2^32) * (nsecf - inject_Z n))%Q in
  if (0 <=? f) && (f <? 2^32) then normalise (mkTs s n f) else None.

Lemma build_exact ns s : - 2^63 <= s < 2^63 -> s = Qfloor (ns / inject_Z 1000000000)%Q ->
  exists t, build ns s = Some t /\ normal t /\ instant t = units_floor ns.
Proof.
  intros Hs E. unfold build. cbv zeta.
  set (nsecf := (ns - inject_Z s * inject_Z 1000000000)%Q).
  assert (H0 : (0 <= nsecf)%Q /\ (nsecf < inject_Z 1000000000)%Q).
  { destruct (Qfloor_bounds (ns / inject_Z 1000000000)%Q) as [A B]. rewrite <- E in A, B.
    assert (ns == (ns / inject_Z 1000000000) * inject_Z 1000000000)%Q as En by (field; discriminate).
    unfold nsecf. set (x := (ns / inject_Z 1000000000)%Q) in *. clearbody x.
    change (inject_Z 1000000000) with 1000000000%Q in *. split; lra. }
  destruct H0 as [H0 H1].
  rewrite (Qtrunc_nonneg nsecf H0).
  set (n := Qfloor nsecf). destruct (Qfloor_bounds nsecf) as [A B]. fold n in A, B.
  assert (Hn : 0 <= n < 1000000000).
  { split.
    - unfold n. rewrite <- (Qfloor_Z 0). apply Qfloor_resp_le. exact H0.
    - assert (H : (inject_Z n < inject_Z 1000000000)%Q) by (eapply Qle_lt_trans; eauto).
      rewrite <- Zlt_Qlt in H. exact H. }
  rewrite u32_id by lia.
  set (y := (inject_Z (2 ^ 32) * (nsecf - inject_Z n))%Q).
  assert (Hy : (0 <= y)%Q /\ (y < inject_Z (2^32))%Q).
  { unfold y. change (inject_Z (2^32)) with 4294967296%Q. split; lra. }
  destruct Hy as [Hy0 Hy1]. rewrite (Qtrunc_nonneg y Hy0).
  set (f := Qfloor y). destruct (Qfloor_bounds y) as [C D]. fold f in C, D.
  assert (Hf : 0 <= f < 2^32).
  { split.
    - unfold f. rewrite <- (Qfloor_Z 0). apply Qfloor_resp_le. exact Hy0.
    - assert (H : (inject_Z f < inject_Z (2^32))%Q) by (eapply Qle_lt_trans; eauto).
      rewrite <- Zlt_Qlt in H. exact H. }
  destruct (0 <=? f) eqn:F1; [|lia]. destruct (f <? 2^32) eqn:F2; [|lia]. cbn [andb].
  assert (Hnorm : normal (mkTs s n f)) by (unfold normal; cbn [sec nsec frac]; lia).
  exists (mkTs s n f). split; [apply normalise_normal; assumption|]. split; [assumption|].
  unfold units_floor, instant. cbn [sec nsec frac]. symmetry. apply Qfloor_unique.
  - rewrite inject_Z_plus, inject_Z_mult, inject_Z_plus, inject_Z_mult.
    unfold y, nsecf in *. clearbody n f. change (inject_Z (2^32)) with 4294967296%Q in *.
    change (inject_Z 1000000000) with 1000000000%Q in *.
    set (si := inject_Z s) in *. set (ni := inject_Z n) in *. set (fi := inject_Z f) in *. lra.
  - rewrite inject_Z_plus, inject_Z_plus, inject_Z_mult, inject_Z_plus, inject_Z_mult.
    unfold y, nsecf in *. clearbody n f. change (inject_Z (2^32)) with 4294967296%Q in *.
    change (inject_Z 1000000000) with 1000000000%Q in *. change (inject_Z 1) with 1%Q.
    set (si := inject_Z s) in *. set (ni := inject_Z n) in *. set (fi := inject_Z f) in *. lra.
Qed.

Definition in_range (ns : Q) : Prop :=
  (inject_Z (- 2^63 * 1000000000) <= ns)%Q /\ (ns < inject_Z (2^63 * 1000000000))%Q.

Lemma range_floor ns : in_range ns -> - 2^63 <= Qfloor (ns / inject_Z 1000000000)%Q < 2^63.
Proof.
  intros [A B]. destruct (Qfloor_bounds (ns / inject_Z 1000000000)%Q) as [C D].
  assert (ns == (ns / inject_Z 1000000000) * inject_Z 1000000000)%Q as En by (field; discriminate).
  set (x := (ns / inject_Z 1000000000)%Q) in *. clearbody x.
  rewrite inject_Z_mult in A, B. rewrite inject_Z_opp in A.
  set (P := inject_Z (2^63)) in *. change (inject_Z 1000000000) with 1000000000%Q in *.
  assert (- P <= x)%Q as A' by lra. assert (x < P)%Q as B' by lra.
  split.
  - assert (H : (inject_Z (- 2^63) < inject_Z (Qfloor x) + 1)%Q).
    { rewrite inject_Z_opp. fold P. lra. }
    rewrite <- (inject_Z_plus _ 1), <- Zlt_Qlt in H. lia.
  - rewrite Zlt_Qlt. fold P. eapply Qle_lt_trans; eauto.
Qed.

Lemma of_float_ns_exact rd ns : no_carry rd ns -> in_range ns ->
  exists t, of_float_ns rd ns = Some t /\ normal t /\ instant t = units_floor ns.
Proof.
  intros NC R. unfold of_float_ns. rewrite NC. pose proof (range_floor ns R) as H.
  assert (E : chk_s64 (Qfloor (ns / inject_Z 1000000000)%Q) = Some (Qfloor (ns / inject_Z 1000000000)%Q)).
  { unfold chk_s64. destruct (fits_s64 _) eqn:F; [reflexivity|]. exfalso.
    apply fits_s64_iff in H. congruence. }
  rewrite E. cbn [bind]. apply (build_exact ns _ H eq_refl).
Qed.

Lemma to_float_ns_exact t : (to_float_ns t == ns_of t)%Q.
Proof.
  unfold to_float_ns, ns_of, instant. rewrite !inject_Z_plus, !inject_Z_mult, !inject_Z_plus, !inject_Z_mult.
  field. discriminate.
Qed.
Lemma to_float_s_exact t : (to_float_s t * inject_Z 1000000000 == ns_of t)%Q.
Proof.
  unfold to_float_s, ns_of, instant. rewrite !inject_Z_plus, !inject_Z_mult, !inject_Z_plus, !inject_Z_mult.
  field. discriminate.
Qed.

Lemma units_floor_to_float t : units_floor (to_float_ns t) = instant t.
Proof.
  unfold units_floor. rewrite to_float_ns_exact. unfold ns_of.
  assert (E : (inject_Z (instant t) / inject_Z (2 ^ 32) * inject_Z (2 ^ 32) == inject_Z (instant t))%Q) by (field; discriminate).
  rewrite E. apply Qfloor_Z.
Qed.
Lemma normal_in_range t : normal t -> in_range (to_float_ns t).
Proof.
  intros (A & B & C). unfold in_range, to_float_ns.
  assert (Hf : (0 <= inject_Z (frac t) / inject_Z (2^32))%Q /\ (inject_Z (frac t) / inject_Z (2^32) < 1)%Q).
  { split.
    - apply Qle_shift_div_l; [reflexivity|]. rewrite Qmult_0_l. change 0%Q with (inject_Z 0). rewrite <- Zle_Qle. lia.
    - apply Qlt_shift_div_r; [reflexivity|]. rewrite Qmult_1_l. rewrite <- Zlt_Qlt. lia. }
  destruct Hf as [F0 F1]. set (fi := (inject_Z (frac t) / inject_Z (2^32))%Q) in *. clearbody fi.
  rewrite !inject_Z_mult.
  assert (S0 : (inject_Z (- 2^63) <= inject_Z (sec t))%Q) by (rewrite <- Zle_Qle; lia).
  assert (S1 : (inject_Z (sec t) + 1 <= inject_Z (2^63))%Q).
  { change 1%Q with (inject_Z 1). rewrite <- inject_Z_plus, <- Zle_Qle. lia. }
  assert (N0 : (0 <= inject_Z (nsec t))%Q) by (change 0%Q with (inject_Z 0); rewrite <- Zle_Qle; lia).
  assert (N1 : (inject_Z (nsec t) + 1 <= inject_Z 1000000000)%Q).
  { change 1%Q with (inject_Z 1). rewrite <- inject_Z_plus, <- Zle_Qle. lia. }
  rewrite inject_Z_opp in *. set (P := inject_Z (2^63)) in *.
  set (s := inject_Z (sec t)) in *. set (n := inject_Z (nsec t)) in *.
  change (inject_Z 1000000000) with 1000000000%Q in *. split; lra.
Qed.

(** The rounding of the argument of floor matters only if it reaches the next whole number. *)
Lemma carry_cases rd x : rounding rd -> - 2^53 <= Qfloor x < 2^53 ->
  Qfloor (rd x) = Qfloor x \/ (rd x == inject_Z (Qfloor x + 1))%Q.
Proof.
  intros [M F] H. destruct (Qfloor_bounds x) as [A B].
  assert (L : (inject_Z (Qfloor x) <= rd x)%Q).
  { rewrite <- (F (Qfloor x)) by lia. apply M. assumption. }
  assert (U : (rd x <= inject_Z (Qfloor x + 1))%Q).
  { rewrite <- (F (Qfloor x + 1)) by lia. apply M. rewrite inject_Z_plus. apply Qlt_le_weak. exact B. }
  destruct (Qlt_le_dec (rd x) (inject_Z (Qfloor x + 1))) as [E|E].
  - left. apply Qfloor_unique; assumption.
  - right. apply Qle_antisym; assumption.
Qed.

Lemma scaled_round_trip z : - 2^63 <= z < 2^63 -> float_to_scaled (scaled_to_float z) = z.
Proof.
  intros H. unfold float_to_scaled, scaled_to_float. cbv zeta.
  assert (E : (inject_Z z / inject_Z 65536 * inject_Z 65536 == inject_Z z)%Q) by (field; discriminate).
  destruct (Qlt_le_dec _ _) as [L|L].
  { exfalso. rewrite E, <- Zlt_Qlt in L. lia. }
  destruct (Qlt_le_dec _ _) as [L2|L2].
  { exfalso. rewrite E, <- Zlt_Qlt in L2. lia. }
  unfold Qtrunc. destruct (Qlt_le_dec _ _).
  - assert (E2 : (- (inject_Z z / inject_Z 65536 * inject_Z 65536) == inject_Z (- z))%Q) by (rewrite E, inject_Z_opp; reflexivity).
    rewrite (Qfloor_comp _ _ E2), Qfloor_Z. lia.
  - rewrite (Qfloor_comp _ _ E), Qfloor_Z. reflexivity.
Qed.
Lemma Qtrunc_bounds x : (Qabs (inject_Z (Qtrunc x)) <= Qabs x)%Q /\ (Qabs (x - inject_Z (Qtrunc x)) < 1)%Q.
Proof.
  unfold Qtrunc. destruct (Qlt_le_dec x 0) as [N|N].
  - destruct (Qfloor_bounds (- x)) as [A B].
    assert (0 <= inject_Z (Qfloor (- x)))%Q.
    { change 0%Q with (inject_Z 0). rewrite <- Zle_Qle. rewrite <- (Qfloor_Z 0). apply Qfloor_resp_le.
      change (inject_Z 0) with 0%Q. lra. }
    rewrite inject_Z_opp. set (k := inject_Z (Qfloor (- x))) in *. clearbody k. split.
    + rewrite Qabs_opp, (Qabs_pos k), (Qabs_neg x) by lra. exact A.
    + apply Qabs_Qlt_condition. split; lra.
  - destruct (Qfloor_bounds x) as [A B].
    assert (0 <= inject_Z (Qfloor x))%Q.
    { change 0%Q with (inject_Z 0). rewrite <- Zle_Qle. rewrite <- (Qfloor_Z 0). apply Qfloor_resp_le. exact N. }
    set (k := inject_Z (Qfloor x)) in *. clearbody k. split.
    + rewrite !Qabs_pos by lra. exact A.
    + apply Qabs_Qlt_condition. split; lra.
Qed.
