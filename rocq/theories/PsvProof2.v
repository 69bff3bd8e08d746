(** Proofs about the PTP slave servo: requests made to the clock. *)
Require Import ZArith QArith Qabs Qround List Bool Lia Lqa Permutation ZifyBool.
From Verif Require Import Base ListLib QLib TimeSpec TimeModel TimeProof FilterSpec FilterModel FilterProof
  SrvSpec SrvModel SrvProof FltModel FltProof PsvSpec PsvModel PsvProof.
From Verif Require TsdSpec TsdModel TsdProof FltSpec.
Import ListNotations.
Open Scope Z_scope.

(** ** Amount of a step *)
Lemma chk_some : forall x y, chk_s64 x = Some y -> y = x /\ - 2^63 <= x < 2^63.
Proof.
  intros x y H. unfold chk_s64 in H. destruct (fits_s64 x) eqn:E; [|discriminate].
  injection H as <-. split; [reflexivity|]. apply fits_s64_iff. exact E.
Qed.

Lemma ns_of_units : forall z ns, (inject_Z z <= ns * inject_Z (2^32))%Q -> (ns * inject_Z (2^32) <= inject_Z z + 1)%Q ->
  (Qabs (TsdSpec.ns_of z - ns) <= 1 # 4294967296)%Q.
Proof.
  intros z ns A B. change (inject_Z (2^32)) with 4294967296%Q in *.
  assert (E : (TsdSpec.ns_of z == inject_Z z / 4294967296)%Q).
  { unfold TsdSpec.ns_of. unfold Qeq, Qdiv, Qmult, Qinv, inject_Z. cbn. lia. }
  rewrite E. apply Qabs_Qle_condition.
  assert (inject_Z z == (inject_Z z / 4294967296) * 4294967296)%Q by (field; discriminate).
  set (q := (inject_Z z / 4294967296)%Q) in *. clearbody q. rewrite H in A, B. split; lra.
Qed.
Lemma ns_of_units_up : forall z ns, (ns * inject_Z (2^32) <= inject_Z z)%Q -> (inject_Z z <= ns * inject_Z (2^32) + 1)%Q ->
  (Qabs (TsdSpec.ns_of z - ns) <= 1 # 4294967296)%Q.
Proof.
  intros z ns A B. change (inject_Z (2^32)) with 4294967296%Q in *.
  assert (E : (TsdSpec.ns_of z == inject_Z z / 4294967296)%Q).
  { unfold TsdSpec.ns_of. unfold Qeq, Qdiv, Qmult, Qinv, inject_Z. cbn. lia. }
  rewrite E. apply Qabs_Qle_condition.
  assert (inject_Z z == (inject_Z z / 4294967296) * 4294967296)%Q by (field; discriminate).
  set (q := (inject_Z z / 4294967296)%Q) in *. clearbody q. rewrite H in A, B. split; lra.
Qed.

Lemma of_float_near : forall rd ns t, FltSpec.rounding rd -> (Qabs ns < inject_Z (2^52 * 1000000000))%Q ->
  of_float_ns rd ns = Some t ->
  normal t /\ - 2^63 < sec t /\ (Qabs (TsdSpec.ns_of (instant t) - ns) <= 1 # 4294967296)%Q.
Proof.
  intros rd ns t RD B H.
  assert (R : (inject_Z (- 2^52 * 1000000000) <= ns)%Q /\ (ns < inject_Z (2^52 * 1000000000))%Q).
  { apply Qabs_Qlt_condition in B. destruct B as [B1 B2]. split; [|exact B2].
    change (- 2^52 * 1000000000) with (- (2^52 * 1000000000)). rewrite inject_Z_opp. lra. }
  clear B. destruct R as [R1 R2].
  set (x := (ns / inject_Z 1000000000)%Q).
  assert (En : (ns == x * inject_Z 1000000000)%Q) by (unfold x; field; discriminate).
  destruct (Qfloor_bounds x) as [C D].
  assert (HX : - 2^52 <= Qfloor x < 2^52).
  { rewrite inject_Z_mult in R1, R2. set (P := inject_Z (2^52)) in *.
    change (inject_Z 1000000000) with 1000000000%Q in *.
    rewrite inject_Z_opp in R1. fold P in R1.
    assert (- P <= x)%Q by lra. assert (x < P)%Q by lra.
    split.
    - assert (Y : (inject_Z (- 2^52) < inject_Z (Qfloor x) + 1)%Q) by (rewrite inject_Z_opp; fold P; lra).
      rewrite <- (inject_Z_plus _ 1), <- Zlt_Qlt in Y. lia.
    - rewrite Zlt_Qlt. fold P. eapply Qle_lt_trans; eauto. }
  destruct (carry_cases rd x RD) as [NC|CA]; [lia| |].
  - destruct (of_float_ns_exact rd ns) as [t' [E1 [E2 E3]]]; [exact NC| |].
    { split.
      - eapply Qle_trans; [|exact R1]. rewrite <- Zle_Qle. lia.
      - eapply Qlt_le_trans; [exact R2|]. rewrite <- Zle_Qle. lia. }
    rewrite H in E1. injection E1 as <-. split; [exact E2|].
    destruct (Qfloor_bounds (ns * inject_Z (2^32))%Q) as [U1 U2].
    fold (FltSpec.units_floor ns) in U1, U2. rewrite <- E3 in U1, U2. split.
    + assert (- (2^52 + 1) * 1000000000 * 2^32 <= instant t).
      { assert (Y : (inject_Z (- 2^52 * 1000000000 * 2^32) < inject_Z (instant t) + 1)%Q).
        { eapply Qle_lt_trans; [|exact U2]. rewrite inject_Z_mult. apply Qmult_le_compat_r; [exact R1|]. discriminate. }
        rewrite <- (inject_Z_plus _ 1), <- Zlt_Qlt in Y. lia. }
      destruct E2 as [A1 [A2 A3]]. unfold instant in H0. lia.
    + apply ns_of_units; [exact U1|apply Qlt_le_weak; exact U2].
  - unfold of_float_ns in H. fold x in H.
    assert (EF : Qfloor (rd x) = Qfloor x + 1) by (rewrite CA; apply Qfloor_Z).
    rewrite EF in H. destruct (chk_s64 (Qfloor x + 1)) as [s|] eqn:ES; cbn [bind] in H; [|discriminate].
    apply chk_some in ES. destruct ES as [-> _]. cbv zeta in H.
    set (s := Qfloor x + 1) in *.
    set (nf := (ns - inject_Z s * inject_Z 1000000000)%Q) in *.
    assert (N : (- inject_Z 1000000000 <= nf < 0)%Q).
    { unfold nf, s. rewrite inject_Z_plus, En. change (inject_Z 1000000000) with 1000000000%Q. change (inject_Z 1) with 1%Q.
      set (fx := inject_Z (Qfloor x)) in *. split; lra. }
    destruct N as [N1 N2].
    assert (T : Qtrunc nf = - Qfloor (- nf)) by (unfold Qtrunc; destruct (Qlt_le_dec nf 0); [reflexivity|lra]).
    rewrite T in H. destruct (Qfloor_bounds (- nf)%Q) as [V1 V2].
    assert (W : 0 <= Qfloor (- nf) <= 1000000000).
    { split.
      - rewrite <- (Qfloor_Z 0). apply Qfloor_resp_le. change (inject_Z 0) with 0%Q. lra.
      - rewrite <- (Qfloor_Z 1000000000). apply Qfloor_resp_le. lra. }
    set (q := Qfloor (- nf)) in *. clearbody q.
    destruct (Z.eq_dec q 0) as [->|NZ].
    + change (u32 (- 0)) with 0 in H.
      set (y := (inject_Z (2^32) * (nf - inject_Z 0))%Q) in *.
      assert (Y : (y < 0)%Q). { unfold y. change (inject_Z (2^32)) with 4294967296%Q. change (inject_Z 0) with 0%Q. lra. }
      assert (TY : Qtrunc y = - Qfloor (- y)) by (unfold Qtrunc; destruct (Qlt_le_dec y 0); [reflexivity|lra]).
      rewrite TY in H. destruct (Qfloor_bounds (- y)%Q) as [Y1 Y2].
      assert (0 <= Qfloor (- y)) by (rewrite <- (Qfloor_Z 0); apply Qfloor_resp_le; change (inject_Z 0) with 0%Q; lra).
      set (fy := Qfloor (- y)) in *. clearbody fy.
      destruct ((0 <=? - fy) && (- fy <? 2^32)) eqn:EB; [|discriminate].
      assert (fy = 0) by lia. subst fy.
      change (- 0) with 0 in H.
      assert (NN : normal (mkTs s 0 0)) by (unfold normal, s; cbn [sec nsec frac]; lia).
      rewrite (normalise_normal _ _ _ NN) in H. injection H as <-. split; [exact NN|].
      split; [cbn [sec]; unfold s; lia|].
      apply ns_of_units_up; unfold instant; cbn [sec nsec frac].
      * rewrite !Z.add_0_r, !inject_Z_mult. unfold y, nf in Y. change (inject_Z 0) with 0%Q in Y.
        change (inject_Z 1000000000) with 1000000000%Q in *. change (inject_Z (2^32)) with 4294967296%Q in *.
        set (si := inject_Z s) in *. lra.
      * rewrite !Z.add_0_r, !inject_Z_mult. unfold y, nf in Y2. change (inject_Z 0) with 0%Q in Y2.
        change (inject_Z 1000000000) with 1000000000%Q in *. change (inject_Z (2^32)) with 4294967296%Q in *.
        set (si := inject_Z s) in *. lra.
    + exfalso.
      assert (U : u32 (- q) = 2^32 - q) by (unfold u32; symmetry; apply (Z.mod_unique _ _ (-1)); lia).
      rewrite U in H. set (y := (inject_Z (2^32) * (nf - inject_Z (2^32 - q)))%Q) in *.
      assert (Y : (y <= - inject_Z (2^32))%Q).
      { unfold y. assert (A : (inject_Z 3000000000 <= inject_Z (2^32 - q))%Q) by (rewrite <- Zle_Qle; lia).
        change (inject_Z (2^32)) with 4294967296%Q. change (inject_Z 3000000000) with 3000000000%Q in A.
        set (z := inject_Z (2^32 - q)) in *. lra. }
      change (- inject_Z (2^32))%Q with (-4294967296)%Q in Y.
      assert (TY : Qtrunc y = - Qfloor (- y)) by (unfold Qtrunc; destruct (Qlt_le_dec y 0); [reflexivity|lra]).
      rewrite TY in H.
      assert (2 <= Qfloor (- y)) by (rewrite <- (Qfloor_Z 2); apply Qfloor_resp_le; change (inject_Z 2) with 2%Q; lra).
      set (fy := Qfloor (- y)) in *. clearbody fy.
      destruct ((0 <=? - fy) && (- fy <? 2^32)) eqn:EB; [lia|discriminate].
Qed.

(** ** Requests *)
Lemma writable_same : forall k, PsvSpec.writable k <-> SrvProof.writable k.
Proof. intros k. reflexivity. Qed.

Lemma adjust_frequency_request : forall k c f os, clock_ok k ->
  freq_request k c f (fst (adjust_frequency k c f os)).
Proof.
  intros k c f os W. unfold adjust_frequency. split; intros WR.
  - destruct (refused k) eqn:R; [apply refused_writable in WR; congruence|].
    destruct (kernel_values k f) as [t x] eqn:K. cbn [fst]. exists t, x. split; [reflexivity|].
    pose proof (kernel_accuracy k f t x W K) as A. cbv zeta in A. unfold hz_of in A.
    apply Qabs_Qle_condition. exact A.
  - destruct (refused k) eqn:R; [reflexivity|]. apply refused_writable in R. contradiction.
Qed.

Lemma clamp_model : forall m a, (0 <= m)%Q ->
  ((if Qlt_bool m a then m else if Qlt_bool a (- m) then - m else a) == clamp m a)%Q.
Proof.
  intros m a H. rewrite <- (sat_clamp m a H). unfold sat. cbv zeta. unfold Qlt_bool.
  destruct (Qle_bool a m) eqn:E; cbn [negb]; [reflexivity|].
  destruct (Qle_bool (- m) m) eqn:E2; cbn [negb]; [reflexivity|].
  exfalso. assert (X : (- m <= m)%Q) by lra. apply Qle_bool_iff in X. congruence.
Qed.
Lemma clamp_clamp : forall m x y, (0 <= m)%Q -> (y == clamp m x)%Q -> (clamp m y == clamp m x)%Q.
Proof.
  intros m x y H E. rewrite (clamp_id m y); [exact E|]. rewrite E. apply clamp_bound. exact H.
Qed.

(** asking for the clamped value of [f] is as good as asking for [f] *)
Lemma freq_request_clamp : forall k c f a ev, clock_ok k -> (a == clamp (k_max k) f)%Q ->
  freq_request k c a ev -> freq_request k c f ev.
Proof.
  intros k c f a ev W E [A B]. split; [|exact B]. intros WR. destruct (A WR) as [t [x [E1 E2]]].
  exists t, x. split; [exact E1|].
  pose proof (clamp_clamp _ _ _ (proj1 W) E) as CC. rewrite CC in E2.
  eapply Qle_trans; [exact E2|]. apply Qplus_le_compat; [|apply Qle_refl].
  destruct (k_sys k) as [[hz maxf]|] eqn:KS; [|apply Qle_refl].
  destruct W as [W0 W]. rewrite KS in W. destruct W as [h [-> [H1 [_ [H2 H3]]]]].
  assert (P : (0 <= inject_Z 500 * inject_Z h)%Q).
  { rewrite <- inject_Z_mult. change 0%Q with (inject_Z 0). rewrite <- Zle_Qle. lia. }
  destruct (Qle_bool (Qabs f) maxf) eqn:F.
  - assert (X : Qle_bool (Qabs a) maxf = true).
    { apply Qle_bool_iff. apply Qle_bool_iff in F. apply Qabs_Qle_condition in F.
      change (inject_Z 100000000) with 100000000%Q in H3.
      rewrite E, (clamp_id (k_max k) f) by lra. apply Qabs_Qle_condition. lra. }
    rewrite X. apply Qle_refl.
  - destruct (Qle_bool (Qabs a) maxf); [exact P|apply Qle_refl].
Qed.
Lemma freq_request_eq : forall k c f f' ev, clock_ok k -> (f == f')%Q -> freq_request k c f ev -> freq_request k c f' ev.
Proof.
  intros k c f f' ev W E [A B]. split; [|exact B]. intros WR. destruct (A WR) as [t [x [E1 E2]]].
  exists t, x. split; [exact E1|].
  assert (CE : (clamp (k_max k) f == clamp (k_max k) f')%Q).
  { assert (X1 : Qle_bool f (- k_max k) = Qle_bool f' (- k_max k)) by (rewrite E; reflexivity).
    assert (X2 : Qle_bool (k_max k) f = Qle_bool (k_max k) f') by (rewrite E; reflexivity).
    unfold clamp. rewrite X1, X2. destruct (Qle_bool f' _); [reflexivity|].
    destruct (Qle_bool _ f'); [reflexivity|exact E]. }
  rewrite CE in E2. destruct (k_sys k) as [[hz maxf]|]; [|exact E2].
  assert (QE : Qle_bool (Qabs f) maxf = Qle_bool (Qabs f') maxf) by (rewrite E; reflexivity).
  rewrite <- QE. exact E2.
Qed.

Lemma step_request_ok : forall k c neg amount f os1 os2, clock_ok k ->
  (Qabs (TsdSpec.ns_of (instant neg) - amount) <= 1 # 4294967296)%Q ->
  step_request k c amount f (fst (adjust_time k c neg os1) ++ fst (adjust_frequency k c f os2)).
Proof.
  intros k c neg amount f os1 os2 W A.
  pose proof (adjust_frequency_request k c f os2 W) as FR.
  unfold adjust_time. split; intros WR.
  - destruct (refused k) eqn:R; [apply refused_writable in WR; congruence|]. cbn [fst app].
    eexists _, _. split; [reflexivity|]. split; [exact A|exact FR].
  - destruct (refused k) eqn:R; [|apply refused_writable in R; contradiction]. cbn [fst app].
    apply (proj2 FR WR).
Qed.

Lemma ns_of_opp : forall z, (TsdSpec.ns_of (- z) == - TsdSpec.ns_of z)%Q.
Proof. intros z. unfold TsdSpec.ns_of. reflexivity. Qed.

Lemma negate_amount : forall rd ofm st neg, FltSpec.rounding rd -> (Qabs ofm < inject_Z (2^52 * 1000000000))%Q ->
  of_float_ns rd ofm = Some st -> negate st = Some neg ->
  (Qabs (TsdSpec.ns_of (instant neg) - - ofm) <= 1 # 4294967296)%Q.
Proof.
  intros rd ofm st neg RD B E N. destruct (of_float_near rd ofm st RD B E) as [NM [S1 A]].
  rewrite (negate_instant st neg NM S1 N), ns_of_opp.
  rewrite Qabs_Qminus. setoid_replace (- ofm - - TsdSpec.ns_of (instant st))%Q with (TsdSpec.ns_of (instant st) - ofm)%Q by ring.
  exact A.
Qed.

(** ** The decision *)
Lemma may_step_iff : forall p first ofm, may_step p first ofm = true <-> permitted p first ofm.
Proof.
  intros p first ofm. destruct p; cbn [may_step permitted]; split; intros H; try reflexivity; try discriminate;
    try contradiction; try exact I; try (destruct first; [discriminate|reflexivity]); try (rewrite H; reflexivity).
  - unfold Qlt_bool in H. apply Qnot_le_lt. intros X. apply Qle_bool_iff in X. rewrite X in H. discriminate.
  - unfold Qlt_bool. destruct (Qle_bool 0 ofm) eqn:E; [|reflexivity]. apply Qle_bool_iff in E. exfalso.
    apply (Qlt_not_le _ _ H E).
Qed.
