(** C55: conversions between timestamps and floating point times. *)
Require Import ZArith QArith Qround Qabs List Bool Lia Lqa.
From Verif Require Import Base TimeSpec TimeModel TimeProof FltSpec FltModel FltProof.
Open Scope Z_scope.

(** A timestamp as a floating point number denotes the same instant. *)
Theorem C55_to_float : forall t,
  (to_float_ns t == ns_of t)%Q /\ (to_float_s t * inject_Z 1000000000 == ns_of t)%Q.
Proof. intros t. split; [apply to_float_ns_exact|apply to_float_s_exact]. Qed.
Print Assumptions C55_to_float.
Example C55_to_float_ex : (to_float_ns (mkTs (-1) 999999999 (2^31)) == - (1 # 2))%Q.
Proof. reflexivity. Qed.

(** Full statement: every time in range is converted to the normalised timestamp denoting it,
    rounded down to 2^-32 ns.  Proved unless rounding the seconds to double reaches the next
    whole second; see the refutation. *)
Theorem C55_from_float_partial : forall rd ns, rounding rd ->
  (inject_Z (- 2^53 * 1000000000) <= ns)%Q -> (ns < inject_Z (2^53 * 1000000000))%Q ->
  (exists t, of_float_ns rd ns = Some t /\ normal t /\ instant t = units_floor ns) \/
  (rd (ns / inject_Z 1000000000) == inject_Z (Qfloor (ns / inject_Z 1000000000) + 1))%Q.
Proof.
  intros rd ns R A B.
  assert (H : - 2^53 <= Qfloor (ns / inject_Z 1000000000)%Q < 2^53).
  { destruct (Qfloor_bounds (ns / inject_Z 1000000000)%Q) as [C D].
    assert (ns == (ns / inject_Z 1000000000) * inject_Z 1000000000)%Q as En by (field; discriminate).
    set (x := (ns / inject_Z 1000000000)%Q) in *. clearbody x.
    rewrite inject_Z_mult in A, B. rewrite inject_Z_opp in A.
    set (P := inject_Z (2^53)) in *. change (inject_Z 1000000000) with 1000000000%Q in *.
    assert (- P <= x)%Q as A' by lra. assert (x < P)%Q as B' by lra.
    split.
    - assert (H : (inject_Z (- 2^53) < inject_Z (Qfloor x) + 1)%Q).
      { rewrite inject_Z_opp. fold P. lra. }
      rewrite <- (inject_Z_plus _ 1), <- Zlt_Qlt in H. lia.
    - rewrite Zlt_Qlt. fold P. eapply Qle_lt_trans; eauto. }
  destruct (carry_cases rd _ R H) as [E|E]; [left|right; exact E].
  apply of_float_ns_exact; [exact E|]. split.
  - eapply Qle_trans; [|exact A]. rewrite <- Zle_Qle. lia.
  - eapply Qlt_le_trans; [exact B|]. rewrite <- Zle_Qle. lia.
Qed.
Print Assumptions C55_from_float_partial.
Example C55_from_float_ex :
  rounding (fun x => x) /\
  of_float_ns rd_double (- (3 # 2))%Q = Some (mkTs (-1) 999999998 (2^31)) /\
  of_float_ns rd_double (1794830400123456789 # 1)%Q = Some (mkTs 1794830400 123456789 0).
Proof. split; [split; [auto|reflexivity]|]. split; vm_compute; reflexivity. Qed.

(** Converting to floating point and back gives the same timestamp, unless as above. *)
Theorem C55_round_trip_partial : forall rd t, normal t -> no_carry rd (to_float_ns t) ->
  of_float_ns rd (to_float_ns t) = Some t.
Proof.
  intros rd t N NC. destruct (of_float_ns_exact rd _ NC (normal_in_range t N)) as (t' & E & N' & I).
  rewrite E. f_equal. apply instant_inj; auto. rewrite I. apply units_floor_to_float.
Qed.
Print Assumptions C55_round_trip_partial.
Example C55_round_trip_ex : no_carry rd_double (to_float_ns (mkTs 1794830400 123456789 77)).
Proof. vm_compute. reflexivity. Qed.

(** The same for seconds. *)
Theorem C55_from_float_s_partial : forall rd x,
  Qfloor (rd x) = Qfloor x ->
  (inject_Z (- 2^63) <= x)%Q -> (x < inject_Z (2^63))%Q ->
  exists t, of_float_s rd x = Some t /\ normal t /\ instant t = units_floor (x * inject_Z 1000000000).
Proof.
  intros rd x NC A B. unfold of_float_s. rewrite NC.
  assert (Ex : (x * inject_Z 1000000000 / inject_Z 1000000000 == x)%Q) by (field; discriminate).
  assert (R : in_range (x * inject_Z 1000000000)).
  { unfold in_range. rewrite !inject_Z_mult. split.
    - apply Qmult_le_compat_r; [exact A|discriminate].
    - apply Qmult_lt_compat_r; [reflexivity|exact B]. }
  pose proof (range_floor _ R) as H. rewrite (Qfloor_comp _ _ Ex) in H.
  assert (E : chk_s64 (Qfloor x) = Some (Qfloor x)).
  { unfold chk_s64. destruct (fits_s64 _) eqn:F; [reflexivity|]. exfalso. apply fits_s64_iff in H. congruence. }
  rewrite E. cbn [bind]. apply (build_exact (x * inject_Z 1000000000) _ H).
  symmetry. apply Qfloor_comp. exact Ex.
Qed.
Print Assumptions C55_from_float_s_partial.
Example C55_from_float_s_ex : of_float_s rd_double (12 # 1)%Q = Some (mkTs 12 0 0).
Proof. vm_compute. reflexivity. Qed.

(** Refuted: for times just below a whole second the seconds, rounded to double, are one too
    many, and the conversion of the negative remainder is undefined: one second less
    2^-32 ns, and 2026-11-16 12:00:01 UTC less 100 ns. *)
Theorem C55_from_float_refuted :
  of_float_ns rd_double (1000000000 - (1 # 4294967296))%Q = None /\
  of_float_ns rd_double (1794830400999999900 # 1)%Q = None /\
  (rd_double (1794830400999999900 # 1000000000) == 1794830401)%Q.
Proof. split; [|split]; vm_compute; reflexivity. Qed.
Print Assumptions C55_from_float_refuted.

(** Scaled nanoseconds (2^-16 ns in 64 bits): exact one way, rounded towards zero and
    saturating the other, and never out of range. *)
Theorem C55_scaled : forall z x, - 2^63 <= z < 2^63 ->
  float_to_scaled (scaled_to_float z) = z /\
  (- 2^63 <= float_to_scaled x < 2^63) /\
  ((inject_Z (- 2^63) <= x * inject_Z 65536)%Q -> (x * inject_Z 65536 <= inject_Z (2^63 - 1))%Q ->
     (Qabs (x * inject_Z 65536 - inject_Z (float_to_scaled x)) < 1)%Q) /\
  ((inject_Z (2^63 - 1) < x * inject_Z 65536)%Q -> float_to_scaled x = 2^63 - 1) /\
  ((x * inject_Z 65536 < inject_Z (- 2^63))%Q -> float_to_scaled x = - 2^63).
Proof.
  intros z x H. split; [apply scaled_round_trip; exact H|].
  unfold float_to_scaled. cbv zeta. set (t := (x * inject_Z 65536)%Q). clearbody t.
  destruct (Qlt_le_dec (inject_Z (2^63 - 1)) t) as [L|L].
  { split; [lia|]. split; [intros _ U; exfalso; apply (Qlt_not_le _ _ L U)|]. split; [reflexivity|].
    intros U. exfalso. assert (X : (inject_Z (2^63 - 1) < inject_Z (- 2^63))%Q) by (eapply Qlt_trans; eauto).
    rewrite <- Zlt_Qlt in X. lia. }
  destruct (Qlt_le_dec t (inject_Z (- 2^63))) as [L2|L2].
  { split; [lia|]. split; [intros U _; exfalso; apply (Qlt_not_le _ _ L2 U)|]. split; [|reflexivity].
    intros U. exfalso. apply (Qlt_not_le _ _ U L). }
  split.
  { unfold Qtrunc. destruct (Qlt_le_dec t 0) as [N|N].
    - assert (A : 0 <= Qfloor (- t) <= 2^63).
      { rewrite <- (Qfloor_Z (2^63)). rewrite <- (Qfloor_Z 0) at 1. rewrite inject_Z_opp in L2.
        split; apply Qfloor_resp_le; change (inject_Z 0) with 0%Q; lra. }
      lia.
    - assert (A : 0 <= Qfloor t <= 2^63 - 1).
      { rewrite <- (Qfloor_Z (2^63 - 1)). rewrite <- (Qfloor_Z 0) at 1.
        split; apply Qfloor_resp_le; assumption. }
      lia. }
  split; [intros _ _; apply Qtrunc_bounds|].
  split; intros U; exfalso; [apply (Qlt_not_le _ _ U L)|apply (Qlt_not_le _ _ U L2)].
Qed.
Print Assumptions C55_scaled.
Example C55_scaled_ex : float_to_scaled (- (5 # 131072)) = -2 /\ float_to_scaled 1000000000000000 = 2^63 - 1.
Proof. split; vm_compute; reflexivity. Qed.
