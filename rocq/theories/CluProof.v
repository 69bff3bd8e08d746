(** Proofs about the clustering score. *)
Require Import ZArith QArith Qround Qabs List Bool Lia Lqa.
From Verif Require Import Base TimeSpec TimeModel TimeProof FltSpec FltModel FltProof CluSpec CluModel.
Open Scope Z_scope.

Definition U : Z := 1000000000 * 2^32.
Definition within (n : Z) (t : ts) : Prop := normal t /\ - n * U <= instant t <= n * U.

Lemma within_sec n t : within n t -> - n - 1 <= sec t <= n.
Proof. intros ((A & B & C) & D & E). unfold instant, U in *. lia. Qed.
Lemma add_within n m a b : 0 <= n -> 0 <= m -> n + m <= 2^62 -> within n a -> within m b ->
  exists c, add a b = Some c /\ within (n + m) c /\ instant c = instant a + instant b.
Proof.
  intros Hn Hm H Ha Hb. pose proof (within_sec _ _ Ha). pose proof (within_sec _ _ Hb).
  destruct Ha as [Na Ia], Hb as [Nb Ib].
  destruct (proj2 (add_defined a b Na Nb)) as [c E].
  { split; [lia|]. unfold representable, s_unit. unfold U in *. lia. }
  destruct (add_exact a b c Na Nb E) as [Nc Ic]. exists c. split; [exact E|]. split; [|exact Ic].
  split; [exact Nc|]. rewrite Ic. lia.
Qed.
Lemma sub_within n m a b : 0 <= n -> 0 <= m -> n + m <= 2^62 -> within n a -> within m b ->
  exists c, subtract a b = Some c /\ within (n + m) c /\ instant c = instant a - instant b.
Proof.
  intros Hn Hm H Ha Hb. pose proof (within_sec _ _ Ha). pose proof (within_sec _ _ Hb).
  destruct Ha as [Na Ia], Hb as [Nb Ib].
  destruct (proj2 (subtract_defined a b Na Nb)) as [c E].
  { split; [lia|]. unfold representable, s_unit. unfold U in *. lia. }
  destruct (subtract_exact a b c Na Nb E) as [Nc Ic]. exists c. split; [exact E|]. split; [|exact Ic].
  split; [exact Nc|]. rewrite Ic. lia.
Qed.
Lemma null_within n : 0 <= n -> within n null_time.
Proof. intros H. unfold within, normal, instant, null_time, U. cbn. lia. Qed.

Definition small (x : Q) : Prop :=
  (inject_Z (- 2^58 * 1000000000) <= x)%Q /\ (x <= inject_Z (2^58 * 1000000000))%Q.

Lemma of_float_within rd x : no_carry rd x -> small x ->
  exists t, of_float_ns rd x = Some t /\ within (2^58) t /\ instant t = units_floor x.
Proof.
  intros NC [A B]. destruct (of_float_ns_exact rd x NC) as (t & E & N & I).
  { split.
    - eapply Qle_trans; [|exact A]. rewrite <- Zle_Qle. lia.
    - eapply Qle_lt_trans; [exact B|]. rewrite <- Zlt_Qlt. lia. }
  exists t. split; [exact E|]. split; [|exact I]. split; [exact N|]. rewrite I. unfold units_floor, U.
  assert (P : (0 <= inject_Z (2^32))%Q) by discriminate.
  split.
  - replace (- 2^58 * (1000000000 * 2^32)) with (Qfloor (inject_Z (- 2^58 * 1000000000 * 2^32)))
      by (rewrite Qfloor_Z; lia).
    apply Qfloor_resp_le. rewrite (inject_Z_mult (- 2^58 * 1000000000)). apply Qmult_le_compat_r; assumption.
  - replace (2^58 * (1000000000 * 2^32)) with (Qfloor (inject_Z (2^58 * 1000000000 * 2^32)))
      by (rewrite Qfloor_Z; lia).
    apply Qfloor_resp_le. rewrite (inject_Z_mult (2^58 * 1000000000)). apply Qmult_le_compat_r; assumption.
Qed.

Lemma units_floor_near x : (inject_Z (units_floor x) / inject_Z (2^32) <= x)%Q /\
  (x < inject_Z (units_floor x) / inject_Z (2^32) + eps)%Q.
Proof.
  unfold units_floor, eps. destruct (Qfloor_bounds (x * inject_Z (2^32))%Q) as [A B].
  set (k := inject_Z (Qfloor (x * inject_Z (2^32))%Q)) in *. clearbody k. split.
  - apply Qle_shift_div_r; [reflexivity|exact A].
  - assert (E : (k / inject_Z (2 ^ 32) + 1 / inject_Z (2 ^ 32) == (k + 1) / inject_Z (2^32))%Q) by (field; discriminate).
    rewrite E. apply Qlt_shift_div_l; [reflexivity|exact B].
Qed.

Definition small_clk (k : clk) : Prop := - 2^58 * U <= instant (k_cmp k) <= 2^58 * U.

Lemma compare_ok k1 k2 : usable k1 -> usable k2 -> small_clk k1 -> small_clk k2 ->
  exists d, clock_compare k1 k2 = Some (true, d) /\ within (2^59) d /\ (ns_of d == ahead k1 - ahead k2)%Q.
Proof.
  intros (D1 & O1 & N1) (D2 & O2 & N2) S1 S2. unfold clock_compare. rewrite D1, D2. cbn [orb].
  set (a := if k_system k1 then null_time else k_cmp k1).
  assert (Wa : within (2^58) a).
  { unfold a. destruct (k_system k1); [apply null_within; lia|split; assumption]. }
  assert (Ea : (ns_of a == ahead k1)%Q).
  { unfold a, ahead. destruct (k_system k1); reflexivity. }
  assert (X1 : negb (k_system k1) && negb (k_phc k1) = false).
  { destruct O1 as [->|[-> _]]; [reflexivity|apply andb_false_r]. }
  assert (X2 : negb (k_system k2) && negb (k_phc k2) = false).
  { destruct O2 as [->|[-> _]]; [reflexivity|apply andb_false_r]. }
  rewrite X1, X2. cbn [orb].
  assert (Y1 : negb (k_system k1) && negb (k_cmp_ok k1) = false).
  { destruct O1 as [->|[_ ->]]; [reflexivity|apply andb_false_r]. }
  rewrite Y1. cbv zeta. destruct (k_system k2) eqn:S.
  - exists a. split; [reflexivity|]. split.
    + destruct Wa as [Na Ia]. split; [exact Na|]. unfold U in *. lia.
    + unfold ahead at 2. rewrite S. rewrite Ea. ring.
  - destruct O2 as [O2|[_ ->]]; [discriminate|]. cbn [negb].
    destruct (sub_within (2^58) (2^58) a (k_cmp k2)) as (c & E & W & I); try lia; auto.
    { split; assumption. }
    fold a. rewrite E. cbn [bind]. exists c. split; [reflexivity|]. split; [exact W|].
    rewrite <- Ea. unfold ahead. rewrite S. unfold ns_of. rewrite I. unfold Z.sub.
    rewrite inject_Z_plus, inject_Z_opp. field. discriminate.
Qed.

Lemma is_zero_instant t : normal t -> is_zero t = (instant t =? 0).
Proof.
  intros (A & B & C). unfold is_zero, instant.
  destruct (sec t =? 0) eqn:E1, (nsec t =? 0) eqn:E2, (frac t =? 0) eqn:E3; cbn [andb]; lia.
Qed.

Lemma score_main rd c r name ofm k :
  c_discriminator c = true -> name <> r_name r -> r_valid r = true ->
  usable (r_clk r) -> usable k -> small_clk (r_clk r) -> small_clk k ->
  no_carry rd (r_offset r) -> small (r_offset r) -> no_carry rd ofm -> small ofm -> units_floor ofm <> 0 ->
  exists s, score rd c (Some r) name ofm k = Some s /\ (s = 0 \/ s = 1) /\
    let gap := Qabs (master (r_clk r) (r_offset r) - master k ofm) in
    ((gap + eps <= c_threshold c)%Q -> s = 1) /\ ((c_threshold c + eps <= gap)%Q -> s = 0).
Proof.
  intros Hd Hn Hv U1 U2 S1 S2 N1 B1 N2 B2 Hz. unfold score. rewrite Hd. cbn [negb].
  apply Nat.eqb_neq in Hn. rewrite Hn.
  destruct (of_float_within rd _ N1 B1) as (d & -> & Wd & Id). cbn [bind]. rewrite Hv. cbn [negb].
  destruct (of_float_within rd _ N2 B2) as (i & -> & Wi & Ii). cbn [bind].
  rewrite (is_zero_instant i) by apply Wi. destruct (instant i =? 0) eqn:Z0; [lia|].
  destruct (compare_ok (r_clk r) k U1 U2 S1 S2) as (q & -> & Wq & Eq). cbn [bind snd].
  destruct (sub_within (2^59) (2^58) q d) as (a & -> & Wa & Ia); try lia; auto. cbn [bind].
  destruct (add_within (2^59 + 2^58) (2^58) a i) as (b & -> & Wb & Ib); try lia; auto. cbn [bind].
  assert (Eb : (to_float_ns b == ns_of q - inject_Z (units_floor (r_offset r)) / inject_Z (2^32)
               + inject_Z (units_floor ofm) / inject_Z (2^32))%Q).
  { rewrite to_float_ns_exact. unfold ns_of. rewrite Ib, Ia, Id, Ii. unfold Z.sub.
    rewrite !inject_Z_plus, inject_Z_opp. field. discriminate. }
  destruct (units_floor_near (r_offset r)) as [P1 P2]. destruct (units_floor_near ofm) as [Q1 Q2].
  set (x := (inject_Z (units_floor (r_offset r)) / inject_Z (2^32))%Q) in *.
  set (y := (inject_Z (units_floor ofm) / inject_Z (2^32))%Q) in *. clearbody x y.
  unfold master. set (ar := ahead (r_clk r)) in *. set (ak := ahead k) in *.
  set (ro := r_offset r) in *. clearbody ar ak ro. set (e := eps) in *. clearbody e.
  set (T := c_threshold c). clearbody T.
  assert (Eg : (ar - ro - (ak - ofm) == (ns_of q - x + y) - (ro - x) + (ofm - y))%Q) by (rewrite Eq; ring).
  set (g := (ar - ro - (ak - ofm))%Q) in *. clearbody g.
  set (w := to_float_ns b) in *. clearbody w. rewrite <- Eb in Eg.
  eexists. split; [reflexivity|]. split; [destruct (Qlt_le_dec _ _); auto|]. cbv zeta.
  split; intros H; destruct (Qlt_le_dec _ _) as [L|L]; try reflexivity; exfalso.
  - pose proof (Qle_Qabs g). pose proof (Qle_Qabs (- g)%Q) as G2. rewrite Qabs_opp in G2.
    set (ag := Qabs g) in *. clearbody ag.
    assert (Qabs w < T)%Q by (apply Qabs_Qlt_condition; split; lra). lra.
  - apply Qabs_Qlt_condition in L. assert (Qabs g < T + e)%Q by (apply Qabs_Qlt_condition; split; lra). lra.
Qed.
