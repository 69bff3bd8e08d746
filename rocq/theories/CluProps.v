(** C39: clustering score. *)
Require Import ZArith QArith Qround Qabs List Bool Lia Lqa.
From Verif Require Import Base TimeSpec TimeModel TimeProof FltSpec FltModel FltProof CluSpec CluModel CluProof.
Open Scope Z_scope.

(** In the statements [rd] is the rounding to double met in the conversion of the offsets;
    [no_carry] excludes times a fraction of a nanosecond below a whole second (see C55), and
    [small], [small_clk] clocks 9 billion years apart. *)

(** The score is 0 when clustering by discriminator is not configured or the reference does
    not exist, and 1 for the reference itself. *)
Theorem C39_trivial : forall rd c ref name ofm k,
  (c_discriminator c = false \/ ref = None -> score rd c ref name ofm k = Some 0) /\
  (forall r, c_discriminator c = true -> ref = Some r -> name = r_name r -> score rd c ref name ofm k = Some 1).
Proof.
  intros rd c ref name ofm k. unfold score. split.
  - intros [->| ->]; [reflexivity|]. destruct (negb _); reflexivity.
  - intros r -> -> ->. cbn [negb]. rewrite Nat.eqb_refl. reflexivity.
Qed.
Print Assumptions C39_trivial.

(** For any other instance, with a valid reference offset, an instance offset of at least
    the resolution and clocks that can be compared, the score is 1 if the two masters are
    closer than the threshold and 0 if they are further apart, up to the resolution of
    timestamps, 2^-32 ns. *)
Theorem C39_score : forall rd c r name ofm k,
  c_discriminator c = true -> name <> r_name r -> r_valid r = true ->
  usable (r_clk r) -> usable k -> small_clk (r_clk r) -> small_clk k ->
  no_carry rd (r_offset r) -> small (r_offset r) -> no_carry rd ofm -> small ofm -> units_floor ofm <> 0 ->
  exists s, score rd c (Some r) name ofm k = Some s /\ (s = 0 \/ s = 1) /\
    let gap := Qabs (master (r_clk r) (r_offset r) - master k ofm) in
    ((gap + eps <= c_threshold c)%Q -> s = 1) /\ ((c_threshold c + eps <= gap)%Q -> s = 0).
Proof. exact score_main. Qed.
Print Assumptions C39_score.

(** Two hardware clocks 5 us and 2 us ahead of the system clock, offsets 100 ns and 40 ns:
    the masters are 2940 ns apart. *)
Definition nic (ns : Z) : clk := mkClk false false true true (mkTs 0 ns 0).
Example C39_score_ex :
  let r := mkRef 1 true 100 (nic 5000) in
  usable (r_clk r) /\ small_clk (nic 5000) /\ no_carry rd_double 100 /\ units_floor 40 <> 0 /\
  score rd_double (mkCcfg true 3000 7 false 0) (Some r) 2 40 (nic 2000) = Some 1 /\
  score rd_double (mkCcfg true 2940 7 false 0) (Some r) 2 40 (nic 2000) = Some 0.
Proof.
  cbv zeta. split; [unfold usable, normal; cbn; intuition lia|].
  split; [unfold small_clk, U, instant; cbn; lia|].
  split; [vm_compute; reflexivity|]. split; [vm_compute; discriminate|]. split; vm_compute; reflexivity.
Qed.

(** Without a valid offset for the reference, or for the instance, the score is the
    configured default. *)
Theorem C39_default : forall rd c r name ofm k,
  c_discriminator c = true -> name <> r_name r ->
  no_carry rd (r_offset r) -> small (r_offset r) -> no_carry rd ofm -> small ofm ->
  (r_valid r = false \/ units_floor ofm = 0) ->
  score rd c (Some r) name ofm k = Some (c_default c).
Proof.
  intros rd c r name ofm k Hd Hn N1 B1 N2 B2 H. unfold score. rewrite Hd. cbn [negb].
  apply Nat.eqb_neq in Hn. rewrite Hn.
  destruct (of_float_within rd _ N1 B1) as (d & -> & Wd & Id). cbn [bind].
  destruct (r_valid r); [|reflexivity]. destruct H as [H|H]; [discriminate|]. cbn [negb].
  destruct (of_float_within rd _ N2 B2) as (i & -> & Wi & Ii). cbn [bind].
  rewrite (is_zero_instant i) by apply Wi. rewrite Ii, H. reflexivity.
Qed.
Print Assumptions C39_default.
Example C39_default_ex :
  score rd_double (mkCcfg true 3000 7 false 0) (Some (mkRef 1 false 100 (nic 5000))) 2 40 (nic 2000) = Some 7.
Proof. vm_compute. reflexivity. Qed.

(** Refuted: an instance whose offset is exactly zero, the best possible, is taken to have no
    offset: it gets the default score although its master agrees exactly with the
    reference's. *)
Theorem C39_zero_offset_refuted : exists c r k,
  r_valid r = true /\ usable (r_clk r) /\ usable k /\
  (master (r_clk r) (r_offset r) == master k 0)%Q /\ (0 < c_threshold c)%Q /\
  score rd_double c (Some r) 2 0 k = Some (c_default c) /\ c_default c = 0.
Proof.
  exists (mkCcfg true 3000 0 false 0), (mkRef 1 true 100 (nic 5100)), (nic 5000).
  split; [reflexivity|]. split; [unfold usable, normal; cbn; intuition lia|].
  split; [unfold usable, normal; cbn; intuition lia|].
  split; [vm_compute; reflexivity|]. split; [reflexivity|]. split; vm_compute; reflexivity.
Qed.
Print Assumptions C39_zero_offset_refuted.

(** Refuted: if the clocks cannot be compared there is no evidence, but the score is not the
    default: they are taken to show the same time.  Here the instance's clock is one hour
    away from the reference's but cannot be read, and the instance scores 1. *)
Theorem C39_no_evidence_refuted : exists c r k,
  r_valid r = true /\ clock_compare (r_clk r) k = Some (false, null_time) /\
  (Qabs (master (r_clk r) (r_offset r) - master k 40) == 3600000000060)%Q /\
  (c_threshold c == 3000)%Q /\ c_default c = 0 /\
  score rd_double c (Some r) 2 40 k = Some 1.
Proof.
  exists (mkCcfg true 3000 0 false 0), (mkRef 1 true 100 (mkClk false true true true null_time)),
    (mkClk false false true false (mkTs 3600 0 0)).
  repeat split; vm_compute; reflexivity.
Qed.
Print Assumptions C39_no_evidence_refuted.

(** The clustering guard rejects exactly the scores below its threshold, if enabled. *)
Theorem C39_guard : forall c s, guarded c s = true <-> c_guard c = true /\ s < c_guard_threshold c.
Proof.
  intros c s. unfold guarded. destruct (c_guard c); cbn [negb]; [rewrite Z.ltb_lt; tauto|].
  split; [discriminate|intros [H _]; discriminate].
Qed.
Print Assumptions C39_guard.
Example C39_guard_ex : guarded (mkCcfg true 0 0 true 1) 0 = true /\ guarded (mkCcfg true 0 0 true 1) 1 = false.
Proof. split; reflexivity. Qed.
