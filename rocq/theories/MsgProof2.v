(** Proofs about PTP messages on the wire, continued: decoding arbitrary datagrams. *)
Require Import ZArith List Bool Lia.
Import ListNotations.
From Verif Require Import Base TimeSpec MsgSpec MsgModel MsgProof.
Open Scope Z_scope.

Lemma all_firstn : forall n b, all_octets b -> all_octets (firstn n b).
Proof. intros n b H. unfold all_octets in *. rewrite Forall_forall in *. intros x X. apply H. rewrite <- (firstn_skipn n b). apply in_or_app. auto. Qed.

Lemma s64_bytes : forall v, bytes 8 (s64 v) = bytes 8 v.
Proof. intros. apply bytes_ext. unfold s64. change (256 ^ Z.of_nat 8) with (2^64). change (2^64) with 18446744073709551616. change (2^63) with 9223372036854775808. rewrite Zminus_mod, Zmod_mod, <- Zminus_mod. f_equal. ring. Qed.
Lemma s16_bytes : forall v, bytes 2 (s16 v) = bytes 2 v.
Proof. intros. apply bytes_ext. unfold s16. change (256 ^ Z.of_nat 2) with (2^16). change (2^16) with 65536. change (2^15) with 32768. rewrite Zminus_mod, Zmod_mod, <- Zminus_mod. f_equal. ring. Qed.
Lemma s8_bytes : forall v, bytes 1 (s8 v) = bytes 1 v.
Proof. intros. apply bytes_ext. unfold s8. change (256 ^ Z.of_nat 1) with (2^8). change (2^8) with 256. change (2^7) with 128. rewrite Zminus_mod, Zmod_mod, <- Zminus_mod. f_equal. ring. Qed.
Lemma s64_range : forall v, in_s 64 (s64 v).
Proof. intros. unfold in_s, s64. change (2 ^ (64 - 1)) with (2^63). change (2^64) with 18446744073709551616. change (2^63) with 9223372036854775808. pose proof (Z.mod_pos_bound (v + 9223372036854775808) 18446744073709551616). lia. Qed.
Lemma s16_range : forall v, in_s 16 (s16 v).
Proof. intros. unfold in_s, s16. change (2 ^ (16 - 1)) with (2^15). change (2^16) with 65536. change (2^15) with 32768. lia. Qed.
Lemma s8_range : forall v, in_s 8 (s8 v).
Proof. intros. unfold in_s, s8. change (2 ^ (8 - 1)) with (2^7). change (2^8) with 256. change (2^7) with 128. lia. Qed.

Lemma wire_be : forall n l, all_octets l -> length l = n -> bytes n (be l) = l.
Proof. intros n l A <-. apply bytes_be. assumption. Qed.
Lemma be_u : forall n l, all_octets l -> 8 * Z.of_nat (length l) = n -> in_u n (be l).
Proof. intros n l A <-. unfold in_u. rewrite <- pow256_pow2. apply be_range. assumption. Qed.
Lemma le_be_rev : forall l, le l = be (rev l).
Proof.
  assert (G : forall l x, be (l ++ [x]) = be l * 256 + x) by (intros; unfold be; rewrite fold_left_app; reflexivity).
  induction l as [|x l IH]; [reflexivity|]. cbn [le rev]. rewrite G, IH. ring.
Qed.
Lemma nib_back : forall x, is_octet x -> in_u 4 (Z.shiftr x 4) /\ in_u 4 (Z.land x 15) /\ 16 * Z.shiftr x 4 + Z.land x 15 = x.
Proof.
  intros x X. rewrite Z.shiftr_div_pow2 by lia. change 15 with (Z.ones 4). rewrite Z.land_ones by lia.
  unfold in_u, is_octet in *. change (2^4) with 16. lia.
Qed.

Ltac alls := repeat (apply Forall_cons; [assumption|]); apply Forall_nil.
Ltac octs := repeat match goal with H : Forall is_octet (_ :: _) |- _ =>
  let A := fresh "O" in let B := fresh in inversion H as [|? ? A B]; subst; clear H; rename B into H end.

Lemma unpack_header_any : forall b, all_octets b -> (34 <= length b)%nat ->
  exists h, unpack_header b = Some (Some h) /\ header_fits h /\
    header_wire (seen_header h) = firstn 34 b /\
    mtype h = nth 0 b 0 mod 16 /\ mlength h = nth 2 b 0 * 256 + nth 3 b 0.
Proof.
  intros b A H. expl b H. unfold all_octets in A. octs.
  unfold unpack_header.
  cbv [check ld ld_le slice firstn skipn length Nat.leb Nat.ltb Nat.add bind].
  eexists. split; [reflexivity|].
  assert (B1 : forall x, be [x] = x) by reflexivity.
  rewrite !B1.
  split; [|split].
  - unfold header_fits. cbn [majorSdo mtype minorVersion version mlength domain minorSdo flags0 flags1 correction typeSpecific clockId portNo seqId control logInterval].
    rewrite le_be_rev. cbn [rev app].
    repeat match goal with |- _ /\ _ => split end;
      first [apply nib_back; assumption | apply s64_range | apply s8_range
            | apply be_u; [alls|reflexivity]
            | unfold in_u; change (2^8) with 256; assumption].
  - unfold seen_header, header_wire, wire. cbn [flat_map fst snd app majorSdo mtype minorVersion version mlength domain minorSdo flags0 flags1 correction typeSpecific clockId portNo seqId control logInterval].
    repeat match goal with O : is_octet ?x |- context [16 * Z.shiftr ?x 4 + Z.land ?x 15] =>
      rewrite (proj2 (proj2 (nib_back x O))) end.
    rewrite s64_bytes, s8_bytes.
    assert (L4 : forall l, all_octets l -> length l = 4%nat -> bytes 4 (le (bytes 4 (le l))) = l).
    { intros l A4 E4. rewrite (le_be_rev l).
      assert (A5 : all_octets (rev l)) by (unfold all_octets in *; rewrite Forall_forall in *; intros ? X; apply A4, in_rev, X).
      rewrite (wire_be 4 (rev l)) by (assumption || (rewrite rev_length; exact E4)).
      rewrite le_be_rev, rev_involutive. apply wire_be; assumption. }
    rewrite L4 by (alls || reflexivity).
    assert (B2 : forall x, is_octet x -> bytes 1 x = [x]) by (intros ? X; apply (wire_be 1 [_]); [alls|reflexivity]).
    rewrite !B2 by assumption.
    rewrite !(wire_be 2), !(wire_be 8) by (alls || reflexivity).
    reflexivity.
  - cbn [mtype mlength nth]. split; [change 15 with (Z.ones 4); rewrite Z.land_ones by lia; reflexivity|reflexivity].
Qed.


Lemma skipn_add : forall A m n (l : list A), skipn m (skipn n l) = skipn (n + m) l.
Proof.
  intros A m n. revert m. induction n as [|n IH]; intros m l; [reflexivity|].
  destruct l; [now rewrite !skipn_nil|]. apply IH.
Qed.
Lemma part_app : forall off n m b, part off (n + m) b = part off n b ++ part (off + n) m b.
Proof.
  intros. unfold part. rewrite <- skipn_add. generalize (skipn off b). clear.
  induction n as [|n IH]; intros l; [reflexivity|]. destruct l; [cbn; now rewrite firstn_nil|].
  cbn. f_equal. apply IH.
Qed.

Lemma ld_any : forall n b off, all_octets b -> (off + n <= length b)%nat ->
  exists v, ld n b off = Some v /\ in_u (8 * Z.of_nat n) v /\ bytes n v = part off n b.
Proof.
  intros n b off A L. destruct (slice_some n b off L) as (l & E & _).
  exists (be l). assert (H : ld n b off = Some (be l)) by (unfold ld; rewrite E; reflexivity).
  split; [exact H|]. apply ld_back; assumption.
Qed.

Lemma ld48_any : forall b off, all_octets b -> (off + 6 <= length b)%nat ->
  exists v, ld48 b off = Some v /\ in_u 48 v /\ bytes 6 v = part off 6 b.
Proof.
  intros b off A L. unfold ld48.
  destruct (ld_any 2 b off A ltac:(lia)) as (m & -> & Rm & Bm).
  destruct (ld_any 4 b (off + 2) A ltac:(lia)) as (l & -> & Rl & Bl). cbn [bind].
  unfold in_u in *. change (8 * Z.of_nat 2) with 16 in Rm. change (8 * Z.of_nat 4) with 32 in Rl.
  rewrite lor_shift by lia. eexists; split; [reflexivity|]. split.
  - change (2^16) with 65536 in *. change (2^32) with 4294967296 in *. change (2^48) with 281474976710656. lia.
  - rewrite bytes6, Z.shiftr_div_pow2, Z.div_add_l, (Z.div_small l), Z.add_0_r by lia.
    change 6%nat with (2 + 4)%nat. rewrite part_app, Bm. f_equal.
    rewrite (bytes_ext 4 _ l); [exact Bl|]. change (256 ^ Z.of_nat 4) with (2^32).
    rewrite Z.add_comm, Z.mod_add by lia. reflexivity.
Qed.

Lemma ld_stamp_any : forall b off, all_octets b -> (off + 10 <= length b)%nat ->
  exists t, ld_stamp b off = Some t /\ stamp_fits t /\ stamp_wire t = part off 10 b.
Proof.
  intros b off A L. unfold ld_stamp.
  destruct (ld48_any b off A ltac:(lia)) as (s & -> & Rs & Bs).
  destruct (ld_any 4 b (off + 6) A ltac:(lia)) as (n & -> & Rn & Bn). cbn [bind].
  eexists; split; [reflexivity|]. split; [split; assumption|].
  unfold stamp_wire, stamp_fields, wire. cbn [flat_map fst snd w_sec w_ns].
  rewrite app_nil_r, Bs, Bn. change 10%nat with (6 + 4)%nat. symmetry. apply part_app.
Qed.

Lemma ld_port_any : forall b off, all_octets b -> (off + 10 <= length b)%nat ->
  exists t, ld_port b off = Some t /\ port_fits t /\ wire (port_fields t) = part off 10 b.
Proof.
  intros b off A L. unfold ld_port.
  destruct (ld_any 8 b off A ltac:(lia)) as (s & -> & Rs & Bs).
  destruct (ld_any 2 b (off + 8) A ltac:(lia)) as (n & -> & Rn & Bn). cbn [bind].
  eexists; split; [reflexivity|]. split; [split; assumption|].
  unfold port_fields, wire. cbn [flat_map fst snd pid_clock pid_port].
  rewrite app_nil_r, Bs, Bn. change 10%nat with (8 + 2)%nat. symmetry. apply part_app.
Qed.

Lemma unpack_stamp_any : forall b, all_octets b -> (44 <= length b)%nat ->
  exists t, unpack_stamp_body b = Some (Some t) /\ stamp_fits t /\ stamp_wire t = part 34 10 b.
Proof.
  intros b A L. unfold unpack_stamp_body. rewrite check_ok by lia.
  destruct (ld_stamp_any b 34 A ltac:(lia)) as (t & -> & F & E). exists t. auto.
Qed.

Lemma unpack_resp_any : forall b, all_octets b -> (54 <= length b)%nat ->
  exists t q, unpack_resp_body b = Some (Some (t, q)) /\ stamp_fits t /\ port_fits q /\
    resp_wire t q = part 34 20 b.
Proof.
  intros b A L. unfold unpack_resp_body. rewrite check_ok by lia.
  destruct (ld_stamp_any b 34 A ltac:(lia)) as (t & -> & F & E).
  destruct (ld_port_any b 44 A ltac:(lia)) as (q & -> & G & E2). exists t, q.
  split; [reflexivity|]. split; [assumption|]. split; [assumption|].
  unfold resp_wire. rewrite wire_app. fold (stamp_wire t). rewrite E, E2.
  symmetry. apply (part_app 34 10 10).
Qed.

Lemma nth_part : forall off b, (off < length b)%nat -> part off 1 b = [nth off b 0].
Proof.
  induction off as [|off IH]; intros [|x b] L; cbn in L; try lia; [reflexivity|].
  change (part (S off) 1 (x :: b)) with (part off 1 b). rewrite IH by lia. reflexivity.
Qed.

Lemma unpack_announce_any : forall b, all_octets b -> (64 <= length b)%nat ->
  exists a, unpack_announce b = Some (Some a) /\ announce_fits a /\
    announce_wire (nth 46 b 0) a = part 34 30 b.
Proof.
  intros b A L. unfold unpack_announce. rewrite check_ok by lia.
  destruct (ld_stamp_any b 34 A ltac:(lia)) as (t & -> & F & E).
  destruct (ld_any 2 b 44 A ltac:(lia)) as (v1 & -> & R1 & B1).
  destruct (ld_any 1 b 47 A ltac:(lia)) as (v2 & -> & R2 & B2).
  destruct (ld_any 1 b 48 A ltac:(lia)) as (v3 & -> & R3 & B3).
  destruct (ld_any 1 b 49 A ltac:(lia)) as (v4 & -> & R4 & B4).
  destruct (ld_any 2 b 50 A ltac:(lia)) as (v5 & -> & R5 & B5).
  destruct (ld_any 1 b 52 A ltac:(lia)) as (v6 & -> & R6 & B6).
  destruct (ld_any 8 b 53 A ltac:(lia)) as (v7 & -> & R7 & B7).
  destruct (ld_any 2 b 61 A ltac:(lia)) as (v8 & -> & R8 & B8).
  destruct (ld_any 1 b 63 A ltac:(lia)) as (v9 & -> & R9 & B9). cbn [bind].
  eexists. split; [reflexivity|]. split.
  - unfold announce_fits. cbn [a_origin a_utc a_prio1 a_class a_accuracy a_variance a_prio2 a_gm a_steps a_source].
    repeat match goal with |- _ /\ _ => split end; try assumption; apply s16_range.
  - unfold announce_wire. cbn [a_origin a_utc a_prio1 a_class a_accuracy a_variance a_prio2 a_gm a_steps a_source].
    rewrite wire_app. fold (stamp_wire t). rewrite E.
    unfold wire. cbn [flat_map fst snd]. rewrite s16_bytes, app_nil_r.
    rewrite B1, B2, B3, B4, B5, B6, B7, B8, B9.
    rewrite (bytes1 (nth 46 b 0)).
    replace (u8 (nth 46 b 0)) with (nth 46 b 0)
      by (symmetry; apply Z.mod_small; exact (nth_octet b 46 A)).
    rewrite <- nth_part by lia.
    change 30%nat with (10 + (2 + (1 + (1 + (1 + (1 + (2 + (1 + (8 + (2 + 1))))))))))%nat.
    rewrite !part_app. reflexivity.
Qed.

(** Tables made of whole fields and of pairs of halves. *)
Fixpoint regular (fs : list field) : bool :=
  match fs with
  | [] => true
  | (n, t) :: fs' =>
      match t with
      | U m => Nat.eqb n m && regular fs'
      | I m => Nat.eqb n m && Nat.ltb 0 n && regular fs'
      | Hi => match n, fs' with O, (S O, Lo) :: fs'' => regular fs'' | _, _ => false end
      | _ => false
      end
  end.

Lemma sgn_bytes : forall n v, bytes n (sgn n v) = bytes n v.
Proof.
  intros n v. apply bytes_ext. unfold sgn. pose proof (pow256_pos n).
  rewrite Zminus_mod, Zmod_mod, <- Zminus_mod. f_equal. ring.
Qed.
Lemma sgn_range : forall n v, (0 < n)%nat -> in_s (8 * Z.of_nat n) (sgn n v).
Proof.
  intros n v N. unfold in_s, sgn. rewrite pow256_pow2.
  assert (E : 2 ^ (8 * Z.of_nat n) = 2 * 2 ^ (8 * Z.of_nat n - 1)).
  { rewrite <- Z.pow_succ_r by lia. f_equal. lia. }
  rewrite E. set (m := 2 ^ (8 * Z.of_nat n - 1)).
  assert (0 < m) by (apply Z.pow_pos_nonneg; lia).
  rewrite (Z.mul_comm 2 m), Z.div_mul by lia.
  pose proof (Z.mod_pos_bound (v + m) (m * 2) ltac:(lia)). lia.
Qed.

Lemma unpack_regular_n : forall k fs b off, (length fs <= k)%nat -> regular fs = true -> all_octets b ->
  (off + table_size fs <= length b)%nat ->
  exists vs w, unpack_fields fs b off = Some (Some vs) /\ described fs vs w /\
    wire w = part off (table_size fs) b.
Proof.
  induction k as [|k IH]; intros fs b off K R A L; destruct fs as [|[n t] fs]; try (cbn in K; lia).
  1, 2: exists [], []; split; [reflexivity|]; split; [constructor|reflexivity].
  cbn [length] in K. cbn [table_size fold_right fst] in L |- *. fold (table_size fs) in L |- *.
  destruct t as [m|m| | |]; cbn [regular] in R.
  - apply andb_prop in R. destruct R as [N R]. apply Nat.eqb_eq in N. subst m.
    destruct (IH fs b (off + n)%nat ltac:(lia) R A ltac:(lia)) as (vs & w & E & D & W).
    cbn [unpack_fields ld_field]. rewrite check_ok by lia.
    destruct (ld_any n b off A ltac:(lia)) as (v & -> & V & B). cbn [bind]. rewrite E. cbn [rbind].
    exists (v :: vs), ((n, v) :: w). split; [reflexivity|]. split; [constructor; assumption|].
    change (wire ((n, v) :: w)) with (bytes n v ++ wire w). rewrite B, W. symmetry. apply part_app.
  - apply andb_prop in R. destruct R as [N R]. apply andb_prop in N. destruct N as [N P].
    apply Nat.eqb_eq in N. apply Nat.ltb_lt in P. subst m.
    destruct (IH fs b (off + n)%nat ltac:(lia) R A ltac:(lia)) as (vs & w & E & D & W).
    cbn [unpack_fields ld_field]. rewrite check_ok by lia.
    destruct (ld_any n b off A ltac:(lia)) as (v & -> & V & B). cbn [bind]. rewrite E. cbn [rbind].
    exists (sgn n v :: vs), ((n, sgn n v) :: w). split; [reflexivity|].
    split; [constructor; [assumption|apply sgn_range; assumption|assumption]|].
    change (wire ((n, sgn n v) :: w)) with (bytes n (sgn n v) ++ wire w).
    rewrite sgn_bytes, B, W. symmetry. apply part_app.
  - destruct n as [|n]; [|discriminate]. destruct fs as [|[[|[|n]] []] fs]; try discriminate.
    cbn [length] in K. cbn [table_size fold_right fst] in L |- *. fold (table_size fs) in L |- *.
    destruct (IH fs b (off + 1)%nat ltac:(lia) R A ltac:(lia)) as (vs & w & E & D & W).
    cbn [unpack_fields ld_field]. rewrite !Nat.add_0_r, !check_ok by lia.
    destruct (ld_any 1 b off A ltac:(lia)) as (v & -> & V & B). cbn [bind]. rewrite E. cbn [rbind].
    assert (O : is_octet v) by exact V.
    destruct (nib_back v O) as (N1 & N2 & N3).
    assert (N0 : Z.land (Z.shiftr v 4) 15 = Z.shiftr v 4).
    { change 15 with (Z.ones 4). rewrite Z.land_ones by lia. apply Z.mod_small. exact N1. }
    exists (Z.shiftr v 4 :: Z.land v 15 :: vs), ((1%nat, 16 * Z.shiftr v 4 + Z.land v 15) :: w).
    split; [rewrite N0; reflexivity|]. split; [constructor; assumption|].
    rewrite N3. change (wire ((1%nat, v) :: w)) with (bytes 1 v ++ wire w). rewrite B, W. symmetry.
    apply (part_app off 1 (table_size fs) b).
  - discriminate.
  - discriminate.
Qed.

Lemma unpack_regular : forall fs b off, regular fs = true -> all_octets b ->
  (off + table_size fs <= length b)%nat ->
  exists vs w, unpack_fields fs b off = Some (Some vs) /\ described fs vs w /\
    wire w = part off (table_size fs) b.
Proof. intros. eapply unpack_regular_n; eauto. Qed.

(** *** Whole datagrams *)
Lemma overread_dec : forall fs n, overread fs n <-> In n (bad_lengths fs 0).
Proof. intros. symmetry. apply (overread_bad fs n 0). Qed.

Lemma unpack_management_cases : forall b, all_octets b ->
  ((length b < 48)%nat /\ length b <> 46%nat /\ unpack_management b = Some None) \/
  (length b = 46%nat /\ unpack_management b = None) \/
  ((48 <= length b)%nat /\ exists m w t, unpack_management b = Some (Some (m, t)) /\
     described d_management m w /\ wire w = part 0 48 b /\
     ((nth 4 m 0 <= 48 /\ t = NoTlv) \/
      (48 < nth 4 m 0 /\ (length b < 54)%nat /\ t = Freed) \/
      (48 < nth 4 m 0 /\ (54 <= length b)%nat /\ exists ty l i, t = Tlv ty l i /\
         in_u 16 ty /\ in_u 16 l /\ in_u 16 i /\ wire [2 @@ ty; 2 @@ l; 2 @@ i] = part 48 6 b))).
Proof.
  intros b A. unfold unpack_management.
  destruct (Nat.ltb_spec (length b) 34) as [L|L].
  { left. split; [lia|]. split; [lia|]. rewrite check_short by lia. reflexivity. }
  rewrite check_ok by lia.
  destruct (unpack_fields_cases d_management b 0 ltac:(lia)) as [(O & E)|[(O & T & E)|(O & T & _)]];
    rewrite Nat.sub_0_r in *; rewrite overread_dec in O; cbn in O.
  - right. left. rewrite E. split; [lia|reflexivity].
  - left. rewrite E. cbn in T. split; [lia|]. split; [lia|reflexivity].
  - right. right. change (table_size d_management) with 48%nat in T. split; [assumption|].
    destruct (unpack_regular d_management b 0 eq_refl A T) as (m & w & E & D & W). rewrite E. cbn [rbind].
    destruct (Z.ltb_spec 48 (nth 4 m 0)) as [C|C].
    + destruct (Nat.ltb_spec (length b) 54) as [S1|S1].
      * exists m, w, Freed.
        destruct (unpack_fields_cases d_mgmt_tlv b 48 T) as [(O2 & E2)|[(O2 & T2 & E2)|(O2 & T2 & _)]].
        -- rewrite overread_dec in O2. cbn in O2. contradiction.
        -- rewrite E2. split; [reflexivity|]. split; [assumption|]. split; [assumption|]. right. left. auto.
        -- change (table_size d_mgmt_tlv) with 6%nat in T2. lia.
      * destruct (unpack_regular d_mgmt_tlv b 48 eq_refl A S1) as (v & w2 & E2 & D2 & W2). rewrite E2.
        unfold d_mgmt_tlv, f in D2.
        inversion D2 as [|n1 v1 f1 vs1 w1 U1 D3| |]; subst.
        inversion D3 as [|n2 v2 f2 vs2 w3 U2 D4| |]; subst.
        inversion D4 as [|n3 v3 f3 vs3 w4 U3 D5| |]; subst.
        inversion D5; subst.
        exists m, w, (Tlv v1 v2 v3). split; [reflexivity|]. split; [assumption|]. split; [assumption|].
        right. right. split; [assumption|]. split; [assumption|]. exists v1, v2, v3. auto.
    + exists m, w, NoTlv. split; [reflexivity|]. split; [assumption|]. split; [assumption|]. left. auto.
Qed.

Lemma unpack_signaling_cases : forall b, all_octets b ->
  ((length b < 44)%nat /\ unpack_signaling b = Some None) \/
  ((44 <= length b)%nat /\ exists m w, unpack_signaling b = Some (Some m) /\
     described d_signaling m w /\ wire w = part 0 44 b).
Proof.
  intros b A. unfold unpack_signaling.
  destruct (Nat.ltb_spec (length b) 34) as [L|L].
  { left. split; [lia|]. rewrite check_short by lia. reflexivity. }
  rewrite check_ok by lia.
  destruct (unpack_fields_cases d_signaling b 0 ltac:(lia)) as [(O & E)|[(O & T & E)|(O & T & _)]];
    rewrite Nat.sub_0_r in *; rewrite overread_dec in O; cbn in O.
  - lia.
  - left. rewrite E. cbn in T. split; [lia|reflexivity].
  - right. change (table_size d_signaling) with 44%nat in T. split; [assumption|].
    destruct (unpack_regular d_signaling b 0 eq_refl A T) as (m & w & E & D & W). rewrite E. eauto.
Qed.

Lemma header_layout_described : forall fs m w, described (d_header ++ fs) m w ->
  exists h r w2, header_layout m = Some (h, r) /\ described fs r w2 /\ w = h ++ w2.
Proof.
  intros fs m w D. unfold d_header, f_port, f, g in D. cbn [app] in D.
  do 14 (match goal with D : described _ _ _ |- _ => inversion D; subst; clear D end).
  do 3 eexists. split; [cbn [header_layout]; reflexivity|]. split; [eassumption|]. reflexivity.
Qed.
Lemma signaling_described : forall m w, described d_signaling m w -> signaling_layout m = Some w.
Proof.
  intros m w D. unfold d_signaling in D.
  destruct (header_layout_described _ _ _ D) as (h & r & w2 & E & D2 & ->).
  unfold signaling_layout. rewrite E. unfold f_port, f in D2.
  do 3 (match goal with D : described _ _ _ |- _ => inversion D; subst; clear D end). 
  match goal with D : described _ _ _ |- _ => inversion D; subst; clear D end. reflexivity.
Qed.
Lemma management_described : forall m w, described d_management m w ->
  management_layout m = Some w.
Proof.
  intros m w D. unfold d_management in D. 
  destruct (header_layout_described _ _ _ D) as (h & r & w2 & E & D2 & ->).
  unfold management_layout. rewrite E. unfold f_port, f in D2. cbn [app] in D2.
  clear D.
  repeat (match goal with D : described _ _ _ |- _ => inversion D; subst; clear D end). reflexivity.
Qed.

Lemma described_length : forall fs m w, described (d_header ++ fs) m w ->
  nth 4 m 0 = be (part 2 2 (wire w)).
Proof.
  intros fs m w D. unfold d_header, f_port, f, g in D. cbn [app] in D.
  inversion D as [| | |? ? ? ? ? ? ? D1]; subst; clear D.
  inversion D1 as [| | |? ? ? ? ? ? ? D2]; subst; clear D1.
  inversion D2 as [|? v ? ? w' V D3| |]; subst; clear D2.
  change (wire (_ :: _ :: (2%nat, v) :: w')) with
    ([(16 * a + b) / 256 ^ Z.of_nat 0 mod 256; (16 * a0 + b0) / 256 ^ Z.of_nat 0 mod 256] ++ bytes 2 v ++ wire w').
  change (part 2 2 ([(16 * a + b) / 256 ^ Z.of_nat 0 mod 256; (16 * a0 + b0) / 256 ^ Z.of_nat 0 mod 256] ++ bytes 2 v ++ wire w'))
    with (bytes 2 v).
  rewrite be_bytes, u_mod by assumption. reflexivity.
Qed.

Lemma part_part : forall off n m b, (off + n <= m)%nat -> part off n (part 0 m b) = part off n b.
Proof.
  intros off n m b H. unfold part. cbn [skipn]. rewrite skipn_firstn_comm, firstn_firstn.
  f_equal. lia.
Qed.
Lemma part_firstn : forall off n m b, (off + n <= m)%nat -> part off n (firstn m b) = part off n b.
Proof. intros. apply (part_part off n m b). assumption. Qed.
Lemma nth_firstn : forall i m (b : octets), (i < m)%nat -> nth i (firstn m b) 0 = nth i b 0.
Proof.
  induction i as [|i IH]; intros [|m] [|x b] H; try lia; try reflexivity. cbn. apply IH. lia.
Qed.
Lemma part_length2 : forall b, (4 <= length b)%nat -> be (part 2 2 b) = nth 2 b 0 * 256 + nth 3 b 0.
Proof. intros b H. expl b H. reflexivity. Qed.

(** Outcomes of decoding. *)
Lemma decode_outcome : forall d, all_octets d ->
  ((length d < 34)%nat -> decode d = Some None) /\
  ((34 <= length d)%nat -> (forall k, claimed_code d <> kind_code k) -> decode d = Some None) /\
  (forall k, (34 <= length d)%nat -> claimed_code d = kind_code k ->
     ((usable d < kind_size k)%nat -> ~ (k = KManagement /\ usable d = 46%nat) -> decode d = Some None) /\
     (k = KManagement -> usable d = 46%nat -> decode d = None) /\
     (k = KManagement -> (48 <= usable d < 54)%nat -> 48 < claimed_length d ->
        exists h m, decode d = Some (Some (h, BMgmt m Freed))) /\
     ((kind_size k <= usable d)%nat ->
      ~ (k = KManagement /\ (usable d < 54)%nat /\ 48 < claimed_length d) ->
      exists h m, decode d = Some (Some (h, m)) /\ header_fits h /\
        header_wire (seen_header h) = firstn 34 d /\ says k d m)).
Proof.
  intros d A.
  assert (LT : (length d < 34)%nat -> decode d = Some None).
  { intros L. unfold decode. destruct (Nat.ltb_spec (length d) 34); [reflexivity|lia]. }
  split; [exact LT|].
  assert (EQ : (34 <= length d)%nat -> exists h, header_fits h /\ header_wire (seen_header h) = firstn 34 d /\
     mtype h = claimed_code d /\
     decode d = rbind (unpack_body (claimed_code d) (firstn (usable d) d)) (fun m => Some (Some (h, m)))).
  { intros L. destruct (unpack_header_any d A L) as (h & E & F & W & T & M).
    exists h. split; [assumption|]. split; [assumption|]. split; [assumption|].
    unfold decode. destruct (Nat.ltb_spec (length d) 34); [lia|]. rewrite E. cbn [rbind].
    rewrite T. fold (claimed_code d) (claimed_length d). rewrite M. fold (claimed_length d).
    assert (0 <= claimed_length d).
    { unfold claimed_length. pose proof (nth_octet d 2 A) as N2. pose proof (nth_octet d 3 A) as N3. unfold is_octet in *. lia. }
    unfold usable. destruct (Z.ltb_spec (claimed_length d) (Z.of_nat (length d))).
    - rewrite Nat.min_r by lia. reflexivity.
    - rewrite Nat.min_l by lia. reflexivity. }
  assert (LU : length (firstn (usable d) d) = usable d) by (rewrite firstn_length; unfold usable; lia).
  pose proof (all_firstn (usable d) d A) as AU.
  split.
  - intros L K. destruct (EQ L) as (h & _ & _ & _ & ->). unfold unpack_body.
    pose proof (K KSync) as K1. pose proof (K KDelayReq) as K2. pose proof (K KPDelayReq) as K3.
    pose proof (K KPDelayResp) as K4. pose proof (K KFollowUp) as K5. pose proof (K KDelayResp) as K6.
    pose proof (K KPDelayRespFollowUp) as K7. pose proof (K KAnnounce) as K8. pose proof (K KSignaling) as K9.
    pose proof (K KManagement) as K10. cbn in K1, K2, K3, K4, K5, K6, K7, K8, K9, K10.
    repeat match goal with |- context [?x =? ?y] => destruct (Z.eqb_spec x y); [lia|] end. reflexivity.
  - intros k L C. destruct (EQ L) as (h & F & W & T & ->). rewrite C.
    assert (C1 : forall n b', (34 + n <= usable d)%nat -> firstn (usable d) d = b' -> part 34 n b' = part 34 n d).
    { intros n b' H <-. apply part_firstn. lia. }
    set (b := firstn (usable d) d) in *.
    assert (P1 : (34 + 10 <= usable d)%nat -> part 34 10 b = part 34 10 d) by (intros; apply part_firstn; lia).
    assert (P2 : (34 + 20 <= usable d)%nat -> part 34 20 b = part 34 20 d) by (intros; apply part_firstn; lia).
    assert (P3 : (34 + 30 <= usable d)%nat -> part 34 30 b = part 34 30 d) by (intros; apply part_firstn; lia).
    destruct k; cbn [kind_code kind_size]; unfold unpack_body; cbn [Z.eqb Pos.eqb orb];
      (split; [intros SH N; try (unfold unpack_stamp_body, unpack_resp_body, unpack_announce; rewrite check_short by lia; reflexivity)
              |split; [try (intros X; discriminate X)|split; [try (intros X; discriminate X)|intros SH N]]]).
    all: try (destruct (unpack_stamp_any b AU ltac:(lia)) as (t & -> & Ft & Wt); cbn [rbind];
              exists h, (BStamp t); split; [reflexivity|]; split; [assumption|]; split; [assumption|];
              cbn [says]; split; [assumption|]; rewrite Wt; apply P1; lia).
    all: try (destruct (unpack_resp_any b AU ltac:(lia)) as (t & q & -> & Ft & Fq & Wt); cbn [rbind];
              exists h, (BResp t q); split; [reflexivity|]; split; [assumption|]; split; [assumption|];
              cbn [says]; split; [assumption|]; split; [assumption|]; rewrite Wt; apply P2; lia).
    + destruct (unpack_announce_any b AU ltac:(lia)) as (a & -> & Fa & Wa). cbn [rbind].
      exists h, (BAnnounce a). split; [reflexivity|]. split; [assumption|]. split; [assumption|].
      cbn [says]. split; [assumption|]. rewrite <- P3, <- Wa by lia. unfold b. rewrite nth_firstn by lia. reflexivity.
    + destruct (unpack_signaling_cases b AU) as [(_ & ->)|(LL & _)]; [reflexivity|lia].
    + destruct (unpack_signaling_cases b AU) as [(LL & _)|(_ & m & w & -> & D & Wm)]; [lia|]. cbn [rbind].
      exists h, (BSignaling m). split; [reflexivity|]. split; [assumption|]. split; [assumption|].
      cbn [says]. exists w. split; [apply signaling_described; assumption|].
      rewrite Wm. apply part_firstn. lia.
    + destruct (unpack_management_cases b AU) as [(_ & _ & ->)|[(LL & _)|(LL & _)]]; [reflexivity|exfalso; apply N; split; [reflexivity|lia]|lia].
    + intros _ LE. destruct (unpack_management_cases b AU) as [(_ & LL & _)|[(LL & ->)|(LL & _)]]; [lia|reflexivity|lia].
    + intros _ LE CL. destruct (unpack_management_cases b AU) as [(LL & _)|[(LL & _)|(LL & m & w & t & -> & D & Wm & H)]]; [lia|lia|].
      assert (ML : nth 4 m 0 = claimed_length d).
      { unfold d_management in D. rewrite (described_length _ _ _ D), Wm, part_part by lia.
        unfold b. rewrite part_firstn by lia. apply part_length2. lia. }
      destruct H as [(H & _)|[(_ & _ & ->)|(_ & H & _)]]; [lia| |lia].
      cbn [rbind fst snd]. eauto.
    + destruct (unpack_management_cases b AU) as [(LL & _)|[(LL & _)|(LL & m & w & t & -> & D & Wm & H)]]; [lia|lia|].
      assert (ML : nth 4 m 0 = claimed_length d).
      { unfold d_management in D. rewrite (described_length _ _ _ D), Wm, part_part by lia.
        unfold b. rewrite part_firstn by lia. apply part_length2. lia. }
      cbn [rbind fst snd]. exists h, (BMgmt m t). split; [reflexivity|]. split; [assumption|]. split; [assumption|].
      cbn [says]. split.
      { exists w. split; [apply management_described; assumption|]. rewrite Wm. apply part_firstn. lia. }
      destruct H as [(H & ->)|[(H1 & H2 & ->)|(H1 & H2 & ty & l & i & -> & I1 & I2 & I3 & I4)]].
      * lia.
      * apply N. split; [reflexivity|]. lia.
      * split; [lia|]. split; [assumption|]. split; [assumption|]. split; [assumption|].
        rewrite I4. apply part_firstn. lia.
Qed.

(** Octets after the claimed length do not matter. *)
Lemma ld_app : forall n b off r, (off + n <= length b)%nat -> ld n (b ++ r) off = ld n b off.
Proof.
  intros n b off r L. unfold ld, slice. rewrite app_length.
  destruct (Nat.leb_spec (off + n) (length b + length r)); [|lia].
  destruct (Nat.leb_spec (off + n) (length b)); [|lia].
  rewrite skipn_app, firstn_app, skipn_length.
  replace (n - (length b - off))%nat with 0%nat by lia. rewrite firstn_O, app_nil_r. reflexivity.
Qed.
Lemma ld_le_app : forall n b off r, (off + n <= length b)%nat -> ld_le n (b ++ r) off = ld_le n b off.
Proof.
  intros n b off r L. unfold ld_le, slice. rewrite app_length.
  destruct (Nat.leb_spec (off + n) (length b + length r)); [|lia].
  destruct (Nat.leb_spec (off + n) (length b)); [|lia].
  rewrite skipn_app, firstn_app, skipn_length.
  replace (n - (length b - off))%nat with 0%nat by lia. rewrite firstn_O, app_nil_r. reflexivity.
Qed.
Lemma unpack_header_app : forall b r, (34 <= length b)%nat -> unpack_header (b ++ r) = unpack_header b.
Proof.
  intros b r L. unfold unpack_header. rewrite !check_ok by (rewrite ?app_length; lia).
  rewrite !ld_app, ld_le_app by lia. reflexivity.
Qed.
Lemma decode_padding : forall d pad, all_octets d -> (34 <= length d)%nat ->
  claimed_length d <= Z.of_nat (length d) -> decode (d ++ pad) = decode d.
Proof.
  intros d pad A L C. unfold decode. rewrite app_length.
  destruct (Nat.ltb_spec (length d + length pad) 34); [lia|].
  destruct (Nat.ltb_spec (length d) 34); [lia|].
  rewrite unpack_header_app by lia.
  destruct (unpack_header_any d A L) as (h & E & F & W & T & M). rewrite E. cbn [rbind].
  fold (claimed_length d) in M. rewrite M.
  assert (0 <= claimed_length d).
  { unfold claimed_length. pose proof (nth_octet d 2 A) as N2. pose proof (nth_octet d 3 A) as N3. unfold is_octet in *. lia. }
  assert (E2 : firstn (Z.to_nat (claimed_length d)) (d ++ pad) = firstn (Z.to_nat (claimed_length d)) d).
  { rewrite firstn_app. replace (Z.to_nat (claimed_length d) - length d)%nat with 0%nat by lia.
    rewrite firstn_O, app_nil_r. reflexivity. }
  assert (E3 : (if claimed_length d <? Z.of_nat (length d) then Z.to_nat (claimed_length d) else length d) = Z.to_nat (claimed_length d)).
  { destruct (Z.ltb_spec (claimed_length d) (Z.of_nat (length d))); lia. }
  rewrite E3.
  destruct (Z.ltb_spec (claimed_length d) (Z.of_nat (length d + length pad))) as [Q|Q]; [rewrite E2; reflexivity|].
  assert (pad = []) by (destruct pad; [reflexivity|cbn [length] in Q; lia]). subst pad.
  rewrite app_nil_r. cbn [length]. rewrite Nat.add_0_r.
  replace (Z.to_nat (claimed_length d)) with (length d) by lia. reflexivity.
Qed.

(** Space for messages being packed. *)
Lemma pack_header_ok : forall p ty b, (34 <= length b)%nat ->
  exists b', pack_header p ty b = Some (Some b') /\ length b' = length b.
Proof.
  intros p ty b H. expl b H. unfold pack_header. run. eexists. split; reflexivity.
Qed.
Lemma pack_start_abort : forall p ty n b k, (length b < 34)%nat -> pack_start p ty n b k = None.
Proof. intros. unfold pack_start, pack_header. rewrite check_short by lia. reflexivity. Qed.
Lemma pack_start_short : forall p ty n b k, (34 <= length b < 34 + n)%nat -> pack_start p ty n b k = Some None.
Proof.
  intros p ty n b k H. unfold pack_start. destruct (pack_header_ok p ty b ltac:(lia)) as (b' & -> & L).
  apply check_short. lia.
Qed.
Lemma pack_pdelay_req_overrun : forall p b, (44 <= length b < 54)%nat -> pack_pdelay_req p b = None.
Proof.
  intros p b [H H2]. expl b H. unfold pack_pdelay_req. run. cbn [length] in H2.
  do 10 (destruct b as [|? b]; [reflexivity|]). cbn [length] in H2. lia.
Qed.

(** Whole messages as a port sends them, decoded by the receiver. *)
Lemma firstn_wire : forall (w r : octets) n, length w = n -> firstn n (w ++ r) = w.
Proof. intros w r n <-. rewrite firstn_app, Nat.sub_diag, firstn_O, app_nil_r, firstn_all. reflexivity. Qed.

Lemma decode_wire : forall h body rest, header_fits h ->
  34 + Z.of_nat (length body) = mlength h ->
  decode (header_wire h ++ body ++ rest) =
  rbind (unpack_body (mtype h) (header_wire h ++ body)) (fun m => Some (Some (seen_header h, m))).
Proof.
  intros h bd rest F M. unfold decode.
  assert (L : length (header_wire h ++ bd ++ rest) = (34 + length bd + length rest)%nat)
    by (rewrite !app_length, header_wire_length; lia).
  rewrite L. destruct (Nat.ltb_spec (34 + length bd + length rest) 34); [lia|].
  rewrite unpack_header_wire by assumption. cbn [rbind].
  assert (E : firstn (34 + length bd) (header_wire h ++ bd ++ rest) = header_wire h ++ bd).
  { rewrite app_assoc. apply firstn_wire. rewrite app_length, header_wire_length. reflexivity. }
  change (mlength (seen_header h)) with (mlength h). change (mtype (seen_header h)) with (mtype h).
  destruct (Z.ltb_spec (mlength h) (Z.of_nat (34 + length bd + length rest))) as [Q|Q].
  - replace (Z.to_nat (mlength h)) with (34 + length bd)%nat by lia. rewrite E. reflexivity.
  - assert (rest = []) by (destruct rest; [reflexivity|cbn [length] in Q; lia]). subst rest.
    cbn [length]. rewrite Nat.add_0_r. rewrite E. reflexivity.
Qed.

Lemma decode_stamp : forall h t rest, header_fits h -> stamp_fits t -> mlength h = 44 ->
  (mtype h = 0 \/ mtype h = 1 \/ mtype h = 2 \/ mtype h = 8) ->
  decode (header_wire h ++ stamp_wire t ++ rest) = Some (Some (seen_header h, BStamp t)).
Proof.
  intros h t rest F S0 M K. rewrite decode_wire by (assumption || (rewrite M; reflexivity)).
  pose proof (unpack_stamp_wire h t [] S0) as E. rewrite app_nil_r in E.
  unfold unpack_body. destruct K as [-> | [-> | [-> | ->]]]; cbn [Z.eqb Pos.eqb orb]; rewrite E; reflexivity.
Qed.
Lemma decode_pdelay_req : forall h t pad rest, header_fits h -> stamp_fits t -> mlength h = 54 -> mtype h = 2 ->
  length pad = 10%nat ->
  decode (header_wire h ++ stamp_wire t ++ pad ++ rest) = Some (Some (seen_header h, BStamp t)).
Proof.
  intros h t pad rest F S0 M K P. rewrite (app_assoc (stamp_wire t)).
  rewrite decode_wire by (assumption || (rewrite M, app_length, P; reflexivity)).
  pose proof (unpack_stamp_wire h t pad S0) as E.
  unfold unpack_body. rewrite K; cbn [Z.eqb Pos.eqb orb]; rewrite E; reflexivity.
Qed.
Lemma decode_resp : forall h t q rest, header_fits h -> stamp_fits t -> port_fits q -> mlength h = 54 ->
  (mtype h = 3 \/ mtype h = 9 \/ mtype h = 10) ->
  decode (header_wire h ++ resp_wire t q ++ rest) = Some (Some (seen_header h, BResp t q)).
Proof.
  intros h t q rest F S0 Q M K. rewrite decode_wire by (assumption || (rewrite M; reflexivity)).
  pose proof (unpack_resp_wire h t q [] S0 Q) as E. rewrite app_nil_r in E.
  unfold unpack_body. destruct K as [-> | [-> | ->]]; cbn [Z.eqb Pos.eqb orb]; rewrite E; reflexivity.
Qed.
Lemma decode_announce : forall h r a rest, header_fits h -> announce_fits a -> mlength h = 64 -> mtype h = 11 ->
  decode (header_wire h ++ announce_wire r a ++ rest) = Some (Some (seen_header h, BAnnounce a)).
Proof.
  intros h r a rest F S0 M K. rewrite decode_wire by (assumption || (rewrite M; reflexivity)).
  pose proof (unpack_announce_wire h r a [] S0) as E. rewrite app_nil_r in E.
  unfold unpack_body. rewrite K; cbn [Z.eqb Pos.eqb orb]; rewrite E; reflexivity.
Qed.

Lemma sent_fits : forall p ty len dom f0 f1 corr seq ctl log, port_ok p -> in_u 4 ty -> in_u 16 len ->
  in_u 8 dom -> in_u 8 f0 -> in_u 8 f1 -> in_s 64 corr -> in_u 16 seq -> in_u 8 ctl -> in_s 8 log ->
  header_fits (sent_header p ty len dom f0 f1 corr seq ctl log).
Proof.
  intros p ty len dom f0 f1 corr seq ctl log (P1 & P2 & (P3 & P4) & _). intros.
  unfold header_fits, sent_header.
  cbn [majorSdo mtype minorVersion version mlength domain minorSdo flags0 flags1 correction typeSpecific clockId portNo seqId control logInterval].
  repeat match goal with |- _ /\ _ => split end; try assumption; unfold in_u; lia.
Qed.
