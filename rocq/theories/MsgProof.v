(** Proofs about PTP message packing and unpacking. *)
Require Import ZArith Lia List Bool.
Import ListNotations.
From Verif Require Import Base ListLib TimeSpec MsgSpec MsgModel.
Open Scope Z_scope.

Lemma bytes_length : forall n v, length (bytes n v) = n.
Proof. induction n; intros; cbn; [reflexivity|]; now rewrite IHn. Qed.

Lemma fold_be : forall l a, fold_left (fun a x => a * 256 + x) l a
  = a * 256 ^ Z.of_nat (length l) + fold_left (fun a x => a * 256 + x) l 0.
Proof.
  induction l; intros.
  - cbn. lia.
  - change (length (a :: l)) with (S (length l)). rewrite Nat2Z.inj_succ, Z.pow_succ_r by lia.
    cbn [fold_left]. rewrite IHl, (IHl (0 * 256 + a)). ring.
Qed.

Lemma be_cons : forall x l, be (x :: l) = x * 256 ^ Z.of_nat (length l) + be l.
Proof. intros. unfold be. cbn [fold_left]. rewrite fold_be. ring. Qed.

Lemma pow256_pos : forall n, 0 < 256 ^ Z.of_nat n.
Proof. intros. apply Z.pow_pos_nonneg; lia. Qed.

Lemma pow256_pow2 : forall n, 256 ^ Z.of_nat n = 2 ^ (8 * Z.of_nat n).
Proof. intros. rewrite Z.pow_mul_r by lia. reflexivity. Qed.

Lemma be_bytes : forall n v, be (bytes n v) = v mod 256 ^ Z.of_nat n.
Proof.
  induction n; intros.
  - cbn. now rewrite Z.mod_1_r.
  - cbn [bytes]. rewrite be_cons, bytes_length, IHn, Nat2Z.inj_succ, Z.pow_succ_r by lia.
    pose proof (pow256_pos n). rewrite (Z.mul_comm 256), Z.rem_mul_r by lia. lia.
Qed.

Lemma bytes_octets : forall n v, all_octets (bytes n v).
Proof.
  induction n; intros; cbn; constructor; [|apply IHn]. unfold is_octet. apply Z.mod_pos_bound. lia.
Qed.

Lemma wire_app : forall a b, wire (a ++ b) = wire a ++ wire b.
Proof. intros. unfold wire. apply flat_map_app. Qed.

Lemma slice_mid : forall pre mid rest,
  slice (length mid) (pre ++ mid ++ rest) (length pre) = Some mid.
Proof.
  intros. unfold slice. rewrite !app_length.
  replace (Nat.leb (length pre + length mid) (length pre + (length mid + length rest))) with true
    by (symmetry; apply Nat.leb_le; lia).
  rewrite skipn_app, skipn_all, Nat.sub_diag. cbn [skipn app].
  rewrite firstn_app, firstn_all, Nat.sub_diag. cbn [firstn]. now rewrite app_nil_r.
Qed.

Lemma slice_bytes : forall pre n v rest, slice n (pre ++ bytes n v ++ rest) (length pre) = Some (bytes n v).
Proof. intros. rewrite <- (bytes_length n v) at 1. apply slice_mid. Qed.

Lemma ld_bytes : forall pre n v rest,
  ld n (pre ++ bytes n v ++ rest) (length pre) = Some (v mod 256 ^ Z.of_nat n).
Proof. intros. unfold ld. rewrite slice_bytes. cbn [bind]. now rewrite be_bytes. Qed.

(** The field that begins at an offset. *)
Fixpoint field_at (fs : list (nat * Z)) (off : nat) : option (nat * Z) :=
  match fs with
  | [] => None
  | (n, v) :: fs' => match off with
      | O => Some (n, v)
      | _ => if Nat.leb n off then field_at fs' (off - n) else None
      end
  end.

Lemma field_at_split : forall fs off n v, field_at fs off = Some (n, v) ->
  exists a b, fs = a ++ (n, v) :: b /\ length (wire a) = off.
Proof.
  induction fs as [|[m x] fs IH]; cbn; intros off n v H; [discriminate|].
  destruct off as [|off].
  - injection H as -> ->. exists [], fs. split; reflexivity.
  - destruct (Nat.leb_spec m (S off)); [|discriminate].
    destruct (IH _ _ _ H) as (a & b & -> & L). exists ((m, x) :: a), b. split; [reflexivity|].
    cbn. rewrite app_length, bytes_length. fold (wire a). lia.
Qed.

Lemma wire_split : forall a n v b, wire (a ++ (n, v) :: b) = wire a ++ bytes n v ++ wire b.
Proof. intros. rewrite wire_app. reflexivity. Qed.

Lemma ld_wire : forall fs rest n v off, field_at fs off = Some (n, v) ->
  ld n (wire fs ++ rest) off = Some (v mod 256 ^ Z.of_nat n).
Proof.
  intros. destruct (field_at_split _ _ _ _ H) as (a & b & -> & <-).
  rewrite wire_split, <- !app_assoc. apply ld_bytes.
Qed.

Lemma ld_le_wire : forall fs rest n v off, field_at fs off = Some (n, v) ->
  ld_le n (wire fs ++ rest) off = Some (le (bytes n v)).
Proof.
  intros. destruct (field_at_split _ _ _ _ H) as (a & b & -> & <-).
  rewrite wire_split, <- !app_assoc. unfold ld_le. now rewrite slice_bytes.
Qed.

Lemma wire_length : forall fs, length (wire fs) = fold_right (fun f a => (fst f + a)%nat) 0%nat fs.
Proof. induction fs as [|[n v] fs IH]; cbn; [reflexivity|]. rewrite app_length, bytes_length. fold (wire fs). lia. Qed.

Lemma u_mod : forall n v, in_u (8 * Z.of_nat n) v -> v mod 256 ^ Z.of_nat n = v.
Proof. intros n v H. rewrite pow256_pow2. apply Z.mod_small. exact H. Qed.

Lemma shiftr4 : forall a b, in_u 4 a -> in_u 4 b -> Z.shiftr (16 * a + b) 4 = a.
Proof. unfold in_u. intros. rewrite Z.shiftr_div_pow2 by lia. change (2^4) with 16 in *. lia. Qed.
Lemma land15 : forall a b, in_u 4 b -> Z.land (16 * a + b) 15 = b.
Proof. unfold in_u. intros. change 15 with (Z.ones 4). rewrite Z.land_ones by lia. change (2^4) with 16 in *. lia. Qed.
Lemma nib_mod : forall a b, in_u 4 a -> in_u 4 b -> (16 * a + b) mod 256 ^ Z.of_nat 1 = 16 * a + b.
Proof. unfold in_u. intros. change (256 ^ Z.of_nat 1) with 256. change (2^4) with 16 in *. apply Z.mod_small. lia. Qed.

Lemma s64_back : forall v, in_s 64 v -> s64 (v mod 256 ^ Z.of_nat 8) = v.
Proof.
  intros v [A B]. change (- 2 ^ (64 - 1) <= v) in A. change (v < 2 ^ (64 - 1)) in B.
  change (2 ^ (64 - 1)) with (2^63) in *. unfold s64. change (256 ^ Z.of_nat 8) with (2^64). lia.
Qed.
Lemma s16_back : forall v, in_s 16 v -> s16 (v mod 256 ^ Z.of_nat 2) = v.
Proof. intros v [A B]. change (2 ^ (16 - 1)) with (2^15) in *. unfold s16. change (256 ^ Z.of_nat 2) with (2^16). lia. Qed.
Lemma s8_back : forall v, in_s 8 v -> s8 (v mod 256 ^ Z.of_nat 1) = v.
Proof. intros v [A B]. change (2 ^ (8 - 1)) with (2^7) in *. unfold s8. change (256 ^ Z.of_nat 1) with (2^8). lia. Qed.

Lemma sgn_back : forall n v, (0 < n)%nat -> in_s (8 * Z.of_nat n) v -> sgn n (v mod 256 ^ Z.of_nat n) = v.
Proof.
  intros n v P [A B]. unfold sgn. rewrite pow256_pow2.
  set (m := 2 ^ (8 * Z.of_nat n - 1)) in *.
  assert (E : 2 ^ (8 * Z.of_nat n) = 2 * m).
  { unfold m. rewrite <- Z.pow_succ_r by lia. f_equal. lia. }
  assert (0 < m) by (unfold m; apply Z.pow_pos_nonneg; lia).
  rewrite E. rewrite (Z.mul_comm 2 m), Z.div_mul by lia.
  rewrite Zplus_mod_idemp_l, Z.mod_small; lia.
Qed.

Definition header_table (h : header) : list (nat * Z) := [
  1 @@ 16 * majorSdo h + mtype h; 1 @@ 16 * minorVersion h + version h; 2 @@ mlength h;
  1 @@ domain h; 1 @@ minorSdo h; 1 @@ flags0 h; 1 @@ flags1 h; 8 @@ correction h;
  4 @@ typeSpecific h; 8 @@ clockId h; 2 @@ portNo h; 2 @@ seqId h; 1 @@ control h;
  1 @@ logInterval h].

Lemma header_wire_table : forall h, header_wire h = wire (header_table h).
Proof. reflexivity. Qed.

Lemma header_wire_length : forall h, length (header_wire h) = 34%nat.
Proof. reflexivity. Qed.

Lemma check_ok : forall A off size b (k : result A), (off + size <= length b)%nat -> check off size b k = k.
Proof. intros. unfold check. destruct (Nat.ltb_spec (length b) (off + size)); [lia|reflexivity]. Qed.
Lemma check_short : forall A off size b (k : result A), (length b < off + size)%nat -> check off size b k = Some None.
Proof. intros. unfold check. destruct (Nat.ltb_spec (length b) (off + size)); [reflexivity|lia]. Qed.

(** What the header unpacks to: the type specific field comes out with its octets reversed. *)
Definition seen_header (h : header) : header :=
  mkHeader (majorSdo h) (mtype h) (minorVersion h) (version h) (mlength h) (domain h) (minorSdo h)
    (flags0 h) (flags1 h) (correction h) (le (bytes 4 (typeSpecific h))) (clockId h) (portNo h)
    (seqId h) (control h) (logInterval h).

Lemma ld_bind : forall fs rest n v off A (k : Z -> option A), field_at fs off = Some (n, v) ->
  bind (ld n (wire fs ++ rest) off) k = k (v mod 256 ^ Z.of_nat n).
Proof. intros. now rewrite (ld_wire _ _ _ _ _ H). Qed.
Lemma ld_le_bind : forall fs rest n v off A (k : Z -> option A), field_at fs off = Some (n, v) ->
  bind (ld_le n (wire fs ++ rest) off) k = k (le (bytes n v)).
Proof. intros. now rewrite (ld_le_wire _ _ _ _ _ H). Qed.

Ltac use_ld := etransitivity; [eapply ld_bind; reflexivity|]; cbv beta.

Lemma unpack_header_wire : forall h rest, header_fits h ->
  unpack_header (header_wire h ++ rest) = Some (Some (seen_header h)).
Proof.
  intros h rest (A1 & A2 & A3 & A4 & A5 & A6 & A7 & A8 & A9 & A10 & A11 & A12 & A13 & A14 & A15 & A16).
  unfold unpack_header. rewrite check_ok by (rewrite app_length, header_wire_length; lia).
  rewrite header_wire_table.
  do 8 use_ld. etransitivity; [eapply ld_le_bind; reflexivity|]; cbv beta. do 5 use_ld.
  unfold seen_header.
  rewrite !nib_mod, !shiftr4, !land15, s64_back, s8_back by assumption.
  rewrite !u_mod by assumption. reflexivity.
Qed.

Lemma seen_zero : forall h, typeSpecific h = 0 -> seen_header h = h.
Proof. intros [] H. cbn in H. subst. reflexivity. Qed.

(** 48-bit seconds *)
Lemma bytes6 : forall v, bytes 6 v = bytes 2 (Z.shiftr v 32) ++ bytes 4 v.
Proof.
  intros. rewrite Z.shiftr_div_pow2 by lia. cbn [bytes app].
  rewrite !Z.div_div by (try apply pow256_pos; apply Z.pow_nonzero; lia). reflexivity.
Qed.

Lemma lor_shift : forall a b n, 0 <= n -> 0 <= a -> 0 <= b < 2 ^ n -> Z.lor (Z.shiftl a n) b = a * 2 ^ n + b.
Proof.
  intros. rewrite Z.shiftl_mul_pow2 by lia. symmetry.
  rewrite <- Z.lxor_lor; [apply Z.add_nocarry_lxor|];
  apply Z.bits_inj'; intros k Hk; rewrite Z.land_spec, Z.bits_0;
  (destruct (Z.lt_ge_cases k n);
   [rewrite Z.mul_pow2_bits_low by lia; reflexivity
   |replace (Z.testbit b k) with false; [apply andb_false_r|];
    symmetry; destruct (Z.eq_dec b 0); [subst; apply Z.bits_0|];
    apply Z.bits_above_log2; [lia|]; apply Z.lt_le_trans with n; [|lia]; apply Z.log2_lt_pow2; lia]).
Qed.

Lemma ld48_bytes : forall pre v rest, in_u 48 v ->
  ld48 (pre ++ bytes 6 v ++ rest) (length pre) = Some v.
Proof.
  intros pre v rest H. unfold ld48. rewrite bytes6, <- app_assoc.
  rewrite ld_bytes. cbn [bind].
  rewrite app_assoc.
  replace (length pre + 2)%nat with (length (pre ++ bytes 2 (Z.shiftr v 32)))
    by (rewrite app_length; reflexivity).
  rewrite ld_bytes. cbn [bind]. f_equal.
  change (256 ^ Z.of_nat 2) with (2^16). change (256 ^ Z.of_nat 4) with (2^32).
  unfold in_u in H. rewrite lor_shift; [| |apply Z.mod_pos_bound|apply Z.mod_pos_bound]; try lia.
  rewrite Z.shiftr_div_pow2 by lia. lia.
Qed.

Lemma ld48_wire : forall fs rest v off, field_at fs off = Some (6%nat, v) -> in_u 48 v ->
  ld48 (wire fs ++ rest) off = Some v.
Proof.
  intros. destruct (field_at_split _ _ _ _ H) as (a & b & -> & <-).
  rewrite wire_split, <- !app_assoc. now apply ld48_bytes.
Qed.

Lemma ld_stamp_wire : forall fs rest t off, stamp_fits t ->
  field_at fs off = Some (6%nat, w_sec t) -> field_at fs (off + 6) = Some (4%nat, w_ns t) ->
  ld_stamp (wire fs ++ rest) off = Some t.
Proof.
  intros fs rest t off [A B] E1 E2. unfold ld_stamp.
  rewrite (ld48_wire _ _ _ _ E1 A). cbn [bind]. rewrite (ld_wire _ _ _ _ _ E2). cbn [bind].
  rewrite u_mod by assumption. now destruct t.
Qed.

Lemma ld_port_wire : forall fs rest q off, port_fits q ->
  field_at fs off = Some (8%nat, pid_clock q) -> field_at fs (off + 8) = Some (2%nat, pid_port q) ->
  ld_port (wire fs ++ rest) off = Some q.
Proof.
  intros fs rest q off [A B] E1 E2. unfold ld_port.
  rewrite (ld_wire _ _ _ _ _ E1). cbn [bind]. rewrite (ld_wire _ _ _ _ _ E2). cbn [bind].
  rewrite !u_mod by assumption. now destruct q.
Qed.

Lemma unpack_stamp_wire : forall h t rest, stamp_fits t ->
  unpack_stamp_body (header_wire h ++ stamp_wire t ++ rest) = Some (Some t).
Proof.
  intros. unfold unpack_stamp_body.
  rewrite check_ok by (rewrite !app_length; cbn; lia).
  rewrite app_assoc. unfold stamp_wire. rewrite header_wire_table.
  rewrite <- wire_app. rewrite (ld_stamp_wire _ _ t); [reflexivity|assumption|reflexivity|reflexivity].
Qed.

Lemma unpack_resp_wire : forall h t q rest, stamp_fits t -> port_fits q ->
  unpack_resp_body (header_wire h ++ resp_wire t q ++ rest) = Some (Some (t, q)).
Proof.
  intros. unfold unpack_resp_body.
  rewrite check_ok by (rewrite !app_length; cbn; lia).
  rewrite app_assoc. unfold resp_wire. rewrite header_wire_table.
  rewrite <- wire_app. rewrite (ld_stamp_wire _ _ t); [|assumption|reflexivity|reflexivity].
  cbn [bind]. rewrite (ld_port_wire _ _ q); [reflexivity|assumption|reflexivity|reflexivity].
Qed.

Lemma unpack_announce_wire : forall h r a rest, announce_fits a ->
  unpack_announce (header_wire h ++ announce_wire r a ++ rest) = Some (Some a).
Proof.
  intros h r a rest (A0 & A1 & A2 & A3 & A4 & A5 & A6 & A7 & A8 & A9). unfold unpack_announce.
  rewrite check_ok by (rewrite !app_length; cbn; lia).
  rewrite app_assoc. unfold announce_wire. rewrite header_wire_table.
  rewrite <- wire_app. rewrite (ld_stamp_wire _ _ (a_origin a)); [|assumption|reflexivity|reflexivity].
  cbn [bind]. do 9 use_ld.
  rewrite s16_back by assumption. rewrite !u_mod by assumption. now destruct a.
Qed.

(** *** Packing *)
Lemma bytes1 : forall v, bytes 1 v = [u8 v].
Proof. intros. cbn [bytes Z.of_nat]. unfold u8. change (256^0) with 1. now rewrite Z.div_1_r. Qed.

Lemma or_byte_eq : forall off c v b x, ld 1 b off = Some x ->
  or_byte off c v b = st off [if c then u8 (Z.lor x v) else x] b.
Proof.
  intros off c v b x H. unfold or_byte. destruct c; [rewrite H; reflexivity|].
  unfold ld, slice in H. unfold st. cbn [length].
  destruct (Nat.leb_spec (off + 1) (length b)); [|discriminate].
  cbn [bind] in H. injection H as <-. f_equal.
  rewrite <- (firstn_skipn off b) at 1. f_equal.
  replace (off + 1)%nat with (S off) by lia. rewrite <- tl_skipn.
  destruct (skipn off b) eqn:E.
  - apply (f_equal (@length Z)) in E. rewrite skipn_length in E. cbn in E. lia.
  - reflexivity.
Qed.

Lemma uncons : forall n (b : octets), (S n <= length b)%nat -> exists x b', b = x :: b' /\ (n <= length b')%nat.
Proof. intros n [|x b'] H; cbn in H; [lia|]. exists x, b'. split; [reflexivity|lia]. Qed.

Ltac expl b H := repeat (match type of H with (S _ <= length ?b)%nat =>
   let x := fresh "x" in let b' := fresh "b" in let E := fresh in let H' := fresh in
   destruct (uncons _ _ H) as (x & b' & E & H'); subst b; clear H; rename H' into H end).

Ltac run := cbv [st ld slice memset0 repeat firstn skipn app length Nat.leb Nat.ltb Nat.add bind rbind check
  pack_start pack_header st_fixed st_zero_stamp st_port st48 bytes].


Lemma skipn_cons : forall A n (x : A) l, skipn (S n) (x :: l) = skipn n l.
Proof. reflexivity. Qed.

Lemma header_byte1 : forall p, port_ok p -> u8 (Z.lor (Z.shiftl (p_minor p) 4) 2)
   = (16 * p_minor p + 2) / 256 ^ Z.of_nat 0 mod 256.
Proof.
  intros p (A & _). unfold in_u in A. change (256 ^ Z.of_nat 0) with 1. rewrite Z.div_1_r. unfold u8.
  rewrite lor_shift by lia. f_equal. lia.
Qed.

Lemma u8_byte : forall v, u8 v = v / 256 ^ Z.of_nat 0 mod 256.
Proof. intros. change (256 ^ Z.of_nat 0) with 1. now rewrite Z.div_1_r. Qed.

Lemma shiftr_byte : forall v, Z.shiftr v 32 / 256 ^ Z.of_nat 1 mod 256 = v / 256 ^ Z.of_nat 5 mod 256
  /\ Z.shiftr v 32 / 256 ^ Z.of_nat 0 mod 256 = v / 256 ^ Z.of_nat 4 mod 256.
Proof.
  intros. rewrite Z.shiftr_div_pow2, !Z.div_div by (try apply pow256_pos; lia). split; reflexivity.
Qed.

Lemma cons_eq : forall (a b : Z) x y, a = b -> x = y -> a :: x = b :: y.
Proof. intros. now subst. Qed.
Lemma some_eq : forall (x y : octets), x = y -> Some (Some x) = Some (Some y).
Proof. intros. now subst. Qed.

Ltac step := first
  [ apply u8_byte
  | apply header_byte1; assumption
  | apply shiftr_byte
  | reflexivity
  | unfold two_step_flag; match goal with |- context [p_two_step ?p] => destruct (p_two_step p); reflexivity end ].

Ltac octets_eq := apply some_eq; repeat (apply cons_eq; [try step|]); try reflexivity.

Ltac spec := cbv [header_wire stamp_wire resp_wire announce_wire sent_header stamp_fields port_fields
  wire flat_map fst snd app bytes skipn majorSdo mtype minorVersion version mlength domain minorSdo
  flags0 flags1 correction typeSpecific clockId portNo seqId control logInterval
  zero_stamp w_sec w_ns].


Lemma pack_sync_wire : forall p b, port_ok p -> (44 <= length b)%nat ->
  pack_sync p b = Some (Some (header_wire (sent_header p 0 44 (p_domain p) (two_step_flag p) 0 0
                                 (p_seq_sync p) 0 (p_log_sync p))
                              ++ stamp_wire zero_stamp ++ skipn 44 b)).
Proof. intros p b P H. expl b H. unfold pack_sync. run. spec. octets_eq. Qed.

Lemma pack_delay_req_wire : forall p b, port_ok p -> (44 <= length b)%nat ->
  pack_delay_req p b = Some (Some (header_wire (sent_header p 1 44 (p_domain p) 0 0 0
                                 (p_seq_dreq p) 1 undefined_interval)
                              ++ stamp_wire zero_stamp ++ skipn 44 b)).
Proof. intros p b P H. expl b H. unfold pack_delay_req. run. spec. octets_eq. Qed.

Lemma pack_pdelay_req_wire : forall p b, port_ok p -> (54 <= length b)%nat ->
  pack_pdelay_req p b = Some (Some (header_wire (sent_header p 2 54 (p_domain p) 0 0 0
                                 (p_seq_pdreq p) 5 undefined_interval)
                              ++ stamp_wire zero_stamp ++ repeat 0 10 ++ skipn 54 b)).
Proof. intros p b P H. expl b H. unfold pack_pdelay_req. run. spec. octets_eq. Qed.

(** The flag octet of Announce. *)
Lemma or_chain : forall p b, ld 1 b 7 = Some 0 ->
  (do b <- or_byte 7 (p_leap59 p) 2 b;
   do b <- or_byte 7 (p_leap61 p) 1 b;
   do b <- or_byte 7 (p_utc_valid p) 4 b;
   do b <- or_byte 7 (p_ptp_scale p) 8 b;
   do b <- or_byte 7 (p_time_trace p) 16 b;
   do b <- or_byte 7 (p_freq_trace p) 32 b;
   Some (Some b)) = do b <- st 7 [u8 (time_flags p)] b; Some (Some b).
Proof.
  intros p b H.
  assert (L : (8 <= length b)%nat).
  { unfold ld, slice in H. destruct (Nat.leb_spec (7 + 1) (length b)); [lia|discriminate]. }
  expl b L. change (Some x6 = Some 0) in H. injection H as ->.
  unfold time_flags.
  destruct (p_leap59 p), (p_leap61 p), (p_utc_valid p), (p_ptp_scale p), (p_time_trace p), (p_freq_trace p);
  reflexivity.
Qed.

Lemma nth_octet : forall b i, all_octets b -> is_octet (nth i b 0).
Proof.
  intros b i H. destruct (Nat.lt_ge_cases i (length b)).
  - unfold all_octets in H. rewrite Forall_forall in H. apply H. now apply nth_In.
  - rewrite nth_overflow by assumption. unfold is_octet. lia.
Qed.

Definition reserved_of (b : octets) : Z := nth 46 b 0.

Lemma pack_announce_wire : forall p b, port_ok p -> all_octets b -> (64 <= length b)%nat ->
  pack_announce p b = Some (Some (header_wire (sent_header p 11 64 (p_domain p) 0 (time_flags p) 0
                                 (p_seq_announce p) 5 (p_log_announce p))
                              ++ announce_wire (reserved_of b) (announced p) ++ skipn 64 b)).
Proof.
  intros p b P O H. pose proof (nth_octet b 46 O) as R. clear O. expl b H. cbv [nth] in R. unfold pack_announce.
  cbv [st ld slice memset0 repeat firstn skipn app length Nat.leb Nat.ltb Nat.add bind rbind check
  pack_start pack_header st_fixed bytes].
  match goal with |- context [or_byte 7 (p_leap59 p) 2 ?b] => pose proof (or_chain p b eq_refl) as C end.
  cbv [bind] in C. etransitivity; [exact C|]. clear C.
  run. cbv [announced a_origin a_utc a_prio1 a_class a_accuracy a_variance a_prio2 a_gm a_steps a_source
  reserved_of nth]. spec. octets_eq.
  rewrite <- u8_byte. unfold u8. symmetry. apply Z.mod_small. exact R.
Qed.

(** *** Precise timestamps *)
Definition wire_stamp (t : ts) : stamp := mkStamp (sec t) (nsec t).
Definition fraction16 (t : ts) : Z := frac t / 2^16.

Lemma local16_split : forall t, local16 t = stamp16 (wire_stamp t) + fraction16 t.
Proof.
  intros. unfold local16, stamp16, fraction16, instant. cbn [wire_stamp w_sec w_ns].
  replace (2^32) with (2^16 * 2^16) by reflexivity.
  rewrite Z.mul_assoc, Z.div_add_l by lia. reflexivity.
Qed.

Definition put_precise (t : ts) (c : Z) (b : octets) : result octets :=
  bind (st48 34 (sec t) b) (fun b => bind (st 40 (bytes 4 (nsec t)) b) (fun b =>
  bind (st 8 (bytes 8 c) b) (fun b => Some (Some b)))).

Lemma set_precise_eq : forall t (sub : bool) extra b, (44 <= length b)%nat -> normal t -> 0 <= sec t ->
  in_s 64 ((if sub then - fraction16 t else fraction16 t) + extra) ->
  set_precise t sub extra b = put_precise t ((if sub then - fraction16 t else fraction16 t) + extra) b.
Proof.
  intros t sub extra b L (N1 & N2 & N3) S0 C. unfold set_precise.
  destruct (Nat.ltb_spec (length b) 44); [lia|].
  destruct (Z.ltb_spec (sec t) 0); [lia|].
  replace (u64 (sec t)) with (sec t) by (unfold u64; symmetry; apply Z.mod_small; lia).
  replace (u32 (nsec t)) with (nsec t) by (unfold u32; symmetry; apply Z.mod_small; lia).
  rewrite Z.shiftr_div_pow2 by lia. fold (fraction16 t).
  assert (F : 0 <= fraction16 t < 65536) by (unfold fraction16; change (2^16) with 65536; change (2^32) with 4294967296 in N3; lia).
  destruct C as [C1 C2]. change (2 ^ (64 - 1)) with (2^63) in *.
  assert (K : forall x, - 2^63 <= x < 2^63 -> chk_s64 x = Some x).
  { intros x X. unfold chk_s64, fits_s64. destruct (Z.leb_spec (- 2^63) x); [|lia]. destruct (Z.ltb_spec x (2^63)); [|lia]. reflexivity. }
  destruct sub; cbn [bind].
  - rewrite (K (- fraction16 t)) by lia. cbn [bind]. rewrite K by lia. reflexivity.
  - rewrite K by lia. reflexivity.
Qed.

Lemma set_precise_over : forall t (sub : bool) extra b, (44 <= length b)%nat -> normal t -> 0 <= sec t ->
  ~ in_s 64 ((if sub then - fraction16 t else fraction16 t) + extra) ->
  set_precise t sub extra b = None.
Proof.
  intros t sub extra b L (N1 & N2 & N3) S0 C. unfold set_precise.
  destruct (Nat.ltb_spec (length b) 44); [lia|].
  destruct (Z.ltb_spec (sec t) 0); [lia|].
  rewrite Z.shiftr_div_pow2 by lia. fold (fraction16 t).
  assert (F : 0 <= fraction16 t < 65536) by (unfold fraction16; change (2^16) with 65536; change (2^32) with 4294967296 in N3; lia).
  unfold in_s in C. change (2 ^ (64 - 1)) with (2^63) in *.
  assert (K : forall x, - 2^63 <= x < 2^63 -> chk_s64 x = Some x).
  { intros x X. unfold chk_s64, fits_s64. destruct (Z.leb_spec (- 2^63) x); [|lia]. destruct (Z.ltb_spec x (2^63)); [|lia]. reflexivity. }
  assert (K2 : forall x, ~ (- 2^63 <= x < 2^63) -> chk_s64 x = None).
  { intros x X. unfold chk_s64, fits_s64. destruct (Z.leb_spec (- 2^63) x); [|reflexivity]. destruct (Z.ltb_spec x (2^63)); [lia|]. reflexivity. }
  destruct sub; cbn [bind].
  - rewrite (K (- fraction16 t)) by lia. cbn [bind]. rewrite K2 by lia. reflexivity.
  - rewrite K2 by lia. reflexivity.
Qed.

Definition precise_ok (t : ts) : Prop := normal t /\ 0 <= sec t.

Ltac precise T := match goal with |- context [set_precise ?t ?s ?e ?b] =>
  let E := fresh in assert (E : set_precise t s e b = put_precise t ((if s then - fraction16 t else fraction16 t) + e) b);
  [destruct T; apply set_precise_eq; [cbn [length]; lia|assumption|assumption|assumption]
  |rewrite E; clear E; unfold put_precise] end.

Lemma pack_follow_up_wire : forall p t seq b, port_ok p -> precise_ok t -> (44 <= length b)%nat ->
  pack_follow_up p t seq b =
    Some (Some (header_wire (sent_header p 8 44 (p_domain p) 0 0 (fraction16 t) seq 2 (p_log_sync p))
                ++ stamp_wire (wire_stamp t) ++ skipn 44 b)).
Proof.
  intros p t seq b P T H. expl b H. unfold pack_follow_up.
  cbv [st ld slice memset0 repeat firstn skipn app length Nat.leb Nat.ltb Nat.add bind rbind check
  pack_start pack_header st_fixed bytes].
  assert (C : in_s 64 (fraction16 t + 0)).
  { destruct T as ((_ & _ & N3) & _). unfold in_s. change (2 ^ (64 - 1)) with (2^63).
    unfold fraction16. change (2^16) with 65536; change (2^32) with 4294967296 in N3. lia. }
  precise T.
  rewrite Z.add_0_r. cbv [wire_stamp].
  run. spec. octets_eq.
Qed.

Lemma pack_delay_resp_wire : forall p h t b, port_ok p -> precise_ok t -> (54 <= length b)%nat ->
  in_s 64 (correction h - fraction16 t) ->
  pack_delay_resp p h t b =
    Some (Some (header_wire (sent_header p 9 54 (domain h) 0 0 (correction h - fraction16 t)
                                (seqId h) 3 (p_log_dreq p))
                ++ resp_wire (wire_stamp t) (mkPort (clockId h) (portNo h)) ++ skipn 54 b)).
Proof.
  intros p h t b P T H C. expl b H. unfold pack_delay_resp.
  cbv [st ld slice memset0 repeat firstn skipn app length Nat.leb Nat.ltb Nat.add bind check
  pack_start pack_header st_fixed bytes].
  replace (correction h - fraction16 t) with (- fraction16 t + correction h) in * by ring.
  precise T.
  cbv [wire_stamp source pid_clock pid_port]. run.
  cbv [header_wire resp_wire sent_header stamp_fields port_fields
  wire flat_map fst snd app bytes skipn majorSdo mtype minorVersion version mlength domain minorSdo
  flags0 flags1 correction typeSpecific clockId portNo seqId control logInterval
  w_sec w_ns]. 
  octets_eq.
Qed.

Lemma pack_pdelay_resp_wire : forall p h t b, port_ok p -> precise_ok t -> (54 <= length b)%nat ->
  pack_pdelay_resp p h t b =
    Some (Some (header_wire (sent_header p 3 54 (domain h) (two_step_flag p) 0 (- fraction16 t)
                                (seqId h) 5 undefined_interval)
                ++ resp_wire (wire_stamp t) (mkPort (clockId h) (portNo h)) ++ skipn 54 b)).
Proof.
  intros p h t b P T H. expl b H. unfold pack_pdelay_resp.
  cbv [st ld slice memset0 repeat firstn skipn app length Nat.leb Nat.ltb Nat.add bind check
  pack_start pack_header st_fixed bytes].
  assert (C : in_s 64 (- fraction16 t + 0)).
  { destruct T as ((_ & _ & N3) & _). unfold in_s. change (2 ^ (64 - 1)) with (2^63).
    unfold fraction16. change (2^16) with 65536; change (2^32) with 4294967296 in N3. lia. }
  precise T. rewrite Z.add_0_r.
  cbv [wire_stamp source pid_clock pid_port]. run.
  spec. octets_eq.
Qed.

Lemma pack_pdelay_resp_follow_up_wire : forall p h t seq b, port_ok p -> precise_ok t -> (54 <= length b)%nat ->
  in_s 64 (correction h + fraction16 t) ->
  pack_pdelay_resp_follow_up p h t seq b =
    Some (Some (header_wire (sent_header p 10 54 (p_domain p) 0 0 (correction h + fraction16 t)
                                seq 5 undefined_interval)
                ++ resp_wire (wire_stamp t) (mkPort (clockId h) (portNo h)) ++ skipn 54 b)).
Proof.
  intros p h t seq b P T H C. expl b H. unfold pack_pdelay_resp_follow_up.
  cbv [st ld slice memset0 repeat firstn skipn app length Nat.leb Nat.ltb Nat.add bind check
  pack_start pack_header st_fixed bytes].
  rewrite (Z.add_comm (correction h)) in *.
  precise T.
  cbv [wire_stamp source pid_clock pid_port]. run.
  spec. octets_eq.
Qed.

(** *** Field tables *)
Lemma unpack_described : forall fs vs w, described fs vs w -> forall pre rest,
  unpack_fields fs (pre ++ wire w ++ rest) (length pre) = Some (Some vs).
Proof.
  induction 1 as [|n v fs vs w V D IH|n v fs vs w N V D IH|x y fs vs w A B D IH]; intros pre rest.
  - reflexivity.
  - cbn [unpack_fields]. change (wire ((n, v) :: w)) with (bytes n v ++ wire w). rewrite <- app_assoc.
    rewrite check_ok by (rewrite !app_length, bytes_length; lia).
    cbn [ld_field]. rewrite ld_bytes. cbn [bind].
    specialize (IH (pre ++ bytes n v) rest). rewrite <- app_assoc, app_length, bytes_length in IH.
    rewrite IH. cbn [rbind]. rewrite u_mod by assumption. reflexivity.
  - cbn [unpack_fields]. change (wire ((n, v) :: w)) with (bytes n v ++ wire w). rewrite <- app_assoc.
    rewrite check_ok by (rewrite !app_length, bytes_length; lia).
    cbn [ld_field]. rewrite ld_bytes. cbn [bind].
    specialize (IH (pre ++ bytes n v) rest). rewrite <- app_assoc, app_length, bytes_length in IH.
    rewrite IH. cbn [rbind]. rewrite sgn_back by assumption. reflexivity.
  - cbn [unpack_fields]. change (wire ((1%nat, 16 * x + y) :: w)) with (bytes 1 (16 * x + y) ++ wire w).
    rewrite <- app_assoc. rewrite !Nat.add_0_r.
    rewrite !check_ok by (rewrite !app_length, bytes_length; lia).
    cbn [ld_field]. rewrite ld_bytes. cbn [bind].
    specialize (IH (pre ++ bytes 1 (16 * x + y)) rest). rewrite <- app_assoc, app_length, bytes_length in IH.
    rewrite IH. cbn [rbind]. rewrite nib_mod, shiftr4, land15 by assumption.
    change 15 with (Z.ones 4). rewrite Z.land_ones by lia. rewrite Z.mod_small by assumption. reflexivity.
Qed.

Lemma st_mid : forall pre old new rest, length old = length new ->
  st (length pre) new (pre ++ old ++ rest) = Some (pre ++ new ++ rest).
Proof.
  intros pre old new rest E. unfold st.
  destruct (Nat.leb_spec (length pre + length new) (length (pre ++ old ++ rest))) as [_|L];
    [|rewrite !app_length in L; lia].
  rewrite firstn_app, Nat.sub_diag, firstn_O, app_nil_r, firstn_all.
  rewrite skipn_app, (skipn_all2 pre) by lia.
  replace (length pre + length new - length pre)%nat with (length new) by lia.
  rewrite skipn_app, <- E, (skipn_all2 old), Nat.sub_diag by lia. reflexivity.
Qed.

Lemma nib_merge : forall x a b, in_u 4 a -> in_u 4 b ->
  u8 (Z.lor (Z.land (u8 (Z.lor (Z.land x 15) (Z.shiftl a 4))) 240) b) = 16 * a + b.
Proof.
  intros x a b A B. unfold in_u in *. change (2^4) with 16 in *.
  assert (E : Z.land x 15 = x mod 16) by (change 15 with (Z.ones 4); rewrite Z.land_ones by lia; reflexivity).
  rewrite E. assert (0 <= x mod 16 < 16) by lia.
  replace (Z.lor (x mod 16) (Z.shiftl a 4)) with (a * 16 + x mod 16)
    by (rewrite Z.lor_comm, lor_shift by (change (2^4) with 16; lia); reflexivity).
  unfold u8 at 2. change (2^8) with 256. rewrite (Z.mod_small (a * 16 + x mod 16)) by lia.
  assert (F : Z.land (a * 16 + x mod 16) 240 = a * 16).
  { generalize (x mod 16) H. clear x E H. intros y Y.
    assert (P : forall a y : Z, 0 <= a < 16 -> 0 <= y < 16 ->
      Z.land (a * 16 + y) 240 = a * 16).
    { clear. intros a y A Y. change (a * 16) with (a * 2^4). rewrite <- (Z.shiftl_mul_pow2 a 4) by lia.
      replace (Z.shiftl a 4 + y) with (Z.lor (Z.shiftl a 4) y)
        by (rewrite lor_shift by (change (2^4) with 16; lia); rewrite Z.shiftl_mul_pow2 by lia; reflexivity).
      change 240 with (Z.shiftl 15 4).
      rewrite Z.land_lor_distr_l, <- Z.shiftl_land.
      change 15 with (Z.ones 4). rewrite Z.land_ones, (Z.mod_small a) by (change (2^4) with 16; lia).
      replace (Z.land y (Z.shiftl (Z.ones 4) 4)) with 0; [apply Z.lor_0_r|].
      symmetry. apply Z.bits_inj'. intros n N. rewrite Z.land_spec, Z.bits_0.
      destruct (Z.ltb_spec n 4).
      - rewrite Z.shiftl_spec_low by lia. apply andb_false_r.
      - replace y with (y mod 2^4) by (apply Z.mod_small; change (2^4) with 16; lia).
        rewrite Z.mod_pow2_bits_high by lia. reflexivity. }
    apply P; assumption. }
  rewrite F. change (a * 16) with (a * 2^4). rewrite <- Z.shiftl_mul_pow2 by lia.
  rewrite lor_shift by (change (2^4) with 16; lia). change (2^4) with 16.
  unfold u8. change (2^8) with 256. rewrite Z.mod_small by lia. ring.
Qed.

Lemma pack_described : forall fs vs w, described fs vs w -> forall pre old rest,
  length old = length (wire w) ->
  pack_fields fs vs (pre ++ old ++ rest) (length pre) = Some (Some (pre ++ wire w ++ rest)).
Proof.
  assert (G : forall t n v (fs : list field) vs w, (t = U n \/ t = I n) ->
    (forall pre old rest, length old = length (wire w) ->
       pack_fields fs vs (pre ++ old ++ rest) (length pre) = Some (Some (pre ++ wire w ++ rest))) ->
    forall pre old rest, length old = length (wire ((n, v) :: w)) ->
      pack_fields ((n, t) :: fs) (v :: vs) (pre ++ old ++ rest) (length pre)
      = Some (Some (pre ++ wire ((n, v) :: w) ++ rest))).
  { intros t n v fs vs w T IH pre old rest L. cbn [pack_fields].
    change (wire ((n, v) :: w)) with (bytes n v ++ wire w) in *.
    rewrite app_length, bytes_length in L.
    rewrite check_ok by (rewrite !app_length; lia).
    rewrite <- (firstn_skipn n old), <- !app_assoc.
    assert (LF : length (firstn n old) = length (bytes n v)) by (rewrite firstn_length, bytes_length; lia).
    assert (ST : st_field t v (pre ++ firstn n old ++ skipn n old ++ rest) (length pre) = Some (pre ++ bytes n v ++ skipn n old ++ rest)).
    { destruct T as [-> | ->]; cbn [st_field]; apply st_mid; assumption. }
    rewrite ST. cbn [bind].
    specialize (IH (pre ++ bytes n v) (skipn n old) rest).
    rewrite <- !app_assoc, app_length, bytes_length in IH. apply IH. rewrite skipn_length. lia. }
  induction 1 as [|n v fs vs w V D IH|n v fs vs w N V D IH|x y fs vs w A B D IH]; intros pre old rest L.
  - destruct old; [reflexivity|discriminate].
  - apply G; auto.
  - apply G; auto.
  - cbn [pack_fields]. change (wire ((1%nat, 16 * x + y) :: w)) with (bytes 1 (16 * x + y) ++ wire w) in *.
    rewrite app_length, bytes_length in L. destruct old as [|o old]; [cbn in L; lia|]. cbn [length] in L.
    rewrite !Nat.add_0_r.
    rewrite check_ok by (rewrite !app_length; lia).
    change (pre ++ (o :: old) ++ rest) with (pre ++ [o] ++ old ++ rest).
    cbn [st_field].
    assert (LD : forall o l, ld 1 (pre ++ [o] ++ l) (length pre) = Some o)
      by (intros; unfold ld; rewrite (slice_mid pre [_]); reflexivity).
    rewrite LD. cbn [bind]. rewrite st_mid by reflexivity. cbn [bind].
    rewrite check_ok by (rewrite !app_length; cbn [length]; lia).
    rewrite LD. cbn [bind]. rewrite st_mid by reflexivity. cbn [bind].
    rewrite nib_merge by assumption.
    specialize (IH (pre ++ [16 * x + y]) old rest). rewrite <- !app_assoc, app_length in IH.
    cbn [length] in IH. rewrite IH by lia.
    rewrite bytes1. unfold u8. change (2^8) with 256. rewrite Z.mod_small by (unfold in_u in *; change (2^4) with 16 in *; lia). reflexivity.
Qed.

(** The octets of a table, and how far the type of a field reads. *)
Definition table_size (fs : list field) : nat := fold_right (fun f a => (fst f + a)%nat) 0%nat fs.
Definition reach (t : fty) : nat := match t with U n | I n => n | Hi | Lo => 1 | Bool4 => 4 end.
Definition overread (fs : list field) (len : nat) : Prop :=
  exists pre s t post, fs = pre ++ (s, t) :: post /\
    (table_size pre + s <= len < table_size pre + reach t)%nat.

Lemma slice_some : forall n b off, (off + n <= length b)%nat -> exists l, slice n b off = Some l /\ length l = n.
Proof.
  intros. unfold slice. destruct (Nat.leb_spec (off + n) (length b)); [|lia].
  eexists; split; [reflexivity|]. rewrite firstn_length, skipn_length. lia.
Qed.
Lemma slice_none : forall n b off, (length b < off + n)%nat -> slice n b off = None.
Proof. intros. unfold slice. destruct (Nat.leb_spec (off + n) (length b)); [lia|]. reflexivity. Qed.

Lemma ld_field_some : forall t b off, (off + reach t <= length b)%nat -> exists v, ld_field t b off = Some v.
Proof.
  intros t b off H. destruct t; cbn [reach ld_field] in *; unfold ld, ld_le;
    match goal with |- context [slice ?n ?b ?o] => destruct (slice_some n b o H) as (l & E & _); rewrite E end; cbn [bind]; eauto.
Qed.
Lemma ld_field_none : forall t b off, (length b < off + reach t)%nat -> ld_field t b off = None.
Proof. intros t b off H. destruct t; cbn [reach ld_field] in *; unfold ld, ld_le; rewrite slice_none by assumption; reflexivity. Qed.

Lemma overread_cons : forall s t fs n off, (off + s <= n)%nat ->
  overread ((s, t) :: fs) (n - off) <-> ((n < off + reach t)%nat \/ overread fs (n - (off + s))).
Proof.
  intros s t fs n off H. split.
  - intros (pre & s' & t' & post & E & B). destruct pre as [|x pre]; cbn in E; inversion E; subst; clear E.
    + cbn in B. left. lia.
    + right. exists pre, s', t', post. split; [reflexivity|]. cbn in B. unfold table_size. lia.
  - intros [L|(pre & s' & t' & post & E & B)].
    + exists [], s, t, fs. split; [reflexivity|]. cbn. lia.
    + exists ((s, t) :: pre), s', t', post. rewrite E. split; [reflexivity|]. cbn. unfold table_size in B. lia.
Qed.

Lemma overread_short : forall s t fs n, (n < s)%nat -> ~ overread ((s, t) :: fs) n.
Proof.
  intros s t fs n H (pre & s' & t' & post & E & B). destruct pre as [|x pre]; cbn in E; inversion E; subst; clear E; cbn in B; lia.
Qed.

Lemma unpack_fields_cases : forall fs b off, (off <= length b)%nat ->
  (overread fs (length b - off) /\ unpack_fields fs b off = None) \/
  (~ overread fs (length b - off) /\ (length b - off < table_size fs)%nat /\ unpack_fields fs b off = Some None) \/
  (~ overread fs (length b - off) /\ (table_size fs <= length b - off)%nat /\
   exists vs, unpack_fields fs b off = Some (Some vs) /\ length vs = length fs).
Proof.
  induction fs as [|[s t] fs IH]; intros b off O.
  - right. right. split; [|split; [cbn; lia|exists []; split; reflexivity]].
    intros (pre & s & t & post & E & _). destruct pre; discriminate.
  - cbn [unpack_fields table_size fold_right fst]. unfold check.
    destruct (Nat.ltb_spec (length b) (off + s)) as [L|L].
    + right. left. split; [apply overread_short; lia|]. split; [lia|reflexivity].
    + destruct (overread_cons s t fs (length b) off L) as [D1 D2].
      destruct (Nat.ltb_spec (length b) (off + reach t)) as [R|R].
      { left. split; [auto|]. rewrite ld_field_none by assumption. reflexivity. }
      destruct (ld_field_some t b off R) as (v & ->). cbn [bind].
      fold (table_size fs).
      destruct (IH b (off + s)%nat L) as [(Q & ->)|[(Q & T & ->)|(Q & T & vs & -> & LV)]].
      * left. auto.
      * right. left. split; [intros X; destruct (D1 X); [lia|tauto]|]. split; [lia|reflexivity].
      * right. right. split; [intros X; destruct (D1 X); [lia|tauto]|]. split; [lia|].
        exists (v :: vs). split; [reflexivity|cbn; lia].
Qed.

(** The lengths at which a table over-reads, computed. *)
Fixpoint bad_lengths (fs : list field) (at_ : nat) : list nat :=
  match fs with
  | [] => []
  | (s, t) :: fs' => seq (at_ + s) (reach t - s) ++ bad_lengths fs' (at_ + s)
  end.
Lemma overread_bad : forall fs n at_, In (at_ + n)%nat (bad_lengths fs at_) <-> overread fs n.
Proof.
  induction fs as [|[s t] fs IH]; intros n at_; cbn [bad_lengths].
  - split; [contradiction|]. intros (pre & s & t & post & E & _). destruct pre; discriminate.
  - rewrite in_app_iff, in_seq. destruct (Nat.ltb_spec n s) as [L|L].
    + split.
      * intros [H|H]; [lia|]. exfalso.
        assert (M : forall fs a x, In x (bad_lengths fs a) -> (a <= x)%nat).
        { clear. induction fs as [|[s t] fs IH]; intros a x H; cbn [bad_lengths] in H; [contradiction|].
          apply in_app_iff in H. destruct H as [H|H]; [apply in_seq in H; lia|apply IH in H; lia]. }
        apply M in H. lia.
      * intros H. apply overread_short in H; tauto.
    + pose proof (overread_cons s t fs n 0 ltac:(lia)) as D. rewrite Nat.sub_0_r in D. rewrite D. clear D.
      specialize (IH (n - (0 + s))%nat (at_ + s)%nat).
      replace (at_ + s + (n - (0 + s)))%nat with (at_ + n)%nat in IH by lia.
      rewrite IH. split; intros [H|H]; auto; left; lia.
Qed.

(** *** Decoding arbitrary datagrams *)
Lemma bytes_ext : forall n v w, v mod 256 ^ Z.of_nat n = w mod 256 ^ Z.of_nat n -> bytes n v = bytes n w.
Proof.
  induction n as [|n IH]; intros v w H; [reflexivity|]. cbn [bytes].
  rewrite Nat2Z.inj_succ, Z.pow_succ_r in H by lia. pose proof (pow256_pos n) as P.
  rewrite Z.mul_comm in H. rewrite !Z.rem_mul_r in H by lia.
  assert (v mod 256 ^ Z.of_nat n = w mod 256 ^ Z.of_nat n).
  { apply (f_equal (fun z => z mod 256 ^ Z.of_nat n)) in H.
    rewrite !(Z.mul_comm (256 ^ Z.of_nat n)), !Z.mod_add, !Z.mod_mod in H by lia. exact H. }
  rewrite (IH v w) by assumption. f_equal. nia.
Qed.

Lemma be_range : forall l, all_octets l -> 0 <= be l < 256 ^ Z.of_nat (length l).
Proof.
  intros l H. induction H as [|y l Y H IH]; [cbn; lia|]. rewrite be_cons. cbn [length].
  rewrite Nat2Z.inj_succ, Z.pow_succ_r by lia. pose proof (pow256_pos (length l)). unfold is_octet in Y. nia.
Qed.

Lemma bytes_be : forall l, all_octets l -> bytes (length l) (be l) = l.
Proof.
  induction l as [|x l IH]; intros A; [reflexivity|]. inversion A; subst. cbn [length bytes].
  pose proof (be_range l H2) as B. pose proof (pow256_pos (length l)).
  rewrite be_cons. f_equal.
  - rewrite Z.div_add_l by lia.
    rewrite (Z.div_small (be l)) by assumption. rewrite Z.add_0_r. apply Z.mod_small. assumption.
  - rewrite (bytes_ext _ _ (be l)); [auto|]. rewrite Z.add_comm, Z.mod_add by lia. reflexivity.
Qed.

(** Reading and writing back give the same octets. *)
Lemma ld_back : forall n b off v, all_octets b -> ld n b off = Some v ->
  in_u (8 * Z.of_nat n) v /\ bytes n v = firstn n (skipn off b).
Proof.
  intros n b off v A H. unfold ld in H. destruct (slice n b off) as [l|] eqn:E; [|discriminate].
  cbn in H. injection H as <-. unfold slice in E.
  destruct (Nat.leb_spec (off + n) (length b)) as [L|L]; [|discriminate]. injection E as <-.
  assert (A' : all_octets (firstn n (skipn off b))).
  { apply Forall_forall. intros x X. unfold all_octets in A. rewrite Forall_forall in A. apply A.
    rewrite <- (firstn_skipn off b). apply in_or_app. right.
    rewrite <- (firstn_skipn n (skipn off b)). apply in_or_app. left. exact X. }
  assert (LL : length (firstn n (skipn off b)) = n) by (rewrite firstn_length, skipn_length; lia).
  split.
  - pose proof (be_range _ A') as R. rewrite LL, pow256_pow2 in R. exact R.
  - rewrite <- LL at 1. apply bytes_be. assumption.
Qed.
