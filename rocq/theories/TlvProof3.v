(** Sending TLVs, and receiving what was sent (C42). *)
Require Import ZArith List Bool Lia Wf_nat.
Import ListNotations.
From Verif Require Import Base MsgSpec MsgModel MsgProof MsgProof2 TlvSpec TlvModel TlvProof TlvProof2.
Open Scope Z_scope.

Lemma with_split : forall (m : octets), (4 <= length m)%nat -> m = firstn 2 m ++ part 2 2 m ++ skipn 4 m.
Proof.
  intros m L. unfold part. rewrite <- (firstn_skipn 2 m) at 1. f_equal.
  rewrite <- (firstn_skipn 2 (skipn 2 m)) at 1. f_equal. now rewrite skipn_add.
Qed.

Lemma with_length_len : forall n m, (4 <= length m)%nat -> length (with_length n m) = length m.
Proof.
  intros n m L. unfold with_length. rewrite !app_length, firstn_length, skipn_length, bytes_length. lia.
Qed.

Lemma set_length_0 : forall n m t, (4 <= length m)%nat ->
  set_length 0 n (m ++ t) = Some (with_length n m ++ t).
Proof.
  intros n m t L. unfold set_length. cbn [Nat.add]. rewrite (with_split m L) at 1. rewrite <- !app_assoc.
  assert (L2 : length (firstn 2 m) = 2%nat) by (rewrite firstn_length; lia).
  rewrite <- L2 at 1. rewrite st_mid.
  - unfold with_length. now rewrite <- !app_assoc.
  - unfold part. rewrite firstn_length, skipn_length, bytes_length. lia.
Qed.

Lemma set_length_at : forall n (m : octets) ty old rest, length old = 2%nat ->
  set_length (length m) n (m ++ bytes 2 ty ++ old ++ rest)
  = Some (m ++ bytes 2 ty ++ bytes 2 (Z.of_nat n) ++ rest).
Proof.
  intros n m ty old rest L. unfold set_length. rewrite !app_assoc.
  replace (length m + 2)%nat with (length (m ++ bytes 2 ty)) by (rewrite app_length, bytes_length; reflexivity).
  rewrite <- (app_assoc (m ++ bytes 2 ty)). rewrite st_mid by (rewrite bytes_length; exact L). now rewrite !app_assoc.
Qed.

Lemma get_length_ok : forall m t, (4 <= length m)%nat -> all_octets m ->
  get_length (m ++ t) = Some (Z.to_nat (claimed_length m)).
Proof.
  intros m t L A. unfold get_length, claimed_length. unfold ld, slice.
  destruct (Nat.leb_spec (2 + 2) (length (m ++ t))) as [_|H]; [|rewrite app_length in H; lia].
  cbn [bind]. rewrite skipn_app, firstn_app, skipn_length.
  replace (2 - (length m - 2))%nat with 0%nat by lia. rewrite firstn_O, app_nil_r.
  destruct m as [|a [|b [|c [|d m]]]]; cbn [length] in L; try lia. cbn [skipn firstn nth]. unfold be. cbn [fold_left].
  reflexivity.
Qed.

Lemma boundary_ok : forall (m t : octets), (4 <= length m)%nat -> Nat.even (length m) = true ->
  Nat.even (length t) = true -> (0 < length t)%nat -> boundary_check (length m) (m ++ t) = Some tt.
Proof.
  intros m t L E F P. unfold boundary_check. rewrite app_length.
  destruct (Nat.ltb_spec 4 (length m + length t)); [|lia].
  destruct (Nat.ltb_spec (length m) (length m + length t)); [|lia].
  rewrite E, Nat.even_add, E, F. reflexivity.
Qed.

Lemma pack_head : forall ty junk (m : octets) old rest, in_u 16 ty -> in_u 16 junk -> length old = 4%nat ->
  pack_fields [f 2; f 2] [ty; junk] (m ++ old ++ rest) (length m) = Some (Some (m ++ bytes 2 ty ++ bytes 2 junk ++ rest)).
Proof.
  intros ty junk m old rest T J L. erewrite pack_described with (w := [(2%nat, ty); (2%nat, junk)]).
  - unfold wire. cbn [flat_map fst snd]. rewrite app_nil_r, <- !app_assoc. reflexivity.
  - apply d_u; [exact T|]. apply d_u; [exact J|]. apply d_nil.
  - exact L.
Qed.

Lemma pack_all : forall fs els o, filled_all fs els o -> forall pre old rest, length old = length o ->
  pack_elements fs els (length pre) (pre ++ old ++ rest) = Some ((length pre + length o)%nat, pre ++ o ++ rest).
Proof.
  intros fs els o H. induction H as [|e els w o D H IH]; intros pre old rest L.
  - destruct old; [|discriminate]. cbn [pack_elements]. cbn. now rewrite Nat.add_0_r.
  - cbn [pack_elements]. rewrite app_length in L.
    rewrite <- (firstn_skipn (length (wire w)) old), <- app_assoc.
    rewrite (pack_described fs e w D pre) by (rewrite firstn_length; lia).
    rewrite <- (described_size fs e w D).
    replace (length pre + length (wire w))%nat with (length (pre ++ wire w)) by (rewrite app_length; reflexivity).
    rewrite app_assoc, IH by (rewrite skipn_length; lia). rewrite !app_length, <- !app_assoc. do 2 f_equal. lia.
Qed.

Lemma finish_even : forall (m : octets) ty old v rest, (4 <= length m)%nat -> length old = 2%nat ->
  Nat.even (length m) = true -> Nat.even (length v) = true ->
  finish_tlv (length m) (length m + 4 + length v) (m ++ bytes 2 ty ++ old ++ v ++ rest)
  = Some (with_length (length m + 4 + length v) m ++ tlv_wire (mkTlv ty v) ++ rest).
Proof.
  intros m ty old v rest L O E F. unfold finish_tlv.
  rewrite !Nat.even_add, E, F. cbn [Bool.eqb Nat.even bind fst snd].
  rewrite set_length_at by exact O. cbn [bind]. rewrite set_length_0 by exact L.
  unfold tlv_wire. cbn [t_type t_value].
  replace (length m + 4 + length v - length m - 4)%nat with (length v) by lia. now rewrite <- !app_assoc.
Qed.

Lemma finish_odd : forall (m : octets) ty old v pad rest, (4 <= length m)%nat -> length old = 2%nat ->
  Nat.even (length m) = true -> Nat.even (length v) = false ->
  finish_tlv (length m) (length m + 4 + length v) (m ++ bytes 2 ty ++ old ++ v ++ [pad] ++ rest)
  = Some (with_length (length m + 4 + length v + 1) m ++ tlv_wire (mkTlv ty (v ++ [0])) ++ rest).
Proof.
  intros m ty old v pad rest L O E F. unfold finish_tlv.
  rewrite !Nat.even_add, E, F. cbn [Bool.eqb Nat.even bind fst snd].
  match goal with |- context [Nat.ltb ?a ?b] => destruct (Nat.ltb_spec a b) as [X|_] end.
  { rewrite !app_length, bytes_length in X. cbn [length] in X. lia. }
  assert (R : m ++ bytes 2 ty ++ old ++ v ++ [pad] ++ rest = (m ++ bytes 2 ty ++ old ++ v) ++ [pad] ++ rest)
    by (now rewrite <- !app_assoc).
  rewrite R. replace (length m + 4 + length v)%nat with (length (m ++ bytes 2 ty ++ old ++ v)) at 1
    by (rewrite !app_length, bytes_length; lia).
  rewrite st_mid by reflexivity. cbn [bind fst snd]. rewrite <- !app_assoc.
  rewrite set_length_at by exact O. cbn [bind]. rewrite set_length_0 by exact L.
  unfold tlv_wire. cbn [t_type t_value]. rewrite app_length. cbn [length].
  replace (length m + 4 + length v + 1 - length m - 4)%nat with (length v + 1)%nat by lia. now rewrite <- !app_assoc.
Qed.

Lemma split_old : forall n (t : octets), (n <= length t)%nat -> t = firstn n t ++ skipn n t /\ length (firstn n t) = n.
Proof. intros n t L. now rewrite firstn_skipn, firstn_length_le. Qed.

(** [packs pre p n P]: packing the preamble turns the [n] octets [old] into [P old]. *)
Definition packs (pre : list field) (p : list Z) (n : nat) (P : octets -> octets) : Prop :=
  sizes pre = n /\
  forall a old rest, length old = n -> all_octets old ->
    length (P old) = n /\ pack_fields pre p (a ++ old ++ rest) (length a) = Some (Some (a ++ P old ++ rest)).

Lemma described_packs : forall pre p w, described pre p w -> packs pre p (length (wire w)) (fun _ => wire w).
Proof.
  intros pre p w D. split; [symmetry; eapply described_size; exact D|].
  intros a old rest L _. split; [reflexivity|]. apply pack_described; assumption.
Qed.

Lemma append_packed : forall ty junk pre el p n P els o m t,
  in_u 16 ty -> in_u 16 junk -> packs pre p n P -> filled_all el els o ->
  all_octets m -> (4 <= length m)%nat -> claimed_length m = Z.of_nat (length m) ->
  Nat.even (length m) = true -> Nat.even (length t) = true -> Nat.even (n + length o) = true ->
  (4 + (n + length o) <= length t)%nat -> all_octets t ->
  append_report ty junk pre el p els (m ++ t)
  = Some (with_length (length m + 4 + (n + length o)) m ++ tlv_wire (mkTlv ty (P (part 4 n t) ++ o))
          ++ skipn (4 + (n + length o)) t).
Proof.
  intros ty junk pre el p n P els o m t T J [SZ PK] FA A L C E F V R AT. unfold append_report.
  rewrite get_length_ok, C, Nat2Z.id by assumption. cbn [bind].
  rewrite boundary_ok by (assumption || lia). cbn [bind].
  assert (ST : t = firstn 4 t ++ part 4 n t ++ part (4 + n) (length o) t ++ skipn (4 + (n + length o)) t).
  { unfold part. rewrite <- (firstn_skipn 4 t) at 1. f_equal. rewrite <- (firstn_skipn n (skipn 4 t)) at 1. f_equal.
    rewrite skipn_add. rewrite <- (firstn_skipn (length o) (skipn (4 + n) t)) at 1. f_equal.
    rewrite skipn_add. now rewrite Nat.add_assoc. }
  assert (L4 : length (firstn 4 t) = 4%nat) by (rewrite firstn_length; lia).
  assert (LN : length (part 4 n t) = n) by (unfold part; rewrite firstn_length, skipn_length; lia).
  assert (LO : length (part (4 + n) (length o) t) = length o) by (unfold part; rewrite firstn_length, skipn_length; lia).
  assert (AP : all_octets (part 4 n t)) by (apply part_octets; exact AT).
  set (rest := skipn (4 + (n + length o)) t) in *.
  rewrite ST at 1. rewrite pack_head by assumption.
  match goal with |- context [pack_fields pre p ?b ?k] =>
    replace (pack_fields pre p b k) with (pack_fields pre p b (length (m ++ bytes 2 ty ++ bytes 2 junk)))
      by (f_equal; rewrite !app_length, !bytes_length; lia) end.
  destruct (PK (m ++ bytes 2 ty ++ bytes 2 junk) (part 4 n t) (part (4 + n) (length o) t ++ rest) LN AP) as [LP E1].
  rewrite <- !app_assoc in E1. rewrite E1. clear E1.
  set (v1 := P (part 4 n t)) in *. rewrite SZ.
  replace (length m + 4 + n)%nat with (length (m ++ bytes 2 ty ++ bytes 2 junk ++ v1))
    by (rewrite !app_length, !bytes_length; lia).
  pose proof (pack_all el els o FA (m ++ bytes 2 ty ++ bytes 2 junk ++ v1) _ rest LO) as E2.
  rewrite <- !app_assoc in E2. rewrite E2. cbn [bind fst snd].
  pose proof (finish_even m ty (bytes 2 junk) (v1 ++ o) rest L (bytes_length _ _) E) as E3.
  rewrite app_length, LP, <- !app_assoc in E3. rewrite <- (E3 V). f_equal.
  rewrite !app_length, !bytes_length. lia.
Qed.

Lemma low_half : forall x v, is_octet x -> in_u 4 v -> u8 (Z.lor (Z.land x 240) v) = 16 * (x / 16) + v.
Proof.
  assert (G : forallb (fun x => forallb (fun v => u8 (Z.lor (Z.land (Z.of_nat x) 240) (Z.of_nat v)) =? 16 * (Z.of_nat x / 16) + Z.of_nat v)
    (seq 0 16)) (seq 0 256) = true) by (vm_compute; reflexivity).
  intros x v X V. unfold is_octet, in_u in *. change (2 ^ 4) with 16 in V.
  rewrite forallb_forall in G. specialize (G (Z.to_nat x)). rewrite forallb_forall in G.
  specialize (G ltac:(apply in_seq; lia) (Z.to_nat v) ltac:(apply in_seq; lia)).
  rewrite !Z2Nat.id in G by lia. lia.
Qed.

Lemma ld1_mid : forall pre x rest, is_octet x -> ld 1 (pre ++ x :: rest) (length pre) = Some x.
Proof.
  intros pre x rest X. pose proof (ld_bytes pre 1 x rest) as E.
  unfold is_octet in X.
  replace (bytes 1 x) with [x] in E by (cbn [bytes]; unfold u8; rewrite Z.pow_0_r, Z.div_1_r, ?Z.mod_small by lia; reflexivity).
  cbn [app] in E. rewrite E. f_equal. change (256 ^ Z.of_nat 1) with 256. apply Z.mod_small. lia.
Qed.

Lemma st1_mid : forall pre x y rest, st (length pre) [y] (pre ++ x :: rest) = Some (pre ++ y :: rest).
Proof. intros. apply (st_mid pre [x] [y] rest eq_refl). Qed.

Lemma pack_fields_app : forall a vs b ws B off, length vs = length a ->
  pack_fields (a ++ b) (vs ++ ws) B off = rbind (pack_fields a vs B off) (fun B => pack_fields b ws B (off + sizes a)).
Proof.
  induction a as [|[n t] a IH]; intros vs b ws B off L.
  - destruct vs; [|discriminate]. cbn [app pack_fields rbind]. unfold sizes. cbn [fold_right]. now rewrite Nat.add_0_r.
  - destruct vs as [|v vs]; [discriminate|]. cbn [app pack_fields]. unfold check.
    destruct (Nat.ltb _ _); [reflexivity|]. destruct (st_field t v B off) as [B'|]; [|reflexivity]. cbn [bind].
    rewrite IH by (cbn in L; lia).
    match goal with |- context [sizes (?y :: a)] => change (sizes (y :: a)) with (n + sizes a)%nat end.
    now rewrite Nat.add_assoc.
Qed.

Lemma tx_packs : forall p w t r0 r1, described tx_port p w -> in_u 4 t -> in_u 4 r0 -> is_octet r1 ->
  packs d_txts_pre (p ++ [t; r0; r1]) 12 (fun old => wire w ++ [16 * (nth 10 old 0 / 16) + t; r1]).
Proof.
  intros p w t r0 r1 D T R0 R1. split; [reflexivity|]. intros a old rest L AO.
  pose proof (described_size _ _ _ D) as LW. change (sizes tx_port) with 10%nat in LW.
  split; [rewrite app_length, LW; reflexivity|].
  change d_txts_pre with (tx_port ++ [(1%nat, Lo); (0%nat, Hi); f 1]).
  assert (LP : length p = length tx_port).
  { inversion D as [|? ? ? ? ? _ D1| |]; subst. inversion D1 as [|? ? ? ? ? _ D2| |]; subst. inversion D2. reflexivity. }
  rewrite pack_fields_app by exact LP.
  assert (SO : exists x y, old = firstn 10 old ++ [x; y] /\ nth 10 old 0 = x /\ is_octet x /\ is_octet y).
  { do 12 (destruct old as [|? old]; [discriminate|]). destruct old; [|discriminate].
    do 2 eexists. split; [reflexivity|]. split; [reflexivity|].
    unfold all_octets in AO; rewrite Forall_forall in AO. split; apply AO; cbn; tauto. }
  destruct SO as (x & y & SO & -> & X & Y).
  rewrite SO at 1. rewrite <- (app_assoc (firstn 10 old)).
  rewrite (pack_described _ _ _ D) by (rewrite firstn_length; lia). cbn [rbind].
  change (sizes tx_port) with 10%nat. rewrite <- LW, <- app_length.
  replace (a ++ wire w ++ [x; y] ++ rest) with ((a ++ wire w) ++ x :: y :: rest) by (rewrite <- app_assoc; reflexivity).
  replace (a ++ (wire w ++ [16 * (x / 16) + t; r1]) ++ rest) with ((a ++ wire w) ++ (16 * (x / 16) + t) :: r1 :: rest)
    by (rewrite <- !app_assoc; reflexivity).
  generalize (a ++ wire w). clear - X Y T R0 R1. intros q.
  assert (CK : forall (q l : octets) n B, (n <= length l)%nat -> check (length q) n (q ++ l) B = (B : result octets)).
  { intros q' l n B Ln. unfold check. destruct (Nat.ltb_spec (length (q' ++ l)) (length q' + n)) as [H|_]; [rewrite app_length in H; lia|reflexivity]. }
  cbn [pack_fields]. rewrite CK by (cbn; lia). cbn [st_field]. rewrite ld1_mid by exact X. cbn [bind].
  rewrite st1_mid, low_half by assumption. cbn [bind].
  set (z := 16 * (x / 16) + t).
  replace (length q + 1)%nat with (length (q ++ [z])) by (rewrite app_length; reflexivity).
  replace (q ++ z :: y :: rest) with ((q ++ [z]) ++ y :: rest) by (rewrite <- app_assoc; reflexivity).
  rewrite CK by (cbn; lia). rewrite ld1_mid by exact Y. cbn [bind]. rewrite st1_mid. cbn [bind].
  cbn [f]. rewrite Nat.add_0_r, CK by (cbn; lia). cbn [f st_field].
  replace (bytes 1 r1) with [r1] by (cbn [bytes]; unfold is_octet in R1; unfold u8; rewrite Z.pow_0_r, Z.div_1_r, ?Z.mod_small by lia; reflexivity).
  rewrite st1_mid. cbn [bind]. now rewrite <- app_assoc.
Qed.

Lemma caps_packs : forall a c, in_u 4 a -> in_u 4 c ->
  packs d_port_caps [a; c] 2 (fun old => [16 * (nth 0 old 0 / 16) + a; 16 * (nth 1 old 0 / 16) + c]).
Proof.
  intros a c A C. split; [reflexivity|]. intros q old rest L AO. split; [reflexivity|].
  destruct old as [|x [|y [|]]]; try discriminate.
  assert (X : is_octet x /\ is_octet y) by (unfold all_octets in AO; rewrite Forall_forall in AO; split; apply AO; cbn; tauto). destruct X as [X Y].
  assert (CK : forall (q l : octets) n B, (n <= length l)%nat -> check (length q) n (q ++ l) B = (B : result octets)).
  { intros q' l n B Ln. unfold check. destruct (Nat.ltb_spec (length (q' ++ l)) (length q' + n)) as [H|_]; [rewrite app_length in H; lia|reflexivity]. }
  cbn [app nth]. unfold d_port_caps. cbn [pack_fields]. rewrite CK by (cbn; lia). cbn [st_field]. rewrite ld1_mid by exact X. cbn [bind].
  rewrite st1_mid, low_half by assumption. cbn [bind].
  set (z := 16 * (x / 16) + a).
  replace (length q + 1)%nat with (length (q ++ [z])) by (rewrite app_length; reflexivity).
  replace (q ++ z :: y :: rest) with ((q ++ [z]) ++ y :: rest) by (rewrite <- app_assoc; reflexivity).
  rewrite CK by (cbn; lia). rewrite ld1_mid by exact Y. cbn [bind]. rewrite st1_mid, low_half by assumption. cbn [bind].
  now rewrite <- app_assoc.
Qed.

(** The capabilities TLV is a report without elements. *)
Lemma append_caps_report : forall junk a c b, append_caps junk a c b = append_report 32770 junk d_port_caps [] [a; c] [] b.
Proof. reflexivity. Qed.

Lemma append_status_wire : forall v w m t, described status_fields v w ->
  all_octets m -> (4 <= length m)%nat -> claimed_length m = Z.of_nat (length m) ->
  Nat.even (length m) = true -> Nat.even (length t) = true -> (38 <= length t)%nat ->
  append_status v (m ++ t)
  = Some (with_length (length m + 38) m ++ tlv_wire (mkTlv 32768 (sfc_status ++ wire w ++ [0])) ++ skipn 38 t).
Proof.
  intros v w m t D A L C E F R. unfold append_status.
  rewrite get_length_ok, C, Nat2Z.id by assumption. cbn [bind].
  rewrite boundary_ok by (assumption || lia). cbn [bind].
  pose proof (described_size _ _ _ D) as LW. change (sizes status_fields) with 27%nat in LW.
  destruct (split_old 10 t ltac:(lia)) as [S1 L1].
  destruct (split_old 27 (skipn 10 t) ltac:(rewrite skipn_length; lia)) as [S2 L2]. rewrite skipn_add in S2.
  destruct (split_old 1 (skipn 37 t) ltac:(rewrite skipn_length; lia)) as [S3 L3]. rewrite skipn_add in S3.
  cbn [Nat.add] in S2, S3. rewrite S2, S3 in S1.
  destruct (firstn 1 (skipn 37 t)) as [|pad [|]] eqn:EP; try discriminate.
  set (rest := skipn 38 t) in *. rewrite S1 at 1.
  assert (HD : described [f 2; f 2; f 3; f 3] [32768; 6; 3923; 1] [(2%nat, 32768); (2%nat, 6); (3%nat, 3923); (3%nat, 1)])
    by (repeat (apply d_u; [unfold in_u; cbn; lia|]); apply d_nil).
  rewrite (pack_described _ _ _ HD) by exact L1.
  set (hd := wire _). assert (LH : length hd = 10%nat) by reflexivity.
  replace (length m + 10)%nat with (length (m ++ hd)) at 1 by (rewrite app_length, LH; reflexivity).
  rewrite (app_assoc m), (pack_described _ _ _ D) by (rewrite L2, LW; reflexivity).
  change (sizes d_slave_status) with 27%nat.
  pose proof (finish_odd m 32768 (bytes 2 6) (sfc_status ++ wire w) pad rest L (bytes_length _ _) E) as G.
  assert (LS : length (sfc_status ++ wire w) = 33%nat) by (rewrite app_length, LW; reflexivity).
  rewrite LS in G. specialize (G eq_refl).
  replace (length m + 4 + 33)%nat with (length m + 10 + 27)%nat in G by lia.
  replace (length m + 10 + 27 + 1)%nat with (length m + 38)%nat in G by lia.
  rewrite <- !(app_assoc sfc_status) in G. rewrite <- G. f_equal.
  rewrite <- !app_assoc. f_equal. 
Qed.

(** *** Any contents are some report, unless too short. *)
Definition plain_field (p : field) : Prop := snd p = U (fst p) \/ (snd p = I (fst p) /\ (0 < fst p)%nat).

Lemma int_any : forall n l, (0 < n)%nat -> length l = n -> all_octets l ->
  exists v, in_s (8 * Z.of_nat n) v /\ bytes n v = l.
Proof.
  intros n l N L A. pose proof (be_u (8 * Z.of_nat n) l A ltac:(rewrite L; reflexivity)) as B. unfold in_u in B.
  pose proof (wire_be n l A L) as W. set (u := be l) in *.
  assert (P : 2 ^ (8 * Z.of_nat n) = 2 * 2 ^ (8 * Z.of_nat n - 1)) by (rewrite <- Z.pow_succ_r by lia; f_equal; lia).
  destruct (Z_lt_le_dec u (2 ^ (8 * Z.of_nat n - 1))) as [S|G].
  - exists u. split; [unfold in_s; lia|exact W].
  - exists (u - 2 ^ (8 * Z.of_nat n)). split; [unfold in_s; lia|].
    rewrite <- W. apply bytes_ext. rewrite <- (pow256_pow2 n).
    replace (u - 256 ^ Z.of_nat n) with (u + (-1) * 256 ^ Z.of_nat n) by ring.
    apply Z_mod_plus_full.
Qed.

Lemma fill_any : forall fs, Forall plain_field fs -> forall v, all_octets v -> length v = sizes fs ->
  exists vs w, described fs vs w /\ wire w = v.
Proof.
  induction fs as [|[n t] fs IH]; intros P v A L.
  - destruct v; [|discriminate]. exists [], []. split; [apply d_nil|reflexivity].
  - inversion P as [|? ? P1 P2]; subst.
    match goal with _ : length v = sizes (?y :: fs) |- _ => change (sizes (y :: fs)) with (n + sizes fs)%nat in L end.
    assert (A1 : all_octets (firstn n v)) by (apply all_firstn; exact A).
    assert (A2 : all_octets (skipn n v)).
    { unfold all_octets in *. rewrite Forall_forall in *. intros y Y. apply A. rewrite <- (firstn_skipn n v). apply in_or_app. auto. }
    assert (L1 : length (firstn n v) = n) by (rewrite firstn_length; lia).
    destruct (IH P2 (skipn n v) A2) as (vs & w & D & W); [rewrite skipn_length; lia|].
    destruct P1 as [E|[E N]]; cbn [fst snd] in *; subst t.
    + exists (be (firstn n v) :: vs), ((n, be (firstn n v)) :: w). split.
      * apply d_u; [|exact D]. apply be_u; [exact A1|rewrite L1; reflexivity].
      * unfold wire in *. cbn [flat_map fst snd]. rewrite W, wire_be by assumption. apply firstn_skipn.
    + destruct (int_any n (firstn n v) N L1 A1) as (z & Z1 & Z2).
      exists (z :: vs), ((n, z) :: w). split; [apply d_i; assumption|].
      unfold wire in *. cbn [flat_map fst snd]. rewrite W, Z2. apply firstn_skipn.
Qed.

Lemma fill_all_any : forall fs k, Forall plain_field fs -> forall v, all_octets v -> length v = (k * sizes fs)%nat ->
  exists els, filled_all fs els v.
Proof.
  intros fs k P. induction k as [|k IH]; intros v A L.
  - destruct v; [|discriminate]. exists []. apply fa_nil.
  - cbn in L.
    assert (A2 : all_octets (skipn (sizes fs) v)).
    { unfold all_octets in *. rewrite Forall_forall in *. intros y Y. apply A. rewrite <- (firstn_skipn (sizes fs) v). apply in_or_app. auto. }
    destruct (fill_any fs P (firstn (sizes fs) v)) as (vs & w & D & W); [apply all_firstn; exact A|rewrite firstn_length; lia|].
    destruct (IH (skipn (sizes fs) v) A2) as (els & F); [rewrite skipn_length; lia|].
    exists (vs :: els). rewrite <- (firstn_skipn (sizes fs) v), <- W. apply fa_cons; assumption.
Qed.

Lemma skipn_octets : forall n v, all_octets v -> all_octets (skipn n v).
Proof.
  intros n v A. unfold all_octets in *. rewrite Forall_forall in *. intros y Y. apply A.
  rewrite <- (firstn_skipn n v). apply in_or_app. auto.
Qed.

Lemma elements_any : forall el v, Forall plain_field el -> (0 < sizes el)%nat -> all_octets v ->
  exists els o slack, filled_all el els o /\ v = o ++ slack /\ (length slack < sizes el)%nat.
Proof.
  intros el v P N A. set (k := (length v / sizes el)%nat).
  pose proof (Nat.div_mod (length v) (sizes el) ltac:(lia)) as DM. fold k in DM.
  pose proof (Nat.mod_upper_bound (length v) (sizes el) ltac:(lia)) as MB.
  destruct (fill_all_any el k P (firstn (k * sizes el) v)) as (els & F).
  - apply all_firstn. exact A.
  - rewrite firstn_length. lia.
  - exists els, (firstn (k * sizes el) v), (skipn (k * sizes el) v). split; [exact F|]. split; [now rewrite firstn_skipn|].
    rewrite skipn_length. lia.
Qed.

(** A collector handles every admitted TLV that is not a report cut short. *)
Lemma acts_any : forall x c v, all_octets v -> ~ cut_report x (c, v) -> exists evs, acts x (c, v) evs.
Proof.
  intros x c v A NB. unfold cut_report in NB. cbn [fst snd] in NB.
  destruct (c_collect x) eqn:CC.
  2: { destruct c; eexists; try apply a_mon; try (apply a_quiet; tauto); apply a_ignored; tauto. }
  assert (PL : forall pre el, Forall plain_field pre -> Forall plain_field el -> (0 < sizes el)%nat -> (sizes pre <= length v)%nat ->
    exists p w els o slack, described pre p w /\ filled_all el els o /\ v = wire w ++ o ++ slack /\ (length slack < sizes el)%nat).
  { intros pre el P1 P2 N L.
    destruct (fill_any pre P1 (firstn (sizes pre) v)) as (p & w & D & W); [apply all_firstn; exact A|rewrite firstn_length; lia|].
    destruct (elements_any el (skipn (sizes pre) v) P2 N (skipn_octets _ _ A)) as (els & o & slack & F & S1 & S2).
    exists p, w, els, o, slack. split; [exact D|]. split; [exact F|]. split; [|exact S2].
    rewrite W, <- S1. now rewrite firstn_skipn. }
  assert (PF : forall l, Forall (fun p : field => snd p = U (fst p) \/ snd p = I (fst p) /\ (0 < fst p)%nat) l -> Forall plain_field l) by auto.
  destruct c; try (eexists; apply a_mon); try (eexists; apply a_quiet; tauto).
  - destruct (PL timing_start timing_element) as (p & w & els & o & sl & D & F & -> & S2);
      try (repeat (apply Forall_cons; [unfold plain_field; cbn; auto with arith; lia|]); apply Forall_nil).
    + cbn. lia.
    + change (sizes timing_start) with 10%nat. destruct (Nat.le_gt_cases 10 (length v)) as [|B]; [assumption|]. elim NB. auto.
    + eexists. apply (a_timing x p w els o sl CC D F S2).
  - destruct (PL computed_start computed_element) as (p & w & els & o & sl & D & F & -> & S2);
      try (repeat (apply Forall_cons; [unfold plain_field; cbn; auto with arith; lia|]); apply Forall_nil).
    + cbn. lia.
    + change (sizes computed_start) with 12%nat. destruct (Nat.le_gt_cases 12 (length v)) as [|B]; [assumption|]. elim NB. auto.
    + eexists. apply (a_computed x p w els o sl CC D F S2).
  - assert (L : (12 <= length v)%nat) by (destruct (Nat.le_gt_cases 12 (length v)) as [|B]; [assumption|elim NB; auto 6]).
    destruct (fill_any tx_port ltac:(repeat (apply Forall_cons; [left; reflexivity|]); apply Forall_nil) (firstn 10 v)) as (p & w & D & W);
      [apply all_firstn; exact A|rewrite firstn_length; change (sizes tx_port) with 10%nat; lia|].
    destruct (elements_any tx_element (skipn 12 v)) as (els & o & slack & F & S1 & S2);
      [repeat (apply Forall_cons; [left; reflexivity|]); apply Forall_nil|cbn; lia|apply skipn_octets; exact A|].
    pose proof (skipn_octets 10 v A) as A3.
    pose proof (skipn_length 10 v) as L3. destruct (skipn 10 v) as [|t [|r q]] eqn:E3; cbn [length] in L3; try lia.
    inversion A3 as [|? ? T A4]; subst. inversion A4 as [|? ? R A5]; subst.
    assert (E4 : skipn 12 v = q) by (change 12%nat with (10 + 2)%nat; rewrite <- skipn_add, E3; reflexivity).
    exists [Report TxStamps (p ++ [t mod 16; r / 16; r]) els].
    rewrite <- (firstn_skipn 10 v), E3, <- W, <- E4, S1.
    exact (a_tx x p w t r els o slack CC D T R F S2).
  - destruct (Nat.le_gt_cases 27 (length v)) as [L|L].
    + destruct (fill_any status_fields ltac:(repeat (apply Forall_cons; [left; reflexivity|]); apply Forall_nil) (firstn 27 v)) as (p & w & D & W);
        [apply all_firstn; exact A|rewrite firstn_length; change (sizes status_fields) with 27%nat; lia|].
      eexists. rewrite <- (firstn_skipn 27 v), <- W. apply (a_status x p w _ CC D).
    + exists []. apply a_short_status; assumption.
Qed.

Lemma acts_all_any : forall x l, Forall (fun e => all_octets (snd e)) l -> ~ Exists (cut_report x) l ->
  exists evss, Forall2 (acts x) l evss.
Proof.
  intros x. induction l as [|[c v] l IH]; intros A N; [exists []; constructor|].
  inversion A; subst. destruct (acts_any x c v) as [evs E]; [assumption|intros H; apply N; now left|].
  destruct IH as [evss F]; [assumption|intros H; apply N; now right|]. exists (evs :: evss). now constructor.
Qed.

Lemma short_fields : forall fs v off, Forall plain_field fs -> (off <= length v)%nat -> (length v < off + sizes fs)%nat ->
  all_octets v -> unpack_fields fs v off = Some None.
Proof.
  induction fs as [|[n t] fs IH]; intros v off P O L A; [cbn in L; lia|].
  match type of L with context [sizes (?y :: fs)] => change (sizes (y :: fs)) with (n + sizes fs)%nat in L end.
  cbn [unpack_fields]. unfold check. destruct (Nat.ltb_spec (length v) (off + n)) as [|B]; [reflexivity|].
  inversion P as [|? ? P1 P2]; subst.
  destruct (ld_any n v off A B) as (u & E & _).
  rewrite (IH v (off + n)%nat P2) by (assumption || lia).
  destruct P1 as [T|[T N]]; cbn [fst snd] in T; subst t; cbn [ld_field]; rewrite E; reflexivity.
Qed.

Lemma cut_aborts : forall x g d, within g d -> all_octets g -> cut_report x (view g d) -> pass2 x g d = None.
Proof.
  intros x g d W A [CC B]. unfold view in *. cbn [fst snd] in B. unfold pass2.
  set (v := firstn (Z.to_nat (d_len d)) (skipn (d_value d) g)) in *.
  assert (AV : all_octets v) by (apply all_firstn, skipn_octets; exact A).
  destruct B as [[E B]|[[E B]|[E B]]]; rewrite E, CC; cbn [report_tables]; unfold unpack_report.
  - rewrite short_fields; [reflexivity| |lia|exact B|exact AV]. repeat (apply Forall_cons; [left; reflexivity|]); apply Forall_nil.
  - rewrite short_fields; [reflexivity| |lia|exact B|exact AV]. repeat (apply Forall_cons; [left; reflexivity|]); apply Forall_nil.
  - change d_txts_pre with (tx_port ++ [(1%nat, Lo); (0%nat, Hi); f 1]). rewrite unpack_fields_app.
    destruct (Nat.le_gt_cases 10 (length v)) as [L|L].
    2: { rewrite short_fields; [reflexivity| |lia|exact L|exact AV]. repeat (apply Forall_cons; [left; reflexivity|]); apply Forall_nil. }
    destruct (unpack_fields tx_port v 0) as [[p|]|]; cbn [rbind]; try reflexivity.
    change (sizes tx_port) with 10%nat. cbn [Nat.add unpack_fields]. unfold check.
    destruct (Nat.ltb_spec (length v) (10 + 1)) as [|G]; [reflexivity|].
    destruct (ld_any 1 v 10 AV G) as (u & E1 & _).
    cbn [ld_field]. rewrite E1. cbn [bind f rbind].
    match goal with |- context [Nat.ltb ?p ?q] => destruct (Nat.ltb_spec p q); [lia|] end.
    destruct (ld 1 v 11) as [z|]; cbn [bind rbind]; [|reflexivity].
    match goal with |- context [Nat.ltb ?p ?q] => destruct (Nat.ltb_spec p q); [reflexivity|lia] end.
Qed.

Lemma second_aborts : forall x g ds, Forall (within g) ds -> all_octets g -> Exists (cut_report x) (map (view g) ds) ->
  second_pass x g ds = None.
Proof.
  intros x g. induction ds as [|d ds IH]; intros W A E; [inversion E|].
  inversion W as [|? ? W1 W2]; subst. cbn [map] in E. cbn [second_pass]. inversion E as [? ? B|? ? B]; subst.
  - rewrite cut_aborts by assumption. reflexivity.
  - rewrite (IH W2 A B). destruct (pass2 x g d); reflexivity.
Qed.

Lemma process_aborts : forall x k junk n g l, k <> KManagement -> all_octets g ->
  firstn n g = firstn (kind_size k) g ++ tlvs_wire l -> (kind_size k <= length g)%nat ->
  Forall tlv_ok l -> org_last l ->
  (length (admitted x k l) <= 32)%nat -> ~ Exists (bad_caps x) (admitted x k l) ->
  Exists (cut_report x) (admitted x k l) ->
  process_tlvs x (kind_code k) junk n g = None.
Proof.
  intros x k junk n g l NM A E L OK OL H1 H2 H3. unfold process_tlvs.
  replace (kind_code k =? 13) with false by (destruct k; reflexivity || congruence).
  rewrite fixed_any by assumption.
  assert (Lk : length (firstn (kind_size k) g) = kind_size k) by (rewrite firstn_length; lia).
  assert (F : (length l < S (length (firstn n g)))%nat).
  { rewrite E, app_length. pose proof (tlvs_count l). lia. }
  destruct (scan_all l (S (length (firstn n g))) x k junk (firstn (kind_size k) g) OK OL F) as [G D].
  rewrite <- E, Lk in G, D.
  destruct (G H1 H2) as (ds & -> & V & W). cbn [bind].
  rewrite second_aborts; [reflexivity| |exact A|].
  - eapply Forall_impl; [|exact W]. apply within_firstn.
  - replace (map (view g) ds) with (admitted x k l); [exact H3|].
    rewrite <- V. apply map_ext_in. intros d Hd. apply view_firstn. rewrite Forall_forall in W. auto.
Qed.

(** A port that collects no reports survives any message. *)
Lemma second_safe : forall x g ds, c_collect x = false -> exists r, second_pass x g ds = Some r.
Proof.
  intros x g ds C. induction ds as [|d ds [r IH]]; [eexists; reflexivity|].
  cbn [second_pass]. assert (P : exists q, pass2 x g d = Some q).
  { unfold pass2. rewrite C. destruct (d_name d); cbn [report_tables]; try (eexists; reflexivity). destruct (c_netsync x); eexists; reflexivity. }
  destruct P as [q ->]. rewrite IH. eexists. reflexivity.
Qed.

Lemma process_safe : forall x k junk n g, c_collect x = false -> all_octets g ->
  exists p, process_tlvs x (kind_code k) junk n g = Some p.
Proof.
  intros x k junk n g C A. unfold process_tlvs. destruct (kind_code k =? 13); [eexists; reflexivity|].
  destruct (scan_sound (S (length (firstn n g))) x k junk (firstn n g) 0 (all_firstn _ _ A) (fixed_size (kind_code k)) [] no_trans
              ltac:(lia) ltac:(cbn; lia) ltac:(apply Forall_nil) ltac:(lia)) as (r & -> & _). cbn [bind].
  destruct r as [l s|]; [|eexists; reflexivity].
  destruct (second_safe x g l C) as [e ->]. eexists. reflexivity.
Qed.

(** *** Whole datagrams. *)
Lemma carries_split : forall k d l pad, carries k d l pad ->
  (kind_size k <= length d)%nat /\ (34 <= length d)%nat /\
  firstn (usable d) d = firstn (kind_size k) d ++ tlvs_wire l ++ pad.
Proof.
  intros k d l pad (A & C & U & P). assert (K : (34 <= kind_size k)%nat) by (destruct k; cbn; lia).
  assert (M : (usable d <= length d)%nat) by (unfold usable; lia).
  split; [lia|]. split; [lia|]. rewrite <- P. unfold part.
  rewrite <- (firstn_skipn (kind_size k) (firstn (usable d) d)). rewrite firstn_firstn, Nat.min_l by lia.
  f_equal. now rewrite skipn_firstn_comm.
Qed.

Lemma carries_decoded : forall k d l pad, k <> KManagement -> carries k d l pad ->
  exists h m, decode d = Some (Some (h, m)) /\ header_wire (seen_header h) = firstn 34 d /\ says k d m /\ mtype h = kind_code k.
Proof.
  intros k d l pad NM H. destruct (carries_split k d l pad H) as (_ & L & _). destruct H as (A & C & U & _).
  destruct (decode_outcome d A) as (_ & _ & G). destruct (G k L C) as (_ & _ & _ & G').
  destruct (G' U) as (h & m & D & _ & W & Sy); [intros [X _]; contradiction|].
  exists h, m. split; [exact D|]. split; [exact W|]. split; [exact Sy|].
  destruct (decoded_kind d h m A D) as (_ & T & _). congruence.
Qed.

Lemma admitted_octets : forall x k l, Forall tlv_ok l -> Forall (fun e => all_octets (snd e)) (admitted x k l).
Proof.
  intros x k l H. unfold admitted. apply Forall_flat_map. eapply Forall_impl; [|exact H].
  intros t (_ & _ & A & _). destruct (meaning t) as [c|]; [|constructor].
  destruct (trusted x c && belongs c k); [|constructor]. constructor; [|constructor]. cbn [snd].
  unfold passed. destruct c; try exact A. apply skipn_octets. exact A.
Qed.

Lemma bytes2_nth : forall n r, Z.of_nat n < 65536 ->
  nth 0 (bytes 2 (Z.of_nat n) ++ r) 0 * 256 + nth 1 (bytes 2 (Z.of_nat n) ++ r) 0 = Z.of_nat n.
Proof.
  intros n r H. cbn [bytes app nth]. unfold u8.
  change (Z.of_nat 1) with 1. change (Z.of_nat 0) with 0. change (256 ^ 1) with 256. change (256 ^ 0) with 1.
  change (2 ^ 8) with 256. rewrite ?Z.div_1_r. lia.
Qed.

Lemma wires_snoc : forall l t, tlvs_wire (l ++ [t]) = tlvs_wire l ++ tlv_wire t.
Proof. intros. unfold tlvs_wire. rewrite flat_map_app. cbn [flat_map]. now rewrite app_nil_r. Qed.

Lemma tlv_octets : forall t, tlv_ok t -> all_octets (tlv_wire t).
Proof.
  intros t (A & B & C & _). unfold tlv_wire, all_octets. repeat (apply Forall_app; split); try exact C; apply bytes_octets.
Qed.

Lemma carries_append : forall k m l t, carries k m l [] -> claimed_length m = Z.of_nat (length m) ->
  tlv_ok t -> Z.of_nat (length m + length (tlv_wire t)) < 65536 ->
  carries k (with_length (length m + length (tlv_wire t)) m ++ tlv_wire t) (l ++ [t]) [].
Proof.
  intros k m l t H CL OK Sz. destruct (carries_split _ _ _ _ H) as (L1 & L2 & Sp). destruct H as (A & C & U & P).
  assert (UM : usable m = length m) by (unfold usable; rewrite CL, Nat2Z.id; lia).
  assert (K : (34 <= kind_size k)%nat) by (destruct k; cbn; lia).
  set (n := (length m + length (tlv_wire t))%nat) in *.
  set (m' := with_length n m). assert (LM : length m' = length m) by (apply with_length_len; lia).
  assert (F2 : length (firstn 2 m) = 2%nat) by (rewrite firstn_length; lia).
  assert (CC : claimed_length (m' ++ tlv_wire t) = Z.of_nat n).
  { unfold claimed_length, m', with_length. rewrite <- !app_assoc.
    rewrite !(app_nth2 (firstn 2 m)) by (rewrite F2; lia). rewrite F2. apply bytes2_nth. exact Sz. }
  assert (UN : usable (m' ++ tlv_wire t) = n).
  { unfold usable. rewrite CC, Nat2Z.id, app_length, LM. unfold n. lia. }
  split; [|split; [|split]].
  - unfold all_octets. apply Forall_app. split; [|apply tlv_octets; exact OK].
    unfold m', with_length. repeat (apply Forall_app; split); [apply all_firstn; exact A|apply bytes_octets|apply skipn_octets; exact A].
  - unfold claimed_code in *. rewrite <- C. f_equal. unfold m', with_length. destruct m as [|a [|b m]]; cbn [length] in *; try lia. reflexivity.
  - rewrite UN. unfold n. rewrite UM in U. lia.
  - rewrite UN. rewrite app_nil_r, wires_snoc. unfold part. rewrite skipn_app, LM.
    replace (kind_size k - length m)%nat with 0%nat by lia. cbn [skipn].
    rewrite UM, app_nil_r in P.
    assert (SM : skipn (kind_size k) m' = tlvs_wire l).
    { rewrite <- P. unfold part. rewrite firstn_all2 by (rewrite skipn_length; lia).
      unfold m', with_length. rewrite !skipn_app, F2, bytes_length.
      rewrite (skipn_all2 (firstn 2 m)) by lia. rewrite (skipn_all2 (bytes 2 _)) by (rewrite bytes_length; lia).
      cbn [app]. rewrite skipn_add. f_equal. lia. }
    rewrite SM. apply firstn_all2. rewrite app_length. unfold n.
    assert (length (tlvs_wire l) = (length m - kind_size k)%nat) by (rewrite <- SM, skipn_length, LM; lia). lia.
Qed.
