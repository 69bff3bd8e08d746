(** Proofs about management messages (MgtModel.v) in the vocabulary of MgtSpec.v. *)
Require Import ZArith List Bool Lia ZifyBool.
Import ListNotations.
From Verif Require Import Base TimeSpec MsgSpec MsgModel MsgProof MsgProof2 MgtSpec MgtModel.
Open Scope Z_scope.

(** ** Reading. *)
Definition rd_field (t : fty) (b : octets) (off : nat) : Z :=
  match t with
  | U n => num off n b | I n => sgn n (num off n b) | Hi => Z.land (Z.shiftr (num off 1 b) 4) 15 | Lo => Z.land (num off 1 b) 15 | Bool4 => le (part off 4 b)
  end.
Fixpoint rd (fs : list field) (b : octets) (off : nat) : list Z :=
  match fs with [] => [] | (size, t) :: fs' => rd_field t b off :: rd fs' b (off + size) end.

Lemma slice_part : forall n b off l, slice n b off = Some l -> l = part off n b.
Proof. unfold slice, part. intros n b off l. destruct (Nat.leb _ _); [now intros [= <-]|discriminate]. Qed.
Lemma ld_num : forall n b off v, ld n b off = Some v -> v = num off n b.
Proof. unfold ld. intros n b off v. destruct (slice n b off) as [l|] eqn:E; [|discriminate]. cbn [bind]. intros [= <-]. apply slice_part in E. subst l. reflexivity. Qed.
Lemma ld_field_rd : forall t b off v, ld_field t b off = Some v -> v = rd_field t b off.
Proof.
  intros [n|n| | |] b off v; cbn [ld_field rd_field].
  - apply ld_num.
  - destruct (ld n b off) eqn:E; [|discriminate]. cbn [bind]. intros [= <-]. now rewrite (ld_num _ _ _ _ E).
  - destruct (ld 1 b off) eqn:E; [|discriminate]. cbn [bind]. intros [= <-]. now rewrite (ld_num _ _ _ _ E).
  - destruct (ld 1 b off) eqn:E; [|discriminate]. cbn [bind]. intros [= <-]. now rewrite (ld_num _ _ _ _ E).
  - unfold ld_le. destruct (slice 4 b off) eqn:E; [|discriminate]. cbn [bind]. intros [= <-]. now rewrite (slice_part _ _ _ _ E).
Qed.
Lemma unpack_rd : forall fs b off vs, unpack_fields fs b off = Some (Some vs) -> vs = rd fs b off /\ (off <= length b -> off + table_size fs <= length b)%nat.
Proof.
  induction fs as [|[n t] fs IH]; intros b off vs; cbn [unpack_fields rd].
  - intros [= <-]. split; [reflexivity|]. unfold table_size. cbn. lia.
  - unfold check. destruct (Nat.ltb_spec (length b) (off + n)); [discriminate|]. destruct (ld_field t b off) as [v|] eqn:E; [|discriminate]. cbn [bind].
    destruct (unpack_fields fs b (off + n)) as [[vs'|]|] eqn:U; try discriminate. cbn [rbind]. intros [= <-]. apply IH in U. destruct U as [-> L].
    apply ld_field_rd in E. subst v. split; [reflexivity|]. unfold table_size in *. cbn [fold_right fst]. lia.
Qed.
(** The fields of a table without truth values lie within its octets. *)
Definition narrow (fs : list field) : Prop := Forall (fun x => match snd x with U n | I n => fst x = n | Lo => fst x = 1%nat | Hi => fst x = 0%nat | Bool4 => False end) fs.
Lemma num_firstn : forall off n m b, (off + n <= m)%nat -> num off n (firstn m b) = num off n b.
Proof. intros. unfold num. now rewrite part_firstn. Qed.
Lemma octet_firstn : forall i m b, (i < m)%nat -> octet i (firstn m b) = octet i b.
Proof. intros. apply nth_firstn. assumption. Qed.
Lemma rd_firstn : forall fs m b off, narrow fs -> (off + table_size fs < m \/ (off + table_size fs <= m /\ ~ In (0%nat, Hi) fs))%nat -> rd fs (firstn m b) off = rd fs b off.
Proof.
  induction fs as [|[n t] fs IH]; intros m b off N L; [reflexivity|]. inversion N as [|? ? H N']; subst. cbn [fst snd] in H. unfold table_size in L. cbn [fold_right fst] in L.
  fold (table_size fs) in L. cbn [rd]. rewrite IH; [|assumption|destruct L as [L|[L NI]]; [left; lia|right; split; [lia|intro; apply NI; right; assumption]]]. f_equal.
  destruct t; cbn [rd_field]; subst; rewrite ?num_firstn; try reflexivity; try lia.
  destruct L as [L|[L NI]]; [lia|]. exfalso. apply NI. now left.
Qed.
Lemma num1 : forall off b, (off < length b)%nat -> num off 1 b = octet off b.
Proof. intros off b L. unfold num. rewrite nth_part by assumption. cbn [fold_left]. unfold octet. lia. Qed.
Lemma num1' : forall off d n, (off < n)%nat -> (n <= length d)%nat -> num off 1 d = octet off d.
Proof. intros. apply num1. lia. Qed.
Lemma num_range : forall off n b, all_octets b -> 0 <= num off n b < 256 ^ Z.of_nat n.
Proof.
  intros off n b A. unfold num. assert (A' : all_octets (part off n b)) by (unfold part; apply all_firstn; unfold all_octets in *; rewrite Forall_forall in *; intros x I; apply A;
    rewrite <- (firstn_skipn off b); apply in_or_app; now right).
  pose proof (be_range _ A') as R. unfold be in R. assert (L : (length (part off n b) <= n)%nat) by (unfold part; rewrite firstn_length; lia).
  assert (256 ^ Z.of_nat (length (part off n b)) <= 256 ^ Z.of_nat n) by (apply Z.pow_le_mono_r; lia). lia.
Qed.
Lemma sgn_snum : forall n off b, (0 < n)%nat -> all_octets b -> sgn n (num off n b) = snum off n b.
Proof.
  intros n off b N A. pose proof (num_range off n b A) as R. unfold sgn, snum. cbv zeta. set (v := num off n b) in *.
  assert (E : 256 ^ Z.of_nat n = 2 * (128 * 256 ^ Z.of_nat (n - 1))) by (replace (Z.of_nat n) with (Z.succ (Z.of_nat (n - 1))) by lia; rewrite Z.pow_succ_r by lia; lia).
  set (h := 128 * 256 ^ Z.of_nat (n - 1)) in *. rewrite E in *. replace (2 * h / 2) with h by (symmetry; rewrite Z.mul_comm; apply Z.div_mul; lia).
  destruct (Z.ltb_spec v h).
  - rewrite Z.mod_small by lia. lia.
  - replace (v + h) with (v - h + 1 * (2 * h)) by lia. rewrite Z.mod_add by lia. rewrite Z.mod_small by lia. lia.
Qed.

(** ** What is received. *)
Lemma usable_le : forall d, (usable d <= length d)%nat.
Proof. intros. unfold usable. lia. Qed.
Lemma lenb : forall d, length (firstn (usable d) d) = usable d.
Proof. intros. rewrite firstn_length. pose proof (usable_le d). lia. Qed.

Record received (d : octets) (m : list Z) (t : tlv_ptr) : Prop := mkRec {
  rv_len : (48 <= usable d)%nat; rv_fl : nth 7 m 0 = octet 6 d; rv_src : mkPort (nth 11 m 0) (nth 12 m 0) = q_source d; rv_seq : nth 13 m 0 = q_seq d;
  rv_tgt : mkPort (nth 16 m 0) (nth 17 m 0) = q_target d; rv_sh : nth 18 m 0 = q_start_hops d; rv_h : nth 19 m 0 = q_hops d; rv_act : nth 21 m 0 = q_action d;
  rv_tlv : match t with
           | NoTlv => q_has_tlv d = false
           | Freed => q_has_tlv d = true /\ (usable d < 54)%nat
           | Tlv ty l i => q_has_tlv d = true /\ (54 <= usable d)%nat /\ ty = q_tlv_type d /\ i = q_id d
           end }.
Lemma land15_mod : forall v, Z.land v 15 = v mod 16.
Proof. intros. change 15 with (Z.ones 4). rewrite Z.land_ones by lia. reflexivity. Qed.
Lemma mgmt_table : d_management = [(0%nat, Hi); (1%nat, Lo); (0%nat, Hi); (1%nat, Lo); (2%nat, U 2); (1%nat, U 1); (1%nat, U 1); (1%nat, U 1); (1%nat, U 1); (8%nat, I 8); (4%nat, U 4); (8%nat, U 8); (2%nat, U 2);
  (2%nat, U 2); (1%nat, U 1); (1%nat, I 1); (8%nat, U 8); (2%nat, U 2); (1%nat, U 1); (1%nat, U 1); (0%nat, Hi); (1%nat, Lo); (1%nat, U 1)].
Proof. reflexivity. Qed.
Lemma num2 : forall off b, (off + 2 <= length b)%nat -> num off 2 b = octet off b * 256 + octet (S off) b.
Proof.
  intros off b L. unfold num. change (part off 2 b) with (part off (1 + 1) b). rewrite (part_app off 1 1 b), !nth_part by lia. replace (off + 1)%nat with (S off) by lia. cbn [app fold_left]. unfold octet. lia.
Qed.
Lemma unpack_received : forall d m t, unpack_management (firstn (usable d) d) = Some (Some (m, t)) -> received d m t.
Proof.
  intros d m t. unfold unpack_management. unfold check. rewrite lenb. destruct (Nat.ltb_spec (usable d) (0 + 34)) as [|L34]; [discriminate|].
  destruct (unpack_fields d_management (firstn (usable d) d) 0) as [[m'|]|] eqn:U; try discriminate. cbn [rbind].
  apply unpack_rd in U. destruct U as [-> L]. rewrite lenb in L. specialize (L ltac:(lia)). change (table_size d_management) with 48%nat in L. cbn [Nat.add] in L.
  set (b := firstn (usable d) d) in *.
  assert (LEN : nth 4 (rd d_management b 0) 0 = claimed_length d).
  { rewrite mgmt_table. cbn [rd rd_field nth Nat.add]. unfold b. rewrite num_firstn by lia. rewrite num2 by (pose proof (usable_le d); lia). reflexivity. }
  assert (G : forall t, match t with
           | NoTlv => q_has_tlv d = false
           | Freed => q_has_tlv d = true /\ (usable d < 54)%nat
           | Tlv ty l i => q_has_tlv d = true /\ (54 <= usable d)%nat /\ ty = q_tlv_type d /\ i = q_id d
           end -> received d (rd d_management b 0) t).
  { intros t' T. pose proof (usable_le d) as UL. constructor; [lia| | | | | | | |exact T]; rewrite mgmt_table; cbn [rd rd_field nth Nat.add]; unfold b; rewrite ?num_firstn by lia; rewrite ?num1 by lia; try reflexivity.
    rewrite land15_mod. reflexivity. }
  rewrite LEN. destruct (48 <? claimed_length d) eqn:Q.
  - destruct (unpack_fields d_mgmt_tlv b 48) as [[[|ty [|l [|i [|]]]]|]|] eqn:U; try discriminate; intros [= <- <-]; apply G; (split; [exact Q|]).
    + apply unpack_rd in U. destruct U as [E L2]. unfold b in L2. rewrite lenb in L2. specialize (L2 ltac:(lia)). change (table_size d_mgmt_tlv) with 6%nat in L2. split; [lia|].
      unfold d_mgmt_tlv, MsgModel.f in E. cbn [rd rd_field Nat.add] in E. injection E as -> -> ->. unfold b. rewrite !num_firstn by lia. split; reflexivity.
    + destruct (unpack_fields_cases d_mgmt_tlv b 48 ltac:(unfold b; rewrite lenb; lia)) as [[_ U']|[(_ & S' & _)|(_ & _ & vs & U' & _)]]; try (rewrite U in U'; discriminate U').
      unfold b in S'. rewrite lenb in S'. change (table_size d_mgmt_tlv) with 6%nat in S'. lia.
  - intros [= <- <-]. apply G. exact Q.
Qed.

(** ** Writing. *)
(** Like [described], with truth values: of their four octets the later three are overwritten by what follows. *)
Inductive shown : list field -> list Z -> list (nat * Z) -> Prop :=
  | sh_nil : shown [] [] []
  | sh_u n v fs vs w : shown fs vs w -> shown ((n, U n) :: fs) (v :: vs) ((n, v) :: w)
  | sh_i n v fs vs w : shown fs vs w -> shown ((n, I n) :: fs) (v :: vs) ((n, v) :: w)
  | sh_half a b fs vs w : in_u 4 a -> in_u 4 b -> shown fs vs w -> shown ((0%nat, Hi) :: (1%nat, Lo) :: fs) (a :: b :: vs) ((1%nat, 16 * a + b) :: w)
  | sh_bool v fs vs w : shown fs vs w -> shown ((1%nat, Bool4) :: fs) (b2z v :: vs) ((1%nat, b2z v) :: w).
(** [over off n b b']: only octets from [off] on differ, [w] is there. *)
Definition over (off : nat) (w b b' : octets) : Prop := length b' = length b /\ firstn off b' = firstn off b /\ part off (length w) b' = w.
Lemma firstn_firstn_le : forall A (n m : nat) (l : list A), (n <= m)%nat -> firstn n (firstn m l) = firstn n l.
Proof. intros. rewrite firstn_firstn. f_equal. lia. Qed.
Lemma st_over : forall off w b, (off + length w <= length b)%nat -> exists b', st off w b = Some b' /\ over off w b b' .
Proof.
  intros off w b L. unfold st. destruct (Nat.leb_spec (off + length w) (length b)); [|lia]. eexists. split; [reflexivity|].
  assert (F : length (firstn off b) = off) by (rewrite firstn_length; lia). split; [|split].
  - rewrite !app_length, F, skipn_length. lia.
  - rewrite firstn_app, F, Nat.sub_diag, firstn_O, app_nil_r. rewrite firstn_all2 by lia. reflexivity.
  - unfold part. rewrite skipn_app, F, Nat.sub_diag, skipn_all2 by lia. cbn [skipn app]. rewrite firstn_app, Nat.sub_diag, firstn_O, app_nil_r. apply firstn_all.
Qed.
Lemma over_seq : forall off w1 w2 b b1 b2, over off w1 b b1 -> over (off + length w1) w2 b1 b2 -> over off (w1 ++ w2) b b2.
Proof.
  intros off w1 w2 b b1 b2 (L1 & F1 & P1) (L2 & F2 & P2). split; [lia|]. split.
  - rewrite <- F1. rewrite <- (firstn_firstn_le _ off (off + length w1) b2) by lia. rewrite F2. apply firstn_firstn_le. lia.
  - rewrite app_length, part_app, P2. f_equal. rewrite <- P1 at 2. rewrite <- (part_firstn off (length w1) (off + length w1) b2) by lia. rewrite F2. apply part_firstn. lia.
Qed.
Lemma over_prefix : forall off w1 w2 b b', over off (w1 ++ w2) b b' -> over off w1 b b'.
Proof.
  intros off w1 w2 b b' (L & F & P). split; [exact L|]. split; [exact F|]. rewrite app_length, part_app in P.
  apply (f_equal (firstn (length w1))) in P. rewrite (firstn_app (length w1) w1 w2), Nat.sub_diag, firstn_O, app_nil_r, firstn_all in P.
  rewrite <- P at 2. rewrite firstn_app. assert (K : (length (part off (length w1) b') <= length w1)%nat) by (unfold part; rewrite firstn_length; lia).
  rewrite (firstn_all2 (part off (length w1) b')) by exact K.
  assert (Q : length (firstn (length w1) (part off (length w1) b' ++ part (off + length w1) (length w2) b')) = length w1) by (rewrite P; reflexivity).
  assert (Z0 : (length w1 - length (part off (length w1) b'))%nat = 0%nat \/ part (off + length w1) (length w2) b' = []).
  { destruct (Nat.le_gt_cases (length b') (off + length w1)).
    - right. unfold part. rewrite skipn_all2 by lia. apply firstn_nil.
    - left. unfold part. rewrite firstn_length, skipn_length. lia. }
  destruct Z0 as [-> | ->]; rewrite ?firstn_O, ?firstn_nil, app_nil_r; reflexivity.
Qed.
Lemma over_ld1 : forall off x b b', over off [x] b b' -> (off < length b)%nat -> ld 1 b' off = Some x.
Proof.
  intros off x b b' (L & _ & P) O. unfold ld, slice. destruct (Nat.leb_spec (off + 1) (length b')); [|lia]. cbn [bind]. change (firstn 1 (skipn off b')) with (part off 1 b').
  cbn [length] in P. rewrite P. reflexivity.
Qed.
Lemma ld1_some : forall b off, (off < length b)%nat -> exists x, ld 1 b off = Some x.
Proof. intros b off L. unfold ld, slice. destruct (Nat.leb_spec (off + 1) (length b)); [|lia]. eexists. reflexivity. Qed.

Lemma bytes1_octet : forall v, 0 <= v < 256 -> bytes 1 v = [v].
Proof. intros v V. cbn. rewrite Z.div_1_r, Z.mod_small by lia. reflexivity. Qed.
Lemma wire_cons : forall n v w, wire ((n, v) :: w) = bytes n v ++ wire w.
Proof. reflexivity. Qed.
Lemma pack_shown : forall fs vs w, shown fs vs w -> forall b off, (off + table_size fs + 4 <= length b)%nat ->
  length (wire w) = table_size fs /\ exists b', pack_fields fs vs b off = Some (Some b') /\ over off (wire w) b b'.
Proof.
  assert (S : forall n v (w : list (nat * Z)) k b off (w1 : octets) (tail : octets -> nat -> result octets), (off + (n + k) + 4 <= length b)%nat -> length w1 = n ->
    (forall b, (off + n + k + 4 <= length b)%nat -> length (wire w) = k /\ exists b', tail b (off + n)%nat = Some (Some b') /\ over (off + n) (wire w) b b') ->
    bytes n v = w1 ->
    length (wire ((n, v) :: w)) = (n + k)%nat /\ exists b', check off n b (do b <- st off w1 b; tail b (off + n)%nat) = Some (Some b') /\ over off (wire ((n, v) :: w)) b b').
  { intros n v w k b off w1 tail L L1 IH B. rewrite check_ok by lia. destruct (st_over off w1 b ltac:(lia)) as (b1 & -> & O1). cbn [bind].
    destruct (IH b1 ltac:(destruct O1; lia)) as (LW & b2 & E2 & O2). rewrite E2. rewrite wire_cons, app_length, B, L1, LW. split; [lia|].
    exists b2. split; [reflexivity|]. apply (over_seq off w1 (wire w) b b1 b2); [exact O1|rewrite L1; exact O2]. }
  intros fs vs w H. induction H as [|n v fs vs w H IH|n v fs vs w H IH|a b0 fs vs w A B H IH|v fs vs w H IH]; intros b off L.
  - split; [reflexivity|]. exists b. cbn [pack_fields wire flat_map]. split; [reflexivity|]. split; [reflexivity|]. split; [reflexivity|]. reflexivity.
  - cbn [pack_fields st_field]. change (table_size ((n, U n) :: fs)) with (n + table_size fs)%nat in *.
    apply (S n v w (table_size fs) b off (bytes n v) (fun b off => pack_fields fs vs b off)); [lia|apply bytes_length| |reflexivity].
    intros b1 L1. apply (IH b1 (off + n)%nat). lia.
  - cbn [pack_fields st_field]. change (table_size ((n, I n) :: fs)) with (n + table_size fs)%nat in *.
    apply (S n v w (table_size fs) b off (bytes n v) (fun b off => pack_fields fs vs b off)); [lia|apply bytes_length| |reflexivity].
    intros b1 L1. apply (IH b1 (off + n)%nat). lia.
  - change (table_size ((0%nat, Hi) :: (1%nat, Lo) :: fs)) with (1 + table_size fs)%nat in *. cbn [pack_fields st_field]. rewrite Nat.add_0_r, check_ok by lia.
    destruct (ld1_some b off ltac:(lia)) as (x & ->). cbn [bind]. destruct (st_over off [u8 (Z.lor (Z.land x 15) (Z.shiftl a 4))] b ltac:(cbn [length]; lia)) as (b1 & -> & O1). cbn [bind].
    rewrite check_ok by (destruct O1; lia). rewrite (over_ld1 _ _ _ _ O1) by lia. cbn [bind]. rewrite nib_merge by assumption.
    assert (R : 0 <= 16 * a + b0 < 256) by (unfold in_u in *; lia).
    destruct (st_over off [16 * a + b0] b1 ltac:(destruct O1; cbn [length]; lia)) as (b2 & -> & O2). cbn [bind].
    destruct (IH b2 (off + 1)%nat ltac:(destruct O1, O2; lia)) as (LW & b3 & -> & O3). rewrite wire_cons, bytes1_octet, app_length, LW by exact R. split; [reflexivity|].
    exists b3. split; [reflexivity|]. apply (over_seq off [16 * a + b0] (wire w) b b2 b3); [|exact O3].
    destruct O1 as (L1 & F1 & _), O2 as (L2 & F2 & P2). split; [lia|]. split; [congruence|exact P2].
  - change (table_size ((1%nat, Bool4) :: fs)) with (1 + table_size fs)%nat in *. cbn [pack_fields st_field]. rewrite check_ok by lia.
    assert (E : rev (bytes 4 (b2z v)) = [b2z v; 0; 0; 0]) by (destruct v; reflexivity). rewrite E.
    destruct (st_over off [b2z v; 0; 0; 0] b ltac:(cbn [length]; lia)) as (b1 & -> & O1). cbn [bind].
    destruct (IH b1 (off + 1)%nat ltac:(destruct O1; lia)) as (LW & b2 & -> & O2). rewrite wire_cons, bytes1_octet, app_length, LW by (destruct v; cbn; lia). split; [reflexivity|].
    exists b2. split; [reflexivity|]. apply (over_seq off [b2z v] (wire w) b b1 b2); [|exact O2]. apply (over_prefix off [b2z v] [0; 0; 0]). exact O1.
Qed.

Lemma pack_pieces_over : forall l b off, (off + length (concat l) + 1 <= length b)%nat ->
  let w := concat l ++ (if Nat.even (off + length (concat l)) then [] else [0]) in
  exists b', pack_pieces l b off = Some (Some (b', (off + length w)%nat)) /\ over off w b b'.
Proof.
  induction l as [|x l IH]; intros b off L; cbn [pack_pieces concat] in *.
  - cbn [length app] in *. rewrite Nat.add_0_r in *. destruct (Nat.even off); cbv zeta.
    + exists b. cbn [length]. rewrite Nat.add_0_r. split; [reflexivity|]. split; [reflexivity|]. split; reflexivity.
    + rewrite check_ok by lia. destruct (st_over off [0] b ltac:(cbn [length]; lia)) as (b1 & -> & O1). cbn [bind length]. exists b1. split; [reflexivity|exact O1].
  - cbv zeta. rewrite app_length in L. rewrite (app_length x (concat l)). rewrite check_ok by lia. destruct (st_over off x b ltac:(lia)) as (b1 & -> & O1). cbn [bind].
    destruct (IH b1 (off + length x)%nat ltac:(destruct O1; lia)) as (b2 & -> & O2). rewrite Nat.add_assoc.
    set (pad := if Nat.even (off + length x + length (concat l)) then [] else [0]) in *. exists b2. split; [|rewrite <- app_assoc; apply (over_seq off x _ b b1 b2); assumption].
    rewrite <- app_assoc, (app_length x). do 3 f_equal. lia.
Qed.

(** What the data of an outgoing message looks like on the wire. *)
Inductive looks : odata -> octets -> Prop :=
  | lk_none : looks NoData []
  | lk_table fs vs w : shown fs vs w -> looks (Table fs vs) (wire w)
  | lk_pieces l : looks (Pieces l) (even (concat l)).
Lemma pack_looks : forall x w b, looks x w -> length b = 500%nat -> (length w <= 400)%nat -> exists b', pack_data x b = Some (b', Z.of_nat (length w)) /\ over 54 w b b'.
Proof.
  intros x w b H LB LW. destruct H as [|fs vs w H|l].
  - exists b. split; [reflexivity|]. split; [reflexivity|]. split; reflexivity.
  - assert (T : (table_size fs <= 400)%nat).
    { destruct (pack_shown _ _ _ H (repeat 0 (table_size fs + 4)) 0) as [E _]; [rewrite repeat_length; lia|lia]. }
    destruct (pack_shown _ _ _ H b 54 ltac:(lia)) as (E & b' & P & O). cbn [pack_data]. rewrite P. exists b'. split; [|exact O]. do 3 f_equal. rewrite E. clear.
    unfold table_size, list_sum. induction fs as [|x fs IH]; [reflexivity|]. cbn [map fold_right]. now rewrite IH.
  - assert (T : (length (concat l) <= 400)%nat) by (unfold even in LW; destruct (Nat.even _); rewrite ?app_length in LW; lia).
    destruct (pack_pieces_over l b 54 ltac:(lia)) as (b' & P & O). cbn [pack_data]. cbv zeta in *. rewrite P. exists b'.
    assert (E : concat l ++ (if Nat.even (54 + length (concat l)) then [] else [0]) = even (concat l)).
    { unfold even. replace (Nat.even (54 + length (concat l))) with (Nat.even (length (concat l))) by (rewrite Nat.even_add; cbn [Nat.even]; destruct (Nat.even (length (concat l))); reflexivity).
      destruct (Nat.even _); [apply app_nil_r|reflexivity]. }
    rewrite E in *. split; [|exact O]. do 2 f_equal. lia.
Qed.

Lemma num_u : forall off n b k, all_octets b -> k = 8 * Z.of_nat n -> in_u k (num off n b).
Proof. intros off n b k A ->. pose proof (num_range off n b A). rewrite pow256_pow2 in H. exact H. Qed.
Lemma octet_u : forall i b, all_octets b -> in_u 8 (octet i b).
Proof. intros. apply nth_octet. assumption. Qed.

Lemma build_answer : forall f g d dom type id act x obuf data, all_octets d -> in_u 4 (f_minor f) -> port_fits (f_id f) -> in_u 8 dom -> in_u 4 act -> in_u 16 type -> in_u 16 id ->
  g = mkOut dom (q_seq d) (q_source d) (u8 (q_start_hops d - q_hops d)) -> looks x data -> length obuf = 500%nat -> (length data <= 400)%nat ->
  build f g type id act x obuf = Some (answer f dom false d act type id data).
Proof.
  intros f g d dom type id act x obuf data A M [I1 I2] D ACT TY ID -> LK LO LD. unfold build. destruct (pack_looks x data obuf LK LO LD) as (b1 & -> & L1 & _ & P1). cbn [bind]. cbv zeta.
  assert (LF : u16 (2 + Z.of_nat (length data)) = 2 + Z.of_nat (length data)) by (unfold u16; change (2 ^ 16) with 65536; lia). rewrite LF.
  assert (LEN : u16 (48 + 6 - 2 + (2 + Z.of_nat (length data))) = 54 + Z.of_nat (length data)) by (unfold u16; change (2 ^ 16) with 65536; lia). rewrite LEN.
  assert (S1 : b1 = firstn 48 b1 ++ part 48 6 b1 ++ skipn 54 b1).
  { rewrite <- (firstn_skipn 48 b1) at 1. f_equal. rewrite <- (firstn_skipn 6 (skipn 48 b1)) at 1. unfold part. f_equal. rewrite skipn_add. reflexivity. }
  assert (L48 : length (firstn 48 b1) = 48%nat) by (rewrite firstn_length; lia).
  assert (L6 : length (part 48 6 b1) = 6%nat) by (unfold part; rewrite firstn_length, skipn_length; lia).
  assert (T : described d_mgmt_tlv [type; 2 + Z.of_nat (length data); id] [2 @@ type; 2 @@ 2 + Z.of_nat (length data); 2 @@ id]).
  { apply (d_u 2); [exact TY|]. apply (d_u 2); [change (8 * Z.of_nat 2) with 16; unfold in_u; change (2 ^ 16) with 65536; lia|]. apply (d_u 2); [exact ID|]. constructor. }
  pose proof (pack_described _ _ _ T (firstn 48 b1) (part 48 6 b1) (skipn 54 b1) L6) as P. rewrite L48, <- S1 in P. rewrite P. cbn [bind].
  unfold packMsgManagement. cbn [g_domain g_seq g_target g_hops].
  set (h := u8 (q_start_hops d - q_hops d)). assert (H : in_u 8 h) by (unfold h, u8, in_u; change (2 ^ 8) with 256; lia).
  match goal with |- context [pack_fields d_management ?vs _ 0] => set (mv := vs) end.
  set (mw := [1 @@ 13; 1 @@ 16 * f_minor f + 2; 2 @@ 54 + Z.of_nat (length data); 1 @@ dom; 1 @@ 0; 1 @@ 0; 1 @@ 0; 8 @@ 0; 4 @@ 0] ++ port_fields (f_id f)
        ++ [2 @@ q_seq d; 1 @@ 4; 1 @@ 127] ++ port_fields (q_source d) ++ [1 @@ h; 1 @@ h; 1 @@ act; 1 @@ 0]).
  assert (DM : described d_management mv mw).
  { assert (Z8 : forall k, 0 <= k < 256 -> in_u (8 * Z.of_nat 1) k) by (intros k K; exact K). rewrite mgmt_table. unfold mv, mw, port_fields. cbn [app].
    apply (d_half 0 13); [split; reflexivity || discriminate|split; reflexivity || discriminate|].
    apply (d_half (f_minor f) 2); [exact M|split; reflexivity || discriminate|].
    apply (d_u 2); [change (8 * Z.of_nat 2) with 16; unfold in_u; change (2 ^ 16) with 65536; lia|].
    apply (d_u 1); [exact D|]. apply (d_u 1); [apply Z8; lia|]. apply (d_u 1); [apply Z8; lia|]. apply (d_u 1); [apply Z8; lia|].
    apply (d_i 8); [lia|split; [discriminate|reflexivity]|]. apply (d_u 4); [split; [discriminate|reflexivity]|].
    apply (d_u 8); [exact I1|]. apply (d_u 2); [exact I2|]. apply (d_u 2); [apply num_u; [exact A|reflexivity]|]. apply (d_u 1); [apply Z8; lia|].
    apply (d_i 1); [lia|split; [discriminate|reflexivity]|].
    apply (d_u 8); [apply num_u; [exact A|reflexivity]|]. apply (d_u 2); [apply num_u; [exact A|reflexivity]|]. apply (d_u 1); [exact H|]. apply (d_u 1); [exact H|].
    apply (d_half 0 act); [split; reflexivity || discriminate|exact ACT|]. apply (d_u 1); [apply Z8; lia|]. constructor. }
  assert (LW : length (wire mw) = 48%nat) by (rewrite wire_length; reflexivity).
  pose proof (pack_described _ _ _ DM [] (firstn 48 b1) (wire [2 @@ type; 2 @@ 2 + Z.of_nat (length data); 2 @@ id] ++ skipn 54 b1) ltac:(lia)) as P2. cbn [app length] in P2. rewrite P2. cbn [bind].
  assert (LT : length (wire [2 @@ type; 2 @@ 2 + Z.of_nat (length data); 2 @@ id]) = 6%nat) by reflexivity.
  unfold slice. match goal with |- (if Nat.leb ?a ?b then _ else _) = _ => destruct (Nat.leb_spec a b) as [_|G] end; [|rewrite !app_length, LW, LT, skipn_length in G; lia].
  f_equal. rewrite skipn_O. replace (Z.to_nat (54 + Z.of_nat (length data))) with (48 + (6 + length data))%nat by lia. rewrite <- LW at 1. rewrite firstn_app_2. rewrite <- LT at 1. rewrite firstn_app_2.
  change (firstn (length data) (skipn 54 b1)) with (part 54 (length data) b1). rewrite P1. unfold answer. cbv zeta. rewrite <- (app_assoc (wire mw)) || idtac.
  rewrite app_assoc, <- wire_app. f_equal.
Qed.
Lemma flag_answer : forall f dom d act type id data to, flag_unicast to (answer f dom false d act type id data) = Some (answer f dom (is_unicast to) d act type id data).
Proof.
  intros f dom d act type id data to. destruct to as [a|]; [|reflexivity]. cbn [flag_unicast is_unicast]. unfold or_byte.
  set (pre := wire [1 @@ 13; 1 @@ 16 * f_minor f + 2; 2 @@ 54 + Z.of_nat (length data); 1 @@ dom; 1 @@ 0]).
  set (rest := wire ([1 @@ 0; 8 @@ 0; 4 @@ 0] ++ port_fields (f_id f)
        ++ [2 @@ q_seq d; 1 @@ 4; 1 @@ 127] ++ port_fields (q_source d) ++ [1 @@ (q_start_hops d - q_hops d) mod 256; 1 @@ (q_start_hops d - q_hops d) mod 256; 1 @@ act; 1 @@ 0]
        ++ [2 @@ type; 2 @@ 2 + Z.of_nat (length data); 2 @@ id]) ++ data).
  assert (E : forall b, answer f dom b d act type id data = pre ++ [if b then 4 else 0] ++ rest) by (intros []; reflexivity).
  rewrite !E. change 6%nat with (length pre). unfold ld.
  pose proof (slice_mid pre [0] rest) as SM. cbn [length] in SM. rewrite SM. cbn [bind]. change (u8 (Z.lor (be [0]) 4)) with 4. apply (st_mid pre [0] [4] rest). reflexivity.
Qed.
