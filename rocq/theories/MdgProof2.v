(** C78, proofs: the context, the padding and the packet. *)
Require Import ZArith List Bool Lia.
Require Import Verif.Base Verif.MdgSpec Verif.MdgModel Verif.MdgProof.
Import ListNotations.
Open Scope Z_scope.
Opaque block transform swap steps.

(** ** Lists *)
Lemma copy_some : forall l off d, (off + length d <= length l)%nat -> copy l off d = Some (firstn off l ++ d ++ skipn (off + length d) l).
Proof. intros l off d H. unfold copy. replace (off + length d <=? length l)%nat with true by (symmetry; apply Nat.leb_le; exact H). reflexivity. Qed.
Lemma copied_len : forall l off (d : list Z), (off + length d <= length l)%nat -> length (firstn off l ++ d ++ skipn (off + length d) l) = length l.
Proof. intros l off d H. rewrite !app_length, firstn_length, skipn_length. lia. Qed.
Lemma skipn_add : forall (l : list Z) a b, skipn a (skipn b l) = skipn (b + a) l.
Proof. intros l a b. revert l. induction b as [|b IH]; intros l; [reflexivity|]. destruct l; [destruct a; reflexivity|]. cbn. apply IH. Qed.
Lemma Forall_firstn' : forall (P : Z -> Prop) n l, Forall P l -> Forall P (firstn n l).
Proof. intros P n l H. revert n. induction H; intros [|n]; cbn; constructor; auto. Qed.
Lemma Forall_skipn' : forall (P : Z -> Prop) n l, Forall P l -> Forall P (skipn n l).
Proof. intros P n l H. revert n. induction H; intros [|n]; cbn; auto. Qed.

(** ** Blocks *)
Lemma wide_first : wide first. Proof. vm_compute. repeat split; discriminate. Qed.
Lemma blocks_more : forall n m v l, blocks (n + m) v l = blocks m (blocks n v l) (skipn (64 * n) l).
Proof.
  intros n. induction n as [|n IH]; intros m v l; [rewrite Nat.mul_0_r; reflexivity|]. cbn [Nat.add blocks]. rewrite IH, skipn_add. do 2 f_equal. lia.
Qed.
Lemma blocks_app : forall n v l d, (64 * n <= length l)%nat -> blocks n v (l ++ d) = blocks n v l.
Proof.
  intros n. induction n as [|n IH]; intros v l d L; [reflexivity|]. cbn [blocks]. rewrite firstn_app, skipn_app. replace (64 - length l)%nat with 0%nat by lia. rewrite firstn_O, app_nil_r, skipn_O. apply IH. rewrite skipn_length. lia.
Qed.
Lemma wide_blocks : forall n v l, wide v -> wide (blocks n v l).
Proof. intros n. induction n as [|n IH]; intros v l W; [exact W|]. cbn [blocks]. apply IH, wide_block. Qed.

Lemma digest_in_spec : forall big v l, wide v -> length l = 64%nat -> Forall octet l -> digest_in big v l = (block v l, swap big 16 l).
Proof. intros big v l W L O. unfold digest_in. rewrite transform_block by assumption. reflexivity. Qed.
Lemma chunks_spec : forall big fuel d v i, (length d <= fuel)%nat -> wide v -> length i = 64%nat -> Forall octet d ->
  exists i', chunks fuel big v i d = Some (blocks (length d / 64) v d, i', skipn (64 * (length d / 64)) d) /\ length i' = 64%nat.
Proof.
  intros big fuel. induction fuel as [|fuel IH]; intros d v i L W LI O; unfold chunks; fold chunks; destruct (Nat.leb_spec 64 (length d)) as [H|H].
  - lia.
  - rewrite Nat.div_small by exact H. exists i. rewrite Nat.mul_0_r. auto.
  - assert (LF : length (firstn 64 d) = 64%nat) by (rewrite firstn_length; lia).
    rewrite copy_some by (rewrite LF, LI; lia). cbn [bind]. rewrite LF, firstn_O, skipn_all2 by lia. cbn [app]. rewrite app_nil_r, digest_in_spec by (auto; apply Forall_firstn'; exact O).
    destruct (IH (skipn 64 d) (block v (firstn 64 d)) (swap big 16 (firstn 64 d))) as (i' & E & L'); [rewrite skipn_length; lia|apply wide_block|rewrite swap_len; exact LF|apply Forall_skipn'; exact O|].
    exists i'. split; [|exact L']. rewrite E.
    assert (Q : (length d / 64 = S (length (skipn 64 d) / 64))%nat).
    { rewrite skipn_length. replace (length d) with (1 * 64 + (length d - 64))%nat at 1 by lia. rewrite Nat.div_add_l by lia. reflexivity. }
    rewrite Q. cbn [blocks]. rewrite skipn_add. do 2 f_equal. f_equal. lia.
  - rewrite Nat.div_small by exact H. exists i. rewrite Nat.mul_0_r. auto.
Qed.

(** ** The context after the octets [M] *)
Record holds (c : ctx) (M : list Z) : Prop := {
  h_lo : c_lo c = Z.of_nat (length M) mod 2^32;
  h_hi : c_hi c = Z.of_nat (length M) / 2^32 mod 2^32;
  h_len : length (c_in c) = 64%nat;
  h_in : firstn (length M mod 64) (c_in c) = skipn (64 * (length M / 64)) M;
  h_buf : c_buf c = blocks (length M / 64) first M }.
Lemma holds_init : forall junk, length junk = 64%nat -> holds (init junk) [].
Proof. intros junk L. constructor; try reflexivity. exact L. Qed.
Lemma count_spec : forall n, Z.land (Z.of_nat n mod 2^32) 63 = Z.of_nat (n mod 64).
Proof.
  intros n. change 63 with (Z.ones 6). rewrite Z.land_ones by lia. rewrite Nat2Z.inj_mod. change (2^6) with 64. change (Z.of_nat 64) with 64.
  pose proof (Z.div_mod (Z.of_nat n) (2^32) ltac:(lia)) as D. rewrite D at 2. rewrite Z.add_comm. replace (2^32 * (Z.of_nat n / 2^32)) with ((2^26 * (Z.of_nat n / 2^32)) * 64) by lia. rewrite Z.mod_add by lia. reflexivity.
Qed.
Lemma carry : forall n d, 0 <= n -> 0 <= d < 2^32 -> let lo := n mod 2^32 in let hi := n / 2^32 mod 2^32 in
  u32 (lo + d) = (n + d) mod 2^32 /\ (if u32 (lo + d) <? lo then u32 (hi + 1) else hi) = (n + d) / 2^32 mod 2^32.
Proof.
  intros n d N D lo hi. unfold u32. assert (E : (lo + d) mod 2^32 = (n + d) mod 2^32) by (unfold lo; apply Z.add_mod_idemp_l; lia). split; [exact E|].
  pose proof (Z.div_mod n (2^32) ltac:(lia)) as DM. fold lo in DM. pose proof (Z.mod_pos_bound n (2^32) ltac:(lia)) as B. fold lo in B.
  destruct (Z.lt_ge_cases (lo + d) (2^32)) as [H|H].
  - rewrite Z.mod_small by lia. replace (lo + d <? lo) with false by lia. unfold hi. f_equal. apply (Z.div_unique_pos _ _ _ (lo + d)); lia.
  - assert (M : (lo + d) mod 2^32 = lo + d - 2^32) by (symmetry; apply (Z.mod_unique_pos _ _ 1); lia). rewrite M. replace (lo + d - 2^32 <? lo) with true by lia.
    unfold hi. rewrite Z.add_mod_idemp_l by lia. f_equal. apply (Z.div_unique_pos _ _ _ (lo + d - 2^32)); lia.
Qed.
Lemma divs : forall n, (n = 64 * (n / 64) + n mod 64)%nat /\ (n mod 64 < 64)%nat.
Proof. intros n. split; [apply Nat.div_mod; lia|apply Nat.mod_upper_bound; lia]. Qed.
Lemma update_spec : forall big c M d, holds c M -> Forall octet M -> Forall octet d -> Z.of_nat (length d) < 2^32 -> exists c', update big c d = Some c' /\ holds c' (M ++ d).
Proof.
  intros big c M d [LO HI LEN IN BUF] OM OD LD. unfold update. rewrite BUF.
  destruct (carry (Z.of_nat (length M)) (Z.of_nat (length d)) ltac:(lia) ltac:(lia)) as [C1 C2]. cbv zeta in C1, C2. rewrite <- LO, <- HI in C2. rewrite <- LO in C1.
  rewrite C2, C1. assert (CT : Z.land (c_lo c) 63 = Z.of_nat (length M mod 64)) by (rewrite LO; apply count_spec). rewrite !CT. rewrite <- Nat2Z.inj_add in *. rewrite <- app_length.
  destruct (divs (length M)) as [DM RM]. set (q := (length M / 64)%nat) in *. set (r := (length M mod 64)%nat) in *.
  replace (Z.to_nat (64 - (64 - Z.of_nat r))) with r by lia. replace (Z.to_nat (64 - Z.of_nat r)) with (64 - r)%nat by lia.
  assert (LT : length (skipn (64 * q) M) = r) by (rewrite skipn_length; lia).
  destruct (Z.ltb_spec (Z.of_nat (length d)) (64 - Z.of_nat r)) as [H|H].
  - rewrite copy_some by lia. cbn [bind]. eexists. split; [reflexivity|].
    assert (Q : (length (M ++ d) / 64 = q)%nat) by (rewrite app_length; symmetry; apply (Nat.div_unique _ _ _ (r + length d)); lia).
    assert (R : (length (M ++ d) mod 64 = r + length d)%nat) by (rewrite app_length; symmetry; apply (Nat.mod_unique _ _ q); lia).
    constructor; cbn [c_lo c_hi c_in c_buf]; try reflexivity; rewrite ?Q, ?R.
    + rewrite copied_len; lia.
    + rewrite skipn_app. replace (64 * q - length M)%nat with 0%nat by lia. rewrite skipn_O, <- IN, app_assoc, firstn_app.
      rewrite app_length, firstn_length, LEN. replace (Nat.min r 64) with r by lia. rewrite Nat.sub_diag, firstn_O, app_nil_r. apply firstn_all2. rewrite app_length, firstn_length. lia.
    + symmetry. apply blocks_app. lia.
  - assert (LF : length (firstn (64 - r) d) = (64 - r)%nat) by (rewrite firstn_length; lia).
    rewrite copy_some by (rewrite LF; lia). cbn [bind]. rewrite LF, (skipn_all2 (n := r + (64 - r))) by lia. rewrite app_nil_r, IN.
    set (B := skipn (64 * q) M ++ firstn (64 - r) d).
    assert (LB : length B = 64%nat) by (unfold B; rewrite app_length, LT, LF; lia).
    assert (OB : Forall octet B) by (apply Forall_app; split; [apply Forall_skipn'; exact OM|apply Forall_firstn'; exact OD]).
    rewrite digest_in_spec by (auto; apply wide_blocks, wide_first).
    set (d' := skipn (64 - r) d).
    destruct (chunks_spec big (length d) d' (block (blocks q first M) B) (swap big 16 B)) as (i' & E & L'); [unfold d'; rewrite skipn_length; lia|apply wide_block|rewrite swap_len; exact LB|apply Forall_skipn'; exact OD|].
    rewrite E. cbn [bind]. destruct (divs (length d')) as [DD RD]. set (k := (length d' / 64)%nat) in *. set (r' := (length d' mod 64)%nat) in *.
    assert (LR : length (skipn (64 * k) d') = r') by (rewrite skipn_length; lia).
    rewrite copy_some by lia. cbn [bind]. eexists. split; [reflexivity|].
    assert (LD' : length d' = (length d - (64 - r))%nat) by (unfold d'; rewrite skipn_length; lia).
    assert (Q : (length (M ++ d) / 64 = S q + k)%nat) by (rewrite app_length; symmetry; apply (Nat.div_unique _ _ _ r'); lia).
    assert (R : (length (M ++ d) mod 64 = r')%nat) by (rewrite app_length; symmetry; apply (Nat.mod_unique _ _ (S q + k)); lia).
    assert (SK : skipn (64 * S q) (M ++ d) = d').
    { rewrite skipn_app, skipn_all2 by lia. unfold d'. cbn [app]. f_equal. lia. }
    assert (FB : firstn 64 (skipn (64 * q) (M ++ d)) = B).
    { rewrite skipn_app. replace (64 * q - length M)%nat with 0%nat by lia. rewrite skipn_O, firstn_app, LT, firstn_all2 by lia. reflexivity. }
    constructor; cbn [c_lo c_hi c_in c_buf]; try reflexivity; rewrite ?Q, ?R.
    + rewrite copied_len; lia.
    + rewrite firstn_O. cbn [app]. rewrite firstn_app, LR, Nat.sub_diag, firstn_O, app_nil_r, firstn_all2 by lia. rewrite <- SK, skipn_add. f_equal. lia.
    + rewrite blocks_more, SK. f_equal. replace (S q) with (q + 1)%nat by lia. rewrite blocks_more. cbn [blocks]. rewrite FB, blocks_app by lia. reflexivity.
Qed.

(** ** The end *)
Lemma le_split : forall x, 0 <= x -> le 8 x = le 4 (x mod 2^32) ++ le 4 (x / 2^32).
Proof.
  intros x X. assert (LA : forall n m y, 0 <= y -> le (n + m) y = le n (y mod 256^Z.of_nat n) ++ le m (y / 256^Z.of_nat n)).
  { intros n. induction n as [|n IH]; intros m y Y; [cbn; rewrite Z.div_1_r; reflexivity|]. cbn [Nat.add le app].
    rewrite Nat2Z.inj_succ, Z.pow_succ_r by lia. assert (P : 0 < 256 ^ Z.of_nat n) by (apply Z.pow_pos_nonneg; lia). f_equal.
    - rewrite Z.rem_mul_r by lia. rewrite Z.mul_comm, Z.mod_add, Z.mod_mod by lia. reflexivity.
    - rewrite IH by (apply Z.div_pos; lia). rewrite Z.div_div by lia.
      assert (DV : y mod (256 * 256 ^ Z.of_nat n) / 256 = (y / 256) mod 256 ^ Z.of_nat n).
      { rewrite Z.rem_mul_r by lia. symmetry. apply (Z.div_unique_pos _ _ _ (y mod 256)); [apply Z.mod_pos_bound; lia|lia]. }
      rewrite DV. reflexivity. }
  change 8%nat with (4 + 4)%nat. rewrite LA by exact X. reflexivity.
Qed.
Lemma bits_spec : forall n, 0 <= n -> let lo := n mod 2^32 in let hi := n / 2^32 mod 2^32 in
  u32 (Z.shiftl lo 3) = (8 * n) mod 2^64 mod 2^32 /\ Z.lor (u32 (Z.shiftl hi 3)) (Z.shiftr lo 29) = (8 * n) mod 2^64 / 2^32.
Proof.
  intros n N lo hi.
  pose proof (Z.div_mod n (2^32) ltac:(lia)) as D1. fold lo in D1. pose proof (Z.div_mod (n / 2^32) (2^32) ltac:(lia)) as D2. fold hi in D2.
  pose proof (Z.mod_pos_bound n (2^32) ltac:(lia)) as B1. fold lo in B1. pose proof (Z.mod_pos_bound (n / 2^32) (2^32) ltac:(lia)) as B2. fold hi in B2.
  set (h2 := n / 2^32 / 2^32) in *. set (hn := n / 2^32) in *. clearbody lo hi h2 hn.
  pose proof (Z.div_mod lo (2^29) ltac:(lia)) as D3. pose proof (Z.mod_pos_bound lo (2^29) ltac:(lia)) as B3. set (a := lo / 2^29) in *. set (b := lo mod 2^29) in *.
  pose proof (Z.div_mod hi (2^29) ltac:(lia)) as D4. pose proof (Z.mod_pos_bound hi (2^29) ltac:(lia)) as B4. set (c := hi / 2^29) in *. set (e := hi mod 2^29) in *. clearbody b c e.
  assert (A : 0 <= a < 8) by lia.
  assert (E : (8 * n) mod 2^64 = 2^32 * (8 * e + a) + 8 * b) by (symmetry; apply (Z.mod_unique_pos _ _ (8 * h2 + c)); lia).
  rewrite E. unfold u32. rewrite !Z.shiftl_mul_pow2 by lia. change (2^3) with 8.
  assert (E1 : (lo * 8) mod 2^32 = 8 * b) by (symmetry; apply (Z.mod_unique_pos _ _ a); lia).
  assert (E2 : (hi * 8) mod 2^32 = e * 2^3) by (symmetry; apply (Z.mod_unique_pos _ _ c); lia).
  rewrite E1, E2. rewrite Z.shiftr_div_pow2 by lia. fold a. rewrite <- Z.shiftl_mul_pow2, lor_add by lia. split.
  - apply (Z.mod_unique_pos _ _ (8 * e + a)); lia.
  - apply (Z.div_unique_pos _ _ _ (8 * b)); lia.
Qed.
Lemma zeros_octets : forall n, Forall octet (repeat 0 n).
Proof. intros n. induction n; constructor; [unfold octet; lia|assumption]. Qed.
Lemma le_octets : forall n x, Forall octet (le n x).
Proof. intros n. induction n as [|n IH]; intros x; constructor; [apply Z.mod_pos_bound; lia|apply IH]. Qed.
Lemma le_len : forall n x, length (le n x) = n.
Proof. intros n. induction n as [|n IH]; intros x; [reflexivity|]. cbn. rewrite IH. reflexivity. Qed.
(** The last block: 56 octets and the two words. *)
Lemma last_block : forall big v A i x y, length A = 56%nat -> i = A ++ skipn 56 i -> length i = 64%nat -> Forall octet A -> word32 x -> word32 y -> wide v ->
  exists i7, (do i6 <- copy (swap big 14 i) 56 (store big x); copy i6 60 (store big y)) = Some i7 /\ transform big v i7 = block v (A ++ le 4 x ++ le 4 y).
Proof.
  intros big v A i x y LA IA LI O X Y W.
  assert (S14 : swap big 14 i = swap big 14 A ++ skipn 56 i).
  { rewrite IA at 1. replace 14%nat with (14 + 0)%nat at 1 by lia. rewrite swap_app by exact LA. f_equal. }
  assert (LS : length (swap big 14 A) = 56%nat) by (rewrite swap_len; exact LA).
  assert (LK : length (skipn 56 i) = 8%nat) by (rewrite skipn_length; lia).
  rewrite copy_some by (rewrite S14, app_length, store_len, LS; lia). cbn [bind].
  rewrite S14, firstn_app, LS, Nat.sub_diag, firstn_O, app_nil_r, firstn_all2, store_len, skipn_app, LS, skipn_all2 by lia. cbn [app]. replace (56 + 4 - 56)%nat with 4%nat by lia.
  set (K := skipn 4 (skipn 56 i)). assert (LK4 : length K = 4%nat) by (unfold K; rewrite skipn_length; lia).
  rewrite copy_some by (rewrite !app_length, !store_len, LS; lia). eexists. split; [reflexivity|].
  replace (_ ++ _ ++ _) with (swap big 16 (A ++ le 4 x ++ le 4 y)).
  - apply transform_block; [exact W|rewrite !app_length, !le_len, LA; reflexivity|]. apply Forall_app. split; [exact O|]. apply Forall_app. split; apply le_octets.
  - change 16%nat with (14 + (1 + 1))%nat. rewrite swap_app by exact LA. rewrite (swap_app big 1) by (rewrite le_len; reflexivity). rewrite !swap_le by assumption.
    rewrite store_len. rewrite !app_assoc. rewrite firstn_app, !app_length, store_len, LS. replace (60 - (56 + 4))%nat with 0%nat by lia. rewrite firstn_O, app_nil_r, firstn_all2 by (rewrite app_length, store_len, LS; lia).
    rewrite skipn_all2 by (rewrite !app_length, store_len, LS, LK4; lia). rewrite app_nil_r. reflexivity.
Qed.
Lemma output_spec : forall big v, wide v -> (let '(x0, x1, x2, x3) := v in Some (swap big 4 (store big x0 ++ store big x1 ++ store big x2 ++ store big x3))) = Some (output v).
Proof.
  intros big [[[a b] c] d] (A & B & C & D). f_equal. change 4%nat with (1 + (1 + (1 + 1)))%nat at 1. rewrite !swap_app by (rewrite store_len; reflexivity). rewrite !swap_store by assumption. reflexivity.
Qed.
Lemma final_spec : forall big c M, holds c M -> Forall octet M -> final big c = Some (md5 M).
Proof.
  intros big c M [LO HI LEN IN BUF] OM. unfold final. rewrite BUF. destruct (bits_spec (Z.of_nat (length M)) ltac:(lia)) as [W1 W2]. cbv zeta in W1, W2. rewrite <- LO, <- HI in W2. rewrite <- LO in W1. rewrite W1, W2.
  set (N8 := (8 * Z.of_nat (length M)) mod 2^64) in *. assert (BN : 0 <= N8 < 2^64) by (apply Z.mod_pos_bound; reflexivity). assert (N8E : N8 = (8 * Z.of_nat (length M)) mod 2^64) by reflexivity. clearbody N8.
  assert (X : word32 (N8 mod 2^32)) by (apply Z.mod_pos_bound; reflexivity).
  assert (Y : word32 (N8 / 2^32)) by (split; [apply Z.div_pos; lia|apply Z.div_lt_upper_bound; lia]).
  assert (CT : Z.land (c_lo c) 63 = Z.of_nat (length M mod 64)) by (rewrite LO; apply count_spec). rewrite !CT.
  destruct (divs (length M)) as [DM RM]. set (q := (length M / 64)%nat) in *. set (r := (length M mod 64)%nat) in *. clearbody q r.
  set (t := skipn (64 * q) M) in *. assert (LT : length t = r) by (unfold t; rewrite skipn_length; lia). assert (OT : Forall octet t) by (apply Forall_skipn'; exact OM).
  rewrite Nat2Z.id. rewrite copy_some by (cbn [length]; lia). cbn [bind length]. rewrite IN.
  replace (Z.to_nat (Z.of_nat r + 1)) with (r + 1)%nat by lia.
  set (i1 := t ++ [128] ++ skipn (r + 1) (c_in c)). assert (L1 : length i1 = 64%nat) by (unfold i1; rewrite !app_length, skipn_length, LT, LEN; cbn [length]; lia).
  assert (F1' : firstn (r + 1) i1 = t ++ [128]).
  { unfold i1. rewrite app_assoc, firstn_app, app_length, LT. cbn [length]. rewrite Nat.sub_diag, firstn_O, app_nil_r. apply firstn_all2. rewrite app_length, LT. cbn [length]. lia. }
  assert (O8 : Forall octet [128]) by (constructor; [unfold octet; lia|constructor]).
  assert (PAD : forall z m, zeros (Z.of_nat (length M)) = z -> (r + 1 + z + 8 = 64 * m)%nat ->
    md5 M = output (blocks m (blocks q first M) (t ++ [128] ++ repeat 0 z ++ le 4 (N8 mod 2^32) ++ le 4 (N8 / 2^32)))).
  { intros z m Z0 ZM. unfold md5. f_equal. unfold padded. rewrite Z0. rewrite <- N8E. rewrite le_split by lia.
    set (P := [128] ++ repeat 0 z ++ le 4 (N8 mod 2^32) ++ le 4 (N8 / 2^32)).
    assert (LP : length P = (1 + z + 8)%nat) by (unfold P; rewrite !app_length, repeat_length, !le_len; reflexivity).
    replace (length (M ++ P) / 64)%nat with (q + m)%nat by (rewrite app_length, LP; apply (Nat.div_unique _ _ _ 0); lia).
    rewrite blocks_more, blocks_app by lia. f_equal. rewrite skipn_app. replace (64 * q - length M)%nat with 0%nat by lia. reflexivity. }
  destruct (Z.ltb_spec (56 - 1 - Z.of_nat r) 0) as [H|H].
  - replace (Z.to_nat (56 - 1 - Z.of_nat r + 8)) with (63 - r)%nat by lia. rewrite copy_some by (rewrite repeat_length; lia). cbn [bind].
    rewrite repeat_length, F1', (skipn_all2 (n := r + 1 + (63 - r))) by lia. rewrite app_nil_r.
    set (B := (t ++ [128]) ++ repeat 0 (63 - r)). assert (LB : length B = 64%nat) by (unfold B; rewrite !app_length, repeat_length, LT; cbn [length]; lia).
    assert (OB : Forall octet B) by (apply Forall_app; split; [apply Forall_app; split; assumption|apply zeros_octets]).
    rewrite digest_in_spec by (auto; apply wide_blocks, wide_first). cbn [bind]. change (Z.to_nat 56) with 56%nat.
    set (i3 := swap big 16 B). assert (L3 : length i3 = 64%nat) by (unfold i3; rewrite swap_len; exact LB).
    rewrite copy_some by (rewrite repeat_length; lia). cbn [bind]. rewrite repeat_length, firstn_O. cbn [app]. change (0 + 56)%nat with 56%nat.
    destruct (last_block big (block (blocks q first M) B) (repeat 0 56) (repeat 0 56 ++ skipn 56 i3) (N8 mod 2^32) (N8 / 2^32)) as (i7 & E & TR); [apply repeat_length| |rewrite app_length, repeat_length, skipn_length, L3; reflexivity|apply zeros_octets|exact X|exact Y|apply wide_block|].
    { rewrite skipn_app, repeat_length, Nat.sub_diag, skipn_O, (skipn_all2 (n := 56) (repeat 0 56)) by (rewrite repeat_length; lia). reflexivity. }
    destruct (copy (swap big 14 _) 56 _) as [i6|]; cbn [bind] in E |- *; [|discriminate]. rewrite E. cbn [bind]. rewrite TR. rewrite output_spec by apply wide_block. f_equal.
    rewrite (PAD (119 - r)%nat 2%nat); [|unfold zeros; replace ((55 - Z.of_nat (length M)) mod 64) with (119 - Z.of_nat r) by (apply (Z.mod_unique_pos _ _ (- Z.of_nat q - 1)); lia); lia|lia].
    f_equal. cbn [blocks]. replace (119 - r)%nat with ((63 - r) + 56)%nat by lia. rewrite repeat_app, <- app_assoc.
    replace (t ++ [128] ++ repeat 0 (63 - r) ++ repeat 0 56 ++ le 4 (N8 mod 2 ^ 32) ++ le 4 (N8 / 2 ^ 32)) with (B ++ repeat 0 56 ++ le 4 (N8 mod 2 ^ 32) ++ le 4 (N8 / 2 ^ 32)) by (unfold B; rewrite <- !app_assoc; reflexivity).
    rewrite firstn_app, skipn_app, LB. rewrite Nat.sub_diag, firstn_O, skipn_O, app_nil_r, (firstn_all2 (n := 64)) by lia. rewrite (skipn_all2 (n := 64)) by lia. cbn [app].
    f_equal.
  - cbn [bind]. replace (Z.to_nat (56 - 1 - Z.of_nat r)) with (55 - r)%nat by lia. rewrite copy_some by (rewrite repeat_length; lia). cbn [bind].
    rewrite repeat_length, F1'. replace (r + 1 + (55 - r))%nat with 56%nat by lia.
    set (A := (t ++ [128]) ++ repeat 0 (55 - r)). assert (LA : length A = 56%nat) by (unfold A; rewrite !app_length, repeat_length, LT; cbn [length]; lia).
    assert (OA : Forall octet A) by (apply Forall_app; split; [apply Forall_app; split; assumption|apply zeros_octets]).
    rewrite (app_assoc (t ++ [128])). fold A.
    destruct (last_block big (blocks q first M) A (A ++ skipn 56 i1) (N8 mod 2^32) (N8 / 2^32)) as (i7 & E & TR); [exact LA| |rewrite app_length, LA, skipn_length, L1; reflexivity|exact OA|exact X|exact Y|apply wide_blocks, wide_first|].
    { rewrite skipn_app, LA, Nat.sub_diag, skipn_O, (skipn_all2 (n := 56) A) by lia. reflexivity. }
    destruct (copy (swap big 14 _) 56 _) as [i6|]; cbn [bind] in E |- *; [|discriminate]. rewrite E. cbn [bind]. rewrite TR. rewrite output_spec by apply wide_block. f_equal.
    rewrite (PAD (55 - r)%nat 1%nat); [|unfold zeros; replace ((55 - Z.of_nat (length M)) mod 64) with (55 - Z.of_nat r) by (apply (Z.mod_unique_pos _ _ (- Z.of_nat q)); lia); lia|lia].
    f_equal. cbn [blocks]. f_equal. unfold A. rewrite <- !app_assoc. symmetry. apply firstn_all2. rewrite !app_length, repeat_length, !le_len, LT. cbn [length]. lia.
Qed.
