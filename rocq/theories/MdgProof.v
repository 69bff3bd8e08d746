(** C78, proofs: the words, the operations and a block. *)
Require Import ZArith List Bool Lia.
Require Import Verif.Base Verif.MdgSpec Verif.MdgModel.
Import ListNotations.
Open Scope Z_scope.

Definition word32 (x : Z) : Prop := 0 <= x < 2^32.
Definition wide (v : regs) : Prop := let '(a, b, c, d) := v in word32 a /\ word32 b /\ word32 c /\ word32 d.

Lemma high_bit : forall x n k, 0 <= x < 2^n -> 0 <= n <= k -> Z.testbit x k = false.
Proof. intros x n k R N. rewrite <- (Z.mod_small x (2^n)) by exact R. apply Z.mod_pow2_bits_high. lia. Qed.
Lemma lor_add : forall b n a, 0 <= n -> 0 <= a < 2^n -> Z.lor (Z.shiftl b n) a = b * 2^n + a.
Proof.
  intros b n a N R. rewrite <- Z.shiftl_mul_pow2 by exact N. assert (L : Z.land (Z.shiftl b n) a = 0).
  { apply Z.bits_inj'. intros k K. rewrite Z.land_spec, Z.bits_0. destruct (Z.lt_ge_cases k n) as [H|H].
    - rewrite Z.shiftl_spec_low by exact H. reflexivity.
    - rewrite (high_bit a n k R) by lia. apply andb_false_r. }
  rewrite Z.add_nocarry_lxor by exact L. rewrite Z.lxor_lor by exact L. reflexivity.
Qed.
Lemma unle4 : forall a b c d, octet a -> octet b -> octet c -> octet d ->
  u32 (Z.lor (Z.shiftl (Z.lor (Z.shiftl d 8) c) 16) (Z.lor (Z.shiftl b 8) a)) = unle [a; b; c; d].
Proof.
  unfold octet. intros a b c d A B C D. rewrite (lor_add d 8 c), (lor_add b 8 a) by lia. rewrite lor_add by lia. cbn [unle]. unfold u32. rewrite Z.mod_small by lia. lia.
Qed.
Lemma digits4 : forall a b c d, octet a -> octet b -> octet c -> octet d -> let x := unle [a; b; c; d] in
  x mod 256 = a /\ x / 2^8 mod 256 = b /\ x / 2^16 mod 256 = c /\ x / 2^24 mod 256 = d /\ word32 x.
Proof.
  unfold octet, word32. intros a b c d A B C D. cbn [unle].
  set (x := a + 256 * (b + 256 * (c + 256 * (d + 256 * 0)))). cbv zeta.
  assert (x mod 256 = a) by (symmetry; apply (Z.mod_unique_pos x 256 (b + 256 * (c + 256 * d))); unfold x; lia).
  assert (x / 2^8 = b + 256 * (c + 256 * d)) by (symmetry; apply (Z.div_unique_pos x (2^8) _ a); unfold x; lia).
  assert (x / 2^16 = c + 256 * d) by (symmetry; apply (Z.div_unique_pos x (2^16) _ (a + 256 * b)); unfold x; lia).
  assert (x / 2^24 = d) by (symmetry; apply (Z.div_unique_pos x (2^24) _ (a + 256 * (b + 256 * c))); unfold x; lia).
  split; [assumption|]. split; [rewrite H0; symmetry; apply (Z.mod_unique_pos _ 256 (c + 256 * d)); lia|].
  split; [rewrite H1; symmetry; apply (Z.mod_unique_pos _ 256 d); lia|]. split; [rewrite H2; apply Z.mod_small; lia|]. unfold x. lia.
Qed.
Lemma store_unle : forall big a b c d, octet a -> octet b -> octet c -> octet d -> store big (unle [a; b; c; d]) = if big then [d; c; b; a] else [a; b; c; d].
Proof. intros big a b c d A B C D. destruct (digits4 a b c d A B C D) as (E1 & E2 & E3 & E4 & _). unfold store. rewrite E1, E2, E3, E4. destruct big; reflexivity. Qed.
Lemma store_len : forall big x, length (store big x) = 4%nat.
Proof. intros [|] x; reflexivity. Qed.
Lemma le4_octets : forall x, word32 x -> exists a b c d, octet a /\ octet b /\ octet c /\ octet d /\ x = unle [a; b; c; d] /\ le 4 x = [a; b; c; d].
Proof.
  unfold word32, octet. intros x R. exists (x mod 256), (x / 256 mod 256), (x / 256 / 256 mod 256), (x / 256 / 256 / 256 mod 256).
  repeat (split; [apply Z.mod_pos_bound; lia|]). split; [|reflexivity]. cbn [unle].
  pose proof (Z.div_mod x 256 ltac:(lia)). pose proof (Z.div_mod (x / 256) 256 ltac:(lia)). pose proof (Z.div_mod (x / 256 / 256) 256 ltac:(lia)). pose proof (Z.div_mod (x / 256 / 256 / 256) 256 ltac:(lia)).
  assert (x / 256 / 256 / 256 / 256 = 0) by (rewrite !Z.div_div by lia; apply Z.div_small; lia). lia.
Qed.
Lemma load_store : forall big x, word32 x -> load big (store big x) = x.
Proof.
  intros big x R. destruct (le4_octets x R) as (a & b & c & d & A & B & C & D & -> & _). rewrite store_unle by assumption. unfold load. destruct big; cbn [rev app unle]; lia.
Qed.
Lemma swap_len : forall big n l, length (swap big n l) = length l.
Proof.
  intros big n. induction n as [|n IH]; intros l; [destruct l; reflexivity|]. destruct l as [|a [|b [|c [|d l]]]]; try reflexivity. cbn [swap]. rewrite app_length, store_len, IH. reflexivity.
Qed.
Lemma swap_app : forall big n A m B, length A = (4 * n)%nat -> swap big (n + m) (A ++ B) = swap big n A ++ swap big m B.
Proof.
  intros big n. induction n as [|n IH]; intros A m B L; [destruct A; [reflexivity|discriminate]|].
  destruct A as [|a [|b [|c [|d A]]]]; try (cbn in L; lia). cbn [Nat.add app swap]. rewrite IH by (cbn in L; lia). rewrite app_assoc. reflexivity.
Qed.
Lemma swap_le : forall big x, word32 x -> swap big 1 (le 4 x) = store big x.
Proof.
  intros big x R. destruct (le4_octets x R) as (a & b & c & d & A & B & C & D & E & F). rewrite F. cbn [swap]. rewrite unle4 by assumption. rewrite <- E. apply app_nil_r.
Qed.
Lemma swap_store : forall big x, word32 x -> swap big 1 (store big x) = le 4 x.
Proof.
  intros big x R. destruct (le4_octets x R) as (a & b & c & d & A & B & C & D & E & F). rewrite E at 1. rewrite F, store_unle by assumption.
  destruct big; cbn [swap]; rewrite unle4, store_unle by assumption; reflexivity.
Qed.
Lemma swap_word : forall big k n l, (k < n)%nat -> (4 * n <= length l)%nat -> Forall octet l -> load big (firstn 4 (skipn (4 * k) (swap big n l))) = word l k.
Proof.
  intros big k. induction k as [|k IH]; intros n l K L O; (destruct n as [|n]; [lia|]); destruct l as [|a [|b [|c [|d l]]]]; try (cbn in L; lia);
    inversion O as [|? ? O1 P1]; subst; inversion P1 as [|? ? O2 P2]; subst; inversion P2 as [|? ? O3 P3]; subst; inversion P3 as [|? ? O4 P4]; subst; cbn [swap]; rewrite unle4 by assumption.
  - change (4 * 0)%nat with 0%nat. rewrite skipn_O, firstn_app, store_len, Nat.sub_diag, firstn_O, app_nil_r, firstn_all2 by (rewrite store_len; lia). rewrite load_store; [reflexivity|]. destruct (digits4 a b c d O1 O2 O3 O4) as (_ & _ & _ & _ & H). exact H.
  - replace (4 * S k)%nat with (4 + 4 * k)%nat by lia. rewrite skipn_app, store_len. replace (4 + 4 * k - 4)%nat with (4 * k)%nat by lia. rewrite skipn_all2 by (rewrite store_len; lia). cbn [app].
    rewrite IH by (auto; cbn in L; lia). unfold word. replace (4 * S k)%nat with (S (S (S (S (4 * k))))) by lia. reflexivity.
Qed.
Lemma words_swap : forall big l, length l = 64%nat -> Forall octet l -> words_of big (swap big 16 l) = map (word l) (seq 0 16).
Proof.
  intros big l L O. unfold words_of. apply map_ext_in. intros k I. apply in_seq in I. apply swap_word; [lia|rewrite L; lia|exact O].
Qed.

(** ** The operations *)
Lemma not32_u : forall z, word32 z -> u32 (Z.lnot z) = not32 z.
Proof. unfold word32, u32, not32, Z.lnot. intros z R. symmetry. apply (Z.mod_unique_pos _ _ (-1)); lia. Qed.
Lemma not32_bit : forall z k, word32 z -> 0 <= k < 32 -> Z.testbit (not32 z) k = negb (Z.testbit z k).
Proof. intros z k R K. rewrite <- not32_u by exact R. unfold u32. rewrite Z.mod_pow2_bits_low by lia. apply Z.lnot_spec. lia. Qed.
Lemma not32_word : forall z, word32 z -> word32 (not32 z).
Proof. unfold word32, not32. intros. lia. Qed.
Lemma bits32 : forall x y, (forall k, 0 <= k < 32 -> Z.testbit x k = Z.testbit y k) -> (forall k, 32 <= k -> Z.testbit x k = Z.testbit y k) -> x = y.
Proof. intros x y H1 H2. apply Z.bits_inj'. intros k K. destruct (Z.lt_ge_cases k 32); [apply H1|apply H2]; lia. Qed.
Lemma fun1_spec : forall x y z, word32 x -> word32 y -> word32 z -> fun1 x y z = Z.lor (Z.land x y) (Z.land (not32 x) z).
Proof.
  intros x y z X Y Z0. apply bits32; intros k K; unfold fun1; rewrite !Z.lxor_spec, !Z.land_spec, !Z.lor_spec, !Z.land_spec, !Z.lxor_spec.
  - rewrite not32_bit by assumption. destruct (Z.testbit x k), (Z.testbit y k), (Z.testbit z k); reflexivity.
  - pose proof (not32_word x X) as NX. unfold word32 in *. rewrite (high_bit x 32 k), (high_bit y 32 k), (high_bit z 32 k), (high_bit (not32 x) 32 k) by (assumption || lia). reflexivity.
Qed.
Definition round (f : func) : nat := match f with F1 => 0 | F2 => 1 | F3 => 2 | F4 => 3 end.
Lemma apply_spec : forall f x y z, word32 x -> word32 y -> word32 z -> apply f x y z = aux (round f) x y z.
Proof.
  intros f x y z X Y Z0. destruct f; cbn [apply aux round]; [apply fun1_spec; assumption| |reflexivity|rewrite not32_u by assumption; reflexivity].
  rewrite fun1_spec by assumption. rewrite (Z.land_comm z x), (Z.land_comm (not32 z) y). reflexivity.
Qed.
Lemma rotate_spec : forall w s, 0 <= s <= 32 -> Z.lor (u32 (Z.shiftl w s)) (Z.shiftr w (32 - s)) = rotate w s.
Proof. intros w s R. unfold rotate, u32. rewrite Z.shiftl_mul_pow2, Z.shiftr_div_pow2 by lia. reflexivity. Qed.

(** Which variables have the names a, b, c, d at operation i. *)
Definition names (i : nat) : reg * reg * reg * reg :=
  match (i mod 4)%nat with 0%nat => (RA, RB, RC, RD) | 1%nat => (RD, RA, RB, RC) | 2%nat => (RC, RD, RA, RB) | _ => (RB, RC, RD, RA) end.
Definition view (i : nat) (v : regs) : state := let '(w, x, y, z) := names i in (get v w, get v x, get v y, get v z).
Definition func_of (r : nat) : func := match r with 0%nat => F1 | 1%nat => F2 | 2%nat => F3 | _ => F4 end.
Definition step_of (i : nat) : mstep := let '(w, x, y, z) := names i in stp (func_of (i / 16)) w x y z (which i) (nth i table 0) (shift i).
Lemma steps_table : steps = map step_of (seq 0 64).
Proof. vm_compute. reflexivity. Qed.
Lemma names_cases : forall i, (names i = (RA, RB, RC, RD) /\ names (S i) = (RD, RA, RB, RC)) \/ (names i = (RD, RA, RB, RC) /\ names (S i) = (RC, RD, RA, RB)) \/
  (names i = (RC, RD, RA, RB) /\ names (S i) = (RB, RC, RD, RA)) \/ (names i = (RB, RC, RD, RA) /\ names (S i) = (RA, RB, RC, RD)).
Proof.
  intros i. pose proof (Nat.div_mod i 4 ltac:(lia)) as D. pose proof (Nat.mod_upper_bound i 4 ltac:(lia)) as B. unfold names.
  assert (M : (S i mod 4 = if i mod 4 =? 3 then 0 else S (i mod 4))%nat).
  { destruct (Nat.eqb_spec (i mod 4) 3) as [E|E]; symmetry; [apply (Nat.mod_unique _ _ (S (i / 4)))|apply (Nat.mod_unique _ _ (i / 4))]; lia. }
  rewrite M. destruct (i mod 4)%nat as [|[|[|[|k]]]]; [auto|auto|auto|auto|lia].
Qed.
Lemma sum_mod : forall w f i k, u32 (w + u32 (f + u32 (i + k))) = (w + f + i + k) mod 2^32.
Proof. intros w f i k. unfold u32. rewrite Z.add_mod_idemp_r by lia. rewrite Z.add_assoc, Z.add_mod_idemp_r by lia. f_equal. lia. Qed.
Lemma wide_put : forall v r x, wide v -> wide (put v r (u32 x)).
Proof. intros [[[a b] c] d] r x (A & B & C & D). assert (word32 (u32 x)) by (apply Z.mod_pos_bound; lia). destruct r; repeat split; try apply A; try apply B; try apply C; try apply D; apply H. Qed.
Lemma wide_get : forall v r, wide v -> word32 (get v r).
Proof. intros [[[a b] c] d] r (A & B & C & D). destruct r; assumption. Qed.
Lemma step_view : forall x v i, wide v -> (i < 64)%nat -> view (S i) (md5step x v (step_of i)) = operation x (view i v) i /\ wide (md5step x v (step_of i)).
Proof.
  intros x v i W I. split; [|unfold md5step; apply wide_put; exact W].
  assert (SH : 0 <= shift i <= 32). { unfold shift. do 64 (destruct i as [|i]; [vm_compute; split; discriminate|]). lia. }
  assert (RF : round (func_of (i / 16)) = (i / 16)%nat). { assert (i / 16 < 4)%nat by (apply Nat.div_lt_upper_bound; lia). destruct (i / 16)%nat as [|[|[|[|k]]]]; try reflexivity. lia. }
  unfold md5step, view, step_of, operation.
  set (T := nth i table 0). set (K := which i). set (S0 := shift i) in *. set (FF := func_of (i / 16)) in *. set (R := (i / 16)%nat) in *.
  clearbody T K S0. 
  destruct (names_cases i) as [[-> ->]|[[-> ->]|[[-> ->]|[-> ->]]]]; cbn [p_f p_w p_x p_y p_z p_i p_k p_s]; rewrite sum_mod, rotate_spec, apply_spec by (assumption || (apply wide_get; exact W)); rewrite RF;
    destruct v as [[[a b] c] d]; cbn [get put]; repeat f_equal; unfold u32; f_equal; lia.
Qed.
Lemma steps_view : forall x n i v, wide v -> (i + n <= 64)%nat ->
  view (i + n) (fold_left (md5step x) (map step_of (seq i n)) v) = fold_left (operation x) (seq i n) (view i v) /\ wide (fold_left (md5step x) (map step_of (seq i n)) v).
Proof.
  intros x n. induction n as [|n IH]; intros i v W L; [rewrite Nat.add_0_r; auto|]. cbn [seq map fold_left].
  destruct (step_view x v i W ltac:(lia)) as [E W1]. destruct (IH (S i) _ W1 ltac:(lia)) as [E2 W2]. rewrite <- Nat.add_succ_comm, E2, E. auto.
Qed.
Lemma view0 : forall v, view 0 v = v. Proof. intros [[[a b] c] d]. reflexivity. Qed.
Lemma view64 : forall v, view 64 v = v. Proof. intros [[[a b] c] d]. reflexivity. Qed.
Definition sum (v w : state) : state := let '(a, b, c, d) := v in let '(a', b', c', d') := w in ((a + a') mod 2^32, (b + b') mod 2^32, (c + c') mod 2^32, (d + d') mod 2^32).
Lemma block_sum : forall v l, block v l = sum v (fold_left (operation (map (word l) (seq 0 16))) (seq 0 64) v).
Proof. intros [[[a b] c] d] l. unfold block, sum. reflexivity. Qed.
Lemma transform_sum : forall big v l, transform big v l = sum v (fold_left (md5step (words_of big l)) steps v).
Proof. intros big [[[a b] c] d] l. unfold transform, sum. destruct (fold_left _ _ _) as [[[a' b'] c'] d']. reflexivity. Qed.
Lemma wide_sum : forall v w, wide (sum v w).
Proof.
  intros [[[a b] c] d] [[[a' b'] c'] d']. assert (M : forall x, word32 (x mod 2^32)) by (intros x; apply Z.mod_pos_bound; reflexivity).
  unfold sum, wide. split; [apply M|]. split; [apply M|]. split; apply M.
Qed.
Lemma wide_block : forall v l, wide (block v l).
Proof. intros v l. rewrite block_sum. apply wide_sum. Qed.
Lemma transform_block : forall big v l, wide v -> length l = 64%nat -> Forall octet l -> transform big v (swap big 16 l) = block v l.
Proof.
  intros big v l W L O. rewrite transform_sum, block_sum, words_swap, steps_table by assumption.
  destruct (steps_view (map (word l) (seq 0 16)) 64 0 v W ltac:(lia)) as [E _]. change (0 + 64)%nat with 64%nat in E. rewrite view0, view64 in E. rewrite E. reflexivity.
Qed.
