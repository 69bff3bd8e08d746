(** Proofs for the chrony module, part 1: octets, numbers, addresses, the command line. *)
Require Import ZArith QArith List Bool Lia.
Require Import Verif.Base Verif.TimeSpec Verif.TimeModel Verif.QLib Verif.ListLib Verif.StatsModel Verif.CrnSpec Verif.CrnModel.
Import ListNotations.
Open Scope Z_scope.

(** ** Numbers *)
Lemma land_ones_mod : forall x n, 0 <= n -> Z.land x (2^n - 1) = x mod 2^n.
Proof. intros x n H. replace (2^n - 1) with (Z.ones n) by (rewrite Z.ones_equiv; lia). apply Z.land_ones; exact H. Qed.
Lemma put16_enc : forall x, put16 x = enc16 x.
Proof.
  intros x. unfold put16, enc16. change 255 with (2^8 - 1). rewrite !land_ones_mod by lia.
  rewrite Z.shiftr_div_pow2 by lia. reflexivity.
Qed.
Lemma put32_enc : forall x, put32 x = enc32 x.
Proof.
  intros x. unfold put32, enc32. rewrite !put16_enc. change 65535 with (2^16 - 1). rewrite !land_ones_mod by lia.
  rewrite Z.shiftr_div_pow2 by lia. reflexivity.
Qed.
Lemma host32_le : forall x, host32 x = le32 x.
Proof.
  intros x. unfold host32, le32. change 255 with (2^8 - 1). rewrite !land_ones_mod by lia.
  rewrite !Z.shiftr_div_pow2 by lia. reflexivity.
Qed.
Lemma request_enc : forall cmd r a, request cmd r a = enc_request cmd r a.
Proof. intros. unfold request, enc_request. rewrite put16_enc, host32_le. reflexivity. Qed.

Lemma oct_app : forall a b i, (i = List.length a)%nat -> forall j, oct (a ++ b) (i + j) = oct b j.
Proof. intros a b i H j. unfold oct. rewrite app_nth2 by lia. f_equal. lia. Qed.
Lemma be16_app : forall a b i j, (i = List.length a)%nat -> be16 (a ++ b) (i + j) = be16 b j.
Proof. intros a b i j H. unfold be16. rewrite (oct_app a b i H). replace (S (i + j)) with (i + S j)%nat by lia. rewrite (oct_app a b i H). reflexivity. Qed.
Lemma be32_app : forall a b i j, (i = List.length a)%nat -> be32 (a ++ b) (i + j) = be32 b j.
Proof.
  intros a b i j H. unfold be32. rewrite (be16_app a b i j H).
  replace (i + j + 2)%nat with (i + (j + 2))%nat by lia. rewrite (be16_app a b i _ H). reflexivity.
Qed.
Lemma be16_enc : forall x b, 0 <= x < 2^16 -> be16 (enc16 x ++ b) 0 = x.
Proof. intros x b H. unfold be16, enc16, oct. cbn [app nth]. lia. Qed.
Lemma be32_enc : forall x b, 0 <= x < 2^32 -> be32 (enc32 x ++ b) 0 = x.
Proof.
  intros x b H. unfold be32, enc32, be16, enc16, oct. cbn [app nth Nat.add]. lia.
Qed.
(** The field after [a]. *)
Lemma oct_at : forall i a x b, (i = List.length a)%nat -> oct (a ++ x :: b) i = x.
Proof. intros i a x b H. replace i with (i + 0)%nat by lia. rewrite (oct_app a _ i H). reflexivity. Qed.
Lemma be16_at : forall i a x b, (i = List.length a)%nat -> 0 <= x < 2^16 -> be16 (a ++ enc16 x ++ b) i = x.
Proof. intros i a x b H R. replace i with (i + 0)%nat by lia. rewrite (be16_app a _ i 0 H). apply be16_enc; exact R. Qed.
Lemma be32_at : forall i a x b, (i = List.length a)%nat -> 0 <= x < 2^32 -> be32 (a ++ enc32 x ++ b) i = x.
Proof. intros i a x b H R. replace i with (i + 0)%nat by lia. rewrite (be32_app a _ i 0 H). apply be32_enc; exact R. Qed.
Lemma len_enc16 : forall x, List.length (enc16 x) = 2%nat. Proof. reflexivity. Qed.
Lemma len_enc32 : forall x, List.length (enc32 x) = 4%nat. Proof. reflexivity. Qed.
Lemma len_efl : forall x, List.length (efl x) = 4%nat. Proof. reflexivity. Qed.
Lemma len_addr : forall a, addr_ok a -> List.length (enc_addr a) = 20%nat.
Proof.
  intros [|l|l|] H; cbn in H; try contradiction; cbn [enc_addr]; try reflexivity;
    destruct H as [L _]; rewrite !app_length, L; reflexivity.
Qed.

(** ** Floats *)
Lemma tosigned_mod : forall x i, 0 <= i -> - 2^i <= x < 2^i -> tosigned (x mod 2^(i+1)) i = x.
Proof.
  intros x i Hi Hx. unfold tosigned. rewrite land_ones_mod by lia.
  assert (P : 2^(i+1) = 2 * 2^i) by (rewrite Z.pow_add_r by lia; lia).
  assert (Q0 : 0 < 2^i) by lia.
  set (y := x mod 2^(i+1)).
  assert (Y : 0 <= y < 2 * 2^i) by (unfold y; rewrite P; apply Z.mod_pos_bound; lia).
  assert (B : negb (Z.land y (2^i) =? 0) = Z.testbit y i).
  { destruct (Z.testbit y i) eqn:T.
    - apply negb_true_iff, Z.eqb_neq. intros E.
      assert (F : Z.testbit (Z.land y (2^i)) i = false) by (rewrite E; apply Z.bits_0).
      rewrite Z.land_spec, T, Z.pow2_bits_true in F by lia. discriminate.
    - apply negb_false_iff, Z.eqb_eq. apply Z.bits_inj'. intros j Hj. rewrite Z.land_spec, Z.bits_0.
      destruct (Z.eq_dec j i) as [->|N]; [rewrite T; reflexivity|]. rewrite Z.pow2_bits_false by lia. apply andb_false_r. }
  rewrite B.
  assert (TB : Z.testbit y i = (2^i <=? y)).
  { rewrite Z.testbit_odd, Z.shiftr_div_pow2 by lia.
    destruct (2^i <=? y) eqn:C.
    - apply Z.leb_le in C. replace (y / 2^i) with 1; [reflexivity|]. apply Z.div_unique with (r := y - 2^i); lia.
    - apply Z.leb_gt in C. rewrite Z.div_small by lia. reflexivity. }
  rewrite TB. destruct (2^i <=? y) eqn:C.
  - apply Z.leb_le in C. replace (y mod 2^i) with (y - 2^i) by (apply Z.mod_unique with (q := 1); lia).
    destruct (Z_lt_le_dec x 0) as [Lx|Lx].
    + assert (y = x + 2 * 2^i). { unfold y. rewrite P. symmetry. apply Z.mod_unique with (q := -1); lia. } lia.
    + assert (y = x). { unfold y. rewrite P. apply Z.mod_small. lia. } lia.
  - apply Z.leb_gt in C. rewrite Z.mod_small by lia.
    destruct (Z_lt_le_dec x 0) as [Lx|Lx].
    + assert (y = x + 2 * 2^i). { unfold y. rewrite P. symmetry. apply Z.mod_unique with (q := -1); lia. } lia.
    + unfold y. rewrite P. apply Z.mod_small. lia.
Qed.
Lemma enc_float_range : forall c e, 0 <= enc_float c e < 2^32.
Proof.
  intros c e. unfold enc_float. assert (A := Z.mod_pos_bound e (2^7) eq_refl). assert (B := Z.mod_pos_bound c (2^25) eq_refl).
  change (2^32) with (128 * 33554432). change (2^7) with 128 in *. change (2^25) with 33554432 in *. lia.
Qed.
Lemma tofloat_enc : forall c e, float_ok c e -> tofloat (enc_float c e) = float_val c e.
Proof.
  intros c e [C E]. unfold tofloat, float_val.
  assert (A := Z.mod_pos_bound e (2^7) eq_refl). assert (B := Z.mod_pos_bound c (2^25) eq_refl).
  assert (X : Z.shiftr (enc_float c e) 25 = e mod 2^7).
  { rewrite Z.shiftr_div_pow2 by lia. unfold enc_float. rewrite Z.div_add_l by lia. rewrite Z.div_small by lia. lia. }
  assert (Y : Z.land (enc_float c e) (2^25 - 1) = c mod 2^25).
  { rewrite land_ones_mod by lia. unfold enc_float. rewrite Z.add_comm, Z.mod_add by lia. apply Z.mod_mod. lia. }
  rewrite X, Y. change (2^7) with (2^(6+1)). change (2^25) with (2^(24+1)).
  rewrite !tosigned_mod by lia. reflexivity.
Qed.
Lemma be32_efl : forall i a x b, (i = List.length a)%nat -> be32 (a ++ efl x ++ b) i = enc_float (fst x) (snd x).
Proof. intros i a x b H. unfold efl. apply be32_at; [exact H|apply enc_float_range]. Qed.

(** ** Addresses *)
Lemma sockaddr_enc : forall i a x b, (i = List.length a)%nat -> addr_ok x -> sockaddr (a ++ enc_addr x ++ b) i = x.
Proof.
  intros i a x b H A. unfold sockaddr.
  rewrite (be16_app a _ i 16 H). subst i. rewrite skipn_app, Nat.sub_diag, skipn_all. cbn [app skipn].
  destruct x as [|l|l|]; cbn in A; try contradiction.
  - destruct A as [L _]. cbn [enc_addr].
    replace (be16 ((l ++ repeat 0 12 ++ enc16 1 ++ [0; 0]) ++ b) 16) with 1.
    + change (1 =? 2) with false. change (1 =? 1) with true. cbv iota. f_equal.
      rewrite <- app_assoc, firstn_app. rewrite L. cbn [Nat.sub]. rewrite firstn_O, app_nil_r. apply firstn_all2. rewrite L; auto.
    + symmetry. rewrite <- !app_assoc. rewrite (app_assoc l). apply be16_at; [rewrite app_length, L; reflexivity|lia].
  - destruct A as [L _]. cbn [enc_addr].
    replace (be16 ((l ++ enc16 2 ++ [0; 0]) ++ b) 16) with 2.
    + change (2 =? 2) with true. cbv iota. f_equal.
      rewrite <- app_assoc, firstn_app. rewrite L. cbn [Nat.sub]. rewrite firstn_O, app_nil_r. apply firstn_all2. rewrite L; auto.
    + symmetry. rewrite <- !app_assoc. apply be16_at; [symmetry; exact L|lia].
  - reflexivity.
Qed.
Lemma family_enc : forall i a x b, (i = List.length a)%nat -> addr_ok x -> be16 (a ++ enc_addr x ++ b) (i + 16) = match x with V4 _ => 1 | V6 _ => 2 | _ => 0 end.
Proof.
  intros i a x b H A. rewrite (be16_app a _ i 16 H). destruct x as [|l|l|]; cbn in A; try contradiction; cbn [enc_addr].
  - destruct A as [L _]. rewrite <- !app_assoc. rewrite (app_assoc l). apply be16_at; [rewrite app_length, L; reflexivity|lia].
  - destruct A as [L _]. rewrite <- !app_assoc. apply be16_at; [symmetry; exact L|lia].
  - reflexivity.
Qed.

(** ** Answers as they are read *)
Definition fill (l old : list Z) : list Z := firstn 528 l ++ skipn (List.length (firstn 528 l)) old.
Lemma head_len : forall a, List.length (enc_answer a) = (28 + List.length (a_data a))%nat.
Proof. intros a. unfold enc_answer. rewrite !app_length. reflexivity. Qed.
Lemma le32_sum : forall x, 0 <= x < 2^32 -> x = x mod 256 + 256 * (x / 256 mod 256) + 65536 * (x / 65536 mod 256) + 16777216 * (x / 16777216 mod 256).
Proof.
  intros x X. rewrite (Z.mod_small (x / 16777216)) by (split; [apply Z.div_pos; lia|apply Z.div_lt_upper_bound; lia]).
  replace (x / 16777216) with (x / 65536 / 256) by (rewrite Z.div_div by lia; reflexivity).
  assert (A := Z.div_mod (x / 65536) 256 ltac:(lia)).
  replace (x / 65536) with (x / 256 / 256) in * by (rewrite Z.div_div by lia; reflexivity).
  assert (B := Z.div_mod (x / 256) 256 ltac:(lia)). assert (C := Z.div_mod x 256 ltac:(lia)). lia.
Qed.
Lemma le32_inj : forall x y b b', 0 <= x < 2^32 -> 0 <= y < 2^32 -> (be32 (le32 x ++ b) 0 =? be32 (le32 y ++ b') 0) = (x =? y).
Proof.
  intros x y b b' X Y. unfold be32, be16, oct, le32. cbn [app nth Nat.add].
  destruct (x =? y) eqn:E.
  - apply Z.eqb_eq in E. subst y. apply Z.eqb_refl.
  - apply Z.eqb_neq in E. apply Z.eqb_neq. intros F. apply E.
    rewrite (le32_sum x X), (le32_sum y Y).
    assert (forall n, 0 <= n mod 256 < 256) as M by (intros; apply Z.mod_pos_bound; lia).
    assert (A0 := M x). assert (A1 := M (x / 256)). assert (A2 := M (x / 65536)). assert (A3 := M (x / 16777216)).
    assert (B0 := M y). assert (B1 := M (y / 256)). assert (B2 := M (y / 65536)). assert (B3 := M (y / 16777216)).
    generalize dependent (x mod 256). generalize dependent (x / 256 mod 256). generalize dependent (x / 65536 mod 256). generalize dependent (x / 16777216 mod 256).
    generalize dependent (y mod 256). generalize dependent (y / 256 mod 256). generalize dependent (y / 65536 mod 256). generalize dependent (y / 16777216 mod 256).
    clear. intros. lia.
Qed.
