(** Proofs about access control lists. *)
Require Import ZArith List Bool Lia Permutation.
Require Import ZifyBool.
Import ListNotations.
From Verif Require Import Base ListLib AclSpec AclModel.
Open Scope Z_scope.

(** Tokens. *)
Lemma tokens_run : forall isd t cur s, Forall (fun c => isd c = false) t ->
  tokens isd cur (t ++ s) = tokens isd (rev t ++ cur) s.
Proof.
  intros isd t. induction t as [|c t IH]; intros cur s F; [reflexivity|].
  inversion F; subst. cbn [app tokens]. rewrite H1, IH by assumption. cbn [rev]. rewrite <- app_assoc. reflexivity.
Qed.

Lemma tokens_skip : forall isd d s, Forall (fun c => isd c = true) d -> tokens isd [] (d ++ s) = tokens isd [] s.
Proof. intros isd d. induction d as [|c d IH]; intros s F; [reflexivity|]. inversion F; subst. cbn. rewrite H1. cbn. auto. Qed.

Lemma tokens_word : forall isd t s, t <> [] -> Forall (fun c => isd c = false) t ->
  (s = [] \/ exists c r, s = c :: r /\ isd c = true) ->
  tokens isd [] (t ++ s) = t :: tokens isd [] s.
Proof.
  intros isd t s N F E. rewrite tokens_run by assumption. rewrite app_nil_r.
  assert (X : flush (rev t) = [t]).
  { unfold flush. destruct (rev t) eqn:R.
    - apply (f_equal (@rev Z)) in R. rewrite rev_involutive in R. cbn in R. congruence.
    - rewrite <- R, rev_involutive. reflexivity. }
  destruct E as [-> | (c & r & -> & C)].
  - cbn. exact X.
  - cbn. rewrite C, X. reflexivity.
Qed.

Lemma tokens_one : forall isd t, t <> [] -> Forall (fun c => isd c = false) t -> tokens isd [] t = [t].
Proof. intros. rewrite <- (app_nil_r t) at 1. rewrite tokens_word by auto. reflexivity. Qed.

Lemma tokens_cut : forall isd t c s, t <> [] -> Forall (fun c => isd c = false) t -> isd c = true ->
  tokens isd [] (t ++ c :: s) = t :: tokens isd [] s.
Proof. intros. rewrite tokens_word by eauto. cbn. rewrite H1. reflexivity. Qed.

(** Numbers. *)
Lemma take_digits_fold : forall s acc, Forall digit s ->
  take_digits acc s = fold_left (fun acc c => acc * 10 + (c - 48)) s acc.
Proof.
  induction s as [|c s IH]; intros acc F; [reflexivity|]. inversion F; subst. cbn.
  unfold isdigit. unfold digit in H1.
  replace ((48 <=? c) && (c <=? 57)) with true by lia. auto.
Qed.

Lemma digit_cases : forall c, digit c -> c = 48 \/ c = 49 \/ c = 50 \/ c = 51 \/ c = 52 \/ c = 53 \/ c = 54 \/ c = 55 \/ c = 56 \/ c = 57.
Proof. unfold digit. intros. lia. Qed.

Lemma strtol_decimal : forall s v, decimal s v -> strtol s = v.
Proof.
  intros s v (N & F & ->). unfold digits_value. rewrite <- take_digits_fold by assumption.
  destruct s as [|c s]; [congruence|]. inversion F; subst.
  destruct (digit_cases c H1) as [-> | [-> | [-> | [-> | [-> | [-> | [-> | [-> | [-> | ->]]]]]]]]]; reflexivity.
Qed.

Lemma decimal_nonneg : forall s v, decimal s v -> 0 <= v.
Proof.
  intros s v (_ & F & ->). unfold digits_value.
  assert (X : forall s acc, Forall digit s -> 0 <= acc -> 0 <= fold_left (fun acc c => acc * 10 + (c - 48)) s acc).
  { induction s0 as [|c s0 IH]; intros acc F0 A; cbn; [assumption|]. inversion F0; subst. apply IH; auto.
    unfold digit in H1. lia. }
  apply X; [assumption | lia].
Qed.

(** No delimiter in the text of a number or an address. *)
Definition plain (c : Z) : Prop := digit c \/ c = 46.
Lemma decimal_not_dot : forall s v, decimal s v -> Forall (fun c => dot c = false) s.
Proof. intros s v (_ & F & _). eapply Forall_impl; [|exact F]. unfold digit, dot. cbn. intros. lia. Qed.
Lemma decimal_plain : forall s v, decimal s v -> Forall plain s.
Proof. intros s v (_ & F & _). eapply Forall_impl; [|exact F]. unfold plain. auto. Qed.
Lemma plain_not_slash : forall s, Forall plain s -> Forall (fun c => slash c = false) s.
Proof. intros s F. eapply Forall_impl; [|exact F]. unfold plain, digit, slash. cbn. intros. lia. Qed.
Lemma dotted_plain : forall s a, dotted s a -> Forall plain s /\ s <> [].
Proof.
  intros s a (s1 & s2 & s3 & s4 & o1 & o2 & o3 & o4 & D1 & D2 & D3 & D4 & _ & _ & _ & _ & -> & _).
  split.
  - assert (P : plain 46) by (right; reflexivity).
    repeat (apply Forall_app; split; [eapply decimal_plain; eassumption|]; constructor; [exact P|]).
    eapply decimal_plain; eassumption.
  - destruct s1; [destruct D1 as (N & _); congruence|]. discriminate.
Qed.

Lemma dotted_tokens : forall s1 s2 s3 s4 o1 o2 o3 o4,
  decimal s1 o1 -> decimal s2 o2 -> decimal s3 o3 -> decimal s4 o4 ->
  tokens dot [] (s1 ++ 46 :: s2 ++ 46 :: s3 ++ 46 :: s4) = [s1; s2; s3; s4].
Proof.
  intros s1 s2 s3 s4 o1 o2 o3 o4 D1 D2 D3 D4.
  rewrite tokens_cut; [|apply D1|eapply decimal_not_dot; eassumption|reflexivity].
  rewrite tokens_cut; [|apply D2|eapply decimal_not_dot; eassumption|reflexivity].
  rewrite tokens_cut; [|apply D3|eapply decimal_not_dot; eassumption|reflexivity].
  rewrite tokens_one; [reflexivity|apply D4|eapply decimal_not_dot; eassumption].
Qed.

(** Bits. *)
Lemma lor_add : forall a b k, 0 <= k -> 0 <= b < 2^k -> Z.lor (a * 2^k) b = a * 2^k + b.
Proof.
  intros a b k K B.
  assert (L : Z.land (a * 2^k) b = 0).
  { apply Z.bits_inj'. intros n N. rewrite Z.land_spec, Z.bits_0.
    destruct (Z.lt_ge_cases n k).
    - rewrite Z.mul_pow2_bits_low by lia. reflexivity.
    - replace b with (b mod 2^k) by (apply Z.mod_small; lia).
      rewrite Z.mod_pow2_bits_high by lia. apply andb_false_r. }
  rewrite <- Z.lxor_lor by assumption. symmetry. apply Z.add_nocarry_lxor. assumption.
Qed.

Lemma word_sum : forall a b c d, 0 <= a <= 255 -> 0 <= b <= 255 -> 0 <= c <= 255 -> 0 <= d <= 255 ->
  word [a; b; c; d] = a * 2^24 + b * 2^16 + c * 2^8 + d.
Proof.
  intros a b c d A B C D. unfold word, u32. rewrite Z.mod_small by lia.
  replace (Z.lor (a * 2^24) (b * 2^16)) with ((a * 2^8 + b) * 2^16).
  2:{ rewrite (lor_add a (b * 2^16) 24) by lia. lia. }
  replace (Z.lor ((a * 2^8 + b) * 2^16) (c * 2^8)) with (((a * 2^8 + b) * 2^8 + c) * 2^8).
  2:{ rewrite (lor_add (a * 2^8 + b) (c * 2^8) 16) by lia. lia. }
  rewrite lor_add by lia. lia.
Qed.

Lemma land_mask : forall n a, 0 <= n <= 32 -> 0 <= a < 2^32 ->
  Z.land a (mask_of n) = a / 2^(32 - n) * 2^(32 - n).
Proof.
  intros n a N A. unfold mask_of.
  assert (P : 2^32 = 2^n * 2^(32 - n)) by (rewrite <- Z.pow_add_r by lia; f_equal; lia).
  assert (Q : 0 < 2^(32 - n)) by (apply Z.pow_pos_nonneg; lia).
  replace (2^32 - 2^(32 - n)) with (Z.ones n * 2^(32 - n)) by (rewrite Z.ones_equiv, P; nia).
  rewrite <- !Z.shiftl_mul_pow2 by lia. rewrite <- Z.shiftr_div_pow2 by lia.
  apply Z.bits_inj'. intros m M. rewrite Z.land_spec.
  destruct (Z.lt_ge_cases m (32 - n)).
  - rewrite !Z.shiftl_spec_low by lia. apply andb_false_r.
  - rewrite !Z.shiftl_spec by lia. rewrite Z.shiftr_spec by lia. replace (m - (32 - n) + (32 - n)) with m by lia.
    destruct (Z.lt_ge_cases m 32).
    + rewrite Z.ones_spec_low by lia. apply andb_true_r.
    + replace a with (a mod 2^32) by (apply Z.mod_small; lia). rewrite Z.mod_pow2_bits_high by lia. reflexivity.
Qed.

Lemma same_prefix : forall n a b, 0 <= n <= 32 -> 0 <= a < 2^32 -> 0 <= b < 2^32 ->
  (Z.land (mask_of n) b =? Z.land a (mask_of n)) = true <-> b / 2^(32 - n) = a / 2^(32 - n).
Proof.
  intros n a b N A B. rewrite (Z.land_comm (mask_of n)), !land_mask by assumption. rewrite Z.eqb_eq.
  assert (Q : 0 < 2^(32 - n)) by (apply Z.pow_pos_nonneg; lia). split; intro H; nia.
Qed.

Lemma shifts_some : forall f n count, 0 <= count <= n -> n < 32 -> n - count < Z.of_nat f ->
  exists c, shifts f (mask_of n) count = Some c.
Proof.
  induction f; intros n count C N F; [lia|]. cbn [shifts].
  replace (32 <=? count) with false by lia.
  destruct (u32 (mask_of n * 2^count) =? 0) eqn:E; [eauto|].
  assert (count <> n).
  { intros ->. apply Z.eqb_neq in E. apply E. unfold u32, mask_of.
    replace ((2^32 - 2^(32 - n)) * 2^n) with ((2^n - 1) * 2^32); [apply Z.mod_mul; lia|].
    replace (2^32) with (2^(32 - n) * 2^n) by (rewrite <- Z.pow_add_r by lia; f_equal; lia). ring. }
  apply IHf; lia.
Qed.

Lemma dotted_addr : forall s a, dotted s a -> is_addr a.
Proof.
  intros s a (s1 & s2 & s3 & s4 & o1 & o2 & o3 & o4 & D1 & D2 & D3 & D4 & B1 & B2 & B3 & B4 & -> & ->).
  apply decimal_nonneg in D1, D2, D3, D4. unfold is_addr. lia.
Qed.

(** Addresses. *)
Lemma dotted_octets : forall s a, dotted s a ->
  length (tokens dot [] s) = 4%nat /\ exists os, ip_to_array false s = Some (Some os) /\ word os = a.
Proof.
  intros s a (s1 & s2 & s3 & s4 & o1 & o2 & o3 & o4 & D1 & D2 & D3 & D4 & B1 & B2 & B3 & B4 & -> & ->).
  unfold ip_to_array. rewrite (dotted_tokens _ _ _ _ _ _ _ _ D1 D2 D3 D4). split; [reflexivity|].
  exists [o1; o2; o3; o4]. cbn [octets Nat.ltb Nat.leb].
  rewrite (strtol_decimal _ _ D1), (strtol_decimal _ _ D2), (strtol_decimal _ _ D3), (strtol_decimal _ _ D4).
  apply decimal_nonneg in D1, D2, D3, D4. unfold in_range.
  replace ((0 <=? o1) && (o1 <=? 255)) with true by lia. replace ((0 <=? o2) && (o2 <=? 255)) with true by lia.
  replace ((0 <=? o3) && (o3 <=? 255)) with true by lia. replace ((0 <=? o4) && (o4 <=? 255)) with true by lia.
  cbn [andb set_nth]. split; [reflexivity|]. apply word_sum; lia.
Qed.

(** A mask: the octets after the first one below 255 are zero anyway. *)
Lemma mask_table : forall n, 0 <= n <= 32 ->
  exists a b c d, mask_of n = a * 2^24 + b * 2^16 + c * 2^8 + d /\
    0 <= a <= 255 /\ 0 <= b <= 255 /\ 0 <= c <= 255 /\ 0 <= d <= 255 /\
    (a < 255 -> b = 0 /\ c = 0 /\ d = 0) /\ (b < 255 -> c = 0 /\ d = 0) /\ (c < 255 -> d = 0).
Proof.
  intros n N. assert (X : In n (map Z.of_nat (seq 0 33))).
  { replace n with (Z.of_nat (Z.to_nat n)) by lia. apply in_map. apply in_seq. lia. }
  exists (mask_of n / 2^24), (mask_of n / 2^16 mod 256), (mask_of n / 2^8 mod 256), (mask_of n mod 256).
  cbn in X. repeat (destruct X as [<- | X]; [vm_compute; intuition congruence|]). contradiction.
Qed.

Lemma mask_octets : forall s n, 0 <= n <= 32 -> dotted s (mask_of n) ->
  length (tokens dot [] s) = 4%nat /\ exists os, ip_to_array true s = Some (Some os) /\ word os = mask_of n.
Proof.
  intros s n N (s1 & s2 & s3 & s4 & o1 & o2 & o3 & o4 & D1 & D2 & D3 & D4 & B1 & B2 & B3 & B4 & -> & E).
  unfold ip_to_array. rewrite (dotted_tokens _ _ _ _ _ _ _ _ D1 D2 D3 D4). split; [reflexivity|].
  cbn [octets Nat.ltb Nat.leb].
  rewrite (strtol_decimal _ _ D1), (strtol_decimal _ _ D2), (strtol_decimal _ _ D3), (strtol_decimal _ _ D4).
  apply decimal_nonneg in D1, D2, D3, D4. unfold in_range.
  destruct (mask_table n N) as (a & b & c & d & M & A & B & C & D & Z1 & Z2 & Z3).
  assert (o1 = a) by lia. assert (o2 = b) by lia. assert (o3 = c) by lia. assert (o4 = d) by lia. subst o1 o2 o3 o4.
  replace ((0 <=? a) && (a <=? 255)) with true by lia. replace ((0 <=? b) && (b <=? 255)) with true by lia.
  replace ((0 <=? c) && (c <=? 255)) with true by lia. replace ((0 <=? d) && (d <=? 255)) with true by lia.
  cbn [andb set_nth].
  destruct (a <? 255) eqn:L1; [eexists; split; [reflexivity|]; rewrite word_sum by lia; lia|].
  destruct (b <? 255) eqn:L2; [eexists; split; [reflexivity|]; rewrite word_sum by lia; lia|].
  destruct (c <? 255) eqn:L3; [eexists; split; [reflexivity|]; rewrite word_sum by lia; lia|].
  destruct (d <? 255) eqn:L4; (eexists; split; [reflexivity|]; rewrite word_sum by lia; lia).
Qed.

Definition entry_is (e : entry) (n : net) : Prop :=
  forall addr, is_addr addr -> (Z.land (bitmask e) addr =? network e) = true <-> contains n addr.

Lemma parse_entry_text : forall t n, entry_text t n -> ~ full_mask t ->
  exists e, parse_entry t = Some (Some e) /\ entry_is e n.
Proof.
  intros t n T NF. destruct T as [s a Ds | s a l k Ds Dl K | s a m k Ds Dm K].
  - destruct (dotted_plain _ _ Ds) as (P & NE). destruct (dotted_octets _ _ Ds) as (L & os & O & W).
    pose proof (dotted_addr _ _ Ds) as A.
    unfold parse_entry. rewrite (tokens_one slash s NE (plain_not_slash _ P)). cbv zeta. rewrite L. cbn [Nat.ltb Nat.leb orb].
    rewrite O. cbn [bind]. rewrite W. eexists. split; [reflexivity|].
    intros addr AD. cbn [bitmask network]. change (2^32 - 1) with (mask_of 32). apply same_prefix; [lia|exact A|exact AD].
  - destruct (dotted_plain _ _ Ds) as (P & NE). destruct (dotted_octets _ _ Ds) as (L & os & O & W).
    pose proof (dotted_addr _ _ Ds) as A. pose proof (decimal_nonneg _ _ Dl) as K0.
    unfold parse_entry. rewrite (tokens_cut slash s 47 l NE (plain_not_slash _ P) eq_refl). cbv zeta. rewrite L. cbn [Nat.ltb Nat.leb orb].
    rewrite O. cbn [bind]. rewrite W.
    assert (NL : l <> []) by apply Dl.
    rewrite (tokens_one slash l NL (plain_not_slash _ (decimal_plain _ _ Dl))).
    rewrite (tokens_one dot l NL (decimal_not_dot _ _ Dl)). cbn [length Nat.eqb].
    rewrite (strtol_decimal _ _ Dl). unfold in_range. replace ((0 <=? k) && (k <=? 32)) with true by lia.
    eexists. split; [reflexivity|].
    intros addr AD. cbn [bitmask network].
    replace (if k =? 0 then 0 else u32 (-1 * 2^(32 - k))) with (mask_of k).
    + apply same_prefix; [lia|exact A|exact AD].
    + destruct (k =? 0) eqn:KZ; [apply Z.eqb_eq in KZ; subst; reflexivity|].
      unfold mask_of, u32. apply Z.mod_unique_pos with (q := -1); [|ring].
      assert (0 < 2^(32 - k)) by (apply Z.pow_pos_nonneg; lia).
      assert (2^(32 - k) < 2^32) by (apply Z.pow_lt_mono_r; lia). lia.
  - destruct (dotted_plain _ _ Ds) as (P & NE). destruct (dotted_octets _ _ Ds) as (L & os & O & W).
    destruct (dotted_plain _ _ Dm) as (Pm & NEm). destruct (mask_octets _ _ K Dm) as (Lm & ms & Om & Wm).
    pose proof (dotted_addr _ _ Ds) as A.
    assert (K31 : k < 32).
    { destruct (Z.eq_dec k 32) as [-> |]; [|lia]. exfalso. apply NF. econstructor; eassumption. }
    unfold parse_entry. rewrite (tokens_cut slash s 47 m NE (plain_not_slash _ P) eq_refl). cbv zeta. rewrite L. cbn [Nat.ltb Nat.leb orb].
    rewrite O. cbn [bind]. rewrite W.
    rewrite (tokens_one slash m NEm (plain_not_slash _ Pm)). rewrite Lm. cbn [Nat.eqb Nat.ltb Nat.leb].
    rewrite Om. cbn [bind]. rewrite Wm.
    destruct (shifts_some 33 k 0) as (c & Sc); [lia|lia|lia|]. rewrite Sc. cbn [bind].
    eexists. split; [reflexivity|]. intros addr AD. cbn [bitmask network]. apply same_prefix; [lia|exact A|exact AD].
Qed.

(** Lists. *)
Lemma sep_separator : forall c, sep c = true <-> separator c.
Proof. intros. unfold sep, separator. lia. Qed.

Lemma entry_text_chars : forall t n, entry_text t n -> t <> [] /\ Forall (fun c => sep c = false) t.
Proof.
  assert (Q : forall s, Forall plain s -> Forall (fun c => sep c = false) s).
  { intros s F. eapply Forall_impl; [|exact F]. unfold plain, digit, sep. cbn. intros. lia. }
  assert (J : forall s t, Forall plain s -> Forall plain t -> Forall (fun c => sep c = false) (s ++ 47 :: t)).
  { intros. apply Forall_app. split; [auto|]. constructor; [reflexivity|auto]. }
  intros t n T. destruct T as [s a Ds | s a l k Ds Dl K | s a m k Ds Dm K]; destruct (dotted_plain _ _ Ds) as (P & NE).
  - auto.
  - split; [destruct s; discriminate|]. apply J; [assumption | eapply decimal_plain; eassumption].
  - split; [destruct s; discriminate|]. apply J; [assumption | eapply dotted_plain; eassumption].
Qed.

Lemma list_text_tokens : forall s es, list_text s es -> tokens sep [] s = map fst es.
Proof.
  assert (Q : forall d, Forall separator d -> Forall (fun c => sep c = true) d).
  { intros d F. eapply Forall_impl; [|exact F]. intros. apply sep_separator. assumption. }
  induction 1 as [d F | d t n rest es F T L IH E].
  - rewrite <- (app_nil_r d). rewrite tokens_skip by auto. reflexivity.
  - rewrite tokens_skip by auto. destruct (entry_text_chars _ _ T) as (NE & FC). rewrite tokens_word; [|assumption|assumption|].
    + rewrite IH. reflexivity.
    + destruct E as [-> | (c & r & -> & C)]; [auto|]. right. exists c, r. split; [reflexivity|]. apply sep_separator. assumption.
Qed.

Lemma list_text_entries : forall s es, list_text s es -> Forall (fun e => entry_text (fst e) (snd e)) es.
Proof. induction 1; constructor; auto. Qed.

Lemma parse_entries_text : forall es,
  Forall (fun e => entry_text (fst e) (snd e)) es -> Forall (fun e => ~ full_mask (fst e)) es ->
  exists t, parse_entries (map fst es) = Some (Some t) /\ Forall2 entry_is t (map snd es).
Proof.
  induction es as [|(x, n) es IH]; intros F G; [exists []; split; [reflexivity|constructor]|].
  inversion F; inversion G; subst. cbn [fst snd] in *.
  destruct (parse_entry_text _ _ H1 H5) as (e & P & E). destruct (IH H2 H6) as (t & Pt & Et).
  exists (e :: t). cbn. rewrite P. cbn. rewrite Pt. cbn. split; [reflexivity|]. constructor; assumption.
Qed.

Definition table_is (t : list entry) (ns : list net) : Prop :=
  forall addr, is_addr addr -> (exists e, In e t /\ (Z.land (bitmask e) addr =? network e) = true) <-> within ns addr.

Lemma forall2_table : forall t ns, Forall2 entry_is t ns -> table_is t ns.
Proof.
  intros t ns F addr A. induction F as [|e n t ns E F IH].
  - split; [intros (e & [] & _) | intros (n & [] & _)].
  - split.
    + intros (x & [<- | I] & M); [exists n; split; [left; reflexivity | apply E; assumption]|].
      destruct (proj1 IH) as (m & Im & Cm); [eauto|]. exists m. split; [right; assumption | assumption].
    + intros (m & [<- | I] & C); [exists e; split; [left; reflexivity | apply E; assumption]|].
      destruct (proj2 IH) as (x & Ix & Mx); [exists m; auto|]. exists x. split; [right; assumption | assumption].
Qed.

Lemma table_perm : forall t t' ns, Permutation t t' -> table_is t ns -> table_is t' ns.
Proof.
  intros t t' ns P T addr A. rewrite <- (T addr A). split; intros (e & I & M); exists e; split; auto.
  - eapply Permutation_in; [apply Permutation_sym; exact P | exact I].
  - eapply Permutation_in; [exact P | exact I].
Qed.

Lemma create_table_text : forall sort s es, (forall t, Permutation t (sort t)) -> good_text s es ->
  exists t, create_table sort s = Some (Some t) /\ table_is t (map snd es).
Proof.
  intros sort s es SP [(-> & ->) | (L & NE & F)].
  - exists []. split; [reflexivity|]. apply (forall2_table [] []). constructor.
  - unfold create_table. pose proof (list_text_tokens _ _ L) as T.
    destruct s as [|c s]; [cbn in T; destruct es; [congruence | discriminate]|]. cbv zeta. rewrite T.
    destruct (parse_entries_text es (list_text_entries _ _ L) F) as (t & P & E).
    destruct (map fst es) eqn:M; [destruct es; [congruence | discriminate]|].
    rewrite P. cbn. eexists. split; [reflexivity|]. eapply table_perm; [apply SP|]. apply forall2_table. assumption.
Qed.

(** Matching. *)
Lemma match_address_spec : forall addr t b t', match_address addr t = (b, t') ->
  (b = true <-> exists e, In e t /\ (Z.land (bitmask e) addr =? network e) = true) /\
  map (fun e => (network e, bitmask e)) t' = map (fun e => (network e, bitmask e)) t.
Proof.
  intros addr. induction t as [|e t IH]; intros b t' M; cbn in M.
  - injection M as <- <-. split; [|reflexivity]. split; [discriminate | intros (e & [] & _)].
  - destruct (Z.land (bitmask e) addr =? network e) eqn:E.
    + injection M as <- <-. split; [|reflexivity]. split; [|reflexivity]. intros _. exists e. split; [left; reflexivity|assumption].
    + destruct (match_address addr t) as (b0 & t0) eqn:M0. injection M as <- <-. destruct (IH _ _ eq_refl) as (I1 & I2).
      split.
      * rewrite I1. split; intros (x & Ix & Mx); exists x; (split; [|assumption]); [right; assumption|].
        destruct Ix as [<- | Ix]; [congruence | assumption].
      * cbn. rewrite I2. reflexivity.
Qed.

Lemma table_is_ext : forall t t' ns, map (fun e => (network e, bitmask e)) t' = map (fun e => (network e, bitmask e)) t ->
  table_is t ns -> table_is t' ns.
Proof.
  intros t t' ns M T addr A. rewrite <- (T addr A).
  assert (X : forall t, (exists e, In e t /\ (Z.land (bitmask e) addr =? network e) = true) <->
                        exists p, In p (map (fun e => (network e, bitmask e)) t) /\ (Z.land (snd p) addr =? fst p) = true).
  { intros u. split.
    - intros (e & I & H). exists (network e, bitmask e). split; [|assumption]. apply in_map_iff. exists e. auto.
    - intros (p & I & H). apply in_map_iff in I. destruct I as (e & <- & I). exists e. auto. }
  rewrite (X t'), M, <- (X t). reflexivity.
Qed.

Definition acl_is (a : acl) (o : order) (al dl : list net) : Prop :=
  ord a = o /\ table_is (allow a) al /\ table_is (deny a) dl.

Lemma match_acl_spec : forall a o al dl addr, acl_is a o al dl -> is_addr addr ->
  exists b a', match_acl (Some a) addr = Some (b, a') /\ acl_is a' o al dl /\
    (b = true <-> accepts o al dl addr) /\
    passed a' = (if b then u32 (passed a + 1) else passed a) /\
    dropped a' = (if b then dropped a else u32 (dropped a + 1)).
Proof.
  intros a o al dl addr (O & TA & TD) AD. unfold match_acl. cbn [bind].
  destruct (match_address addr (allow a)) as (ma & ta) eqn:MA. destruct (match_address addr (deny a)) as (md & td) eqn:MD.
  destruct (match_address_spec _ _ _ _ MA) as (A1 & A2). destruct (match_address_spec _ _ _ _ MD) as (D1 & D2).
  rewrite (TA addr AD) in A1. rewrite (TD addr AD) in D1.
  eexists _, _. split; [reflexivity|]. cbn [passed dropped].
  split; [split; [assumption|split; eapply table_is_ext; eassumption]|].
  split; [|split; reflexivity].
  rewrite O. unfold accepts. destruct o.
  - destruct ma, md; cbn; split; try discriminate; try (intros _; reflexivity).
    + intros (_ & N). exfalso. apply N. apply D1. reflexivity.
    + intros _. split; [apply A1; reflexivity|]. intros W. apply D1 in W. discriminate.
    + intros (W & _). apply A1 in W. discriminate.
    + intros (W & _). apply A1 in W. discriminate.
  - destruct ma, md; cbn; split; try discriminate; try (intros _; reflexivity).
    + intros _ _. apply A1. reflexivity.
    + intros _ W. apply D1 in W. discriminate.
    + intros W. apply A1. apply W. apply D1. reflexivity.
    + intros _ W. apply D1 in W. discriminate.
Qed.

Lemma create_text : forall sort at_ dt o ae de, (forall t, Permutation t (sort t)) -> good_text at_ ae -> good_text dt de ->
  exists a, create sort at_ dt o = Some (Some a) /\ acl_is a o (map snd ae) (map snd de) /\ passed a = 0 /\ dropped a = 0.
Proof.
  intros sort at_ dt o ae de SP GA GD.
  destruct (create_table_text sort at_ ae SP GA) as (ta & CA & TA).
  destruct (create_table_text sort dt de SP GD) as (td & CD & TD).
  unfold create. rewrite CA, CD. cbn. eexists. split; [reflexivity|].
  split; [split; [reflexivity|split; assumption]|]. split; reflexivity.
Qed.

(** The decisions for a sequence of addresses, and the list at the end. *)
Fixpoint decide (a : acl) (addrs : list Z) : option (list bool * acl) :=
  match addrs with
  | [] => Some ([], a)
  | x :: rest => do r <- match_acl (Some a) x;
                 do r2 <- decide (snd r) rest;
                 Some (fst r :: fst r2, snd r2)
  end.

Lemma decide_spec : forall o al dl addrs a, acl_is a o al dl -> Forall is_addr addrs ->
  exists bs a', decide a addrs = Some (bs, a') /\ acl_is a' o al dl /\
    Forall2 (fun x b => b = true <-> accepts o al dl x) addrs bs /\
    u32 (passed a') = u32 (passed a + Z.of_nat (length (filter (fun b : bool => b) bs))) /\
    u32 (dropped a') = u32 (dropped a + Z.of_nat (length (filter negb bs))).
Proof.
  intros o al dl. induction addrs as [|x rest IH]; intros a I F.
  - exists [], a. cbn. rewrite !Z.add_0_r. repeat (split; [first [reflexivity|assumption|constructor]|]). reflexivity.
  - inversion F; subst. destruct (match_acl_spec a o al dl x I H1) as (b & a1 & M & I1 & D & P & Q).
    destruct (IH a1 I1 H2) as (bs & a' & R & I' & F2 & P2 & Q2).
    exists (b :: bs), a'. cbn [decide]. rewrite M. cbn [bind snd fst]. rewrite R. cbn [bind snd fst].
    split; [reflexivity|]. split; [assumption|]. split; [constructor; assumption|].
    rewrite P2, Q2, P, Q. unfold u32. destruct b; cbn [filter negb length]; split; try reflexivity.
    + rewrite Zplus_mod_idemp_l. f_equal. lia.
    + rewrite Zplus_mod_idemp_l. f_equal. lia.
Qed.

(** Whether lists of kind [k] let an address through: if enabled, only addresses the list
    accepts. *)
Section Iface.
Variable en : kind -> bool.
Variable o : kind -> order.
Variables al dl : kind -> list net.
Let allowed (k : kind) (addr : Z) : Prop := en k = true -> accepts (o k) (al k) (dl k) addr.
Definition iface_is (i : iface) : Prop :=
  (forall k, enabled i k = en k) /\
    (forall k, en k = true -> exists a, lists i k = Some a /\ acl_is a (o k) (al k) (dl k)).
Definition memo_is (addr : Z) (m : memo) : Prop :=
  forall k : kind, (ok m k = true -> checked m k = true) /\
    (checked m k = true -> (ok m k = true <-> allowed k addr)).

Lemma same_kind_eq : forall a b, same_kind a b = true <-> a = b.
Proof. intros [] []; cbn; split; congruence. Qed.
Lemma set_kind_get : forall A (f : kind -> A) k x k', set_kind f k x k' = if same_kind k' k then x else f k'.
Proof. reflexivity. Qed.

Lemma no_memo_is : forall addr, memo_is addr no_memo.
Proof. intros addr k. cbn. split; discriminate. Qed.

Lemma check_spec : forall k addr i m, iface_is i -> memo_is addr m -> is_addr addr ->
  exists b i' m', check k addr i m = Some (b, i', m') /\ iface_is i' /\ memo_is addr m' /\ (b = true <-> allowed k addr).
Proof.
  intros k addr i m (EI & LI) MI AD. unfold check.
  destruct (checked m k) eqn:C.
  - exists (ok m k), i, m. split; [reflexivity|]. split; [split; assumption|]. split; [assumption|]. apply MI. assumption.
  - assert (NO : ok m k = false). { destruct (ok m k) eqn:E; [|reflexivity]. destruct (MI k) as (X & _). rewrite (X E) in C. discriminate. }
    assert (MM : forall b : bool, (b = true <-> allowed k addr) ->
      memo_is addr (mkMemo (set_kind (checked m) k true) (if b then set_kind (ok m) k true else ok m))).
    { intros b B k'. cbn [checked ok]. rewrite set_kind_get. destruct (same_kind k' k) eqn:SK.
      - apply same_kind_eq in SK. subst k'. split; [reflexivity|]. intros _.
        replace ((if b then set_kind (ok m) k true else ok m) k) with b.
        + assumption.
        + destruct b; [|symmetry; assumption]. rewrite set_kind_get. replace (same_kind k k) with true by (destruct k; reflexivity). reflexivity.
      - replace ((if b then set_kind (ok m) k true else ok m) k') with (ok m k').
        + apply MI.
        + destruct b; [|reflexivity]. rewrite set_kind_get, SK. reflexivity. }
    rewrite EI. destruct (en k) eqn:E; cbn [negb].
    + destruct (LI k E) as (a & L & I). rewrite L.
      destruct (match_acl_spec a _ _ _ addr I AD) as (b & a' & M & I' & B & _). rewrite M. cbn [bind fst snd].
      assert (B' : b = true <-> allowed k addr). { unfold allowed. rewrite B. split; intros; auto. }
      eexists _, _, _. split; [reflexivity|]. split; [|split; [apply MM|]; assumption].
      split; [exact EI|]. intros k' E'. cbn [lists]. rewrite set_kind_get.
      destruct (same_kind k' k) eqn:SK; [|auto]. apply same_kind_eq in SK. subst k'. eauto.
    + assert (B' : true = true <-> allowed k addr). { unfold allowed. split; [congruence | reflexivity]. }
      eexists _, _, _. split; [reflexivity|]. split; [split; assumption|]. split; [apply (MM true)|]; assumption.
Qed.

Lemma check_mask_spec : forall ks addr i m, iface_is i -> memo_is addr m -> is_addr addr ->
  exists b i' m', check_mask ks addr i m = Some (b, i', m') /\ iface_is i' /\ memo_is addr m' /\
    (b = true <-> forall k, In k ks -> allowed k addr).
Proof.
  induction ks as [|k ks IH]; intros addr i m I M AD.
  - exists true, i, m. split; [reflexivity|]. split; [assumption|]. split; [assumption|]. split; [intros _ k [] | reflexivity].
  - destruct (check_spec k addr i m I M AD) as (b & i1 & m1 & C & I1 & M1 & B). cbn [check_mask]. rewrite C. cbn [bind].
    destruct b.
    + destruct (IH addr i1 m1 I1 M1 AD) as (b2 & i2 & m2 & C2 & I2 & M2 & B2). exists b2, i2, m2.
      split; [assumption|]. split; [assumption|]. split; [assumption|]. rewrite B2. split.
      * intros H k' [<- | K]; [apply B; reflexivity | auto].
      * intros H k' K. apply H. right. assumption.
    + exists false, i1, m1. split; [reflexivity|]. split; [assumption|]. split; [assumption|]. split; [discriminate|].
      intros H. apply B. apply H. left. reflexivity.
Qed.

Lemma admit_spec : forall own mgmt addr i, iface_is i -> is_addr addr ->
  exists b i' m', admit own mgmt addr i = Some (b, i', m') /\ iface_is i' /\ memo_is addr m' /\
    (b = true <-> own = true \/ allowed (if mgmt then Management else Timing) addr).
Proof.
  intros own mgmt addr i I AD. unfold admit.
  destruct own.
  - eexists _, _, _. split; [reflexivity|]. split; [assumption|]. split; [apply no_memo_is|]. split; auto.
  - destruct mgmt.
    + destruct (check_spec Management addr i no_memo I (no_memo_is addr) AD) as (b & i1 & m1 & C & I1 & M1 & B).
      exists b, i1, m1. split; [assumption|]. split; [assumption|]. split; [assumption|]. rewrite B. split; [auto|].
      intros [|]; [discriminate | assumption].
    + destruct (enabled i Timing) eqn:E.
      * destruct (check_spec Timing addr i no_memo I (no_memo_is addr) AD) as (b & i1 & m1 & C & I1 & M1 & B).
        exists b, i1, m1. split; [assumption|]. split; [assumption|]. split; [assumption|]. rewrite B. split; [auto|].
        intros [|]; [discriminate | assumption].
      * eexists _, _, _. split; [reflexivity|]. split; [assumption|]. split; [apply no_memo_is|]. split; [|auto].
        intros _. right. unfold allowed. destruct I as (EI & _). rewrite EI in E. congruence.
Qed.

Lemma receive_spec : forall own mgmt ks addr i, iface_is i -> is_addr addr ->
  exists b t i', receive own mgmt ks addr i = Some (b, t, i') /\ iface_is i' /\
    (b = true <-> own = true \/ allowed (if mgmt then Management else Timing) addr) /\
    (t = true <-> b = true /\ forall k, In k ks -> allowed k addr).
Proof.
  intros own mgmt ks addr i I AD. unfold receive.
  destruct (admit_spec own mgmt addr i I AD) as (b & i1 & m1 & C & I1 & M1 & B). rewrite C. cbn [bind].
  destruct b.
  - destruct (check_mask_spec ks addr i1 m1 I1 M1 AD) as (t & i2 & m2 & C2 & I2 & M2 & B2). rewrite C2. cbn [bind].
    exists true, t, i2. split; [reflexivity|]. split; [assumption|]. split; [assumption|]. rewrite B2. split; [auto|].
    intros (_ & H). assumption.
  - exists false, false, i1. split; [reflexivity|]. split; [assumption|]. split; [assumption|]. split; [discriminate|].
    intros (H & _). discriminate.
Qed.
End Iface.

(** The configured text. *)
Lemma acl_list_text : forall size params text len t, (len <= size)%nat ->
  acl_list size params text len = Some t ->
  exists tail, t ++ tail = text ++ concat (map (fun p => p ++ [32]) params) /\ (tail = [] \/ tail = [32]).
Proof.
  intros size. induction params as [|p ps IH]; intros text len t L A; cbn [acl_list] in A.
  - injection A as <-. exists []. cbn. split; [reflexivity | auto].
  - cbv zeta in A. destruct (Nat.ltb size (len + length (p ++ [32]))) eqn:E; [discriminate|].
    apply Nat.ltb_ge in E. pose proof E as E'. rewrite app_length in E'. cbn in E'.
    destruct (Nat.eq_dec (len + length (p ++ [32%Z]))%nat size) as [EQ | NE].
    + rewrite app_length in EQ. cbn in EQ.
      replace (size - len - 1)%nat with (length p) in A by lia.
      rewrite firstn_app, firstn_all, Nat.sub_diag in A. cbn [firstn] in A. rewrite app_nil_r in A.
      destruct ps as [|q ps].
      * cbn in A. injection A as <-. exists [32]. split; [|auto]. cbn. rewrite app_nil_r, <- app_assoc. reflexivity.
      * exfalso. cbn [acl_list] in A. cbv zeta in A.
        rewrite !app_length in A. cbn [length] in A.
        replace (size <? len + (length p + 1) + (length q + 1))%nat with true in A; [discriminate|].
        symmetry. apply Nat.ltb_lt. lia.
    + rewrite firstn_all2 in A by (rewrite app_length; cbn; rewrite app_length in NE; cbn in NE; lia).
      destruct (IH _ _ _ E A) as (tail & T & C). exists tail. split; [|assumption]. rewrite T. cbn. rewrite !app_assoc. reflexivity.
Qed.
