(** Proofs about TscModel. *)
Require Import ZArith List Bool Lia ZifyBool.
Import ListNotations.
From Verif Require Import Base ListLib TimeSpec TimeModel TimeProof TscSpec TscModel.
Open Scope Z_scope.

Definition wf (c : cache) : Prop := length (packets c) = size /\ 0 <= free c < 2^32.
Definition is_free (f : Z) (s : nat) : bool := Z.testbit f (bit_of s).

Lemma bit_range : forall s, (s < size)%nat -> 0 <= bit_of s < 32.
Proof. intros s H. unfold bit_of, size in *. lia. Qed.
Lemma bit_inj : forall s t, (s < size)%nat -> (t < size)%nat -> bit_of s = bit_of t -> s = t.
Proof. intros s t H1 H2 E. unfold bit_of, size in *. lia. Qed.

Lemma small_bits : forall n x, 0 <= n -> 0 <= x < 2^n -> forall b, n <= b -> Z.testbit x b = false.
Proof.
  intros n x N H b B. destruct (Z.eq_dec x 0) as [->|NZ]; [apply Z.testbit_0_l|].
  apply Z.bits_above_log2; [lia|]. apply Z.lt_le_trans with n; [|exact B]. apply Z.log2_lt_pow2; lia.
Qed.
Lemma bits_small : forall n x, 0 <= n -> 0 <= x -> (forall b, n <= b -> Z.testbit x b = false) -> x < 2^n.
Proof.
  intros n x N P H. destruct (Z.eq_dec x 0) as [->|NZ]; [apply Z.pow_pos_nonneg; lia|].
  apply Z.log2_lt_pow2; [lia|]. destruct (Z.lt_ge_cases (Z.log2 x) n) as [L|L]; [exact L|].
  specialize (H _ L). rewrite Z.bit_log2 in H by lia. discriminate H.
Qed.

Lemma filter_len : forall (A : Type) (f : A -> bool) l, (length (filter f l) <= length l)%nat.
Proof. intros A f l. induction l as [|a l IH]; [apply le_n|]. cbn [filter length]. destruct (f a); cbn [length]; lia. Qed.

(** Bits of the operations. *)
Lemma clear_bits : forall x s t, (s < size)%nat -> (t < size)%nat -> is_free (clear x s) t = is_free x t && negb (Nat.eqb s t).
Proof.
  intros x s t H1 H2. unfold is_free, clear. rewrite Z.ldiff_spec, Z.pow2_bits_eqb by (apply bit_range in H1; lia).
  destruct (Nat.eqb_spec s t) as [->|N]; [rewrite Z.eqb_refl; reflexivity|].
  replace (bit_of s =? bit_of t) with false; [reflexivity|]. symmetry. apply Z.eqb_neq. intros E. apply N. apply bit_inj; assumption.
Qed.
Lemma set_bits : forall x s t, (s < size)%nat -> (t < size)%nat -> is_free (Z.lor x (2 ^ bit_of s)) t = is_free x t || Nat.eqb s t.
Proof.
  intros x s t H1 H2. unfold is_free. rewrite Z.lor_spec, Z.pow2_bits_eqb by (apply bit_range in H1; lia).
  destruct (Nat.eqb_spec s t) as [->|N]; [rewrite Z.eqb_refl; reflexivity|].
  replace (bit_of s =? bit_of t) with false; [reflexivity|]. symmetry. apply Z.eqb_neq. intros E. apply N. apply bit_inj; assumption.
Qed.
Lemma slot_mask_bit : forall s, (s < size)%nat -> slot_mask s = 2 ^ bit_of s.
Proof.
  intros s H. unfold slot_mask, bit_of. rewrite Z.shiftr_div_pow2 by lia.
  replace (2^31) with (2 ^ (Z.of_nat (size - s - 1) + Z.of_nat s)) by (f_equal; unfold size in *; lia).
  rewrite Z.pow_add_r by lia. apply Z.div_mul. apply Z.pow_nonzero; lia.
Qed.
Lemma clear_range : forall n x s, 0 <= n -> 0 <= x < 2^n -> 0 <= clear x s < 2^n.
Proof.
  intros n x s N H. assert (P : 0 <= clear x s) by (apply Z.ldiff_nonneg; lia). split; [exact P|].
  apply bits_small; [lia|exact P|]. intros b B. unfold clear. rewrite Z.ldiff_spec, (small_bits n x N H b B). reflexivity.
Qed.
Lemma set_range : forall x s, (s < size)%nat -> 0 <= x < 2^32 -> 0 <= Z.lor x (2 ^ bit_of s) < 2^32.
Proof.
  intros x s S0 H. pose proof (bit_range s S0) as B. assert (P2 : 0 < 2 ^ bit_of s) by (apply Z.pow_pos_nonneg; lia).
  assert (P : 0 <= Z.lor x (2 ^ bit_of s)) by (apply Z.lor_nonneg; lia). split; [exact P|].
  apply bits_small; [lia|exact P|]. intros b Bb. rewrite Z.lor_spec, (small_bits 32 x) by lia.
  rewrite Z.pow2_bits_false by lia. reflexivity.
Qed.

(** The first free slot. *)
Lemma clz_first : forall x, 0 < x < 2^32 -> (clz x < size)%nat /\ is_free x (clz x) = true /\ forall s, (s < clz x)%nat -> is_free x s = false.
Proof.
  intros x H. assert (L : 0 <= Z.log2 x < 32) by (split; [apply Z.log2_nonneg|apply Z.log2_lt_pow2; lia]).
  unfold clz, size, is_free, bit_of. split; [lia|]. split.
  - replace (Z.of_nat (size - (31 - Z.to_nat (Z.log2 x)) - 1)) with (Z.log2 x) by (unfold size; lia). apply Z.bit_log2. lia.
  - intros s S0. apply Z.bits_above_log2; unfold size; lia.
Qed.

Lemma filter_ext_seq : forall (f g : nat -> bool) a n, (forall s, (a <= s < a + n)%nat -> f s = g s) -> filter f (seq a n) = filter g (seq a n).
Proof. intros f g a n H. apply filter_ext_in. intros s I. apply in_seq in I. apply H. lia. Qed.

Lemma slots_spec : forall n fuel it, (n <= fuel)%nat -> (n <= size)%nat -> 0 <= it < 2 ^ Z.of_nat n ->
  slots fuel it = filter (fun s => is_free it s) (seq (size - n) n).
Proof.
  intros n. induction n as [|n IH]; intros fuel it F N H.
  - assert (it = 0) by (change (2 ^ Z.of_nat 0) with 1 in H; lia). subst. destruct fuel; reflexivity.
  - destruct fuel as [|fuel]; [lia|]. cbn [seq filter]. replace (S (size - S n)) with (size - n)%nat by lia.
    assert (EB : bit_of (size - S n) = Z.of_nat n) by (unfold bit_of; lia).
    destruct (is_free it (size - S n)) eqn:TB.
    + unfold is_free in TB. rewrite EB in TB.
      assert (NZ : it <> 0) by (intros ->; rewrite Z.testbit_0_l in TB; discriminate TB).
      assert (LG : Z.log2 it = Z.of_nat n).
      { assert (Z.log2 it < Z.of_nat (S n)) by (apply Z.log2_lt_pow2; lia).
        destruct (Z.lt_ge_cases (Z.log2 it) (Z.of_nat n)) as [L|L]; [|lia].
        rewrite Z.bits_above_log2 in TB by lia. discriminate TB. }
      cbn [slots]. replace (it =? 0) with false by (symmetry; apply Z.eqb_neq; exact NZ).
      assert (EC : clz it = (size - S n)%nat) by (unfold clz; rewrite LG; unfold size; lia).
      rewrite EC. f_equal. rewrite IH; [|lia|lia|].
      * apply filter_ext_seq. intros s S0. rewrite clear_bits by lia. replace (Nat.eqb (size - S n) s) with false by (symmetry; apply Nat.eqb_neq; lia). apply andb_true_r.
      * assert (R := clear_range (Z.of_nat (S n)) it (size - S n) ltac:(lia) H). split; [lia|]. apply bits_small; [lia|lia|].
        intros b B. destruct (Z.eq_dec b (Z.of_nat n)) as [->|NB].
        { unfold clear. rewrite Z.ldiff_spec, EB, Z.pow2_bits_true by lia. apply andb_false_r. }
        { apply (small_bits (Z.of_nat (S n))); lia. }
    + apply IH; [lia|lia|]. split; [lia|]. apply bits_small; [lia|lia|]. intros b B.
      destruct (Z.eq_dec b (Z.of_nat n)) as [->|NB]; [unfold is_free in TB; rewrite EB in TB; exact TB|apply (small_bits (Z.of_nat (S n))); lia].
Qed.

Lemma complement_bits : forall x b, 0 <= x < 2^32 -> 0 <= b < 32 -> Z.testbit (2^32 - 1 - x) b = negb (Z.testbit x b).
Proof.
  intros x b H B. replace (2^32 - 1 - x) with (Z.ldiff (Z.ones 32) x).
  - rewrite Z.ldiff_spec, Z.ones_spec_low by lia. reflexivity.
  - rewrite <- Z.sub_nocarry_ldiff; [rewrite Z.ones_equiv; lia|].
    apply Z.bits_inj'. intros n N. rewrite Z.ldiff_spec, Z.testbit_0_l.
    destruct (Z.lt_ge_cases n 32) as [L|L].
    + rewrite (Z.ones_spec_low 32 n) by lia. apply andb_false_r.
    + rewrite (small_bits 32 x) by lia. reflexivity.
Qed.

Lemma busy_spec : forall c, wf c -> busy c = filter (fun s => negb (is_free (free c) s)) (seq 0 size).
Proof.
  intros c [_ H]. unfold busy. rewrite (slots_spec size size) by (unfold size; lia). rewrite Nat.sub_diag.
  apply filter_ext_seq. intros s S0. unfold is_free. apply complement_bits; [exact H|apply bit_range; lia].
Qed.
(** The list of slots is not to be computed during conversion. *)
Global Opaque busy.
Lemma waiting_busy : forall c, wf c -> waiting c = map (request_at c) (busy c).
Proof. intros c W. rewrite busy_spec by exact W. reflexivity. Qed.
Lemma in_busy : forall c s, wf c -> (In s (busy c) <-> (s < size)%nat /\ is_free (free c) s = false).
Proof.
  intros c s W. rewrite busy_spec by exact W. rewrite filter_In, in_seq. destruct (is_free (free c) s); cbn [negb]; split; intros [A B]; split; try lia; try reflexivity; discriminate.
Qed.
Lemma in_waiting : forall c q, In q (waiting c) <-> exists s, (s < size)%nat /\ is_free (free c) s = false /\ q = request_at c s.
Proof.
  intros c q. unfold waiting. rewrite in_map_iff. split.
  - intros [s [E I]]. apply filter_In in I. destruct I as [I1 I2]. apply in_seq in I1. exists s. split; [lia|]. split; [|symmetry; exact E].
    unfold is_free. destruct (Z.testbit (free c) (bit_of s)); [discriminate I2|reflexivity].
  - intros [s [H1 [H2 E]]]. exists s. split; [symmetry; exact E|]. apply filter_In. split; [apply in_seq; lia|].
    unfold is_free in H2. rewrite H2. reflexivity.
Qed.

Lemma waiting_slots : forall c, NoDup (map (fun q => snd (q_ticket q)) (waiting c)).
Proof.
  intros c. unfold waiting. rewrite map_map. cbn [q_ticket request_at snd].
  apply FinFun.Injective_map_NoDup; [intros a b E; lia|]. apply NoDup_filter. apply seq_NoDup.
Qed.
Lemma waiting_length : forall c, (length (waiting c) <= size)%nat.
Proof. intros c. unfold waiting. rewrite map_length. etransitivity; [apply filter_len|]. rewrite seq_length. reflexivity. Qed.

Lemma full_zero : forall c, wf c -> (length (waiting c) = size <-> free c = 0).
Proof.
  intros c [_ H]. split.
  - intros L. destruct (Z.eq_dec (free c) 0) as [E|NZ]; [exact E|]. exfalso.
    destruct (clz_first (free c) ltac:(lia)) as [A [B _]].
    assert (X : (length (waiting c) < size)%nat); [|lia].
    unfold waiting. rewrite map_length. clear L.
    assert (G : forall l : list nat, In (clz (free c)) l ->
      (length (filter (fun s => negb (Z.testbit (free c) (bit_of s))) l) < length l)%nat).
    { induction l as [|a l IH]; intros I; [contradiction I|]. cbn [filter length].
      pose proof (filter_len _ (fun s => negb (Z.testbit (free c) (bit_of s))) l) as LE.
      destruct I as [->|I].
      - unfold is_free in B. rewrite B. cbn [negb]. lia.
      - specialize (IH I). destruct (negb (Z.testbit (free c) (bit_of a))); cbn [length]; lia. }
    specialize (G (seq 0 size)). rewrite seq_length in G. apply G. apply in_seq. lia.
  - intros E. unfold waiting. rewrite E, map_length.
    rewrite (filter_ext _ (fun _ => true)) by (intros s; rewrite Z.testbit_0_l; reflexivity).
    replace (filter (fun _ : nat => true) (seq 0 size)) with (seq 0 size) by reflexivity. apply seq_length.
Qed.

Lemma packet_set_same : forall c s p f n l, (s < length (packets c))%nat -> packet (mkCache (set_nth s p (packets c)) f n l) s = p.
Proof. intros c s p f n l H. unfold packet. cbn [packets]. apply nth_error_nth. apply nth_error_set_nth_same. exact H. Qed.
Lemma packet_set_other : forall c s t p f n l, s <> t -> packet (mkCache (set_nth s p (packets c)) f n l) t = packet c t.
Proof.
  intros c s t p f n l H. unfold packet. cbn [packets]. assert (E := nth_error_set_nth_other _ s t p (packets c) H).
  destruct (nth_error (packets c) t) as [x|] eqn:E2.
  - rewrite (nth_error_nth _ _ _ E). rewrite (nth_error_nth _ _ _ E2). reflexivity.
  - rewrite !nth_overflow; [reflexivity|apply nth_error_None; exact E2|apply nth_error_None; exact E].
Qed.

Lemma oldest_keep : forall c ss o, o <= k_seq (packet c 0) -> oldest_loop c ss o 0 = O.
Proof.
  intros c ss. induction ss as [|s ss IH]; intros o H; [reflexivity|]. cbn [oldest_loop].
  replace (k_seq (packet c 0) <? o) with false by (symmetry; apply Z.ltb_ge; exact H). apply IH. exact H.
Qed.
Lemma oldest_first : forall c ss o, oldest_loop c (O :: ss) o 0 = O.
Proof.
  intros c ss o. cbn [oldest_loop]. destruct (k_seq (packet c 0) <? o) eqn:E; apply oldest_keep; [apply Z.le_refl|apply Z.ltb_ge; exact E].
Qed.
Lemma seq_size : seq 0 size = O :: seq 1 31.
Proof. reflexivity. Qed.
Lemma oldest_slot : forall c, oldest_loop c (seq 0 size) (2^64 - 1) 0 = O.
Proof. intros c. rewrite seq_size. apply oldest_first. Qed.

(** What a request does. *)
Lemma expect_spec : forall ln c u d t now c' tk, wf c -> expect ln c u d t now = Some (c', tk) ->
  exists s, tk = (u32 (next_seq c), Z.of_nat s) /\ (s < size)%nat /\ wf c' /\ next_seq c' = u64 (next_seq c + 1) /\ last_ok c' = last_ok c /\
    packet c' s = mkPkt (firstn max_pdu d) t u now (next_seq c) false /\ (forall x, x <> s -> packet c' x = packet c x) /\
    ((free c <> 0 /\ is_free (free c) s = true) \/ (free c = 0 /\ ln = true /\ s = O)) /\
    (forall x, (x < size)%nat -> is_free (free c') x = is_free (free c) x && negb (Nat.eqb s x)).
Proof.
  intros ln c u d t now c' tk [W1 W2] H. unfold expect in H. destruct (free c =? 0) eqn:EF.
  - apply Z.eqb_eq in EF. destruct ln.
    2:{ replace (nth_error (packets c) formatted_slot) with (@None pkt) in H; [discriminate H|].
        symmetry. apply nth_error_None. rewrite W1. unfold formatted_slot. lia. }
    cbn [bind] in H. rewrite oldest_slot, EF in H. injection H as H1 H2. subst c' tk. change (clz (Z.lor 0 (slot_mask 0))) with O.
    exists O. split; [reflexivity|]. split; [unfold size; lia|]. split.
    { split; cbn [packets free]; [rewrite set_nth_length; exact W1|apply (clear_range 32 (Z.lor 0 (slot_mask 0)) 0); [lia|vm_compute; intuition congruence]]. }
    split; [reflexivity|]. split; [reflexivity|]. split; [apply packet_set_same; rewrite W1; unfold size; lia|].
    split; [intros x X; apply packet_set_other; auto|]. split; [right; auto|].
    intros x X. cbn [free]. rewrite EF.
    match goal with |- is_free ?y x = _ => change y with 0 end. unfold is_free. rewrite Z.testbit_0_l. reflexivity.
  - apply Z.eqb_neq in EF. cbn [bind] in H. injection H as H1 H2. subst c' tk.
    destruct (clz_first (free c) ltac:(lia)) as [A [B _]]. exists (clz (free c)).
    split; [reflexivity|]. split; [exact A|]. split.
    { split; cbn [packets free]; [rewrite set_nth_length; exact W1|apply clear_range; [lia|exact W2]]. }
    split; [reflexivity|]. split; [reflexivity|]. split; [apply packet_set_same; rewrite W1; exact A|].
    split; [intros x X; apply packet_set_other; auto|]. split; [left; auto|].
    intros x X. cbn [free]. apply clear_bits; assumption.
Qed.

Lemma expect_defined : forall ln c u d t now, wf c -> (ln = true \/ free c <> 0) -> exists r, expect ln c u d t now = Some r.
Proof.
  intros ln c u d t now W H. unfold expect. destruct (free c =? 0) eqn:E.
  - apply Z.eqb_eq in E. destruct H as [->|H]; [|contradiction (H E)]. eexists. reflexivity.
  - eexists. reflexivity.
Qed.

(** Matching. *)
Lemma same_eq : forall a b, same a b = true <-> a = b.
Proof.
  intros a. induction a as [|x a IH]; intros [|y b]; cbn [same]; try (split; (discriminate || reflexivity)).
  rewrite andb_true_iff, Z.eqb_eq, IH. split; [intros [-> ->]; reflexivity|intros E; injection E; auto].
Qed.
Lemma matches_spec : forall c s seen, matches (packet c s) seen = true <-> ends_with (request_at c s) seen.
Proof.
  intros c s seen. unfold matches, ends_with, request_at. cbn [q_data q_trailer]. set (p := packet c s).
  destruct (Nat.ltb (length seen) (length (k_data p) + k_trailer p)) eqn:E.
  - split; [discriminate|]. intros [h [t [E1 E2]]]. apply Nat.ltb_lt in E. rewrite E1, !app_length in E. lia.
  - apply Nat.ltb_ge in E. rewrite same_eq. split.
    + intros M. exists (firstn (length seen - (length (k_data p) + k_trailer p)) seen),
        (skipn (length (k_data p)) (skipn (length seen - (length (k_data p) + k_trailer p)) seen)).
      split; [|rewrite !skipn_length; lia]. rewrite M at 2. rewrite (firstn_skipn (length (k_data p))), firstn_skipn. reflexivity.
    + intros [h [t [E1 E2]]]. subst seen. rewrite !app_length, E2 in *.
      replace (length h + (length (k_data p) + k_trailer p) - (length (k_data p) + k_trailer p))%nat with (length h + 0)%nat by lia.
      rewrite skipn_app, Nat.add_0_r, skipn_all, Nat.sub_diag. cbn [app skipn].
      rewrite firstn_app, firstn_all, Nat.sub_diag. cbn [firstn]. rewrite app_nil_r. reflexivity.
Qed.

Lemma find_first : forall (f : nat -> bool) P a n s, find f (filter P (seq a n)) = Some s ->
  (a <= s < a + n)%nat /\ P s = true /\ f s = true /\ forall t, (a <= t < s)%nat -> P t = true -> f t = false.
Proof.
  intros f P a n. revert a. induction n as [|n IH]; intros a s H; [discriminate H|]. cbn [seq filter] in H.
  destruct (P a) eqn:EP.
  - cbn [find] in H. destruct (f a) eqn:EA.
    + injection H as H. subst. repeat split; auto; lia.
    + destruct (IH _ _ H) as [A [B [C0 D]]]. split; [lia|]. split; [exact B|]. split; [exact C0|].
      intros t T PT. destruct (Nat.eq_dec t a) as [->|N]; [exact EA|]. apply D; [lia|exact PT].
  - destruct (IH _ _ H) as [A [B [C0 D]]]. split; [lia|]. split; [exact B|]. split; [exact C0|].
    intros t T PT. destruct (Nat.eq_dec t a) as [->|N]; [congruence|]. apply D; [lia|exact PT].
Qed.

Lemma match_among_spec : forall L c seen c' a, wf c -> L = filter (fun s => negb (is_free (free c) s)) (seq 0 size) ->
  (forall s, wf c -> (In s L <-> (s < size)%nat /\ is_free (free c) s = false)) -> match_among c seen L = Some (c', a) ->
  (a = NotFound /\ c' = c /\ forall q, In q (waiting c) -> ~ ends_with q seen) \/
  (exists s, (s < size)%nat /\ is_free (free c) s = false /\ a = Found (q_ticket (request_at c s)) (q_user (request_at c s)) /\
     ends_with (request_at c s) seen /\ wf c' /\ next_seq c' = next_seq c /\ packets c' = packets c /\
     (forall x, (x < size)%nat -> is_free (free c') x = is_free (free c) x || Nat.eqb s x) /\
     (forall t, (t < s)%nat -> is_free (free c) t = false -> ~ ends_with (request_at c t) seen) /\
     exists newer, is_ge (k_sent (packet c s)) (last_ok c) = Some newer /\ last_ok c' = if newer then k_sent (packet c s) else last_ok c).
Proof.
  intros L c seen c' a W EB IB H. unfold match_among in H.
  destruct (find (fun s => matches (packet c s) seen) L) as [s|] eqn:EF.
  - right. exists s. rewrite EB in EF. apply find_first in EF. destruct EF as [A [B [C0 D]]].
    destruct (is_ge (k_sent (packet c s)) (last_ok c)) as [newer|] eqn:EG; [cbn [bind] in H|discriminate H]. injection H as H1 H2. subst c' a.
    split; [lia|]. split; [destruct (is_free (free c) s); [discriminate B|reflexivity]|]. split; [reflexivity|].
    split; [apply matches_spec; exact C0|]. split; [split; cbn [packets free]; [apply W|apply set_range; [lia|apply W]]|].
    split; [reflexivity|]. split; [reflexivity|]. split; [intros x X; apply set_bits; lia|].
    split; [|exists newer; split; reflexivity]. intros t T FT E. apply matches_spec in E. rewrite (D t) in E; [discriminate E|lia|rewrite FT; reflexivity].
  - injection H as H1 H2. subst. left. split; [reflexivity|]. split; [reflexivity|]. intros q I E. apply in_waiting in I.
    destruct I as [s [S0 [F ->]]]. apply matches_spec in E. apply find_none with (x := s) in EF; [congruence|].
    apply IB; auto.
Qed.

Lemma match_spec : forall c seen c' a, wf c -> match_packet c seen = Some (c', a) ->
  (a = NotFound /\ c' = c /\ forall q, In q (waiting c) -> ~ ends_with q seen) \/
  (exists s, (s < size)%nat /\ is_free (free c) s = false /\ a = Found (q_ticket (request_at c s)) (q_user (request_at c s)) /\
     ends_with (request_at c s) seen /\ wf c' /\ next_seq c' = next_seq c /\ packets c' = packets c /\
     (forall x, (x < size)%nat -> is_free (free c') x = is_free (free c) x || Nat.eqb s x) /\
     (forall t, (t < s)%nat -> is_free (free c) t = false -> ~ ends_with (request_at c t) seen) /\
     exists newer, is_ge (k_sent (packet c s)) (last_ok c) = Some newer /\ last_ok c' = if newer then k_sent (packet c s) else last_ok c).
Proof.
  intros c seen c' a W H. unfold match_packet in H. exact (match_among_spec _ _ _ _ _ W (busy_spec c W) (fun s _ => in_busy c s W) H).
Qed.

(** Checking. *)
Definition expired (port : Z) (now : ts) (p : pkt) : option bool :=
  if port_of (k_user p) =? port then do e <- subtract now (k_sent p); is_ge e (mkTs 10 0 0) else Some false.

Lemma check_slots_spec : forall port now ss c c' a, wf c -> (forall s, In s ss -> (s < size)%nat) ->
  check_slots port now ss (c, 1) = Some (c', a) ->
  a = 1 /\ wf c' /\ packets c' = packets c /\ next_seq c' = next_seq c /\ last_ok c' = last_ok c /\
  (forall s, In s ss -> exists b, expired port now (packet c s) = Some b) /\
  (forall x, (x < size)%nat -> is_free (free c') x = is_free (free c) x || existsb (fun s => Nat.eqb s x && match expired port now (packet c s) with Some b => b | None => false end) ss).
Proof.
  intros port now ss. induction ss as [|s ss IH]; intros c c' a W R H.
  - injection H as H1 H2. subst. repeat split; try apply W; [intros s []|]. intros x X. cbn [existsb]. rewrite orb_false_r. reflexivity.
  - cbn [check_slots] in H.
    assert (ST : exists c1 b, check_slot port now s (c, 1) = Some (c1, 1) /\ expired port now (packet c s) = Some b /\ packets c1 = packets c /\ next_seq c1 = next_seq c /\ last_ok c1 = last_ok c /\
                 free c1 = if b then Z.lor (free c) (slot_mask s) else free c).
    { unfold check_slot in *. cbv beta iota in *. unfold expired. destruct (port_of (k_user (packet c s)) =? port).
      2:{ exists c, false. repeat split. }
      destruct (subtract now (k_sent (packet c s))) as [e|]; [cbn [bind] in *|discriminate H].
      destruct (is_ge e (mkTs 1 0 0)) as [late|]; [cbn [bind] in *|discriminate H].
      destruct (if late then is_ge (k_sent (packet c s)) (last_ok c) else Some false) as [un|]; [cbn [bind] in *|discriminate H].
      change (negb (1 =? 1)) with false in *. rewrite andb_false_r in *.
      destruct (is_ge e (mkTs 10 0 0)) as [g|]; [cbn [bind] in *|discriminate H].
      destruct g; eexists; [exists true|exists false]; repeat split. }
    destruct ST as [c1 [b [ES [EX [E1 [E2 [E3 E4]]]]]]]. rewrite ES in H. cbn [bind] in H.
    assert (S0 : (s < size)%nat) by (apply R; left; reflexivity).
    assert (W1 : wf c1).
    { split; [rewrite E1; apply W|]. rewrite E4. destruct b; [rewrite slot_mask_bit by exact S0; apply set_range; [exact S0|apply W]|apply W]. }
    destruct (IH c1 c' a W1 (fun x I => R x (or_intror I)) H) as [A [B [C0 [D [E [F G]]]]]].
    assert (PK : forall x, packet c1 x = packet c x) by (intros x; unfold packet; rewrite E1; reflexivity).
    split; [exact A|]. split; [exact B|]. split; [congruence|]. split; [congruence|]. split; [congruence|]. split.
    + intros x [->|I]; [exists b; exact EX|]. rewrite <- PK. apply F. exact I.
    + intros x X. rewrite (G x X), E4. cbn [existsb]. rewrite EX.
      assert (EE : existsb (fun s0 => Nat.eqb s0 x && match expired port now (packet c1 s0) with Some b0 => b0 | None => false end) ss =
                   existsb (fun s0 => Nat.eqb s0 x && match expired port now (packet c s0) with Some b0 => b0 | None => false end) ss).
      { clear - PK. induction ss as [|y ss IHs]; [reflexivity|]. cbn [existsb]. rewrite IHs, PK. reflexivity. }
      rewrite EE. destruct b.
      * rewrite slot_mask_bit by exact S0. rewrite set_bits by assumption. rewrite andb_true_r, orb_assoc. reflexivity.
      * rewrite andb_false_r. reflexivity.
Qed.
