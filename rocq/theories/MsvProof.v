(** C79, proofs. *)
Require Import ZArith List Bool Lia.
Require Import Verif.Base Verif.MsvSpec Verif.MsvModel.
Import ListNotations.
Open Scope Z_scope.

Lemma land_pow : forall a n, 0 <= n -> Z.land a (2^n) = if Z.testbit a n then 2^n else 0.
Proof.
  intros a n N. apply Z.bits_inj'. intros k K. rewrite Z.land_spec, Z.pow2_bits_eqb by exact N. destruct (Z.eqb_spec n k) as [E|E].
  - subst k. rewrite andb_true_r. destruct (Z.testbit a n); [rewrite Z.pow2_bits_true by exact N; reflexivity|rewrite Z.bits_0; reflexivity].
  - rewrite andb_false_r. destruct (Z.testbit a n); [rewrite Z.pow2_bits_false by exact E; reflexivity|rewrite Z.bits_0; reflexivity].
Qed.
Lemma bit_test : forall a n, 0 <= n -> bit a n = Z.testbit a n.
Proof. intros a n N. unfold bit. rewrite Z.testbit_odd, Z.shiftr_div_pow2 by exact N. reflexivity. Qed.
Lemma land_127 : forall a, Z.land a 127 = a mod 128. Proof. intros a. change 127 with (Z.ones 7). apply Z.land_ones. lia. Qed.
Lemma land_4095 : forall a, Z.land a 4095 = a mod 4096. Proof. intros a. change 4095 with (Z.ones 12). apply Z.land_ones. lia. Qed.
Lemma land_15 : forall a, Z.land a 15 = a mod 16. Proof. intros a. change 15 with (Z.ones 4). apply Z.land_ones. lia. Qed.
Lemma land_7 : forall a, Z.land a 7 = a mod 8. Proof. intros a. change 7 with (Z.ones 3). apply Z.land_ones. lia. Qed.
Lemma seq_bit : forall a, 0 <= a < 128 -> Z.land a 128 = 0.
Proof. intros a R. change 128 with (2^7). rewrite land_pow by lia. rewrite <- bit_test by lia. unfold bit. rewrite Z.div_small by lia. reflexivity. Qed.

(** ** Packets of others *)
Lemma check_stranger : forall req l, Forall octet l -> stranger req l -> check (firstn RECORD l) req = false.
Proof.
  intros req l O S. do 8 (destruct l as [|? l]; [reflexivity|]). cbn [stranger] in S.
  change (firstn RECORD (z :: z0 :: z1 :: z2 :: z3 :: z4 :: z5 :: z6 :: l)) with (z :: z0 :: z1 :: z2 :: z3 :: z4 :: z5 :: z6 :: firstn 500 l).
  unfold check, ntohs, oct. cbn [nth]. rewrite land_7, !land_15, land_7. rewrite !Z.shiftr_div_pow2 by lia. change 128 with (2^7). rewrite !land_pow by lia. rewrite <- !bit_test by lia. change (2^3) with 8. change (2^12) with 4096.
  assert (Z5 : octet z5 /\ octet z6) by (repeat match goal with H : Forall octet (_ :: _) |- _ => inversion H; clear H; subst end; auto). destruct Z5 as [Z5 Z6]. unfold octet in *.
  repeat rewrite andb_false_iff. rewrite !negb_false_iff, !orb_true_iff.
  destruct S as [S|[S|[S|[S|[S|[S|[S|S]]]]]]].
  - left. left. left. left. right. apply Z.eqb_neq. exact S.
  - left. left. left. left. left. right. right. apply Z.ltb_lt. lia.
  - left. left. left. left. left. right. left. apply Z.ltb_lt. lia.
  - left. left. right. rewrite S. reflexivity.
  - left. left. left. right. rewrite S. reflexivity.
  - right. left. apply Z.eqb_neq. exact S.
  - right. right. apply Z.eqb_neq. exact S.
  - left. right. apply Z.eqb_neq. assert (Q : (256 * z5 + z6) / 4096 = z5 / 16) by (change 4096 with (256 * 16); rewrite <- Z.div_div by lia; f_equal; symmetry; apply (Z.div_unique_pos _ _ _ z6); lia).
    rewrite Q. rewrite Z.mod_small by (split; [apply Z.div_pos; lia|apply Z.div_lt_upper_bound; lia]). assert (1 <= z5 / 16) by (apply Z.div_le_lower_bound; lia). lia.
Qed.
Lemma packet_stranger : forall want req s l, Forall octet l -> stranger req l -> packet want req s l = Some (Go s).
Proof. intros want req s l O S. unfold packet. rewrite check_stranger by assumption. reflexivity. Qed.

(** ** Packets for us *)
Lemma items_concat : forall its size pad rest, Forall (fun i => length i = size) its ->
  items (length its) size pad (concat its ++ rest) = Some (flat_map (fun i => i ++ repeat 0 pad) its).
Proof.
  intros its size pad rest F. induction F as [|i its L F IH]; [reflexivity|]. cbn [length items concat flat_map]. rewrite <- app_assoc.
  replace (size <=? length (i ++ concat its ++ rest))%nat with true by (symmetry; apply Nat.leb_le; rewrite app_length; lia).
  rewrite skipn_app, skipn_all2, L, Nat.sub_diag, skipn_O by lia. cbn [app]. rewrite IH. cbn [bind]. rewrite firstn_app, L, Nat.sub_diag, firstn_O, app_nil_r, firstn_all2 by lia. rewrite <- app_assoc. reflexivity.
Qed.
Lemma concat_len : forall its size, Forall (fun i : list Z => Z.of_nat (length i) = size) its -> Z.of_nat (length (concat its)) = Z.of_nat (length its) * size.
Proof. intros its size F. induction F as [|i its L F IH]; [reflexivity|]. cbn [concat length]. rewrite app_length. lia. Qed.
Definition sized_items (want : Z) (r : reply) : list Z := flat_map (sized want) (r_items r).
Lemma sized_len : forall want r, reply_ok r -> r_size r <= want -> Z.of_nat (length (sized_items want r)) = count r * want.
Proof.
  intros want r (_ & _ & _ & SZ & F & _) W. unfold sized_items, count. induction F as [|i its L F IH]; [reflexivity|]. cbn [flat_map length]. rewrite app_length. unfold sized at 1. rewrite app_length, repeat_length. lia.
Qed.
Lemma decode : forall r, reply_ok r -> let l := firstn RECORD (encode r) in
  l = encode r /\ check l (r_req r) = true /\ Z.land (Z.shiftr (ntohs l 4) 12) 15 = r_err r /\ Z.land (ntohs l 4) 4095 = count r /\ Z.land (ntohs l 6) 4095 = r_size r /\
  Z.land (oct l 1) 127 = r_seq r /\ negb (Z.land (oct l 0) 64 =? 0) = r_more r /\ skipn 8 l = concat (r_items r) /\ Z.of_nat (length l) = 8 + count r * r_size r.
Proof.
  intros r (SQ & RQ & ER & SZ & F & CN & CS) l. pose proof (concat_len _ _ F) as LC. fold (count r) in LC.
  assert (LE : Z.of_nat (length (encode r)) = 8 + count r * r_size r) by (unfold encode; rewrite !app_length; cbn [length be16]; lia).
  assert (EL : l = encode r) by (apply firstn_all2; unfold RECORD; lia). rewrite EL. clear l EL.
  assert (C0 : 0 <= count r) by (unfold count; lia).
  assert (N4 : ntohs (encode r) 4 = r_err r * 4096 + count r). { unfold ntohs, oct, encode, be16. cbn [nth app]. symmetry. apply Z.div_mod. lia. }
  assert (N6 : ntohs (encode r) 6 = r_size r). { unfold ntohs, oct, encode, be16. cbn [nth app]. symmetry. apply Z.div_mod. lia. }
  assert (D6 : Z.land (Z.shiftr (r_size r) 12) 15 = 0) by (rewrite Z.shiftr_div_pow2 by lia; change (2^12) with 4096; rewrite Z.div_small by lia; reflexivity).
  split; [reflexivity|]. rewrite N4, N6, land_4095, land_4095, land_127, land_15, Z.shiftr_div_pow2 by lia. change (2^12) with 4096.
  split.
  { unfold check. rewrite N6, D6. replace (Z.of_nat (length (encode r)) <? HEADER) with false by (symmetry; apply Z.ltb_ge; rewrite LE; unfold HEADER; nia).
    unfold oct, encode. cbn [nth app]. rewrite seq_bit by exact SQ. rewrite !Z.eqb_refl. destruct (r_more r); reflexivity. }
  split; [rewrite Z.add_comm, Z.div_add, (Z.div_small (count r)) by lia; cbn [Z.add]; apply Z.mod_small; lia|].
  split; [rewrite Z.add_comm, Z.mod_add by lia; apply Z.mod_small; lia|]. split; [apply Z.mod_small; lia|].
  split; [unfold oct, encode; cbn [nth app]; apply Z.mod_small; lia|]. split; [unfold oct, encode; cbn [nth app]; destruct (r_more r); reflexivity|]. split; [reflexivity|exact LE].
Qed.
Lemma packet_reply : forall want s r, reply_ok r -> r_err r = 0 -> r_size r <= want -> s_have s = repeat false 128 -> (r_more r = true \/ 127 < s_last s) ->
  Z.of_nat (length (s_buf s)) + count r * want <= BUFFER ->
  packet want (r_req r) s (encode r) = Some (Go (mkS (if r_more r then s_last s else r_seq r) (s_pkts s + 1) (s_have s) (s_total s + count r) (s_buf s ++ sized_items want r))).
Proof.
  intros want s r OK ER W H LM B. destruct (decode r OK) as (_ & CK & D1 & D2 & D3 & D4 & D5 & D6 & D7). unfold packet. rewrite CK, D1, D2, D3, D4, D5, D6, D7, ER. cbn [negb Z.eqb].
  unfold HEADER. replace (8 + count r * r_size r - 8 <? count r * r_size r) with false by lia. replace (want <? r_size r) with false by lia. rewrite andb_false_r, H.
  replace (nth (Z.to_nat (r_seq r)) (repeat false 128) false) with false by (destruct (nth_in_or_default (Z.to_nat (r_seq r)) (repeat false 128) false) as [I|E]; [apply repeat_spec in I; symmetry; exact I|symmetry; exact E]).
  replace (negb (r_more r) && (s_last s <=? 127)) with false by (destruct LM as [->|L]; [reflexivity|replace (s_last s <=? 127) with false by lia; symmetry; apply andb_false_r]).
  set (pad := if r_size r <? want then want - r_size r else 0). assert (P : pad = want - r_size r) by (unfold pad; destruct (Z.ltb_spec (r_size r) want); lia).
  replace (r_size r + pad) with want by lia. replace (BUFFER <? Z.of_nat (length (s_buf s)) + count r * want) with false by (symmetry; apply Z.ltb_ge; exact B).
  destruct OK as (_ & _ & _ & SZ & F & _). unfold count at 1. rewrite Nat2Z.id. rewrite <- (app_nil_r (concat (r_items r))), items_concat.
  - cbn [bind]. do 4 f_equal. unfold sized_items. rewrite P. clear -F. induction F as [|i its L F IH]; [reflexivity|]. cbn [flat_map]. rewrite IH. f_equal. unfold sized. do 2 f_equal. lia.
  - apply Forall_forall. intros i I. rewrite Forall_forall in F. specialize (F i I). cbn beta in F. lia.
Qed.

(** ** A whole answer *)
Require Import Permutation.
Definition lasts (l : list reply) : list reply := filter (fun r => negb (r_more r)) l.
Lemma lasts_perm : forall a b, Permutation a b -> Permutation (lasts a) (lasts b).
Proof.
  intros a b P. induction P as [|x a b P IH|x y a|a b c P IH Q JH]; [apply perm_nil| | |eapply perm_trans; eassumption]; unfold lasts in *; cbn [filter].
  - destruct (negb (r_more x)); [apply perm_skip; exact IH|exact IH].
  - destruct (negb (r_more x)), (negb (r_more y)); try apply Permutation_refl. apply perm_swap.
Qed.
Lemma lasts_sequence : forall l i, sequence i l -> exists r, lasts l = [r] /\ In r l /\ r_seq r = i + Z.of_nat (length l) - 1.
Proof.
  induction l as [|r l IH]; intros i S; [destruct S|]. cbn [sequence] in S. destruct S as [E S]. unfold lasts. cbn [filter length]. destruct (r_more r) eqn:M; cbn [negb].
  - destruct (IH _ S) as (q & L & I & Q). exists q. split; [exact L|]. split; [right; exact I|lia].
  - subst l. exists r. split; [reflexivity|]. split; [left; reflexivity|]. cbn [length]. lia.
Qed.
Lemma data_cons : forall want r l, data want (r :: l) = sized_items want r ++ data want l. Proof. reflexivity. Qed.
Lemma total_cons : forall r l, total (r :: l) = count r + total l. Proof. reflexivity. Qed.
Lemma run : forall want req l evs, delivered req l evs -> Forall (plain want req) l -> forall s N,
  s_have s = repeat false 128 -> 0 <= s_pkts s -> s_pkts s + Z.of_nat (length l) = N -> N <= 128 -> Z.of_nat (length (s_buf s)) + Z.of_nat (length (data want l)) <= BUFFER ->
  (s_last s = INT_MAX /\ (exists q, lasts l = [q] /\ r_seq q = N - 1)) \/ (s_last s = N - 1 /\ lasts l = []) ->
  response want req s evs = Some (Returned 0 (s_total s + total l) (s_buf s ++ data want l)).
Proof.
  intros want req l evs D. induction D as [evs|p l evs O S D IH|r l evs D IH]; intros F s N H P0 PN N1 B L.
  - cbn [length] in PN. destruct L as [[_ (q & Q & _)]|[L _]]; [discriminate Q|]. cbn [total fold_right data flat_map]. rewrite Z.add_0_r, app_nil_r.
    destruct evs; cbn [response]; replace (s_pkts s <=? s_last s) with false by lia; reflexivity.
  - cbn [response]. destruct (s_pkts s <=? s_last s) eqn:C.
    + rewrite packet_stranger by assumption. cbn [bind]. apply (IH F s N); assumption.
    + assert (l = []) as ->. { destruct L as [[L _]|[L _]]; [unfold INT_MAX in L; lia|]. destruct l; [reflexivity|cbn [length] in PN; lia]. }
      cbn [total fold_right data flat_map]. rewrite Z.add_0_r, app_nil_r. reflexivity.
  - inversion F as [|? ? (OK & RQ & ER & W) F' E1]; subst. cbn [length] in *. rewrite data_cons, app_length in B. pose proof (sized_len want r OK W) as SL.
    cbn [response]. replace (s_pkts s <=? s_last s) with true by (destruct L as [[L _]|[L _]]; unfold INT_MAX in L; lia).
    assert (SQ : 0 <= r_seq r < 128) by apply OK.
    rewrite packet_reply; [| assumption | assumption | assumption | assumption | | lia].
    + cbn [bind]. rewrite data_cons, total_cons, app_assoc, Z.add_assoc. apply (IH F' (mkS _ _ _ _ _) (s_pkts s + Z.of_nat (S (length l)))); cbn [s_have s_pkts s_buf s_last].
      * exact H.
      * lia.
      * lia.
      * lia.
      * rewrite app_length. lia.
      * unfold lasts in L |- *. cbn [filter] in L. destruct (r_more r); cbn [negb] in L; [exact L|]. destruct L as [[L (q & Q & R)]|[_ L]]; [|discriminate L].
        right. inversion Q; subst q. split; [exact R|reflexivity].
    + unfold lasts in L. cbn [filter] in L. destruct (r_more r); cbn [negb] in L; [left; reflexivity|right]. destruct L as [[L _]|[_ L]]; [rewrite L; unfold INT_MAX; lia|discriminate L].
Qed.

(** ** Every answer *)
Lemma items_some : forall n size pad l, (n * size <= length l)%nat -> exists d, items n size pad l = Some d /\ length d = (n * (size + pad))%nat.
Proof.
  induction n as [|n IH]; intros size pad l L; [exists []; split; reflexivity|]. cbn [items]. replace (size <=? length l)%nat with true by (symmetry; apply Nat.leb_le; nia).
  destruct (IH size pad (skipn size l)) as (d & E & K); [rewrite skipn_length; lia|]. rewrite E. cbn [bind]. eexists. split; [reflexivity|]. rewrite !app_length, firstn_length_le, repeat_length, K by nia. lia.
Qed.
Lemma check_length : forall l req, check l req = true -> (8 <= length l)%nat.
Proof. intros l req C. unfold check in C. rewrite !andb_true_iff in C. destruct C as [[[[[[C _] _] _] _] _] _]. apply negb_true_iff, Z.ltb_ge in C. unfold HEADER in C. lia. Qed.
Lemma check_own : forall req l, check (firstn RECORD l) req = true -> ~ stranger req l \/ ~ Forall octet l.
Proof. intros req l C. destruct (Forall_dec octet (fun x => ltac:(unfold octet; destruct (Z_le_dec 0 x), (Z_lt_dec x 256); [left; lia|right; lia|right; lia|right; lia])) l) as [O|O]; [left|right; exact O]. intros S. rewrite check_stranger in C by assumption. discriminate C. Qed.
Definition err_of (l : list Z) : Z := Z.land (Z.shiftr (ntohs (firstn RECORD l) 4) 12) 15.
Lemma packet_any : forall want req s l, Z.of_nat (length (s_buf s)) <= BUFFER -> s_total s * want <= Z.of_nat (length (s_buf s)) ->
  (packet want req s l = None /\ check (firstn RECORD l) req = true /\ 8 <= err_of l) \/
  exists x, packet want req s l = Some x /\
  (forall rc, x = Ret rc -> rc <> 0) /\
  (forall s', x = Go s' -> Z.of_nat (length (s_buf s')) <= BUFFER /\ s_total s' * want <= Z.of_nat (length (s_buf s')) /\ s_pkts s' <= s_pkts s + 1 /\
     (s_last s' = s_last s \/ (check (firstn RECORD l) req = true /\ final l))).
Proof.
  intros want req s l B T. unfold packet, err_of. set (k := firstn RECORD l). destruct (check k req) eqn:C; cbn [negb].
  2:{ right. exists (Go s). split; [reflexivity|]. split; [discriminate|]. intros s' E. inversion E; subst s'. repeat split; auto; lia. }
  rewrite !land_4095, land_15. set (e := Z.shiftr (ntohs k 4) 12 mod 16). assert (ER : 0 <= e < 16) by (apply Z.mod_pos_bound; lia).
  destruct (e =? 0) eqn:E0; cbn [negb].
  2:{ destruct (e <? 8) eqn:E8.
      - right. assert (D : e = 1 \/ e = 2 \/ e = 3 \/ e = 4 \/ e = 5 \/ e = 6 \/ e = 7) by lia. destruct D as [->|[->|[->|[->|[->|[->| ->]]]]]]; (eexists; split; [reflexivity|]; split; [|discriminate]; intros rc E; inversion E; discriminate).
      - left. split; [|split; [reflexivity|lia]]. unfold errno_of. replace (nth_error _ _) with (@None Z); [reflexivity|]. symmetry. apply nth_error_None. cbn [length]. lia. }
  right.
  assert (NR : 0 <= ntohs k 4 mod 4096) by (apply Z.mod_pos_bound; lia). assert (SR : 0 <= ntohs k 6 mod 4096) by (apply Z.mod_pos_bound; lia).
  set (n := ntohs k 4 mod 4096) in *. set (size := ntohs k 6 mod 4096) in *.
  assert (SAME : exists x, Some (Go s) = Some x /\ (forall rc, x = Ret rc -> rc <> 0) /\
    (forall s', x = Go s' -> Z.of_nat (length (s_buf s')) <= BUFFER /\ s_total s' * want <= Z.of_nat (length (s_buf s')) /\ s_pkts s' <= s_pkts s + 1 /\ (s_last s' = s_last s \/ (true = true /\ final l)))).
  { exists (Go s). split; [reflexivity|]. split; [discriminate|]. intros s' E. inversion E; subst s'. repeat split; auto; lia. }
  destruct (Z.of_nat (length k) - HEADER <? n * size) eqn:C1; [exact SAME|]. destruct (negb (s_pkts s =? 0) && (want <? size)); [exact SAME|].
  destruct (nth _ (s_have s) false); [exact SAME|]. destruct (negb (negb (Z.land (oct k 0) 64 =? 0)) && (s_last s <=? 127)); [exact SAME|].
  set (pad := if size <? want then want - size else 0). assert (P : 0 <= pad /\ want <= size + pad) by (unfold pad; destruct (Z.ltb_spec size want); lia).
  destruct (BUFFER <? Z.of_nat (length (s_buf s)) + n * (size + pad)) eqn:C2.
  { exists (Ret ENOSPC). split; [reflexivity|]. split; [|discriminate]. intros rc E. inversion E. discriminate. }
  apply Z.ltb_ge in C1, C2. unfold HEADER in C1. pose proof (check_length _ _ C) as L8.
  destruct (items_some (Z.to_nat n) (Z.to_nat size) (Z.to_nat pad) (skipn 8 k)) as (d & E & K); [rewrite skipn_length; nia|]. rewrite E. cbn [bind].
  eexists. split; [reflexivity|]. split; [discriminate|]. intros s' Q. inversion Q; subst s'. cbn [s_buf s_total s_pkts s_last]. rewrite app_length, K.
  assert (KK : Z.of_nat (Z.to_nat n * (Z.to_nat size + Z.to_nat pad)) = n * (size + pad)) by (rewrite Nat2Z.inj_mul, Nat2Z.inj_add, !Z2Nat.id by lia; reflexivity).
  rewrite Nat2Z.inj_add, KK. split; [lia|]. split; [nia|]. split; [lia|].
  change 64 with (2^6). rewrite land_pow by lia. destruct (Z.testbit (oct k 0) 6) eqn:TB; [left; reflexivity|right; split; [reflexivity|]].
  unfold final. destruct l as [|a l]; [exfalso; unfold k in L8; rewrite firstn_nil in L8; cbn in L8; lia|]. rewrite bit_test by lia. exact TB.
Qed.
(** What is known of the outcome of the loop. *)
Definition sound (want : Z) (o : outcome) : Prop :=
  match o with
  | Waiting s => Z.of_nat (length (s_buf s)) <= BUFFER
  | Returned rc n buf => Z.of_nat (length buf) <= BUFFER /\ n * want <= Z.of_nat (length buf)
  end.
Lemma err_known : forall l req, Forall octet l -> check (firstn RECORD l) req = true -> known_error l -> err_of l < 8.
Proof.
  intros l req O C K. pose proof (check_length _ _ C) as L. rewrite firstn_length in L. do 8 (destruct l as [|? l]; [cbn [length] in L; lia|]).
  unfold err_of. change (firstn RECORD (z :: z0 :: z1 :: z2 :: z3 :: z4 :: z5 :: z6 :: l)) with (z :: z0 :: z1 :: z2 :: z3 :: z4 :: z5 :: z6 :: firstn 500 l).
  unfold ntohs, oct. cbn [nth]. unfold known_error in K. cbn [nth] in K. rewrite land_15, Z.shiftr_div_pow2 by lia. change (2^12) with 4096.
  assert (OO : octet z3 /\ octet z4) by (repeat match goal with H : Forall octet (_ :: _) |- _ => inversion H; clear H; subst end; auto). unfold octet in OO.
  assert (Q : (256 * z3 + z4) / 4096 = z3 / 16) by (change 4096 with (256 * 16); rewrite <- Z.div_div by lia; f_equal; symmetry; apply (Z.div_unique_pos _ _ _ z4); lia).
  rewrite Q. rewrite Z.mod_small by (split; [apply Z.div_pos; lia|apply Z.div_lt_upper_bound; lia]). exact K.
Qed.
Lemma response_any : forall want req evs s, (forall p, In (Packet p) evs -> Forall octet p /\ (stranger req p \/ known_error p)) ->
  Z.of_nat (length (s_buf s)) <= BUFFER -> s_total s * want <= Z.of_nat (length (s_buf s)) ->
  exists o, response want req s evs = Some o /\ sound want o.
Proof.
  intros want req evs. induction evs as [|e evs IH]; intros s KN B T; cbn [response].
  - destruct (s_pkts s <=? s_last s); eexists; (split; [reflexivity|]); cbn [sound]; auto.
  - destruct (s_pkts s <=? s_last s); [|eexists; split; [reflexivity|split; assumption]]. destruct e as [| e | | e | p]; try (eexists; split; [reflexivity|split; assumption]).
    destruct (packet_any want req s p B T) as [(_ & C & E)|(x & E & _ & G)].
    { exfalso. destruct (KN p (or_introl eq_refl)) as [O [S|K]]; [rewrite check_stranger in C by assumption; discriminate C|]. pose proof (err_known p req O C K). lia. }
    rewrite E. cbn [bind]. destruct x as [s'|rc]; [|eexists; split; [reflexivity|split; assumption]].
    destruct (G s' eq_refl) as (B' & T' & _). apply IH; try assumption. intros q I. apply KN. right. exact I.
Qed.
Lemma response_final : forall want req evs s n buf, Z.of_nat (length (s_buf s)) <= BUFFER -> s_total s * want <= Z.of_nat (length (s_buf s)) ->
  (forall e, In (SelectFails e) evs \/ In (ReadFails e) evs -> e <> 0) -> s_pkts s + Z.of_nat (length evs) <= INT_MAX ->
  response want req s evs = Some (Returned 0 n buf) -> s_last s = INT_MAX -> exists p, In (Packet p) evs /\ check (firstn RECORD p) req = true /\ final p.
Proof.
  intros want req evs. induction evs as [|e evs IH]; intros s n buf B T NE NI R L; cbn [response] in R.
  - cbn [length] in NI. replace (s_pkts s <=? s_last s) with true in R by lia. discriminate R.
  - cbn [length] in NI. replace (s_pkts s <=? s_last s) with true in R by lia. destruct e as [| e | | e | p].
    + discriminate R.
    + inversion R; subst e. destruct (NE 0); [left; left; reflexivity|reflexivity].
    + discriminate R.
    + inversion R; subst e. destruct (NE 0); [right; left; reflexivity|reflexivity].
    + destruct (packet_any want req s p B T) as [(E & _)|(x & E & NR & G)]; [rewrite E in R; discriminate R|]. rewrite E in R. cbn [bind] in R. destruct x as [s'|rc]; [|inversion R; subst rc; destruct (NR 0); reflexivity].
      destruct (G s' eq_refl) as (B' & T' & P' & [L'|[C F]]); [|exists p; split; [left; reflexivity|split; assumption]].
      destruct (IH s' n buf B' T') as (q & I & Q); [| lia | exact R | lia | exists q; split; [right; exact I|exact Q]]. intros e [I|I]; apply NE; [left|right]; right; exact I.
Qed.

(** ** An answer of which packets are missing *)
Lemma run_short : forall want req l evs t, only req l evs -> Forall (plain want req) l -> forall s N,
  s_have s = repeat false 128 -> 0 <= s_pkts s -> s_pkts s + Z.of_nat (length l) < N -> N <= 128 -> Z.of_nat (length (s_buf s)) + Z.of_nat (length (data want l)) <= BUFFER ->
  (s_last s = INT_MAX /\ (lasts l = [] \/ exists q, lasts l = [q] /\ r_seq q = N - 1)) \/ (s_last s = N - 1 /\ lasts l = []) ->
  response want req s (evs ++ Late :: t) = Some (Returned 110 (s_total s + total l) (s_buf s ++ data want l)).
Proof.
  intros want req l evs t D. induction D as [|p l evs O S D IH|r l evs D IH]; intros F s N H P0 PN N1 B L;
    assert (GO : s_pkts s <=? s_last s = true) by (destruct L as [[L _]|[L _]]; unfold INT_MAX in L; lia); cbn [app response]; rewrite GO.
  - cbn [total fold_right data flat_map]. rewrite Z.add_0_r, app_nil_r. reflexivity.
  - rewrite packet_stranger by assumption. cbn [bind]. apply (IH F s N); assumption.
  - inversion F as [|? ? (OK & RQ & ER & W) F' E1]; subst. cbn [length] in *. rewrite data_cons, app_length in B. pose proof (sized_len want r OK W) as SL.
    assert (SQ : 0 <= r_seq r < 128) by apply OK.
    rewrite packet_reply; [| assumption | assumption | assumption | assumption | | lia].
    + cbn [bind]. rewrite data_cons, total_cons, app_assoc, Z.add_assoc. apply (IH F' (mkS _ _ _ _ _) N); cbn [s_have s_pkts s_buf s_last].
      * exact H.
      * lia.
      * lia.
      * lia.
      * rewrite app_length. lia.
      * unfold lasts in L |- *. cbn [filter] in L. destruct (r_more r); cbn [negb] in L; [exact L|]. destruct L as [[L [Q|(q & Q & R)]]|[_ L]]; [discriminate Q| |discriminate L].
        right. inversion Q; subst q. split; [exact R|reflexivity].
    + unfold lasts in L. cbn [filter] in L. destruct (r_more r); cbn [negb] in L; [left; reflexivity|right]. destruct L as [[L _]|[_ L]]; [rewrite L; unfold INT_MAX; lia|discriminate L].
Qed.
