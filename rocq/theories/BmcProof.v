(** Lemmas about BmcModel used by the theorems of BmcProps. *)
Require Import ZArith QArith Qabs List Bool Lia ZifyBool Sorted.
From Verif Require Import Base ListLib BmcSpec BmcModel.
Import ListNotations.
Open Scope Z_scope.

(** ** Lexicographic order *)
Lemma lex_irrefl : forall l, ~ lex_lt l l.
Proof.
  intros l. induction l as [|a l IH]; intros H; inversion H; subst; [lia|auto].
Qed.

Lemma lex_trans : forall a b c, lex_lt a b -> lex_lt b c -> lex_lt a c.
Proof.
  intros a b c H. revert c. induction H; intros c Hc; inversion Hc; subst.
  - apply lex_here. lia.
  - apply lex_here. assumption.
  - apply lex_here. assumption.
  - apply lex_next. auto.
Qed.

Lemma lex_asym : forall a b, lex_lt a b -> lex_lt b a -> False.
Proof. intros a b H1 H2. exact (lex_irrefl a (lex_trans _ _ _ H1 H2)). Qed.

Lemma lex_app : forall a b l m, lex_lt a b -> lex_lt (a ++ l) (b ++ m).
Proof.
  intros a b l m H. induction H; cbn; [apply lex_here; assumption|apply lex_next; assumption].
Qed.

Lemma lex_app_same : forall a l m, lex_lt (a ++ l) (a ++ m) <-> lex_lt l m.
Proof.
  intros a l m. induction a as [|x a IH]; cbn; [tauto|].
  rewrite <- IH. split; intros H; [inversion H; subst; [lia|assumption]|apply lex_next; assumption].
Qed.

Lemma memcmp_cases : forall a b, length a = length b ->
  (memcmp a b = -1 /\ lex_lt a b) \/ (memcmp a b = 0 /\ a = b) \/
  (memcmp a b = 1 /\ lex_lt b a).
Proof.
  intros a. induction a as [|x a IH]; intros [|y b] H; cbn in H; try discriminate.
  - right; left. auto.
  - cbn [memcmp]. destruct (x <? y) eqn:E1.
    { left. split; [reflexivity|apply lex_here; lia]. }
    destruct (y <? x) eqn:E2.
    { right; right. split; [reflexivity|apply lex_here; lia]. }
    assert (x = y) by lia. subst y.
    destruct (IH b ltac:(lia)) as [[E L]|[[E L]|[E L]]]; rewrite E.
    + left. split; [reflexivity|apply lex_next; assumption].
    + right; left. split; [reflexivity|congruence].
    + right; right. split; [reflexivity|apply lex_next; assumption].
Qed.

Lemma memcmp_eq0 : forall a b, length a = length b -> (memcmp a b = 0 <-> a = b).
Proof.
  intros a b H. destruct (memcmp_cases a b H) as [[E L]|[[E L]|[E L]]]; rewrite E;
    split; intros K; try discriminate; try reflexivity; try assumption; subst;
    exfalso; eapply lex_irrefl; eassumption.
Qed.

Lemma memcmp_lt : forall a b, length a = length b -> (memcmp a b = -1 <-> lex_lt a b).
Proof.
  intros a b H. destruct (memcmp_cases a b H) as [[E L]|[[E L]|[E L]]]; rewrite E;
    split; intros K; try discriminate; try reflexivity; try assumption; subst;
    exfalso; first [eapply lex_irrefl; eassumption|eapply lex_asym; eassumption].
Qed.

Lemma memcmp_gt : forall a b, length a = length b -> (memcmp a b = 1 <-> lex_lt b a).
Proof.
  intros a b H. destruct (memcmp_cases a b H) as [[E L]|[[E L]|[E L]]]; rewrite E;
    split; intros K; try discriminate; try reflexivity; try assumption; subst;
    exfalso; first [eapply lex_irrefl; eassumption|eapply lex_asym; eassumption].
Qed.

Lemma memcmp_anti : forall a b, memcmp b a = - memcmp a b.
Proof.
  intros a. induction a as [|x a IH]; intros [|y b]; try reflexivity.
  cbn [memcmp]. destruct (x <? y) eqn:E1, (y <? x) eqn:E2; try lia; apply IH.
Qed.

Lemma memcmp_sign : forall a b (k : Z),
  (if memcmp a b <? 0 then -1 else if 0 <? memcmp a b then 1 else k) =
  (if memcmp a b =? 0 then k else memcmp a b).
Proof.
  assert (R : forall a b, memcmp a b = -1 \/ memcmp a b = 0 \/ memcmp a b = 1).
  { intros a. induction a as [|x a IH]; intros [|y b]; cbn [memcmp]; auto.
    destruct (x <? y); [auto|]. destruct (y <? x); auto. }
  intros a b k. destruct (R a b) as [E|[E|E]]; rewrite E; reflexivity.
Qed.

Lemma memcmp_sign0 : forall a b,
  (if memcmp a b <? 0 then -1 else if 0 <? memcmp a b then 1 else 0) = memcmp a b.
Proof. intros. rewrite memcmp_sign. destruct (memcmp a b =? 0) eqn:E; lia. Qed.

Lemma memcmp_cons : forall a b l m, memcmp (a :: l) (b :: m) = cmp3 a b (memcmp l m).
Proof. reflexivity. Qed.

Lemma memcmp_same_head : forall a l m, memcmp (a :: l) (a :: m) = memcmp l m.
Proof. intros. cbn [memcmp]. rewrite Z.ltb_irrefl. reflexivity. Qed.

Lemma memcmp_app : forall a b l m, length a = length b ->
  memcmp (a ++ l) (b ++ m) = if memcmp a b =? 0 then memcmp l m else memcmp a b.
Proof.
  intros a. induction a as [|x a IH]; intros [|y b] l m H; cbn in H; try discriminate.
  - reflexivity.
  - cbn [app memcmp]. destruct (x <? y); [reflexivity|]. destruct (y <? x); [reflexivity|].
    apply IH. lia.
Qed.

(** ** The comparison *)
Lemma part1_key : forall pr A B,
  part1 pr A B (memcmp (d_gm A) (d_gm B)) = memcmp (gm_key pr A) (gm_key pr B).
Proof.
  intros pr A B. unfold part1, gm_key. cbn [app]. rewrite !memcmp_cons, memcmp_sign0.
  f_equal. unfold cmp_utc, cmp3.
  destruct pr, (d_utcv A), (d_utcv B); reflexivity.
Qed.

Lemma gm_key_length : forall pr A, is_clock_id (d_gm A) -> length (gm_key pr A) = 14%nat.
Proof. intros pr A H. unfold gm_key. rewrite app_length, H. reflexivity. Qed.

Lemma topo_key_length : forall A, is_clock_id (p_clk (d_src A)) -> length (topo_key A) = 10%nat.
Proof. intros A H. unfold topo_key. cbn [length]. rewrite app_length, H. reflexivity. Qed.

Lemma gm_key_inj : forall pr A B, gm_key pr A = gm_key pr B -> d_gm A = d_gm B.
Proof. intros pr A B H. unfold gm_key in H. cbn [app] in H. congruence. Qed.

Lemma compare_other_gm : forall pr par A B, dset_ok A -> dset_ok B ->
  d_gm A <> d_gm B -> compare pr par A B = memcmp (gm_key pr A) (gm_key pr B).
Proof.
  intros pr par A B [GA _] [GB _] N. unfold compare, compare_pre.
  destruct (memcmp (d_gm A) (d_gm B) =? 0) eqn:E.
  - exfalso. apply N. apply memcmp_eq0; [congruence|lia].
  - cbn [negb]. apply part1_key.
Qed.

Lemma memcmp_refl : forall a, memcmp a a = 0.
Proof. intros a. apply memcmp_eq0; reflexivity. Qed.

Lemma compare_same_gm : forall pr par A B, dset_ok A -> dset_ok B ->
  d_gm A = d_gm B -> ~ adjacent A B -> compare pr par A B = memcmp (topo_key A) (topo_key B).
Proof.
  intros pr par A B [GA [SA _]] [GB [SB _]] E N. unfold compare, compare_pre.
  rewrite E, memcmp_refl. cbn [Z.eqb negb].
  unfold topo_key. rewrite memcmp_cons. unfold cmp3.
  assert (N1 : d_steps A <> d_steps B + 1) by (intros X; apply N; split; auto).
  assert (N2 : d_steps B <> d_steps A + 1) by (intros X; apply N; split; auto).
  destruct (d_steps B + 1 <? d_steps A) eqn:E1.
  { destruct (d_steps A <? d_steps B) eqn:F1; [lia|].
    destruct (d_steps B <? d_steps A) eqn:F2; [reflexivity|lia]. }
  destruct (d_steps A + 1 <? d_steps B) eqn:E2.
  { destruct (d_steps A <? d_steps B) eqn:F1; [reflexivity|lia]. }
  destruct (d_steps B <? d_steps A) eqn:E3; [lia|].
  destruct (d_steps A <? d_steps B) eqn:E4; [lia|].
  rewrite memcmp_app by congruence.
  destruct (memcmp (p_clk (d_src A)) (p_clk (d_src B)) <? 0) eqn:F1.
  { pose proof (memcmp_sign0 (p_clk (d_src A)) (p_clk (d_src B))) as S. rewrite F1 in S.
    rewrite <- S. reflexivity. }
  destruct (0 <? memcmp (p_clk (d_src A)) (p_clk (d_src B))) eqn:F2.
  { pose proof (memcmp_sign0 (p_clk (d_src A)) (p_clk (d_src B))) as S. rewrite F1, F2 in S.
    rewrite <- S. reflexivity. }
  replace (memcmp (p_clk (d_src A)) (p_clk (d_src B)) =? 0) with true by (symmetry; lia).
  reflexivity.
Qed.

Lemma compare_adjacent : forall pr par A B, dset_ok A -> dset_ok B -> adjacent A B ->
  compare pr par A B = memcmp (p_clk (d_src (farther A B))) par.
Proof.
  intros pr par A B [GA _] [GB _] [E N]. unfold compare, compare_pre, farther.
  rewrite E, memcmp_refl. cbn [Z.eqb negb].
  destruct (d_steps B + 1 <? d_steps A) eqn:E1; [lia|].
  destruct (d_steps A + 1 <? d_steps B) eqn:E2; [lia|].
  destruct (d_steps B <? d_steps A) eqn:E3; [apply memcmp_sign0|].
  destruct (d_steps A <? d_steps B) eqn:E4; [apply memcmp_sign0|lia].
Qed.

Lemma adjacent_sym : forall A B, adjacent A B -> adjacent B A.
Proof. intros A B [E H]. split; [auto|tauto]. Qed.

Lemma farther_sym : forall A B, adjacent A B -> farther A B = farther B A.
Proof.
  intros A B [_ H]. unfold farther.
  destruct (d_steps B <? d_steps A) eqn:E1, (d_steps A <? d_steps B) eqn:E2; try lia; reflexivity.
Qed.

Lemma clock_id_dec : forall a b : clock_id, {a = b} + {a <> b}.
Proof. apply list_eq_dec. apply Z.eq_dec. Qed.

Lemma adjacent_dec : forall A B, adjacent A B \/ ~ adjacent A B.
Proof.
  intros A B. destruct (clock_id_dec (d_gm A) (d_gm B)) as [E|E].
  - destruct (Z.eq_dec (d_steps A) (d_steps B + 1)); [left; split; auto|].
    destruct (Z.eq_dec (d_steps B) (d_steps A + 1)); [left; split; auto|].
    right. intros [_ [X|X]]; auto.
  - right. intros [X _]. auto.
Qed.

Lemma compare_better : forall pr par A B, dset_ok A -> dset_ok B -> ~ adjacent A B ->
  (compare pr par A B = -1 <-> better pr A B) /\
  (compare pr par A B = 1 <-> better pr B A) /\
  (compare pr par A B = 0 <-> d_gm A = d_gm B /\ topo_key A = topo_key B).
Proof.
  intros pr par A B HA HB N. unfold better.
  pose proof HA as [GA [SA _]]. pose proof HB as [GB [SB _]].
  destruct (clock_id_dec (d_gm A) (d_gm B)) as [E|E].
  - rewrite compare_same_gm by assumption.
    assert (L : length (topo_key A) = length (topo_key B))
      by (rewrite !topo_key_length by assumption; reflexivity).
    rewrite (memcmp_lt _ _ L), (memcmp_gt _ _ L), (memcmp_eq0 _ _ L).
    intuition congruence.
  - rewrite compare_other_gm by assumption.
    assert (L : length (gm_key pr A) = length (gm_key pr B))
      by (rewrite !gm_key_length by assumption; reflexivity).
    rewrite (memcmp_lt _ _ L), (memcmp_gt _ _ L), (memcmp_eq0 _ _ L).
    pose proof (gm_key_inj pr A B). intuition congruence.
Qed.

Lemma compare_anti : forall pr par A B, dset_ok A -> dset_ok B -> ~ adjacent A B ->
  compare pr par B A = - compare pr par A B.
Proof.
  intros pr par A B HA HB N.
  assert (N' : ~ adjacent B A) by (intros X; apply N; apply adjacent_sym; assumption).
  destruct (clock_id_dec (d_gm A) (d_gm B)) as [E|E].
  - rewrite !compare_same_gm by (auto; congruence). apply memcmp_anti.
  - rewrite !compare_other_gm by (auto; congruence). apply memcmp_anti.
Qed.

(** One key that orders a coherent set of data sets. *)
Definition full_key pr d := gm_key pr d ++ topo_key d.

Lemma compare_full : forall pr par A B, dset_ok A -> dset_ok B ->
  (d_gm A = d_gm B -> gm_key pr A = gm_key pr B /\ ~ adjacent A B) ->
  compare pr par A B = memcmp (full_key pr A) (full_key pr B).
Proof.
  intros pr par A B HA HB C. unfold full_key.
  pose proof HA as [GA _]. pose proof HB as [GB _].
  rewrite memcmp_app by (rewrite !gm_key_length by assumption; reflexivity).
  destruct (clock_id_dec (d_gm A) (d_gm B)) as [E|E].
  - destruct (C E) as [K N]. rewrite K, memcmp_refl. cbn [Z.eqb].
    apply compare_same_gm; assumption.
  - rewrite compare_other_gm by assumption.
    destruct (memcmp (gm_key pr A) (gm_key pr B) =? 0) eqn:F; [|reflexivity].
    exfalso. apply E. apply (gm_key_inj pr). apply memcmp_eq0;
      [rewrite !gm_key_length by assumption; reflexivity|lia].
Qed.

Lemma full_key_length : forall pr A, dset_ok A -> length (full_key pr A) = 24%nat.
Proof.
  intros pr A [GA [SA _]]. unfold full_key.
  rewrite app_length, gm_key_length, topo_key_length by assumption. reflexivity.
Qed.

(** ** Port identities *)
Lemma pid_eqb_spec : forall a b, is_clock_id (p_clk a) -> is_clock_id (p_clk b) ->
  (pid_eqb a b = true <-> a = b).
Proof.
  intros [a n] [b m] Ha Hb. unfold pid_eqb. cbn in *.
  rewrite andb_true_iff, !Z.eqb_eq, memcmp_eq0 by congruence.
  split; [intros [-> ->]; reflexivity|intros H; injection H; auto].
Qed.

(** ** The table *)
Definition live (f : fds) : list frec := firstn (f_num f) (f_recs f).

Definition slot_ok (r : frec) : Prop := length (r_times r) = FM_THRESHOLD.
Definition mix_ok (mix : Z -> frec -> frec -> frec) : Prop :=
  forall k a b, slot_ok a -> slot_ok b -> slot_ok (mix k a b).

Lemma Forall_firstn : forall A (P : A -> Prop) n l, Forall P l -> Forall P (firstn n l).
Proof.
  intros A P n l H. revert n. induction H; intros [|n]; cbn; constructor; auto.
Qed.
Lemma Forall_skipn : forall A (P : A -> Prop) n l, Forall P l -> Forall P (skipn n l).
Proof.
  intros A P n. induction n; intros l H; [exact H|]. destruct H; cbn; [constructor|auto].
Qed.
Lemma Forall_set_nth : forall A (P : A -> Prop) i x l, Forall P l -> P x -> Forall P (set_nth i x l).
Proof.
  intros A P i x l H Hx. revert i. induction H; intros [|i]; cbn; constructor; auto.
Qed.
Lemma Forall_nth : forall A (P : A -> Prop) l i x, Forall P l -> nth_error l i = Some x -> P x.
Proof.
  intros A P l i x H E. rewrite Forall_forall in H. apply H. eapply nth_error_In; eassumption.
Qed.
Lemma nth_error_firstn : forall A (l : list A) n i, (i < n)%nat ->
  nth_error (firstn n l) i = nth_error l i.
Proof.
  intros A l. induction l as [|a l IH]; intros [|n] [|i] H; cbn; try reflexivity; try lia.
  apply IH. lia.
Qed.
Lemma firstn_set_nth_lt : forall A i n (x : A) l, (i < n)%nat ->
  firstn n (set_nth i x l) = set_nth i x (firstn n l).
Proof.
  intros A i n x l. revert i n. induction l as [|a l IH]; intros i [|n] H; try lia.
  - destruct i; reflexivity.
  - destruct i as [|i]; cbn; [reflexivity|]. f_equal. apply IH. lia.
Qed.
Lemma nth_error_len : forall A (l : list A) i x, nth_error l i = Some x -> (i < length l)%nat.
Proof. intros A l i x H. apply nth_error_Some. congruence. Qed.

(** *** find *)
Lemma find_from_some : forall recs num p fuel j k,
  find_from recs num p fuel j = Some (Some k) ->
  exists r, nth_error recs k = Some r /\ pid_eqb p (r_pid r) = true.
Proof.
  intros recs num p fuel. induction fuel as [|fuel IH]; intros j k H; cbn in H; [discriminate|].
  destruct (nth_error recs j) as [r|] eqn:E; cbn in H; [|discriminate].
  destruct (pid_eqb p (r_pid r)) eqn:F.
  - injection H as <-. exists r. auto.
  - eapply IH; eassumption.
Qed.

Lemma find_from_none : forall recs num p fuel j,
  (0 < num <= length recs)%nat -> (j < num)%nat ->
  find_from recs num p fuel j = Some None ->
  forall i, (i < fuel)%nat ->
  exists r, nth_error recs (Nat.modulo (j + i) num) = Some r /\ pid_eqb p (r_pid r) = false.
Proof.
  intros recs num p fuel. induction fuel as [|fuel IH]; intros j Hn Hj H i Hi; cbn in H; [lia|].
  destruct (nth_error recs j) as [r|] eqn:E; cbn in H; [|discriminate].
  destruct (pid_eqb p (r_pid r)) eqn:F; [discriminate|].
  destruct i as [|i].
  - rewrite Nat.add_0_r, Nat.mod_small by assumption. exists r. auto.
  - destruct (IH (Nat.modulo (j + 1) num) Hn ltac:(apply Nat.mod_upper_bound; lia) H i ltac:(lia))
      as [r' [E' F']].
    exists r'. rewrite Nat.add_mod_idemp_l in E' by lia.
    replace (j + S i)%nat with (j + 1 + i)%nat by lia. auto.
Qed.

Lemma find_from_total : forall recs num p fuel j,
  (0 < num <= length recs)%nat -> (j < length recs)%nat ->
  exists o, find_from recs num p fuel j = Some o.
Proof.
  intros recs num p fuel. induction fuel as [|fuel IH]; intros j Hn Hj; cbn; [eauto|].
  destruct (nth_error recs j) as [r|] eqn:E.
  - cbn. destruct (pid_eqb p (r_pid r)); [eauto|]. apply IH; [assumption|].
    assert (X := Nat.mod_upper_bound (j + 1) num ltac:(lia)). lia.
  - apply nth_error_None in E. lia.
Qed.

(** every live record was looked at *)
Lemma find_none_all : forall f p, (f_num f <= f_max f)%nat ->
  (f_num f = 0%nat \/ f_best f < f_num f)%nat ->
  find f p = Some None -> Forall (fun r => pid_eqb p (r_pid r) = false) (live f).
Proof.
  intros f p Hn Hb H. unfold live. apply Forall_forall. intros r Hr.
  apply In_nth_error in Hr. destruct Hr as [i Hi].
  assert (Li := nth_error_len _ _ _ _ Hi). rewrite firstn_length in Li.
  unfold f_max in Hn. rewrite nth_error_firstn in Hi by lia.
  destruct Hb as [Hb|Hb]; [lia|].
  (* the probe number that reaches i *)
  set (n := f_num f) in *. set (b := f_best f) in *.
  pose (k := if (i <? b)%nat then (n + i - b)%nat else (i - b)%nat).
  assert (Hk : (k < n)%nat /\ Nat.modulo (b + k) n = i).
  { unfold k. destruct (Nat.ltb_spec i b).
    - split; [lia|]. replace (b + (n + i - b))%nat with (i + 1 * n)%nat by lia.
      rewrite Nat.mod_add by lia. apply Nat.mod_small. lia.
    - split; [lia|]. replace (b + (i - b))%nat with i by lia. apply Nat.mod_small. lia. }
  destruct Hk as [Hk1 Hk2].
  destruct (find_from_none _ _ _ _ _ (conj (ltac:(lia) : (0 < n)%nat) Hn) Hb H k Hk1) as [r' [E F]].
  rewrite Hk2, Hi in E. congruence.
Qed.

(** *** insert *)
Lemma record_announce_some : forall now r r', record_announce now r = Some r' ->
  r' = mkRec (r_pid r) (r_ds r) (set_nth (r_widx r) now (r_times r))
             (ring_next FM_THRESHOLD (r_widx r))
             (if Nat.ltb (r_count r) FM_THRESHOLD then S (r_count r) else r_count r) (r_off r)
  /\ (r_widx r < length (r_times r))%nat.
Proof.
  intros now r r' H. unfold record_announce in H.
  destruct (Nat.ltb_spec (r_widx r) (length (r_times r))); [|discriminate].
  injection H as <-. auto.
Qed.

Record shape (max : nat) (f : fds) : Prop := mkShape {
  sh_len : length (f_recs f) = max;
  sh_pos : (0 < max)%nat;
  sh_num : (f_num f <= max)%nat;
  sh_write : (f_write f <= max)%nat;
  sh_best : (f_best f < max)%nat;
  sh_append : (f_num f < max -> f_write f = f_num f)%nat;
  sh_slots : Forall slot_ok (f_recs f)
}.

Lemma shape_init : forall max, (0 < max)%nat -> shape max (finit max).
Proof.
  intros max H. constructor; cbn; try lia.
  - apply repeat_length.
  - apply Forall_forall. intros r Hr. apply repeat_spec in Hr. subst. reflexivity.
Qed.

Lemma finsert_known : forall now d f f' k j, find f (d_src d) = Some (Some j) ->
  finsert now d f = Some (f', k) ->
  exists r r', nth_error (f_recs f) j = Some r /\ pid_eqb (d_src d) (r_pid r) = true /\
    record_announce now (mkRec (r_pid r) d (r_times r) (r_widx r) (r_count r) (r_off r)) = Some r' /\
    k = j /\ f' = mkFds (set_nth j r' (f_recs f)) (f_num f) (f_write f) (f_best f).
Proof.
  intros now d f f' k j Hf H. unfold finsert in H. rewrite Hf in H. cbn [bind] in H.
  destruct (find_from_some _ _ _ _ _ _ Hf) as [r [Er Ep]]. rewrite Er in H. cbn [bind] in H.
  destruct (record_announce now _) as [r'|] eqn:Ea; cbn in H; [|discriminate].
  injection H as <- <-. exists r, r'. auto.
Qed.

Lemma finsert_new : forall max now d f f' k, shape max f -> find f (d_src d) = Some None ->
  finsert now d f = Some (f', k) ->
  exists r r', nth_error (f_recs f) k = Some r /\
    record_announce now (mkRec (d_src d) d (r_times r) 0 0 (r_off r)) = Some r' /\
    f_recs f' = set_nth k r' (f_recs f) /\ f_best f' = f_best f /\ (k < max)%nat /\
    f_write f' = Nat.modulo (k + 1) max /\
    ((f_num f < max)%nat /\ k = f_num f /\ f_num f' = S (f_num f) \/
     (f_num f = max)%nat /\ f_num f' = max /\
     (k = f_write f \/ f_write f = f_best f /\ k = Nat.modulo (f_write f + 1) max)).
Proof.
  intros max now d f f' k S Hf H. unfold finsert in H. rewrite Hf in H. cbn [bind] in H.
  destruct S as [SL SP SN SW SB SA SS]. unfold f_max in H. rewrite SL in H.
  set (w := if Nat.ltb (f_write f) (f_num f) && Nat.eqb (f_write f) (f_best f)
            then Nat.modulo (f_write f + 1) max else f_write f) in *.
  destruct (nth_error (f_recs f) w) as [r|] eqn:Er; cbn [bind] in H; [|discriminate].
  destruct (record_announce now _) as [r'|] eqn:Ea; cbn [bind] in H; [|discriminate].
  injection H as <- <-. cbn [f_recs f_num f_write f_best].
  assert (Lw := nth_error_len _ _ _ _ Er). rewrite SL in Lw.
  exists r, r'. split; [assumption|]. split; [assumption|]. split; [reflexivity|].
  split; [reflexivity|]. split; [assumption|]. split; [reflexivity|].
  destruct (Nat.ltb_spec (f_num f) max).
  - left. split; [assumption|]. split; [|reflexivity]. unfold w.
    rewrite (SA ltac:(lia)), Nat.ltb_irrefl. reflexivity.
  - right. split; [lia|]. split; [lia|]. unfold w.
    destruct (Nat.ltb (f_write f) (f_num f)); cbn [andb]; [|auto].
    destruct (Nat.eqb_spec (f_write f) (f_best f)); auto.
Qed.

Lemma finsert_shape : forall max now d f f' k, shape max f ->
  finsert now d f = Some (f', k) -> shape max f'.
Proof.
  intros max now d f f' k S H. pose proof S as [SL SP SN SW SB SA SS].
  destruct (find f (d_src d)) as [[j|]|] eqn:Hf.
  - destruct (finsert_known _ _ _ _ _ _ Hf H) as [r [r' [Er [_ [Ea [-> ->]]]]]].
    constructor; cbn [f_recs f_num f_write f_best]; auto.
    + rewrite set_nth_length. assumption.
    + apply Forall_set_nth; [assumption|]. apply record_announce_some in Ea. destruct Ea as [-> _].
      unfold slot_ok. cbn. rewrite set_nth_length. exact (Forall_nth _ _ _ _ _ SS Er).
  - destruct (finsert_new _ _ _ _ _ _ S Hf H) as [r [r' [Er [Ea [HR [Hb [Hk [Hw Hn]]]]]]]].
    assert (M := Nat.mod_upper_bound (k + 1) max ltac:(lia)).
    constructor; rewrite ?HR, ?Hb, ?Hw; auto.
    + rewrite set_nth_length. assumption.
    + destruct Hn as [[? [? ->]]|[? [-> _]]]; lia.
    + lia.
    + intros Hlt. destruct Hn as [[? [Hk' Hn']]|[? [? _]]]; [|lia].
      rewrite Nat.mod_small by lia. lia.
    + apply Forall_set_nth; [assumption|]. apply record_announce_some in Ea. destruct Ea as [-> _].
      unfold slot_ok. cbn. rewrite set_nth_length. exact (Forall_nth _ _ _ _ _ SS Er).
  - unfold finsert in H. rewrite Hf in H. discriminate.
Qed.

(** *** expire *)
Definition lq (th : Z) (r : frec) : bool :=
  match latest_qualifies th r with Some true => true | _ => false end.

Lemma move_down_ok : forall SZ mix i num recs recs',
  1 < SZ -> (i < num <= length recs)%nat -> move_down SZ mix i num recs = Some recs' ->
  length recs' = length recs /\
  firstn (num - 1) recs' = firstn i recs ++ skipn (S i) (firstn num recs) /\
  (mix_ok mix -> Forall slot_ok recs -> Forall slot_ok recs').
Proof.
  intros SZ mix i num recs recs' HS Hi H. unfold move_down in H.
  set (bytes := SZ * Z.of_nat num - Z.of_nat i - 1) in *.
  set (whole := Z.to_nat (bytes / SZ)) in *.
  destruct (_ || _) eqn:E; [discriminate|].
  apply orb_false_iff in E. destruct E as [E1 E2].
  assert (D := Z.div_mod bytes SZ ltac:(lia)).
  assert (M := Z.mod_pos_bound bytes SZ ltac:(lia)).
  assert (Q : 0 <= bytes / SZ) by (apply Z.div_pos; lia).
  assert (W : Z.of_nat whole = bytes / SZ) by (unfold whole; lia).
  assert (W1 : (num - 1 - i <= whole)%nat).
  { assert (Z.of_nat num - 1 - Z.of_nat i <= bytes / SZ); [|lia].
    apply Z.div_le_lower_bound; [lia|]. unfold bytes. nia. }
  assert (W2 : (S i + whole <= length recs)%nat).
  { assert (SZ * (Z.of_nat i + 1 + bytes / SZ) <= SZ * Z.of_nat (length recs)) by lia.
    assert (Z.of_nat i + 1 + bytes / SZ <= Z.of_nat (length recs)) by nia. lia. }
  set (rest := if bytes mod SZ =? 0 then skipn (i + whole) recs
               else match skipn (i + whole) recs with
                    | a :: b :: t => mix (bytes mod SZ) a b :: b :: t
                    | _ => skipn (i + whole) recs end) in *.
  assert (R : length rest = length (skipn (i + whole) recs)).
  { unfold rest. destruct (bytes mod SZ =? 0); [reflexivity|].
    destruct (skipn (i + whole) recs) as [|a [|b t]]; reflexivity. }
  assert (HH : recs' = firstn i recs ++ firstn whole (skipn (S i) recs) ++ rest) by congruence.
  clear H. subst recs'. rewrite skipn_length in R.
  split; [|split].
  - rewrite !app_length, R, !firstn_length, skipn_length. lia.
  - rewrite firstn_app, firstn_firstn. rewrite firstn_length.
    replace (Nat.min (num - 1) i) with i by lia. f_equal.
    replace (num - 1 - Nat.min i (length recs))%nat with (num - 1 - i)%nat by lia.
    rewrite firstn_app, firstn_firstn, firstn_length, skipn_length.
    replace (Nat.min (num - 1 - i) whole) with (num - 1 - i)%nat by lia.
    replace (num - 1 - i - Nat.min whole (length recs - S i))%nat with 0%nat by lia.
    cbn [firstn]. rewrite app_nil_r, firstn_skipn_comm.
    replace (S i + (num - 1 - i))%nat with num by lia. reflexivity.
  - intros HM HF. apply Forall_app. split; [apply Forall_firstn; assumption|].
    apply Forall_app. split; [apply Forall_firstn, Forall_skipn; assumption|].
    unfold rest. pose proof (Forall_skipn _ _ (i + whole) _ HF) as HK.
    destruct (bytes mod SZ =? 0); [assumption|].
    destruct (skipn (i + whole) recs) as [|a [|b t]]; auto.
    inversion HK as [|? ? Ha Hb']; subst. inversion Hb' as [|? ? Hb Ht]; subst.
    constructor; [apply HM; assumption|constructor; assumption].
Qed.

Lemma nth_error_skipn_cons : forall A (l : list A) i x, nth_error l i = Some x ->
  skipn i l = x :: skipn (S i) l.
Proof.
  intros A l. induction l as [|a l IH]; intros [|i] x H; cbn in H; try discriminate.
  - injection H as ->. reflexivity.
  - cbn [skipn]. apply IH. assumption.
Qed.

Lemma firstn_S_nth : forall A (l : list A) i x, nth_error l i = Some x ->
  firstn (S i) l = firstn i l ++ [x].
Proof.
  intros A l. induction l as [|a l IH]; intros [|i] x H; cbn in H; try discriminate.
  - injection H as ->. reflexivity.
  - cbn [firstn app]. f_equal. apply IH. assumption.
Qed.

Lemma expire_from_ok : forall SZ mix max th fuel i f f',
  1 < SZ -> mix_ok mix -> shape max f -> (i <= f_num f <= i + fuel)%nat ->
  expire_from SZ mix fuel th i f = Some f' ->
  shape max f' /\
  live f' = firstn i (live f) ++ filter (lq th) (skipn i (live f)).
Proof.
  intros SZ mix max th fuel. induction fuel as [|fuel IH]; intros i f f' HS HM Hf Hi H.
  - cbn in H. injection H as <-. split; [assumption|].
    unfold live. rewrite (skipn_all2 (firstn (f_num f) (f_recs f))) by (rewrite firstn_length; lia).
    cbn [filter]. rewrite app_nil_r. symmetry. apply firstn_all2. rewrite firstn_length. lia.
  - cbn [expire_from] in H. pose proof Hf as [SL SP SN SW SB SA SS].
    destruct (Nat.ltb_spec i (f_num f)).
    + destruct (nth_error (f_recs f) i) as [r|] eqn:Er; cbn [bind] in H; [|discriminate].
      destruct (latest_qualifies th r) as [q|] eqn:Eq; cbn [bind] in H; [|discriminate].
      assert (Er' : nth_error (live f) i = Some r)
        by (unfold live; rewrite nth_error_firstn by lia; assumption).
      rewrite (nth_error_skipn_cons _ _ _ _ Er'). cbn [filter].
      assert (Elq : lq th r = q) by (unfold lq; rewrite Eq; destruct q; reflexivity).
      rewrite Elq. destruct q.
      * destruct (IH (S i) f f' HS HM Hf ltac:(lia) H) as [S' L']. split; [assumption|].
        rewrite L', (firstn_S_nth _ _ _ _ Er'), <- app_assoc. reflexivity.
      * destruct (move_down SZ mix i (f_num f) (f_recs f)) as [recs|] eqn:Em; cbn [bind] in H;
          [|discriminate].
        destruct (move_down_ok _ _ _ _ _ _ HS (conj H0 (ltac:(lia) : (f_num f <= length (f_recs f))%nat)) Em)
          as [ML [MF MS]].
        match type of H with expire_from _ _ _ _ _ ?g = _ => set (f1 := g) in * end.
        assert (S1 : shape max f1).
        { subst f1. constructor; cbn [f_recs f_num f_write f_best]; auto; try lia.
          - destruct (Nat.ltb i (f_write f)); lia.
          - destruct (Nat.ltb i (f_best f)); lia.
          - intros _. destruct (Nat.eq_dec (f_num f) max) as [En|En].
            + (* a full table: the byte count runs past the end *)
              exfalso. unfold move_down in Em.
              destruct (_ || _) eqn:E in Em; [discriminate|].
              apply orb_false_iff in E. destruct E as [_ E2]. apply Z.ltb_ge in E2.
              rewrite SL, En in E2.
              nia.
            + rewrite (SA ltac:(lia)).
              destruct (Nat.ltb_spec i (f_num f)); lia. }
        destruct (IH i f1 f' HS HM S1 ltac:(subst f1; cbn [f_num]; lia) H) as [S' L'].
        split; [assumption|]. rewrite L'. subst f1. unfold live. cbn [f_num f_recs].
        rewrite MF. 
        assert (LL : length (firstn i (f_recs f)) = i) by (rewrite firstn_length; lia).
        rewrite firstn_app, skipn_app, LL, Nat.sub_diag. cbn [firstn skipn].
        rewrite (firstn_all2 (firstn i (f_recs f))) by lia.
        rewrite (skipn_all2 (firstn i (f_recs f))) by lia.
        rewrite app_nil_r, firstn_firstn. replace (Nat.min i (f_num f)) with i by lia.
        reflexivity.
    + injection H as <-. split; [assumption|].
      rewrite (skipn_all2 (live f)) by (unfold live; rewrite firstn_length; lia).
      cbn [filter]. rewrite app_nil_r. symmetry. apply firstn_all2.
      unfold live. rewrite firstn_length. lia.
Qed.

Lemma move_down_safe : forall SZ mix i num recs, 1 < SZ -> (i < num)%nat ->
  (num + num <= length recs)%nat -> move_down SZ mix i num recs <> None.
Proof.
  intros SZ mix i num recs HS Hi Hn. unfold move_down.
  destruct (_ || _) eqn:E; [|discriminate]. exfalso.
  apply orb_true_iff in E. rewrite !Z.ltb_lt in E. destruct E as [E|E]; nia.
Qed.

Lemma move_down_full : forall SZ mix i recs, 1 < SZ ->
  move_down SZ mix i (length recs) recs = None.
Proof.
  intros SZ mix i recs HS. unfold move_down.
  destruct (_ || _) eqn:E; [reflexivity|]. exfalso.
  apply orb_false_iff in E. rewrite !Z.ltb_ge in E. destruct E as [E1 E2]. nia.
Qed.

(** *** Qualification *)
Definition qual (th : Z) (c : clock) (r : frec) : bool :=
  match get_qual th c r with Some QUALIFIED => true | _ => false end.

(** *** delete *)
Fixpoint kept (th : Z) (c : clock) (best i : nat) (l : list frec) : list frec :=
  match l with
  | [] => []
  | r :: t => if qual th c r && negb (Nat.eqb i best) then kept th c best (S i) t
              else r :: kept th c best (S i) t
  end.

Lemma kept_past : forall th c l best i, (best < i)%nat ->
  kept th c best i l = filter (fun r => negb (qual th c r)) l.
Proof.
  intros th c l. induction l as [|r t IH]; intros best i H; cbn; [reflexivity|].
  rewrite IH by lia. destruct (Nat.eqb_spec i best); [lia|].
  destruct (qual th c r); reflexivity.
Qed.

Lemma kept_split : forall th c l best i rb, nth_error l best = Some rb ->
  kept th c (i + best) i l =
  filter (fun r => negb (qual th c r)) (firstn best l) ++ rb ::
  filter (fun r => negb (qual th c r)) (skipn (S best) l).
Proof.
  intros th c l. induction l as [|r t IH]; intros [|best] i rb H; cbn in H; try discriminate.
  - injection H as ->. rewrite Nat.add_0_r. cbn. rewrite Nat.eqb_refl, andb_false_r.
    rewrite kept_past by lia. reflexivity.
  - cbn [kept]. destruct (Nat.eqb_spec i (i + S best)); [lia|]. cbn [negb]. rewrite andb_true_r.
    replace (i + S best)%nat with (S i + best)%nat by lia. rewrite (IH _ _ _ H).
    cbn [firstn skipn filter]. destruct (qual th c r); reflexivity.
Qed.

Lemma kept_in : forall th c l best i r, In r (kept th c best i l) -> In r l.
Proof.
  intros th c l. induction l as [|a t IH]; intros best i r H; cbn in H; [contradiction|].
  destruct (qual th c a && negb (Nat.eqb i best)).
  - right. eapply IH; eassumption.
  - destruct H as [->|H]; [left; reflexivity|right; eapply IH; eassumption].
Qed.

Lemma kept_nodup : forall th c l best i, NoDup (map r_pid l) -> NoDup (map r_pid (kept th c best i l)).
Proof.
  intros th c l. induction l as [|a t IH]; intros best i H; cbn; [constructor|].
  cbn in H. inversion H; subst. destruct (qual th c a && negb (Nat.eqb i best)); [auto|].
  cbn. constructor; [|auto]. intros X. apply in_map_iff in X. destruct X as [r [E Hr]].
  apply H2. rewrite <- E. apply in_map. eapply kept_in; eassumption.
Qed.

Lemma kept_length : forall th c l best i, (length (kept th c best i l) <= length l)%nat.
Proof.
  intros th c l. induction l as [|a t IH]; intros best i; cbn; [lia|].
  specialize (IH best (S i)). destruct (_ && _); cbn; lia.
Qed.

Lemma delete_from_ok : forall th c num fuel i w best recs recs' w' best',
  (w <= i)%nat -> (i + fuel <= length recs)%nat ->
  delete_from fuel th c num i w best recs = Some (recs', w', best') ->
  length recs' = length recs /\
  (w' <= i + fuel)%nat /\
  firstn w' recs' = firstn w recs ++ kept th c best i (firstn fuel (skipn i recs)) /\
  (Forall slot_ok recs -> Forall slot_ok recs') /\
  (best' = best \/ (best' <= best)%nat) /\
  ((best < i)%nat -> best' = best) /\
  ((i <= best < i + fuel)%nat -> forall rb, nth_error recs best = Some rb -> qual th c rb = true ->
    best' = (w + length (kept th c best i (firstn (best - i) (skipn i recs))))%nat /\
    nth_error recs' best' = Some rb /\ (best' < w')%nat).
Proof.
  intros th c num fuel. induction fuel as [|fuel IH];
    intros i w best recs recs' w' best' Hw Hl H.
  - cbn in H. injection H as <- <- <-. split; [reflexivity|]. split; [lia|].
    split; [cbn; rewrite app_nil_r; reflexivity|]. split; [auto|]. split; [auto|].
    split; [auto|]. lia.
  - cbn [delete_from] in H.
    destruct (nth_error recs i) as [r|] eqn:Er; cbn [bind] in H; [|discriminate].
    destruct (get_qual th c r) as [q|] eqn:Eq; cbn [bind] in H; [|discriminate].
    rewrite (nth_error_skipn_cons _ _ _ _ Er). cbn [firstn kept].
    assert (Hin := nth_error_len _ _ _ _ Er).
    (* facts used when a record is copied down *)
    assert (LS : length (set_nth w r recs) = length recs) by apply set_nth_length.
    assert (SK : skipn (S i) (set_nth w r recs) = skipn (S i) recs)
      by (apply skipn_set_nth_gt; lia).
    assert (FS : firstn (S w) (set_nth w r recs) = firstn w recs ++ [r])
      by (apply firstn_S_set_nth; lia).
    assert (KEEP : forall bst,
      (bst = best \/ (i = best /\ bst = w)) -> (i <> best -> bst = best) ->
      (q <> QUALIFIED /\ bst = best \/ i = best /\ bst = w) ->
      delete_from fuel th c num (S i) (S w) bst (set_nth w r recs) = Some (recs', w', best') ->
      qual th c r && negb (Nat.eqb i best) = false ->
      length recs' = length recs /\ (w' <= i + S fuel)%nat /\
      firstn w' recs' = firstn w recs ++ r :: kept th c best (S i) (firstn fuel (skipn (S i) recs)) /\
      (Forall slot_ok recs -> Forall slot_ok recs') /\
      (best' = best \/ (best' <= best)%nat) /\
      ((best < i)%nat -> best' = best) /\
      ((i <= best < i + S fuel)%nat -> forall rb, nth_error recs best = Some rb ->
         qual th c rb = true ->
         best' = (w + length (kept th c best i (firstn (best - i) (r :: skipn (S i) recs))))%nat /\
         nth_error recs' best' = Some rb /\ (best' < w')%nat)).
    { intros bst B1 B2 B3 HD HK.
      destruct (IH (S i) (S w) bst (set_nth w r recs) recs' w' best' ltac:(lia) ltac:(lia) HD)
        as [IL [IW [IF [IS [IB [IB2 IB3]]]]]].
      split; [lia|]. split; [lia|]. split.
      { rewrite IF, FS, SK, <- app_assoc. cbn [app]. f_equal. f_equal.
        destruct (Nat.eq_dec i best) as [->|Ne].
        - rewrite !kept_past by (destruct B1 as [->|[_ ->]]; lia). reflexivity.
        - rewrite (B2 Ne). reflexivity. }
      split. { intros HF. apply IS. apply Forall_set_nth; [assumption|]. eapply Forall_nth; eassumption. }
      split. { destruct B1 as [->|[-> ->]]; [assumption|]. destruct IB; lia. }
      split. { intros Hb. rewrite (B2 ltac:(lia)) in IB2. apply IB2. lia. }
      intros Hb rb Erb Qrb. destruct (Nat.eq_dec i best) as [Eb|Ne].
      - subst best. rewrite Er in Erb. injection Erb as <-.
        assert (bst = w) as ->.
        { destruct B3 as [[X _]|[_ X]]; [|assumption].
          unfold qual in Qrb. rewrite Eq in Qrb. destruct q; congruence. }
        assert (best' = w) as -> by (apply IB2; lia).
        rewrite Nat.sub_diag. cbn [firstn kept length]. rewrite Nat.add_0_r.
        split; [reflexivity|].
        assert (LF : length (firstn w' recs') =
          (S w + length (kept th c w (S i) (firstn fuel (skipn (S i) (set_nth w r recs)))))%nat).
        { rewrite IF, app_length, FS, app_length, firstn_length. cbn. lia. }
        rewrite firstn_length in LF.
        assert (W1 : (w < w')%nat) by lia. split; [|assumption].
        rewrite <- (nth_error_firstn _ recs' w' w W1), IF, FS.
        rewrite <- app_assoc. rewrite nth_error_app2 by (rewrite firstn_length; lia).
        rewrite firstn_length. replace (w - Nat.min w (length recs))%nat with 0%nat by lia. reflexivity.
      - rewrite (B2 Ne) in *.
        assert (Erb' : nth_error (set_nth w r recs) best = Some rb)
          by (rewrite nth_error_set_nth_other by lia; assumption).
        destruct (IB3 ltac:(lia) rb Erb' Qrb) as [J1 [J2 J3]].
        split; [|auto]. rewrite J1, SK.
        replace (best - i)%nat with (S (best - S i)) by lia. cbn [firstn kept].
        rewrite HK. cbn [length]. lia. }
    unfold qual in KEEP at 1. rewrite Eq in KEEP.
    assert (QR : qual th c r = match q with QUALIFIED => true | _ => false end)
      by (unfold qual; rewrite Eq; reflexivity).
    rewrite QR.
    destruct q.
    2-4: cbn [andb]; apply (KEEP best); [auto|auto|left; split; [discriminate|reflexivity]|exact H|reflexivity].
    destruct (Nat.eqb_spec i best) as [Eb|Ne].
    + apply (KEEP w); auto. lia.
    + cbn [negb andb] in *. clear KEEP.
      destruct (IH (S i) w best recs recs' w' best' ltac:(lia) ltac:(lia) H)
        as [IL [IW [IF [IS [IB [IB2 IB3]]]]]].
      split; [lia|]. split; [lia|]. split; [assumption|]. split; [assumption|]. split; [assumption|].
      split; [intros; apply IB2; lia|].
      intros Hb rb Erb Qrb. destruct (IB3 ltac:(lia) rb Erb Qrb) as [J1 [J2 J3]].
      split; [|auto]. rewrite J1. replace (best - i)%nat with (S (best - S i)) by lia.
      cbn [firstn kept]. rewrite QR. destruct (Nat.eqb_spec i best); [lia|]. reflexivity.
Qed.

Lemma delete_ok : forall max th c f f', shape max f ->
  delete_unselected th c f = Some f' ->
  shape max f' /\ live f' = kept th c (f_best f) 0 (live f) /\
  (forall rb, (f_best f < f_num f)%nat -> nth_error (f_recs f) (f_best f) = Some rb ->
    qual th c rb = true ->
    (f_best f' < f_num f')%nat /\ nth_error (f_recs f') (f_best f') = Some rb).
Proof.
  intros max th c f f' S H. pose proof S as [SL SP SN SW SB SA SS].
  unfold delete_unselected in H.
  destruct (delete_from _ _ _ _ _ _ _ _) as [[[recs w] best]|] eqn:E; cbn [bind] in H; [|discriminate].
  injection H as <-.
  destruct (delete_from_ok th c (f_num f) (f_num f) 0 0 (f_best f) (f_recs f) recs w best (le_n 0) ltac:(lia) E)
    as [IL [IW [IF [IS [IB [_ IB3]]]]]].
  split; [|split].
  - constructor; cbn [f_recs f_num f_write f_best]; auto; try lia. 
  - unfold live. cbn [f_num f_recs]. rewrite IF. reflexivity.
  - intros rb Hb Er Hq. cbn [f_recs f_num f_write f_best].
    destruct (IB3 ltac:(lia) rb Er Hq) as [_ [J2 J3]]. auto.
Qed.

(** *** choose *)
Lemma first_qual_some : forall th c l i dq b dq', first_qual th c l i dq = Some (Some b, dq') ->
  exists k r, b = (i + k)%nat /\ nth_error l k = Some r /\ qual th c r = true /\
    Forall (fun r => qual th c r = false) (firstn k l).
Proof.
  intros th c l. induction l as [|r t IH]; intros i dq b dq' H; cbn [first_qual] in H; [discriminate|].
  destruct (get_qual th c r) as [q|] eqn:Eq; cbn [bind] in H; [|discriminate].
  assert (QR : qual th c r = match q with QUALIFIED => true | _ => false end)
    by (unfold qual; rewrite Eq; reflexivity).
  destruct q.
  1: { injection H as <- <-. exists 0%nat, r. rewrite Nat.add_0_r. cbn. auto. }
  all: destruct (IH _ _ _ _ H) as [k [r' [-> [E1 [E2 E3]]]]]; exists (S k), r';
       split; [lia|]; split; [assumption|]; split; [assumption|]; cbn; constructor; auto.
Qed.

Lemma first_qual_none : forall th c l i dq dq', first_qual th c l i dq = Some (None, dq') ->
  Forall (fun r => qual th c r = false) l.
Proof.
  intros th c l. induction l as [|r t IH]; intros i dq dq' H; cbn [first_qual] in H; [constructor|].
  destruct (get_qual th c r) as [q|] eqn:Eq; cbn [bind] in H; [|discriminate].
  assert (QR : qual th c r = match q with QUALIFIED => true | _ => false end)
    by (unfold qual; rewrite Eq; reflexivity).
  destruct q; [discriminate| | |]; constructor; eauto.
Qed.

Definition qualified_of (th : Z) (c : clock) (l : list frec) : list frec := filter (qual th c) l.

Section Scan.
Variables (th : Z) (c : clock).
Let cmp A B := compare (c_prefer c) (p_clk (c_parent c)) (r_ds A) (r_ds B).

(** what the second loop has established after looking at [done] *)
Lemma scan_rest_pick : forall l i s s' base,
  scan_rest th c l i s = Some s' ->
  nth_error (base ++ l) (s_best s) = Some (s_rec s) -> length base = i ->
  qual th c (s_rec s) = true ->
  nth_error (base ++ l) (s_best s') = Some (s_rec s') /\ qual th c (s_rec s') = true /\
  s_count s' = (s_count s + length (qualified_of th c l))%nat /\
  (s_had s' = false -> s_had s = false /\
     forall r, In r (qualified_of th c l) -> cmp r (s_rec s) = 0) /\
  (s_had s = true -> s_had s' = true).
Proof.
  intros l. induction l as [|r t IH]; intros i s s' base H Hn Hb Hq; cbn [scan_rest] in H.
  - injection H as <-. split; [assumption|]. split; [assumption|]. cbn. split; [lia|].
    split; [|auto]. intros Hh. split; [assumption|]. intros r [].
  - destruct (get_qual th c r) as [q|] eqn:Eq; cbn [bind] in H; [|discriminate].
    assert (QR : qual th c r = match q with QUALIFIED => true | _ => false end)
      by (unfold qual; rewrite Eq; reflexivity).
    unfold qualified_of. cbn [filter]. rewrite QR.
    assert (EB : base ++ r :: t = (base ++ [r]) ++ t) by (rewrite <- app_assoc; reflexivity).
    rewrite EB in *.
    assert (LB : length (base ++ [r]) = S i) by (rewrite app_length; cbn; lia).
    destruct q.
    + fold (cmp r (s_rec s)) in H. 
      match type of H with scan_rest _ _ _ _ ?x = _ => set (s1 := x) in * end.
      assert (N1 : nth_error ((base ++ [r]) ++ t) (s_best s1) = Some (s_rec s1)).
      { subst s1. cbn [s_best s_rec]. destruct (cmp r (s_rec s) <? 0); [|assumption].
        rewrite nth_error_app1 by lia. rewrite nth_error_app2 by lia.
        replace (i - length base)%nat with 0%nat by lia. reflexivity. }
      assert (Q1 : qual th c (s_rec s1) = true)
        by (subst s1; cbn [s_rec]; destruct (cmp r (s_rec s) <? 0); auto).
      destruct (IH _ _ _ _ H N1 LB Q1) as [J1 [J2 [J3 [J4 J5]]]].
      split; [assumption|]. split; [assumption|]. split; [unfold qualified_of in J3; subst s1; cbn [s_count length] in *; lia|].
      split.
      * intros Hh. destruct (J4 Hh) as [K1 K2]. subst s1. cbn [s_had s_rec] in K1, K2.
        apply orb_false_iff in K1. destruct K1 as [K1 K3].
        assert (Z0 : cmp r (s_rec s) = 0) by (destruct (Z.eqb_spec (cmp r (s_rec s)) 0); [assumption|discriminate]).
        split; [assumption|]. rewrite Z0 in K2. cbn [Z.ltb Z.compare] in K2.
        intros r' [<-|Hr']; [assumption|]. apply K2; assumption.
      * intros Hh. apply J5. subst s1. cbn [s_had]. rewrite Hh. reflexivity.
    + exact (IH _ _ _ _ H Hn LB Hq).
    + match type of H with scan_rest _ _ _ _ ?x = _ => set (s1 := x) in * end.
      destruct (IH _ _ _ _ H ltac:(exact Hn) LB ltac:(exact Hq)) as [J1 [J2 [J3 [J4 J5]]]].
      split; [assumption|]. split; [assumption|]. split; [exact J3|]. split; [exact J4|exact J5].
    + exact (IH _ _ _ _ H Hn LB Hq).
Qed.

(** for a comparison that follows a key, the pick is minimal *)
Lemma scan_rest_min : forall (key : frec -> list Z) (P : frec -> Prop),
  (forall A B, P A -> P B -> cmp A B = memcmp (key A) (key B)) ->
  (forall A B, P A -> P B -> length (key A) = length (key B)) ->
  forall l i s s',
  scan_rest th c l i s = Some s' -> P (s_rec s) -> Forall P (qualified_of th c l) ->
  P (s_rec s') /\ ~ lex_lt (key (s_rec s)) (key (s_rec s')) /\
  forall r, In r (qualified_of th c l) -> ~ lex_lt (key r) (key (s_rec s')).
Proof.
  intros key P HC HL l. induction l as [|r t IH]; intros i s s' H Hs Hl; cbn [scan_rest] in H.
  - injection H as <-. split; [assumption|]. split; [apply lex_irrefl|]. intros r [].
  - destruct (get_qual th c r) as [q|] eqn:Eq; cbn [bind] in H; [|discriminate].
    assert (QR : qual th c r = match q with QUALIFIED => true | _ => false end)
      by (unfold qual; rewrite Eq; reflexivity).
    unfold qualified_of in *. cbn [filter] in *. rewrite QR in *.
    destruct q; try (eapply IH; eassumption).
    2: { apply (IH _ _ _ H); assumption. }
    fold (cmp r (s_rec s)) in H.
    inversion Hl as [|? ? Hr Ht]; subst.
    match type of H with scan_rest _ _ _ _ ?x = _ => set (s1 := x) in * end.
    assert (P1 : P (s_rec s1)) by (subst s1; cbn [s_rec]; destruct (cmp r (s_rec s) <? 0); assumption).
    destruct (IH _ _ _ H P1 Ht) as [J1 [J2 J3]].
    split; [assumption|].
    assert (L : length (key r) = length (key (s_rec s))) by (apply HL; assumption).
    assert (M := memcmp_cases _ _ L). rewrite <- (HC _ _ Hr Hs) in M.
    assert (KS : ~ lex_lt (key (s_rec s)) (key (s_rec s1)) /\ ~ lex_lt (key r) (key (s_rec s1))).
    { subst s1. cbn [s_rec]. destruct M as [[E X]|[[E X]|[E X]]]; rewrite E; cbn [Z.ltb Z.compare].
      - split; [intros Y; exact (lex_asym _ _ X Y)|apply lex_irrefl].
      - split; [apply lex_irrefl|rewrite X; apply lex_irrefl].
      - split; [apply lex_irrefl|intros Y; exact (lex_asym _ _ X Y)]. }
    assert (TOT : forall k, length k = length (key (s_rec s1)) -> ~ lex_lt k (key (s_rec s1)) ->
                  ~ lex_lt k (key (s_rec s'))).
    { intros k Lk N1 N2.
      destruct (memcmp_cases k (key (s_rec s1)) Lk) as [[_ X]|[[_ X]|[_ X]]].
      - exact (N1 X).
      - subst k. exact (J2 N2).
      - exact (J2 (lex_trans _ _ _ X N2)). }
    destruct KS as [K1 K2]. split.
    + apply TOT; [apply HL; assumption|assumption].
    + intros r' [<-|Hr']; [|apply J3; assumption].
      apply TOT; [apply HL; assumption|assumption].
Qed.
End Scan.

Lemma choose_ok : forall th c f b dq, choose th c f = Some (Some b, dq) ->
  exists rb, nth_error (live f) b = Some rb /\ qual th c rb = true.
Proof.
  intros th c f b dq H. unfold choose in H. fold (live f) in H.
  destruct (first_qual th c (live f) 0 false) as [[[b0|] dq0]|] eqn:E; cbn [bind] in H; try discriminate.
  destruct (first_qual_some _ _ _ _ _ _ _ E) as [k [r0 [-> [E1 [E2 _]]]]]. cbn [Nat.add] in *.
  rewrite E1 in H. cbn [bind] in H.
  destruct (scan_rest _ _ _ _ _) as [s|] eqn:Es; cbn [bind] in H; [|discriminate].
  destruct (scan_rest_pick th c _ _ _ _ (firstn (S k) (live f)) Es) as [J1 [J2 _]].
  - cbn [s_best s_rec]. rewrite firstn_skipn. assumption.
  - rewrite firstn_length. assert (X := nth_error_len _ _ _ _ E1). lia.
  - cbn [s_rec]. assumption.
  - rewrite firstn_skipn in J1. injection H as Hb _.
    destruct (s_had s || Nat.eqb (s_count s) 1); [|discriminate]. injection Hb as <-.
    exists (s_rec s). auto.
Qed.

(** ** Announce times *)
Lemma ring2_latest : forall (arr : list Z) num widx h, length arr = 2%nat ->
  ring_inv 2 arr num widx h -> h <> [] -> num <> 0%nat /\
  nth_error arr (if Nat.eqb widx 0 then 1 else 0)%nat = Some (last h 0).
Proof.
  intros arr num widx h L [_ [Hn [Hw H]]] Hh.
  destruct arr as [|a [|b [|]]]; cbn in L; try lia. clear L.
  assert (Lh : (0 < length h)%nat) by (destruct h; [congruence|cbn; lia]).
  split; [lia|].
  assert (LA : forall x (l : list Z), (2 <= length l)%nat -> lastn 2 l = x -> last l 0 = last x 0).
  { intros x l Hl <-. unfold lastn. rewrite <- (firstn_skipn (length l - 2) l) at 1.
    assert (Hs : length (skipn (length l - 2) l) = 2%nat) by (rewrite skipn_length; lia).
    destruct (skipn (length l - 2) l) as [|u [|v [|]]]; cbn in Hs; try lia.
    rewrite last_last with (l := firstn (length l - 2) l ++ [u]) (a := v) || idtac.
    change [u; v] with ([u] ++ [v]). rewrite app_assoc, last_last. reflexivity. }
  destruct H as [[H1 [H2 H3]]|[H1 H2]].
  - assert (length h = 1)%nat by lia. assert (num = 1%nat) as -> by lia. cbn in H3. subst h.
    cbn in *. subst widx. reflexivity.
  - destruct widx as [|[|]]; [| |lia].
    + cbn in H2. rewrite (LA _ h H1 (eq_sym H2)). reflexivity.
    + cbn in H2. rewrite (LA _ h H1 (eq_sym H2)). reflexivity.
Qed.

Definition ring_of (r : frec) (h : list Z) : Prop :=
  length (r_times r) = FM_THRESHOLD /\ ring_inv FM_THRESHOLD (r_times r) (r_count r) (r_widx r) h.

Lemma ring_announce : forall now r h, ring_of r h -> exists r',
  record_announce now r = Some r' /\ ring_of r' (h ++ [now]) /\ r_pid r' = r_pid r /\
  r_ds r' = r_ds r /\ r_off r' = r_off r.
Proof.
  intros now r h [L R]. pose proof R as [_ [_ [W _]]]. unfold record_announce.
  destruct (Nat.ltb_spec (r_widx r) (length (r_times r))); [|lia].
  eexists. split; [reflexivity|]. cbn [r_pid r_ds r_off]. split; [|auto].
  split; cbn [r_times r_count r_widx].
  - rewrite set_nth_length. assumption.
  - apply ring_inv_push. assumption.
Qed.

Lemma latest_of : forall th r h, ring_of r h -> h <> [] ->
  latest_qualifies th r = Some (th <=? last h 0).
Proof.
  intros th r h [L R] Hh. destruct (ring2_latest _ _ _ _ L R Hh) as [Hc Hn].
  unfold latest_qualifies. destruct (Nat.eqb_spec (r_count r) 0); [contradiction|].
  pose proof R as [_ [_ [W _]]]. unfold FM_THRESHOLD in W.
  unfold time_at, FM_THRESHOLD.
  destruct (r_widx r) as [|[|]]; [| |lia].
  - change (nth_error (r_times r) 1 = Some (last h 0)) in Hn.
    change (bind (nth_error (r_times r) 1) (fun t => Some (th <=? t)) = Some (th <=? last h 0)).
    rewrite Hn. reflexivity.
  - change (nth_error (r_times r) 0 = Some (last h 0)) in Hn.
    change (bind (nth_error (r_times r) 0) (fun t => Some (th <=? t)) = Some (th <=? last h 0)).
    rewrite Hn. reflexivity.
Qed.

Lemma sorted_app_inv : forall l x, StronglySorted Z.le (l ++ [x]) ->
  StronglySorted Z.le l /\ Forall (fun y => y <= x) l.
Proof.
  intros l x H. induction l as [|a l IH]; [split; constructor|].
  cbn in H. inversion H; subst. destruct (IH H2) as [I1 I2].
  rewrite Forall_app in H3. destruct H3 as [F1 F2]. inversion F2; subst.
  split; constructor; assumption.
Qed.

Lemma sorted_app_one : forall l x, StronglySorted Z.le l -> Forall (fun y => y <= x) l ->
  StronglySorted Z.le (l ++ [x]).
Proof.
  intros l x H F. induction H; cbn; [repeat constructor|].
  inversion F; subst. constructor; [auto|]. apply Forall_app. auto.
Qed.

Lemma count_app : forall th l m, count_since th (l ++ m) = (count_since th l + count_since th m)%nat.
Proof. intros. unfold count_since. rewrite filter_app, app_length. reflexivity. Qed.

(** two of the last arrivals are recent iff the older of the last two is *)
Lemma count_two : forall th h, StronglySorted Z.le h ->
  (2 <= count_since th h)%nat <->
  (2 <= length h)%nat /\ exists a b, lastn 2 h = [a; b] /\ th <= a.
Proof.
  intros th h S. destruct (le_lt_dec 2 (length h)) as [L|L].
  - assert (Hs : length (skipn (length h - 2) h) = 2%nat) by (rewrite skipn_length; lia).
    unfold lastn.
    destruct (skipn (length h - 2) h) as [|a [|b [|]]] eqn:E; cbn in Hs; try lia.
    assert (Eh : h = (firstn (length h - 2) h ++ [a]) ++ [b])
      by (rewrite <- app_assoc; cbn [app]; rewrite <- E; symmetry; apply firstn_skipn).
    set (pre := firstn (length h - 2) h) in *. clearbody pre.
    rewrite Eh in S. destruct (sorted_app_inv _ _ S) as [S1 F1].
    destruct (sorted_app_inv _ _ S1) as [_ F2].
    apply Forall_app in F1. destruct F1 as [_ F1]. inversion F1; subst.
    rewrite !count_app. unfold count_since at 2 3. cbn [filter].
    split.
    + intros C. split; [assumption|]. exists a, b. split; [reflexivity|].
      destruct (Z.leb_spec th a); [assumption|]. exfalso.
      assert (count_since th pre = 0)%nat.
      { unfold count_since. clear - F2 H. induction F2; cbn; [reflexivity|].
        destruct (Z.leb_spec th x); [lia|assumption]. }
      destruct (Z.leb_spec th b); cbn in C; lia.
    + intros [_ [a' [b' [Eq Ha]]]]. injection Eq as <- <-.
      destruct (Z.leb_spec th a); [|lia]. destruct (Z.leb_spec th b); [cbn; lia|lia].
  - split; [|lia]. intros C. exfalso. unfold count_since in C.
    assert (X : forall l : list Z, (length (filter (fun t => (th <=? t)%Z) l) <= length l)%nat)
      by (clear; intros l; induction l as [|x l IH]; cbn; [lia|]; destruct (th <=? x)%Z; cbn; lia).
    specialize (X h). lia.
Qed.

Lemma Qabs_lt : forall x t : Q, (Qabs x < t <-> x < t /\ - x < t)%Q.
Proof.
  intros x t. split.
  - intros H. split; eapply Qle_lt_trans; try eassumption; [apply Qle_Qabs|].
    rewrite <- Qabs_opp. apply Qle_Qabs.
  - intros [H1 H2]. apply Qabs_case; auto.
Qed.

Lemma disc_spec : forall off thr seen,
  disc_disqualifies off thr seen = false <-> within_discriminator off thr seen.
Proof.
  intros off thr seen. unfold disc_disqualifies, within_discriminator.
  destruct (Qeq_bool off 0) eqn:E.
  - apply Qeq_bool_iff in E. split; auto.
  - assert (N : ~ (off == 0)%Q) by (intros X; apply Qeq_bool_iff in X; congruence).
    destruct seen as [o|].
    + split.
      * intros H. right. exists o. split; [reflexivity|].
        assert (L : (Qabs (o - off) < thr)%Q).
        { apply Qnot_le_lt. intros X. apply Qle_bool_iff in X. congruence. }
        apply Qabs_lt in L. destruct L as [L1 L2]. split; [assumption|].
        eapply Qle_lt_trans; [|exact L2]. apply Qle_lteq. right. ring.
      * intros [X|[o' [Eo [H1 H2]]]]; [contradiction|]. injection Eo as <-.
        assert (L : (Qabs (o - off) < thr)%Q).
        { apply Qabs_lt. split; [assumption|].
          eapply Qle_lt_trans; [|exact H2]. apply Qle_lteq. right. ring. }
        destruct (Qle_bool thr (Qabs (o - off))) eqn:F; [|reflexivity].
        apply Qle_bool_iff in F. exfalso. exact (Qlt_not_le _ _ L F).
    + split; [discriminate|]. intros [X|[o' [Eo _]]]; [contradiction|discriminate].
Qed.

Lemma get_qual_of : forall th c r h, ring_of r h -> StronglySorted Z.le h ->
  exists q, get_qual th c r = Some q /\
  (q = QUALIFIED <->
   (2 <= count_since th h)%nat /\ within_discriminator (c_disc c) (c_disc_thr c) (r_off r) /\
   d_steps (r_ds r) < 255).
Proof.
  intros th c r h R S. pose proof (count_two th h S) as C2.
  pose proof R as [L RI]. pose proof RI as [_ [Hn [W _]]]. unfold FM_THRESHOLD in *.
  unfold get_qual, FM_THRESHOLD.
  destruct (Nat.ltb_spec (r_count r) 2).
  { exists BY_EXPIRY. split; [reflexivity|]. split; [discriminate|].
    intros [C _]. apply C2 in C. lia. }
  assert (Hc : r_count r = 2%nat) by lia.
  destruct (ring_inv_oldest _ _ _ _ _ _ RI Hc) as [o [rest [En El]]].
  assert (Lr : length (lastn 2 h) = 2%nat) by (rewrite lastn_length; lia).
  rewrite El in Lr. destruct rest as [|b [|]]; cbn in Lr; try lia.
  unfold earliest_qualifies. destruct (Nat.eqb_spec (r_count r) 0); [lia|].
  assert (T : time_at r (r_count r) = Some o).
  { unfold time_at, FM_THRESHOLD. rewrite Hc.
    destruct (r_widx r) as [|[|]]; [exact En|exact En|lia]. }
  rewrite T. cbn [bind].
  assert (C3 : (2 <= count_since th h)%nat <-> th <= o).
  { rewrite C2. rewrite El. split.
    - intros [_ [a' [b' [X Y]]]]. injection X as <- <-. assumption.
    - intros X. split; [lia|]. exists o, b. auto. }
  destruct (Z.leb_spec th o); cbn [negb].
  2: { exists BY_EXPIRY. split; [reflexivity|]. split; [discriminate|]. rewrite C3. lia. }
  destruct (disc_disqualifies _ _ _) eqn:D.
  { exists BY_DISCRIMINATOR. split; [reflexivity|]. split; [discriminate|].
    intros [_ [X _]]. apply disc_spec in X. congruence. }
  apply disc_spec in D.
  destruct (Z.leb_spec 255 (d_steps (r_ds r))).
  - exists BY_STEPS. split; [reflexivity|]. split; [discriminate|]. lia.
  - exists QUALIFIED. split; [reflexivity|]. rewrite C3. tauto.
Qed.

(** ** Histories *)
Definition op_ok (o : fop) : Prop :=
  match o with
  | Announce _ d => dset_ok d
  | SyncSeen p _ => is_clock_id (p_clk p)
  | _ => True
  end.

(** times at which announces from port [p] arrived *)
Definition arrivals1 (p : pident) (o : fop) : list Z :=
  match o with
  | Announce now d => if pid_dec (d_src d) p then [now] else []
  | _ => []
  end.
Definition arrivals (p : pident) (l : list fop) : list Z := flat_map (arrivals1 p) l.

(** the clock read at announces does not go backwards, starting at [T] *)
Fixpoint monotone (T : Z) (l : list fop) : Prop :=
  match l with
  | [] => True
  | Announce now _ :: l' => T <= now /\ monotone now l'
  | _ :: l' => monotone T l'
  end.

Record rec_ok (T : Z) (A : pident -> list Z) (r : frec) : Prop := mkRecOk {
  ro_id : is_clock_id (p_clk (r_pid r));
  ro_ds : dset_ok (r_ds r);
  ro_src : d_src (r_ds r) = r_pid r;
  ro_ring : exists h, ring_of r h /\ h <> [] /\ StronglySorted Z.le h /\ Forall (fun t => t <= T) h /\
            (forall th, (count_since th h <= count_since th (A (r_pid r)))%nat)
}.

Lemma rec_ok_weaken : forall T T' (A A' : pident -> list Z) r, T <= T' ->
  (forall th p, (count_since th (A p) <= count_since th (A' p))%nat) ->
  rec_ok T A r -> rec_ok T' A' r.
Proof.
  intros T T' A A' r HT HA [H1 H2 H3 [h [R [N [S [F C]]]]]].
  constructor; auto. exists h. split; [assumption|]. split; [assumption|]. split; [assumption|].
  split; [eapply Forall_impl; [|exact F]; cbn; intros; lia|].
  intros th. specialize (C th). specialize (HA th (r_pid r)). lia.
Qed.

Definition inv (max : nat) (T : Z) (A : pident -> list Z) (f : fds) : Prop :=
  shape max f /\ Forall (rec_ok T A) (live f).

Lemma insert_live : forall max now d f f' k, shape max f -> finsert now d f = Some (f', k) ->
  (exists r r', find f (d_src d) = Some (Some k) /\ nth_error (f_recs f) k = Some r /\
     pid_eqb (d_src d) (r_pid r) = true /\
     record_announce now (mkRec (r_pid r) d (r_times r) (r_widx r) (r_count r) (r_off r)) = Some r' /\
     f_num f' = f_num f /\ f_best f' = f_best f /\
     ((k < f_num f)%nat /\ nth_error (live f) k = Some r /\ live f' = set_nth k r' (live f) \/
      (f_num f <= k)%nat /\ live f' = live f)) \/
  (exists r r', find f (d_src d) = Some None /\ nth_error (f_recs f) k = Some r /\
     record_announce now (mkRec (d_src d) d (r_times r) 0 0 (r_off r)) = Some r' /\
     f_best f' = f_best f /\
     ((f_num f < max)%nat /\ f_num f' = S (f_num f) /\ live f' = live f ++ [r'] \/
      f_num f = max /\ f_num f' = max /\ live f' = set_nth k r' (live f))).
Proof.
  intros max now d f f' k S H. pose proof S as [SL SP SN SW SB SA SS].
  destruct (find f (d_src d)) as [[j|]|] eqn:Hf.
  - destruct (finsert_known _ _ _ _ _ _ Hf H) as [r [r' [Er [Ep [Ea [-> ->]]]]]].
    left. exists r, r'. split; [reflexivity|]. split; [assumption|]. split; [assumption|].
    split; [assumption|]. split; [reflexivity|]. split; [reflexivity|].
    unfold live. cbn [f_num f_recs]. destruct (le_lt_dec (f_num f) j).
    + right. split; [assumption|]. apply firstn_set_nth_le. assumption.
    + left. split; [assumption|]. rewrite nth_error_firstn by assumption.
      split; [assumption|]. apply firstn_set_nth_lt. assumption.
  - destruct (finsert_new _ _ _ _ _ _ S Hf H) as [r [r' [Er [Ea [HR [Hb [Hk [Hw Hn]]]]]]]].
    right. exists r, r'. split; [reflexivity|]. split; [assumption|]. split; [assumption|].
    split; [assumption|]. unfold live. rewrite HR.
    destruct Hn as [[Hn1 [Hn2 Hn3]]|[Hn1 [Hn2 _]]].
    + left. split; [assumption|]. split; [assumption|]. rewrite Hn3, Hn2.
      apply firstn_S_set_nth. lia.
    + right. split; [assumption|]. split; [assumption|]. rewrite Hn2, Hn1.
      apply firstn_set_nth_lt. assumption.
  - unfold finsert in H. rewrite Hf in H. discriminate.
Qed.

Lemma inv_announce : forall max T A now d f f' k, inv max T A f -> dset_ok d -> T <= now ->
  finsert now d f = Some (f', k) ->
  inv max now (fun p => A p ++ arrivals1 p (Announce now d)) f'.
Proof.
  intros max T A now d f f' k [S L] Hd HT H.
  set (A' := fun p => A p ++ arrivals1 p (Announce now d)).
  assert (W : Forall (rec_ok now A') (live f)).
  { eapply Forall_impl; [|exact L]. intros r. apply rec_ok_weaken; [assumption|].
    intros th p. unfold A'. rewrite count_app. lia. }
  split; [eapply finsert_shape; eassumption|].
  pose proof Hd as [_ [Hid _]]. pose proof S as [SL SP SN SW SB SA SS].
  destruct (insert_live _ _ _ _ _ _ S H)
    as [[r [r' [_ [Er [Ep [Ea [_ [_ [[Hk [El ->]]|[_ ->]]]]]]]]]]|[r [r' [_ [Er [Ea [_ Hn]]]]]]].
  - apply Forall_set_nth; [assumption|].
    destruct (Forall_nth _ _ _ _ _ L El) as [H1 H2 H3 [h [R [N [So [F C]]]]]].
    apply pid_eqb_spec in Ep; [|assumption|assumption].
    destruct (ring_announce now (mkRec (r_pid r) d (r_times r) (r_widx r) (r_count r) (r_off r)) h R)
      as [r1 [E1 [R1 [P1 [D1 O1]]]]].
    rewrite Ea in E1. injection E1 as <-. cbn in P1, D1.
    constructor; rewrite ?P1, ?D1; auto.
    exists (h ++ [now]). split; [assumption|]. split; [destruct h; discriminate|].
    assert (F' : Forall (fun t => t <= now) h) by (eapply Forall_impl; [|exact F]; cbn; intros; lia).
    split; [apply sorted_app_one; assumption|].
    split; [apply Forall_app; split; [assumption|repeat constructor; lia]|].
    intros th. unfold A', arrivals1. destruct (pid_dec (d_src d) (r_pid r)) as [_|X]; [|congruence].
    rewrite !count_app. specialize (C th). lia.
  - exact W.
  - assert (Hr' : rec_ok now A' r').
    { assert (R0 : ring_of (mkRec (d_src d) d (r_times r) 0 0 (r_off r)) []).
      { split; cbn [r_times]; [exact (Forall_nth _ _ _ _ _ SS Er)|].
        apply ring_inv_init. rewrite (Forall_nth _ _ _ _ _ SS Er). unfold FM_THRESHOLD. lia. }
      destruct (ring_announce now _ _ R0) as [r1 [E1 [R1 [P1 [D1 O1]]]]].
      rewrite Ea in E1. injection E1 as <-. cbn in P1, D1.
      constructor; rewrite ?P1, ?D1; auto.
      exists [now]. split; [assumption|]. split; [discriminate|].
      split; [repeat constructor|]. split; [repeat constructor; lia|].
      intros th. unfold A', arrivals1. destruct (pid_dec (d_src d) (d_src d)) as [_|X]; [|congruence].
      rewrite !count_app. lia. }
    destruct Hn as [[_ [_ ->]]|[_ [_ ->]]].
    + apply Forall_app. split; [assumption|constructor; [assumption|constructor]].
    + apply Forall_set_nth; assumption.
Qed.

Lemma fsync_effect : forall p o f f', fsync p o f = Some f' ->
  f' = f \/ exists k r, nth_error (f_recs f) k = Some r /\
    f' = mkFds (set_nth k (mkRec (r_pid r) (r_ds r) (r_times r) (r_widx r) (r_count r) o) (f_recs f))
               (f_num f) (f_write f) (f_best f).
Proof.
  intros p o f f' H. unfold fsync in H.
  destruct (find f p) as [[k|]|]; cbn [bind] in H; [|left; congruence|discriminate].
  destruct (nth_error (f_recs f) k) as [r|] eqn:E; cbn [bind] in H; [|discriminate].
  right. exists k, r. split; [assumption|congruence].
Qed.

Lemma live_set : forall f k x, (k < f_num f)%nat \/ (f_num f <= k)%nat ->
  live (mkFds (set_nth k x (f_recs f)) (f_num f) (f_write f) (f_best f)) =
  if Nat.ltb k (f_num f) then set_nth k x (live f) else live f.
Proof.
  intros f k x _. unfold live. cbn [f_num f_recs].
  destruct (Nat.ltb_spec k (f_num f)); [apply firstn_set_nth_lt|apply firstn_set_nth_le]; assumption.
Qed.

Lemma inv_sync : forall max T A p o f f', inv max T A f -> fsync p o f = Some f' -> inv max T A f'.
Proof.
  intros max T A p o f f' [S L] H. destruct (fsync_effect _ _ _ _ H) as [->|[k [r [Er ->]]]];
    [split; assumption|].
  pose proof S as [SL SP SN SW SB SA SS]. split.
  - constructor; cbn [f_recs f_num f_write f_best]; auto; [rewrite set_nth_length; assumption|].
    apply Forall_set_nth; [assumption|]. exact (Forall_nth _ _ _ _ _ SS Er).
  - rewrite live_set by lia. destruct (Nat.ltb_spec k (f_num f)); [|assumption].
    apply Forall_set_nth; [assumption|].
    assert (El : nth_error (live f) k = Some r)
      by (unfold live; rewrite nth_error_firstn by assumption; assumption).
    destruct (Forall_nth _ _ _ _ _ L El) as [H1 H2 H3 H4]. constructor; assumption.
Qed.

Lemma Forall_filter : forall A (P : A -> Prop) g l, Forall P l -> Forall P (filter g l).
Proof. intros A P g l H. induction H; cbn; [constructor|]. destruct (g x); auto. Qed.

Lemma inv_expire : forall SZ mix max T A th f f', 1 < SZ -> mix_ok mix -> inv max T A f ->
  expire SZ mix th f = Some f' -> inv max T A f' /\ live f' = filter (lq th) (live f).
Proof.
  intros SZ mix max T A th f f' HS HM [S L] H. unfold expire in H.
  destruct (expire_from_ok SZ mix max th (f_num f) 0 f f' HS HM S ltac:(lia) H) as [S' L'].
  cbn [firstn skipn app] in L'. split; [|assumption]. split; [assumption|].
  rewrite L'. apply Forall_filter. assumption.
Qed.

Lemma bmc_effect : forall th1 th2 c f st c' f', bmc th1 th2 c f = Some (st, c', f') ->
  f' = f \/ exists b, fst (match choose th1 c f with Some x => x | None => (None, false) end) = Some b /\
    delete_unselected th2 c (mkFds (f_recs f) (f_num f) (f_write f) b) = Some f'.
Proof.
  intros th1 th2 c f st c' f' H. unfold bmc in H.
  destruct (Nat.eqb (f_num f) 0 || c_master_only c).
  { left. injection H as _ _ <-. reflexivity. }
  destruct (choose th1 c f) as [[[b|] dq]|]; cbn [bind] in H; [| |discriminate].
  - right. exists b. split; [reflexivity|].
    destruct (delete_unselected _ _ _) as [f1|]; cbn [bind] in H; [|discriminate].
    destruct (nth_error _ _); cbn [bind] in H; [|discriminate].
    destruct (state_decision _ _ _); cbn [bind] in H; [|discriminate]. congruence.
  - left. congruence.
Qed.

Lemma shape_best : forall max f b, shape max f -> (b < max)%nat ->
  shape max (mkFds (f_recs f) (f_num f) (f_write f) b).
Proof. intros max f b [SL SP SN SW SB SA SS] H. constructor; assumption. Qed.

Lemma inv_bmc : forall max T A th1 th2 c f st c' f', inv max T A f ->
  bmc th1 th2 c f = Some (st, c', f') ->
  inv max T A f' /\ (f' = f \/ exists b, live f' = kept th2 c b 0 (live f)).
Proof.
  intros max T A th1 th2 c f st c' f' [S L] H.
  destruct (bmc_effect _ _ _ _ _ _ _ H) as [->|[b [Hb Hd]]]; [split; [split; assumption|auto]|].
  destruct (choose th1 c f) as [[o dq]|] eqn:Ec; cbn in Hb; [|discriminate]. subst o.
  destruct (choose_ok _ _ _ _ _ Ec) as [rb [Eb _]].
  assert (Lb := nth_error_len _ _ _ _ Eb). unfold live in Lb. rewrite firstn_length in Lb.
  pose proof S as [SL SP SN SW SB SA SS].
  destruct (delete_ok max th2 c _ _ (shape_best max f b S ltac:(lia)) Hd) as [S' [L' _]].
  split; [split; [assumption|]|right; exists b; exact L'].
  rewrite L'. cbn [f_best]. apply Forall_forall. intros r Hr. apply kept_in in Hr.
  rewrite Forall_forall in L. apply L. exact Hr.
Qed.

Lemma inv_reset : forall max T A f, inv max T A f -> inv max T A (freset f).
Proof.
  intros max T A f [[SL SP SN SW SB SA SS] L]. split; [constructor; cbn; auto; lia|constructor].
Qed.

Definition time_of (T : Z) (o : fop) : Z := match o with Announce now _ => now | _ => T end.

Lemma inv_step : forall SZ mix max T A o f f', 1 < SZ -> mix_ok mix -> inv max T A f -> op_ok o ->
  T <= time_of T o -> fstep SZ mix f o = Some f' ->
  inv max (time_of T o) (fun p => A p ++ arrivals1 p o) f'.
Proof.
  intros SZ mix max T A o f f' HS HM I Ho HT H.
  assert (W : forall f0 o', (forall p, arrivals1 p o' = []) -> inv max T A f0 ->
              inv max T (fun p => A p ++ arrivals1 p o') f0).
  { intros f0 o' Hn [S L]. split; [assumption|]. eapply Forall_impl; [|exact L].
    intros r. apply rec_ok_weaken; [lia|]. intros th p. rewrite Hn, app_nil_r. lia. }
  destruct o; cbn [fstep time_of] in *.
  - destruct (finsert now d f) as [[f1 k]|] eqn:E; cbn [bind fst] in H; [|discriminate].
    injection H as <-. eapply inv_announce; eassumption.
  - apply W; [reflexivity|]. eapply inv_sync; eassumption.
  - apply W; [reflexivity|]. eapply inv_expire; eassumption.
  - destruct (bmc th1 th2 c f) as [[[st c'] f1]|] eqn:E; cbn [bind snd] in H; [|discriminate].
    injection H as <-. apply W; [reflexivity|]. eapply inv_bmc; eassumption.
  - injection H as <-. apply W; [reflexivity|]. apply inv_reset. assumption.
Qed.

Lemma inv_run : forall SZ mix max l T A f f', 1 < SZ -> mix_ok mix -> inv max T A f ->
  Forall op_ok l -> monotone T l -> frun SZ mix f l = Some f' ->
  exists T', inv max T' (fun p => A p ++ arrivals p l) f'.
Proof.
  intros SZ mix max l. induction l as [|o l IH]; intros T A f f' HS HM I Ho HT H.
  - cbn in H. injection H as <-. exists T. destruct I as [S L]. split; [assumption|].
    eapply Forall_impl; [|exact L]. intros r. apply rec_ok_weaken; [lia|].
    intros th p. cbn. rewrite app_nil_r. lia.
  - cbn [frun] in H. inversion Ho as [|? ? Ho1 Ho2]; subst.
    destruct (fstep SZ mix f o) as [f1|] eqn:E; cbn [bind] in H; [|discriminate].
    assert (HM' : T <= time_of T o /\ monotone (time_of T o) l).
    { destruct o; cbn in *; try (split; [lia|assumption]). assumption. }
    destruct HM' as [M1 M2].
    destruct (IH _ _ _ _ HS HM (inv_step _ _ _ _ _ _ _ _ HS HM I Ho1 M1 E) Ho2 M2 H) as [T' [S' L']].
    exists T'. split; [assumption|]. eapply Forall_impl; [|exact L'].
    intros r. apply rec_ok_weaken; [lia|]. intros th p. cbn [arrivals flat_map].
    fold (arrivals p l). rewrite app_assoc. lia.
Qed.

Lemma inv_init : forall max T, (0 < max)%nat -> inv max T (fun _ => []) (finit max).
Proof. intros max T H. split; [apply shape_init; assumption|constructor]. Qed.

(** ** Distinct identities *)
Definition distinct (f : fds) : Prop := NoDup (map r_pid (live f)).

Lemma map_set_nth_same : forall A B (g : A -> B) k x y l, nth_error l k = Some y -> g x = g y ->
  map g (set_nth k x l) = map g l.
Proof.
  intros A B g k x y l. revert k. induction l as [|a l IH]; intros [|k] H E; cbn in *; try discriminate.
  - injection H as ->. congruence.
  - f_equal. eauto.
Qed.

Lemma map_set_nth : forall A B (g : A -> B) k x l, map g (set_nth k x l) = set_nth k (g x) (map g l).
Proof. intros A B g k x l. revert k. induction l; intros [|k]; cbn; congruence. Qed.

Lemma NoDup_set_nth : forall A k (x : A) l, NoDup l -> ~ In x l -> NoDup (set_nth k x l).
Proof.
  intros A k x l H. revert k. induction H as [|a l Ha Hl IH]; intros k Hx; [constructor|].
  destruct k as [|k]; cbn.
  - constructor; [intros X; apply Hx; right; assumption|assumption].
  - constructor.
    + intros X. assert (Y : forall (m : list A) k', In a (set_nth k' x m) -> a = x \/ In a m).
      { clear. intros m. induction m as [|b m IH]; intros [|k'] H; cbn in *; auto.
        - destruct H; auto.
        - destruct H as [H|H]; auto. destruct (IH _ H); auto. }
      destruct (Y _ _ X) as [->|Z]; [apply Hx; left; reflexivity|contradiction].
    + apply IH. intros X. apply Hx. right. assumption.
Qed.

Lemma NoDup_map_filter : forall A B (g : A -> B) h l, NoDup (map g l) -> NoDup (map g (filter h l)).
Proof.
  intros A B g h l. induction l as [|a l IH]; intros H; cbn; [constructor|].
  cbn in H. inversion H; subst. destruct (h a); [|auto]. cbn. constructor; [|auto].
  intros X. apply H2. apply in_map_iff in X. destruct X as [y [E Hy]].
  apply filter_In in Hy. rewrite <- E. apply in_map. tauto.
Qed.

Definition best_live (f : fds) : Prop := f_num f = 0%nat \/ (f_best f < f_num f)%nat.

Lemma distinct_step : forall SZ mix max T A o f f', 1 < SZ -> mix_ok mix -> inv max T A f -> op_ok o ->
  best_live f -> distinct f -> fstep SZ mix f o = Some f' -> distinct f'.
Proof.
  intros SZ mix max T A o f f' HS HM I Ho Hb D H. unfold distinct in *.
  pose proof I as [S L]. pose proof S as [SL SP SN SW SB SA SS].
  destruct o; cbn [fstep] in H.
  - destruct (finsert now d f) as [[f1 k]|] eqn:E; cbn [bind fst] in H; [|discriminate].
    injection H as <-. cbn [op_ok] in Ho. pose proof Ho as [_ [Hid _]].
    destruct (insert_live _ _ _ _ _ _ S E)
      as [[r [r' [_ [Er [Ep [Ea [_ [_ [[Hk [El ->]]|[_ ->]]]]]]]]]]|[r [r' [Hf [Er [Ea [_ Hn]]]]]]].
    + apply record_announce_some in Ea. destruct Ea as [-> _].
      rewrite (map_set_nth_same _ _ r_pid k _ r _ El); [assumption|reflexivity].
    + assumption.
    + apply record_announce_some in Ea. destruct Ea as [-> _].
      assert (N : ~ In (d_src d) (map r_pid (live f))).
      { assert (X := find_none_all f (d_src d) ltac:(unfold f_max; lia) Hb Hf).
        intros Y. apply in_map_iff in Y. destruct Y as [y [E1 Hy]].
        rewrite Forall_forall in X, L. specialize (X _ Hy). destruct (L _ Hy) as [Y1 _ _ _].
        rewrite <- E1 in X. assert (pid_eqb (r_pid y) (r_pid y) = true)
          by (apply pid_eqb_spec; auto). congruence. }
      destruct Hn as [[_ [_ ->]]|[_ [_ ->]]].
      * rewrite map_app. cbn [map r_pid]. apply NoDup_app_one; assumption.
      * rewrite map_set_nth. cbn [r_pid]. apply NoDup_set_nth; assumption.
  - destruct (fsync_effect _ _ _ _ H) as [->|[k [r [Er ->]]]]; [assumption|].
    rewrite live_set by lia. destruct (Nat.ltb_spec k (f_num f)); [|assumption].
    assert (El : nth_error (live f) k = Some r)
      by (unfold live; rewrite nth_error_firstn by assumption; assumption).
    rewrite (map_set_nth_same _ _ r_pid k _ r _ El); [assumption|reflexivity].
  - destruct (inv_expire _ _ _ _ _ _ _ _ HS HM I H) as [_ ->]. apply NoDup_map_filter. assumption.
  - destruct (bmc th1 th2 c f) as [[[st c'] f1]|] eqn:E; cbn [bind snd] in H; [|discriminate].
    injection H as <-. destruct (inv_bmc _ _ _ _ _ _ _ _ _ _ I E) as [_ [->|[b ->]]]; [assumption|].
    apply kept_nodup. assumption.
  - injection H as <-. constructor.
Qed.

(** ** When operations are defined *)
Lemma find_from_lt : forall recs num p fuel j k, (0 < num)%nat -> (j < num)%nat ->
  find_from recs num p fuel j = Some (Some k) -> (k < num)%nat.
Proof.
  intros recs num p fuel. induction fuel as [|fuel IH]; intros j k Hn Hj H; cbn in H; [discriminate|].
  destruct (nth_error recs j) as [r|]; cbn in H; [|discriminate].
  destruct (pid_eqb p (r_pid r)); [injection H as <-; assumption|].
  eapply IH; [assumption|apply Nat.mod_upper_bound; lia|eassumption].
Qed.

Lemma find_total : forall max f p, shape max f -> exists o, find f p = Some o.
Proof.
  intros max f p [SL SP SN SW SB SA SS]. unfold find.
  destruct (f_num f) as [|n] eqn:E; [exists None; reflexivity|].
  apply find_from_total; lia.
Qed.

Lemma insert_none : forall max T A now d f, inv max T A f -> best_live f -> dset_ok d ->
  finsert now d f = None <->
  (~ In (d_src d) (map r_pid (live f)) /\ f_num f = max /\ f_write f = max).
Proof.
  intros max T A now d f [S L] Hb Hd. pose proof Hd as [_ [Hid _]].
  pose proof S as [SL SP SN SW SB SA SS].
  destruct (find_total max f (d_src d) S) as [[j|] Hf].
  - assert (Hn : (0 < f_num f)%nat).
    { unfold find in Hf. destruct (f_num f); [discriminate|lia]. }
    assert (Hj : (j < f_num f)%nat).
    { destruct Hb as [Hb|Hb]; [lia|]. exact (find_from_lt _ _ _ _ _ _ Hn Hb Hf). }
    destruct (find_from_some _ _ _ _ _ _ Hf) as [r [Er Ep]].
    assert (El : nth_error (live f) j = Some r)
      by (unfold live; rewrite nth_error_firstn by assumption; assumption).
    destruct (Forall_nth _ _ _ _ _ L El) as [H1 H2 H3 [h [R _]]].
    apply pid_eqb_spec in Ep; [|assumption|assumption].
    split.
    + intros H. exfalso. unfold finsert in H. rewrite Hf in H. cbn [bind] in H.
      rewrite Er in H. cbn [bind] in H.
      destruct (ring_announce now (mkRec (r_pid r) d (r_times r) (r_widx r) (r_count r) (r_off r)) h R)
        as [r1 [E1 _]]. rewrite E1 in H. discriminate.
    + intros [X _]. exfalso. apply X. rewrite Ep. apply in_map. eapply nth_error_In; eassumption.
  - assert (N : ~ In (d_src d) (map r_pid (live f))).
    { assert (X := find_none_all f (d_src d) ltac:(unfold f_max; lia) Hb Hf).
      intros Y. apply in_map_iff in Y. destruct Y as [y [E1 Hy]].
      rewrite Forall_forall in X, L. specialize (X _ Hy). destruct (L _ Hy) as [Y1 _ _ _].
      rewrite <- E1 in X. assert (pid_eqb (r_pid y) (r_pid y) = true)
        by (apply pid_eqb_spec; auto). congruence. }
    unfold finsert. rewrite Hf. cbn [bind]. unfold f_max. rewrite SL.
    set (w := if Nat.ltb (f_write f) (f_num f) && Nat.eqb (f_write f) (f_best f)
              then Nat.modulo (f_write f + 1) max else f_write f).
    assert (Hw : (w < max)%nat \/ (w = max /\ f_num f = max /\ f_write f = max)).
    { assert (M := Nat.mod_upper_bound (f_write f + 1) max ltac:(lia)).
      unfold w. destruct (Nat.ltb_spec (f_write f) (f_num f)); cbn [andb].
      - destruct (Nat.eqb (f_write f) (f_best f)); lia.
      - destruct (Nat.eq_dec (f_num f) max); [lia|]. left. rewrite (SA ltac:(lia)). lia. }
    destruct Hw as [Hw|[Hw [Hw1 Hw2]]].
    + destruct (nth_error (f_recs f) w) as [r|] eqn:Er; [|apply nth_error_None in Er; lia].
      cbn [bind]. unfold record_announce. cbn [r_widx r_times].
      rewrite (Forall_nth _ _ _ _ _ SS Er). cbn [FM_THRESHOLD Nat.ltb Nat.leb bind].
      split; [discriminate|]. intros [_ [X1 X2]]. exfalso.
      unfold w in Hw. rewrite X1, X2, Nat.ltb_irrefl in Hw. cbn [andb] in Hw. lia.
    + replace (nth_error (f_recs f) w) with (@None frec)
        by (symmetry; apply nth_error_None; lia).
      cbn [bind]. tauto.
Qed.

Lemma expire_from_safe : forall SZ mix max th fuel i f, 1 < SZ -> mix_ok mix -> shape max f ->
  (i <= f_num f <= i + fuel)%nat -> (f_num f + f_num f <= max)%nat ->
  Forall (fun r => latest_qualifies th r <> None) (live f) ->
  expire_from SZ mix fuel th i f <> None.
Proof.
  intros SZ mix max th fuel. induction fuel as [|fuel IH]; intros i f HS HM S Hi H2 L; cbn [expire_from];
    [discriminate|].
  pose proof S as [SL SP SN SW SB SA SS].
  destruct (Nat.ltb_spec i (f_num f)); [|discriminate].
  destruct (nth_error (f_recs f) i) as [r|] eqn:Er; [|apply nth_error_None in Er; lia].
  cbn [bind].
  assert (El : nth_error (live f) i = Some r)
    by (unfold live; rewrite nth_error_firstn by assumption; assumption).
  assert (Lr := Forall_nth _ _ _ _ _ L El). cbn in Lr.
  destruct (latest_qualifies th r) as [[|]|] eqn:Eq; [| |congruence]; cbn [bind].
  - apply IH; auto. lia.
  - destruct (move_down SZ mix i (f_num f) (f_recs f)) as [recs|] eqn:Em; cbn [bind].
    2: { exfalso. eapply (move_down_safe SZ mix i (f_num f) (f_recs f)); auto. lia. }
    destruct (move_down_ok _ _ _ _ _ _ HS (conj H (ltac:(lia) : (f_num f <= length (f_recs f))%nat)) Em)
      as [ML [MF MS]].
    apply IH; auto.
    + constructor; cbn [f_recs f_num f_write f_best]; auto; try lia.
      * destruct (Nat.ltb i (f_write f)); lia.
      * destruct (Nat.ltb i (f_best f)); lia.
      * intros _. rewrite (SA ltac:(lia)). destruct (Nat.ltb_spec i (f_num f)); lia.
    + cbn [f_num]. lia.
    + cbn [f_num]. lia.
    + unfold live. cbn [f_num f_recs]. rewrite MF. apply Forall_app. split.
      * unfold live in L. apply (Forall_firstn _ _ i) in L. rewrite firstn_firstn in L.
        replace (Nat.min i (f_num f)) with i in L by lia. assumption.
      * apply Forall_skipn. assumption.
Qed.

Lemma expire_from_full : forall SZ mix th fuel i f k r, 1 < SZ ->
  f_num f = length (f_recs f) -> (i <= k)%nat -> nth_error (f_recs f) k = Some r -> lq th r = false ->
  (f_num f <= i + fuel)%nat -> expire_from SZ mix fuel th i f = None.
Proof.
  intros SZ mix th fuel. induction fuel as [|fuel IH]; intros i f k r HS Hn Hk Er Hr Hf.
  - assert (X := nth_error_len _ _ _ _ Er). lia.
  - assert (X := nth_error_len _ _ _ _ Er). cbn [expire_from].
    destruct (Nat.ltb_spec i (f_num f)); [|lia].
    destruct (nth_error (f_recs f) i) as [r0|] eqn:E0; [|reflexivity]. cbn [bind].
    destruct (latest_qualifies th r0) as [[|]|] eqn:Eq; cbn [bind]; [| |reflexivity].
    + destruct (Nat.eq_dec i k) as [->|Ne].
      * exfalso. rewrite E0 in Er. injection Er as <-. unfold lq in Hr. rewrite Eq in Hr. discriminate.
      * eapply (IH (S i) f k r); auto; lia.
    + rewrite Hn, move_down_full by assumption. reflexivity.
Qed.

Definition qual_defined th c r := get_qual th c r <> None.

Lemma first_qual_total : forall th c l i dq, Forall (qual_defined th c) l ->
  first_qual th c l i dq <> None.
Proof.
  intros th c l. induction l as [|r t IH]; intros i dq H; cbn [first_qual]; [discriminate|].
  inversion H; subst. unfold qual_defined in *.
  destruct (get_qual th c r) as [q|]; [|congruence]. cbn [bind]. destruct q; auto. discriminate.
Qed.

Lemma scan_rest_total : forall th c l i s, Forall (qual_defined th c) l -> scan_rest th c l i s <> None.
Proof.
  intros th c l. induction l as [|r t IH]; intros i s H; cbn [scan_rest]; [discriminate|].
  inversion H; subst. unfold qual_defined in *.
  destruct (get_qual th c r) as [q|]; [|congruence]. cbn [bind]. destruct q; auto.
Qed.

Lemma choose_total : forall th c f, Forall (qual_defined th c) (live f) -> choose th c f <> None.
Proof.
  intros th c f H. unfold choose. fold (live f).
  destruct (first_qual th c (live f) 0 false) as [[[b|] dq]|] eqn:E; cbn [bind].
  - destruct (first_qual_some _ _ _ _ _ _ _ E) as [k [r0 [-> [E1 _]]]]. cbn [Nat.add] in *.
    rewrite E1. cbn [bind].
    destruct (scan_rest _ _ _ _ _) eqn:Es; cbn [bind]; [discriminate|].
    exfalso. revert Es. apply scan_rest_total. apply Forall_skipn. assumption.
  - discriminate.
  - exfalso. revert E. apply first_qual_total. assumption.
Qed.

Lemma delete_from_total : forall th c num fuel i w best recs, (w <= i)%nat ->
  (i + fuel <= length recs)%nat -> Forall (qual_defined th c) (firstn fuel (skipn i recs)) ->
  delete_from fuel th c num i w best recs <> None.
Proof.
  intros th c num fuel. induction fuel as [|fuel IH]; intros i w best recs Hw Hl H; cbn [delete_from];
    [discriminate|].
  destruct (nth_error recs i) as [r|] eqn:Er; [|apply nth_error_None in Er; lia]. cbn [bind].
  rewrite (nth_error_skipn_cons _ _ _ _ Er) in H. cbn [firstn] in H.
  inversion H; subst. unfold qual_defined in H2.
  destruct (get_qual th c r) as [q|]; [|congruence]. cbn [bind].
  assert (SK : forall x, skipn (S i) (set_nth w x recs) = skipn (S i) recs)
    by (intros; apply skipn_set_nth_gt; lia).
  destruct q; [destruct (Nat.eqb i best)| | |]; apply IH; rewrite ?set_nth_length, ?SK; auto; lia.
Qed.

Lemma rec_ok_qual : forall T A th c r, rec_ok T A r -> qual_defined th c r.
Proof.
  intros T A th c r [_ _ _ [h [R [_ [S _]]]]]. unfold qual_defined.
  destruct (get_qual_of th c r h R S) as [q [-> _]]. discriminate.
Qed.

(** ** State decision *)
Lemma compare_own_other : forall c B, is_clock_id (c_id c) -> dset_ok B -> d_gm B <> c_id c ->
  compare_own c B = Some (compare (c_prefer c) (p_clk (c_parent c)) (d0 c) B).
Proof.
  intros c B Hc [GB _] N. unfold compare_own, compare, compare_pre. cbn [d0 d_gm].
  destruct (memcmp (c_id c) (d_gm B) =? 0) eqn:E.
  - exfalso. apply N. symmetry. apply memcmp_eq0; [congruence|lia].
  - reflexivity.
Qed.

Lemma d0_ok : forall c, is_clock_id (c_id c) -> dset_ok (d0 c).
Proof. intros c H. unfold dset_ok. cbn. repeat split; auto; lia. Qed.
