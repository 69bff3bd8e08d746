(** Proofs about the clock feed. *)
Require Import ZArith Lia List Bool Arith ZifyBool.
Require Import Verif.Base Verif.ListLib Verif.TimeSpec Verif.TimeModel Verif.TimeProof Verif.FeedSpec Verif.FeedModel.
Import ListNotations.
Open Scope Z_scope.

(** *** The ring *)
Lemma samples_from_app : forall p q d c, samples_from d c (p ++ q) = let (d', c') := samples_from d c p in samples_from d' c' q.
Proof. induction p as [|[j v|] p IH]; intros q d c; cbn; [reflexivity|apply IH|apply IH]. Qed.
Lemma samples_snoc : forall p s, samples (p ++ [s]) = let (d, c) := samples p in
  match s with WSet j v => (d, c ++ [(j, v)]) | WPub => (d ++ [c], []) end.
Proof. intros p s. unfold samples. rewrite samples_from_app. destruct (samples_from [] [] p) as [d c]. destruct s; reflexivity. Qed.
Lemma samples_from_done : forall p d c, exists r, fst (samples_from d c p) = d ++ r.
Proof.
  induction p as [|[j v|] p IH]; intros d c; cbn; [exists []; rewrite app_nil_r; reflexivity|apply IH|].
  destruct (IH (d ++ [c]) []) as [r E]. exists (c :: r). rewrite E, <- app_assoc. reflexivity.
Qed.
Lemma published_app : forall p q, exists r, published (p ++ q) = published p ++ r.
Proof. intros p q. unfold published, samples. rewrite samples_from_app. destruct (samples_from [] [] p) as [d c]. apply samples_from_done. Qed.

Lemma word_snoc : forall j sm k v, word j (sm ++ [(k, v)]) = if Nat.eqb k j then Some v else word j sm.
Proof. intros. unfold word. rewrite fold_left_app. reflexivity. Qed.

Lemma land15 : forall x, Z.land x (MAX_CLOCK_SAMPLES - 1) = x mod 16.
Proof. intros x. exact (Z.land_ones x 4 ltac:(lia)). Qed.

Definition ring_ok (p : list wstep) (m : shm) : Prop :=
  counter m = Z.of_nat (length (published p)) /\
  (forall n sm j v, nth_error (published p) n = Some sm -> (length (published p) < n + 16)%nat -> word j sm = Some v ->
     cell m (Z.of_nat n mod 16) j = v) /\
  (forall j v, word j (snd (samples p)) = Some v -> cell m (Z.of_nat (length (published p)) mod 16) j = v).

Lemma ring_inv : forall p, Z.of_nat (length (published p)) < 2^63 -> ring_ok p (fold_left wexec p shm0).
Proof.
  induction p as [|s p IH] using rev_ind; intros Hb.
  - split; [reflexivity|]. split; [intros n sm j v H; destruct n; discriminate|]. intros j v H. discriminate.
  - rewrite fold_left_app. cbn [fold_left]. unfold ring_ok, published in *. rewrite samples_snoc in *.
    destruct (samples p) as [d c] eqn:E. cbn [fst snd] in *.
    destruct s as [j0 v0|]; cbn [fst snd] in *.
    + destruct (IH Hb) as [C [R W]]. set (m := fold_left wexec p shm0) in *. cbn [wexec counter cell]. rewrite land15, C.
      split; [reflexivity|]. split.
      * intros n sm j v Hn Hl Hw. assert (n < length d)%nat by (apply nth_error_Some; congruence).
        replace (Z.of_nat n mod 16 =? Z.of_nat (length d) mod 16) with false by lia. cbn [andb]. eapply R; eassumption.
      * intros j v Hw. rewrite word_snoc in Hw. rewrite Z.eqb_refl. cbn [andb]. rewrite Nat.eqb_sym. destruct (Nat.eqb j0 j); [congruence|]. apply W. assumption.
    + rewrite app_length in *. cbn [length] in *. destruct (IH ltac:(lia)) as [C [R W]]. set (m := fold_left wexec p shm0) in *. cbn [wexec counter cell]. rewrite C.
      split; [unfold u64; rewrite Z.mod_small; lia|]. split.
      * intros n sm j v Hn Hl Hw. destruct (Nat.eq_dec n (length d)) as [->|Ne].
        -- rewrite nth_error_app2, Nat.sub_diag in Hn by lia. inversion Hn; subst. apply W. assumption.
        -- assert (n < length (d ++ [c]))%nat by (apply nth_error_Some; congruence). rewrite app_length in *. cbn in *.
           rewrite nth_error_app1 in Hn by lia. eapply R; [eassumption|lia|assumption].
      * intros j v Hw. discriminate.
Qed.

Section R.
Variable tr : list wstep.
Hypothesis Hb : Z.of_nat (length (published tr)) < 2^31 - 16.
Hypothesis Hc : all_complete tr.
Definition pub (t : nat) : nat := count tr t.

Lemma pub_prefix : forall t, exists r, published tr = published (firstn t tr) ++ r.
Proof. intros t. destruct (published_app (firstn t tr) (skipn t tr)) as [r E]. rewrite firstn_skipn in E. exists r. assumption. Qed.
Lemma pub_le : forall t, (pub t <= length (published tr))%nat.
Proof. intros t. destruct (pub_prefix t) as [r E]. unfold pub, count. rewrite E, app_length. lia. Qed.
Lemma firstn_firstn_le : forall A (l : list A) a b, (a <= b)%nat -> firstn b l = firstn a l ++ firstn (b - a) (skipn a l).
Proof.
  intros A l a b H. rewrite <- (firstn_skipn a (firstn b l)) at 1. rewrite firstn_firstn, Nat.min_l by assumption. f_equal. rewrite skipn_firstn_comm. reflexivity.
Qed.
Lemma pub_mono : forall a b, (a <= b)%nat -> (pub a <= pub b)%nat.
Proof.
  intros a b H. unfold pub, count. rewrite (firstn_firstn_le _ tr a b H).
  destruct (published_app (firstn a tr) (firstn (b - a) (skipn a tr))) as [r E]. rewrite E, app_length. lia.
Qed.
Lemma ring_at : forall t, ring_ok (firstn t tr) (mem_at tr t).
Proof. intros t. apply ring_inv. pose proof (pub_le t). unfold pub, count in *. lia. Qed.
Lemma counter_at : forall t, counter (mem_at tr t) = Z.of_nat (pub t).
Proof. intros t. destruct (ring_at t) as [A _]. exact A. Qed.
Lemma counter_s32 : forall t, s32 (counter (mem_at tr t)) = Z.of_nat (pub t).
Proof. intros t. rewrite counter_at. pose proof (pub_le t). unfold s32. lia. Qed.

(** A sample stays readable until fifteen more have been published. *)
Lemma read_word : forall t n sm j, nth_error (published tr) n = Some sm -> (n < pub t)%nat -> (pub t < n + 16)%nat -> (j < N_WORDS)%nat ->
  word j sm = Some (cell (mem_at tr t) (Z.of_nat n mod 16) j).
Proof.
  intros t n sm j Hn H1 H2 Hj. destruct (ring_at t) as [_ [R _]].
  assert (Hn' : nth_error (published (firstn t tr)) n = Some sm).
  { destruct (pub_prefix t) as [r E]. rewrite E, nth_error_app1 in Hn by exact H1. assumption. }
  assert (Cm : complete sm). { unfold all_complete in Hc. rewrite Forall_forall in Hc. apply Hc. eapply nth_error_In; eassumption. }
  specialize (Cm j Hj). destruct (word j sm) as [v|] eqn:E; [|contradiction]. f_equal. symmetry. eapply R; eassumption.
Qed.

Variable e : env.
Hypothesis Hord : ordered (e_time e).
Notation tm := (e_time e).

Lemma rd_word : forall k n sm j, nth_error (published tr) n = Some sm -> (n < pub (tm 0))%nat -> (pub (tm k) < n + 16)%nat -> (j < N_WORDS)%nat ->
  word j sm = Some (rd tr e k (Z.of_nat n mod 16) j).
Proof.
  intros k n sm j Hn H1 H2 Hj. unfold rd. apply read_word; try assumption.
  pose proof (pub_mono (tm 0) (tm k) (Hord 0%nat k ltac:(lia))). lia.
Qed.
Lemma rd_ts_word : forall k n sm j, nth_error (published tr) n = Some sm -> (n < pub (tm 0))%nat -> (pub (tm (k + 2)) < n + 16)%nat -> (j + 2 < N_WORDS)%nat ->
  has_ts j sm (rd_ts tr e k (Z.of_nat n mod 16) j).
Proof.
  intros k n sm j Hn H1 H2 Hj. unfold has_ts, rd_ts. cbn [sec nsec frac].
  pose proof (pub_mono (tm k) (tm (k + 2)) (Hord k (k + 2)%nat ltac:(lia))). pose proof (pub_mono (tm (k + 1)) (tm (k + 2)) (Hord (k + 1)%nat (k + 2)%nat ltac:(lia))).
  split; [|split]; apply rd_word; try assumption; lia.
Qed.

Definition fresh_enough (s : sub) (mono : ts) : Prop :=
  match max_age s, e_now e with Some d, Some now => exists age, subtract now mono = Some age /\ cmp age d <= 0 | _, _ => True end.

(** Everything a successful read tells. *)
Theorem read_success : forall s r, compare_to_sys tr e s = Some r ->
  r_t1 r <> None ->
  exists n sm snap sys mono t1 t2 m2,
    pub (tm 0) = S n /\ nth_error (published tr) n = Some sm /\ has_rc sm 0 /\ has_ts W_SNAP sm snap /\ has_ts W_SYS sm sys /\
    subtract snap sys = Some (r_diff r) /\ r_t1 r = Some t1 /\ r_t2 r = Some t2 /\ r_mono r = Some m2 /\
    min_counter s <= Z.of_nat (S n) /\ e_inactive e = false /\ e_active e = true /\
    fresh_enough s mono /\ (pub (tm 12) < n + 16 -> has_ts W_MONO sm mono)%nat /\
    ((pub (tm LAST) < n + 16)%nat -> has_ts W_SNAP sm t1 /\ has_ts W_SYS sm t2 /\ has_ts W_MONO sm m2 /\ r_rc r = 0 /\ read_counter (r_sub r) = Z.of_nat (S n)) /\
    min_counter (r_sub r) = min_counter s /\ (read_counter (r_sub r) = Z.of_nat (S n) \/ read_counter (r_sub r) = read_counter s).
Proof.
  intros s r H Ht. unfold compare_to_sys, rd_counter in H. rewrite !counter_s32 in H.
  destruct (e_inactive e) eqn:Ei; [inversion H; subst; contradiction|]. destruct (e_active e) eqn:Ea; cbn [negb] in H; [|inversion H; subst; contradiction].
  destruct (Z.of_nat (pub (tm 0)) =? 0) eqn:E0; [inversion H; subst; contradiction|]. apply Z.eqb_neq in E0.
  pose proof (pub_le (tm 0)) as Hle. unfold chk_s32 in H.
  replace (fits_s32 (Z.of_nat (pub (tm 0)) - 1)) with true in H by (unfold fits_s32; lia). cbn [bind] in H.
  replace (fits_s32 (Z.of_nat (pub (tm 0)) + MAX_CLOCK_SAMPLES)) with true in H by (unfold fits_s32, MAX_CLOCK_SAMPLES; lia).
  destruct (pub (tm 0)) as [|n] eqn:En; [lia|]. rewrite land15 in H. replace (Z.of_nat (S n) - 1) with (Z.of_nat n) in H by lia.
  destruct (rd tr e 1 (Z.of_nat n mod 16) W_RC =? 0) eqn:Erc; cbn [negb] in H; [|inversion H; subst; contradiction]. apply Z.eqb_eq in Erc.
  destruct (subtract (rd_ts tr e 3 (Z.of_nat n mod 16) W_SNAP) (rd_ts tr e 6 (Z.of_nat n mod 16) W_SYS)) as [diff|] eqn:Ed; [|discriminate].
  cbn [bind] in H. unfold MAX_CLOCK_SAMPLES in H.
  destruct (Z.of_nat (S n) + 16 - 1 <=? Z.of_nat (pub (tm 9))) eqn:Eo; [inversion H; subst; contradiction|]. apply Z.leb_gt in Eo.
  destruct (Z.of_nat (S n) <? min_counter s) eqn:Em; [inversion H; subst; contradiction|]. apply Z.ltb_ge in Em.
  assert (Hsm : exists sm, nth_error (published tr) n = Some sm).
  { destruct (nth_error (published tr) n) as [sm|] eqn:E; [exists sm; reflexivity|]. apply nth_error_None in E. lia. }
  destruct Hsm as [sm Hsm].
  assert (P : forall k, (k <= 9)%nat -> (pub (tm k) < n + 16)%nat). { intros k Hk. pose proof (pub_mono (tm k) (tm 9) (Hord k 9%nat Hk)). lia. }
  assert (Mono : forall k, (k <= 23)%nat -> (pub (tm k) <= pub (tm 23))%nat) by (intros k Hk; apply pub_mono, Hord; assumption).
  assert (St : exists mono, (pub (tm 12) < n + 16 -> has_ts W_MONO sm mono)%nat /\
    match max_age s, e_now e with Some d, Some now => do age <- subtract now (rd_ts tr e 10 (Z.of_nat n mod 16) W_MONO); Some (0 <? cmp age d) | _, _ => Some false end =
    match max_age s, e_now e with Some d, Some now => do age <- subtract now mono; Some (0 <? cmp age d) | _, _ => Some false end).
  { exists (rd_ts tr e 10 (Z.of_nat n mod 16) W_MONO). split; [|reflexivity]. intros Hk. apply rd_ts_word; [assumption|lia|exact Hk|vm_compute; lia]. }
  destruct St as [mono [Hmono St]]. rewrite St in H; clear St.
  assert (Fr : exists b, (match max_age s, e_now e with Some d, Some now => do age <- subtract now mono; Some (0 <? cmp age d) | _, _ => Some false end) = Some b /\
                 (b = false -> fresh_enough s mono)).
  { unfold fresh_enough. destruct (max_age s) as [d|]; [|exists false; split; [reflexivity|intros _; exact I]]. destruct (e_now e) as [now|]; [|exists false; split; [reflexivity|intros _; exact I]].
    destruct (subtract now mono) as [age|]; [|discriminate]. cbn [bind]. eexists. split; [reflexivity|]. intros Hf. exists age. split; [reflexivity|]. apply Z.ltb_ge in Hf. assumption. }
  destruct Fr as [b [Eb Fr]]. rewrite Eb in H. cbn [bind] in H. destruct b; [inversion H; subst; contradiction|]. specialize (Fr eq_refl).
  inversion H as [E]; clear H. exists n, sm, (rd_ts tr e 3 (Z.of_nat n mod 16) W_SNAP), (rd_ts tr e 6 (Z.of_nat n mod 16) W_SYS), mono.
  exists (rd_ts tr e 13 (Z.of_nat n mod 16) W_SNAP), (rd_ts tr e 16 (Z.of_nat n mod 16) W_SYS), (rd_ts tr e 19 (Z.of_nat n mod 16) W_MONO).
  subst r. cbn [r_rc r_diff r_t1 r_t2 r_mono r_sub].
  split; [reflexivity|]. split; [assumption|].
  split. { unfold has_rc. rewrite (rd_word 1 n sm W_RC Hsm ltac:(lia) (P 1%nat ltac:(lia)) ltac:(vm_compute; lia)). congruence. }
  split. { apply rd_ts_word; [assumption|lia|apply P; lia|vm_compute; lia]. }
  split. { apply rd_ts_word; [assumption|lia|apply P; lia|vm_compute; lia]. }
  split; [assumption|]. split; [reflexivity|]. split; [reflexivity|]. split; [reflexivity|]. split; [lia|]. split; [reflexivity|]. split; [reflexivity|].
  split; [assumption|]. split; [assumption|].
  split.
  - intros HL. unfold LAST in HL. assert (Q : forall k, (k <= 23)%nat -> (pub (tm k) < n + 16)%nat) by (intros k Hk; specialize (Mono k Hk); lia).
    split; [apply rd_ts_word; [assumption|lia|apply Q; lia|vm_compute; lia]|].
    split; [apply rd_ts_word; [assumption|lia|apply Q; lia|vm_compute; lia]|].
    split; [apply rd_ts_word; [assumption|lia|apply Q; lia|vm_compute; lia]|].
    assert (W : forall k, (k <= 23)%nat -> rd tr e k (Z.of_nat n mod 16) W_RC = 0).
    { intros k Hk. pose proof (rd_word 1 n sm W_RC Hsm ltac:(lia) (P 1%nat ltac:(lia)) ltac:(vm_compute; lia)) as A.
      pose proof (rd_word k n sm W_RC Hsm ltac:(lia) (Q k Hk) ltac:(vm_compute; lia)) as B. congruence. }
    split; [apply W; lia|]. rewrite (W 22%nat) by lia. cbn. lia.
  - destruct (rd tr e 22 (Z.of_nat n mod 16) W_RC =? 0); cbn; (split; [reflexivity|]); [left; lia|right; reflexivity].
Qed.

(** If nothing was lost during the call, success means a complete success. *)
Theorem read_rc0 : forall s r, compare_to_sys tr e s = Some r -> r_rc r = 0 -> (pub (tm 2) < pub (tm 0) + 15)%nat -> r_t1 r <> None.
Proof.
  intros s r H Hr Hl Ht. unfold compare_to_sys, rd_counter in H. rewrite !counter_s32 in H.
  destruct (e_inactive e); [inversion H; subst; discriminate|]. destruct (e_active e); cbn [negb] in H; [|inversion H; subst; discriminate].
  destruct (Z.of_nat (pub (tm 0)) =? 0) eqn:E0; [inversion H; subst; discriminate|]. apply Z.eqb_neq in E0.
  pose proof (pub_le (tm 0)) as Hle. unfold chk_s32 in H.
  replace (fits_s32 (Z.of_nat (pub (tm 0)) - 1)) with true in H by (unfold fits_s32; lia). cbn [bind] in H.
  replace (fits_s32 (Z.of_nat (pub (tm 0)) + MAX_CLOCK_SAMPLES)) with true in H by (unfold fits_s32, MAX_CLOCK_SAMPLES; lia).
  destruct (pub (tm 0)) as [|n] eqn:En; [lia|]. rewrite land15 in H. replace (Z.of_nat (S n) - 1) with (Z.of_nat n) in H by lia.
  destruct (rd tr e 1 (Z.of_nat n mod 16) W_RC =? 0) eqn:Erc; cbn [negb] in H.
  - destruct (subtract _ _) as [diff|]; [|discriminate]. cbn [bind] in H. destruct (_ <=? _); [inversion H; subst; discriminate|].
    destruct (_ <? _); [inversion H; subst; discriminate|]. destruct (match max_age s with Some _ => _ | None => _ end) as [b|]; [|discriminate]. cbn [bind] in H.
    destruct b; [inversion H; subst; discriminate|]. inversion H; subst. discriminate.
  - inversion H; subst. cbn [r_rc] in Hr. apply Z.eqb_neq in Erc.
    assert (Hsm : exists sm, nth_error (published tr) n = Some sm).
    { destruct (nth_error (published tr) n) as [sm|] eqn:E; [exists sm; reflexivity|]. apply nth_error_None in E. lia. }
    destruct Hsm as [sm Hsm]. pose proof (pub_mono (tm 1) (tm 2) (Hord 1%nat 2%nat ltac:(lia))).
    pose proof (rd_word 1 n sm W_RC Hsm ltac:(lia) ltac:(lia) ltac:(vm_compute; lia)) as A.
    pose proof (rd_word 2 n sm W_RC Hsm ltac:(lia) ltac:(lia) ltac:(vm_compute; lia)) as B. congruence.
Qed.
End R.

(** *** Histories of a subscriber *)
Section H.
Variable tr : list wstep.
Hypothesis Hb : Z.of_nat (length (published tr)) < 2^31 - 16.
Hypothesis Hc : all_complete tr.

Definition sub_inv (s : sub) (now : nat) : Prop :=
  -1 <= read_counter s <= Z.of_nat (pub tr now) /\ min_counter s <= read_counter s + 1.

(** What a read does to the subscriber. *)
Lemma read_sub : forall e s r, ordered (e_time e) -> compare_to_sys tr e s = Some r ->
  min_counter (r_sub r) = min_counter s /\ (read_counter (r_sub r) = read_counter s \/ read_counter (r_sub r) = Z.of_nat (pub tr (e_time e 0))).
Proof.
  intros e s r Ho H. destruct (r_t1 r) as [t|] eqn:Et.
  - destruct (read_success tr Hb Hc e Ho s r H ltac:(congruence)) as (n & sm & snap & sys & mono & t1 & t2 & m2 & A & _ & _ & _ & _ & _ & _ & _ & _ & _ & _ & _ & _ & _ & _ & B & C).
    split; [assumption|]. rewrite A. tauto.
  - assert (r_sub r = s); [|subst s; split; [reflexivity|left; reflexivity]]. unfold compare_to_sys in H.
    repeat match type of H with
    | (if ?c then _ else _) = _ => destruct c
    | bind ?o _ = _ => destruct o; cbn [bind] in H
    | None = _ => discriminate
    end; inversion H; subst; try reflexivity; discriminate.
Qed.

Fixpoint after (now : nat) (os : list sop) : nat :=
  match os with [] => now | SRead e :: os' => after (e_time e LAST) os' | _ :: os' => after now os' end.
Lemma timed_app : forall a b now, timed now (a ++ b) <-> timed now a /\ timed (after now a) b.
Proof. induction a as [|[e| | |] a IH]; intros b now; cbn [app timed after]; [tauto|rewrite IH; tauto|apply IH|apply IH|apply IH]. Qed.

Lemma srun_mono : forall os s now s' rs, sub_inv s now -> timed now os -> srun tr s os = Some (s', rs) ->
  sub_inv s' (after now os) /\ read_counter s <= read_counter s' /\ min_counter s <= min_counter s' /\ (now <= after now os)%nat /\
  (In SFresh os -> read_counter s < min_counter s').
Proof.
  induction os as [|o os IH]; intros s now s' rs Iv T H; cbn [srun] in H.
  - inversion H; subst. cbn [after]. split; [assumption|]. split; [lia|]. split; [lia|]. split; [lia|]. intros [].
  - destruct (sstep tr s o) as [[s1 r]|] eqn:E; [|discriminate]. cbn [bind] in H. destruct (srun tr s1 os) as [[s2 rs2]|] eqn:E2; [|discriminate]. cbn [bind] in H. inversion H; subst s2 rs; clear H.
    destruct o as [e| |d|d]; cbn [sstep] in E; cbn [timed after] in *.
    + destruct (compare_to_sys tr e s) as [r0|] eqn:Ec; [|discriminate]. cbn [bind] in E. inversion E; subst s1 r; clear E. destruct T as [To [Tn T]].
      destruct (read_sub e s r0 To Ec) as [Em Er]. destruct Iv as [Ia Ib].
      pose proof (pub_mono tr now (e_time e 0) Tn). pose proof (pub_mono tr (e_time e 0) (e_time e LAST) (To 0%nat LAST ltac:(unfold LAST; lia))).
      pose proof (To 0%nat LAST ltac:(unfold LAST; lia)).
      destruct (IH (r_sub r0) (e_time e LAST) s' rs2) as [A [B [C [D F]]]]; [unfold sub_inv; destruct Er as [Er|Er]; rewrite Er, Em; lia|assumption|assumption|].
      split; [assumption|]. split; [destruct Er; lia|]. split; [lia|]. split; [lia|]. intros [Hf|Hf]; [discriminate|]. specialize (F Hf). destruct Er; lia.
    + unfold require_fresh in E. destruct (chk_s64 (read_counter s + 1)) as [m|] eqn:Em; [|discriminate]. cbn [bind] in E. inversion E; subst s1 r; clear E.
      assert (m = read_counter s + 1) by (unfold chk_s64 in Em; destruct (fits_s64 _); congruence). subst m. destruct Iv as [Ia Ib].
      destruct (IH (mkSub (read_counter s) (read_counter s + 1) (max_age s) (max_age_diff s)) now s' rs2) as [A [B [C [D F]]]]; [unfold sub_inv; cbn; lia|assumption|assumption|].
      cbn in B, C. split; [assumption|]. split; [lia|]. split; [lia|]. split; [lia|]. intros _. lia.
    + inversion E; subst s1 r; clear E. destruct (IH (set_max_age d s) now s' rs2 Iv T E2) as [A [B [C [D F]]]]. repeat (split; [assumption|]). intros [Hf|Hf]; [discriminate|]. apply F. assumption.
    + inversion E; subst s1 r; clear E. destruct (IH (set_max_age_diff d s) now s' rs2 Iv T E2) as [A [B [C [D F]]]]. repeat (split; [assumption|]). intros [Hf|Hf]; [discriminate|]. apply F. assumption.
Qed.

Theorem fresh_after : forall h1 e1 h2 e2 s1 rs1 r1 s2 rs2 r2,
  timed 0 (h1 ++ SRead e1 :: h2 ++ [SRead e2]) -> In SFresh h2 ->
  srun tr sub0 h1 = Some (s1, rs1) -> compare_to_sys tr e1 s1 = Some r1 -> r_t1 r1 <> None ->
  (pub tr (e_time e1 LAST) < pub tr (e_time e1 0) + 15)%nat ->
  srun tr (r_sub r1) h2 = Some (s2, rs2) -> compare_to_sys tr e2 s2 = Some r2 -> r_t1 r2 <> None ->
  (pub tr (e_time e1 0) < pub tr (e_time e2 0))%nat.
Proof.
  intros h1 e1 h2 e2 s1 rs1 r1 s2 rs2 r2 T Hf R1 C1 T1 No R2 C2 T2. apply timed_app in T as [Ta T]. cbn [timed] in T. destruct T as [To1 [Tn1 T]].
  apply timed_app in T as [Tb T]. cbn [timed] in T. destruct T as [To2 [Tn2 _]].
  assert (I0 : sub_inv sub0 0) by (unfold sub_inv, sub0; cbn; lia).
  destruct (srun_mono h1 sub0 0 s1 rs1 I0 Ta R1) as [I1 _].
  destruct (read_success tr Hb Hc e1 To1 s1 r1 C1 T1) as (n & sm & snap & sys & mono & t1 & t2 & m2 & A & _ & _ & _ & _ & _ & _ & _ & _ & _ & _ & _ & _ & _ & B & C & _).
  rewrite A in No. destruct (B ltac:(lia)) as [_ [_ [_ [_ Rc]]]].
  pose proof (pub_mono tr (e_time e1 0) (e_time e1 LAST) (To1 0%nat LAST ltac:(unfold LAST; lia))).
  destruct I1 as [I1a I1b]. pose proof (pub_mono tr (after 0 h1) (e_time e1 0) Tn1).
  destruct (srun_mono h2 (r_sub r1) (e_time e1 LAST) s2 rs2) as [_ [_ [_ [_ F]]]]; [unfold sub_inv; lia|assumption|assumption|]. specialize (F Hf).
  destruct (read_success tr Hb Hc e2 To2 s2 r2 C2 T2) as (n' & sm' & snap' & sys' & mono' & t1' & t2' & m2' & A' & _ & _ & _ & _ & _ & _ & _ & _ & Mn & _). lia.
Qed.
End H.

(** *** The program's writer *)
Lemma samples_take : forall n k w d, take n k = Some w -> exists c, samples_from d [] w = (d ++ [c], []) /\ complete c /\
  has_rc c (k_rc k) /\ has_ts W_MONO c (k_mono k) /\ has_ts W_SYS c (k_sys k) /\
  (k_rc k = 0 -> exists snap, add (k_sys k) (k_diff k) = Some snap /\ has_ts W_SNAP c snap).
Proof.
  intros n k w d H. unfold take in H. destruct (if k_rc k =? 0 then add (k_sys k) (k_diff k) else Some null_time) as [snap|] eqn:E; [|discriminate].
  cbn [bind] in H. inversion H; subst w; clear H.
  eexists. split; [reflexivity|]. split.
  - intros j Hj. unfold N_WORDS in Hj. do 11 (destruct j as [|j]; [discriminate|]). lia.
  - split; [reflexivity|]. split; [repeat split|]. split; [repeat split|]. intros Hr. rewrite Hr in E. cbn in E. exists snap. split; [assumption|]. repeat split.
Qed.
Lemma take_all_samples : forall ks n tr d, take_all n ks = Some tr -> exists cs, samples_from d [] tr = (d ++ cs, []) /\ length cs = length ks /\
  forall i c k, nth_error cs i = Some c -> nth_error ks i = Some k -> complete c /\
    has_rc c (k_rc k) /\ has_ts W_MONO c (k_mono k) /\ has_ts W_SYS c (k_sys k) /\
    (k_rc k = 0 -> exists snap, add (k_sys k) (k_diff k) = Some snap /\ has_ts W_SNAP c snap).
Proof.
  induction ks as [|k ks IH]; intros n tr d H; cbn [take_all] in H.
  - inversion H; subst. exists []. rewrite app_nil_r. split; [reflexivity|]. split; [reflexivity|]. intros i c k Hi. destruct i; discriminate.
  - destruct (take n k) as [a|] eqn:Ea; [|discriminate]. cbn [bind] in H. destruct (take_all (u64 (n + 1)) ks) as [b|] eqn:Eb; [|discriminate]. cbn [bind] in H. inversion H; subst tr.
    destruct (samples_take n k a d Ea) as [c [Sc Pc]]. destruct (IH _ _ (d ++ [c]) Eb) as [cs [Scs [Lc Pcs]]].
    exists (c :: cs). rewrite samples_from_app, Sc, Scs, <- app_assoc. split; [reflexivity|]. split; [cbn; congruence|].
    intros i c0 k0 Hi Hk. destruct i; cbn in Hi, Hk; [inversion Hi; inversion Hk; subst; exact Pc|]. apply (Pcs i); assumption.
Qed.

(** *** Sources *)
Record finv (f : feeds) (held : list nat) : Prop := {
  v_nd : NoDup (f_active f ++ f_inactive f);
  v_live : forall i, f_heap f i <> None <-> In i (f_active f ++ f_inactive f);
  v_flag : forall i s, f_heap f i = Some s -> (s_inactive s = true <-> In i (f_inactive f));
  v_zombie : forall i s, f_heap f i = Some s -> In i (f_inactive f) -> s_subs s <> [];
  v_held : forall n, In n held <-> f_subs f n <> None;
  v_src : forall n i, f_subs f n = Some i -> exists s, f_heap f i = Some s /\ In n (s_subs s);
  v_subs : forall i s n, f_heap f i = Some s -> In n (s_subs s) -> f_subs f n = Some i;
  v_ndsubs : forall i s, f_heap f i = Some s -> NoDup (s_subs s);
  v_next : forall i, In i (f_active f ++ f_inactive f) -> (i < f_next f)%nat;
  v_nsub : forall n, f_subs f n <> None -> (n < f_nsub f)%nat
}.

Lemma upd_same : forall A (h : nat -> option A) i v, upd h i v i = v.
Proof. intros. unfold upd. rewrite Nat.eqb_refl. reflexivity. Qed.
Lemma upd_other : forall A (h : nat -> option A) i v k, k <> i -> upd h i v k = h k.
Proof. intros. unfold upd. destruct (Nat.eqb_spec k i); [contradiction|reflexivity]. Qed.

Lemma find_clock_total : forall h l c, (forall i, In i l -> h i <> None) -> exists r, find_clock h l c = Some r /\
  (forall i, r = Some i -> In i l /\ exists s, h i = Some s /\ s_clock s = c) /\ (r = None -> forall i s, In i l -> h i = Some s -> s_clock s <> c).
Proof.
  induction l as [|a l IH]; intros c H; cbn [find_clock].
  - exists None. split; [reflexivity|]. split; [discriminate|]. intros _ i s [].
  - destruct (h a) as [s|] eqn:E; [|exfalso; apply (H a); [left; reflexivity|assumption]]. cbn [bind].
    destruct (s_clock s =? c) eqn:Ec.
    + exists (Some a). split; [reflexivity|]. split; [|discriminate]. intros i Hi. inversion Hi; subst. split; [left; reflexivity|]. exists s. split; [assumption|]. apply Z.eqb_eq. assumption.
    + destruct (IH c ltac:(intros; apply H; right; assumption)) as [r [A [B C]]]. exists r. split; [assumption|]. split.
      * intros i Hi. destruct (B i Hi) as [B1 B2]. split; [right; assumption|assumption].
      * intros Hr i s' [<-|Hi] Hs; [rewrite E in Hs; inversion Hs; subst; apply Z.eqb_neq; assumption|apply (C Hr i); assumption].
Qed.

Lemma walk_total : forall h l i, (forall k, In k l -> h k <> None) -> In i l -> walk h l i = Some tt.
Proof.
  induction l as [|a l IH]; intros i H Hi; [destruct Hi|]. cbn [walk]. destruct (Nat.eqb_spec a i); [reflexivity|].
  destruct (h a) as [s|] eqn:E; [|exfalso; apply (H a); [left; reflexivity|assumption]]. cbn [bind]. apply IH; [intros; apply H; right; assumption|]. destruct Hi; [contradiction|assumption].
Qed.
Lemma in_remove_iff : forall i k l, In k (List.remove Nat.eq_dec i l) <-> In k l /\ k <> i.
Proof.
  intros i k l. split; [apply in_remove|]. intros [A B]. apply in_in_remove; assumption.
Qed.
Lemma NoDup_remove_l : forall i l, NoDup l -> NoDup (List.remove Nat.eq_dec i l).
Proof.
  intros i l. induction l as [|a l IH]; intros H; [constructor|]. inversion H; subst. cbn. destruct (Nat.eq_dec i a); [apply IH; assumption|].
  constructor; [rewrite in_remove_iff; tauto|apply IH; assumption].
Qed.
Lemma NoDup_app_iff : forall (a b : list nat), NoDup (a ++ b) <-> NoDup a /\ NoDup b /\ forall x, In x a -> ~ In x b.
Proof.
  induction a as [|x a IH]; intros b; cbn [app].
  - split; [intros H; split; [constructor|split; [assumption|intros x []]]|tauto].
  - split.
    + intros H. inversion H as [|? ? Hx Hn]; subst. apply IH in Hn as [A [B C]]. rewrite in_app_iff in Hx. split; [constructor; tauto|]. split; [assumption|].
      intros y [<-|Hy]; [tauto|apply C; assumption].
    + intros [A [B C]]. inversion A; subst. constructor.
      * rewrite in_app_iff. intros [H|H]; [contradiction|apply (C x); [left; reflexivity|assumption]].
      * apply IH. split; [assumption|]. split; [assumption|]. intros y Hy. apply C. right. assumption.
Qed.

(** Reaping: either frees an unused removed source, or nothing; the zombie condition may fail
    for that source only before. *)
Definition finv_but (f : feeds) (held : list nat) (i : nat) : Prop :=
  NoDup (f_active f ++ f_inactive f) /\ (forall i, f_heap f i <> None <-> In i (f_active f ++ f_inactive f)) /\
  (forall i s, f_heap f i = Some s -> (s_inactive s = true <-> In i (f_inactive f))) /\
  (forall k s, k <> i -> f_heap f k = Some s -> In k (f_inactive f) -> s_subs s <> []) /\
  (forall n, In n held <-> f_subs f n <> None) /\
  (forall n i, f_subs f n = Some i -> exists s, f_heap f i = Some s /\ In n (s_subs s)) /\
  (forall i s n, f_heap f i = Some s -> In n (s_subs s) -> f_subs f n = Some i) /\
  (forall i s, f_heap f i = Some s -> NoDup (s_subs s)) /\
  (forall i, In i (f_active f ++ f_inactive f) -> (i < f_next f)%nat) /\
  (forall n, f_subs f n <> None -> (n < f_nsub f)%nat).

Lemma reap_ok : forall f held i, finv_but f held i -> f_heap f i <> None -> exists f', reap f i = Some f' /\ finv f' held /\
  f_subs f' = f_subs f /\ f_nsub f' = f_nsub f /\ f_next f' = f_next f /\ f_active f' = f_active f /\
  (forall k, k <> i -> f_heap f' k = f_heap f k) /\
  (f_heap f' i = f_heap f i \/ f_heap f' i = None /\ exists s, f_heap f i = Some s /\ s_inactive s = true /\ s_subs s = []).
Proof.
  intros f held i (A1 & A2 & A3 & A4 & A5 & A6 & A7 & A8 & A9 & A10) Hi. unfold reap. destruct (f_heap f i) as [s|] eqn:E; [|contradiction]. cbn [bind].
  destruct (s_inactive s) eqn:Es.
  - destruct (s_subs s) as [|n0 ns] eqn:En.
    + assert (Hin : In i (f_inactive f)) by (apply (A3 i s E); assumption).
      apply NoDup_app_iff in A1 as [N1 [N2 N3]].
      assert (Hna : ~ In i (f_active f)) by (intros H; apply (N3 i H Hin)).
      rewrite walk_total; [|intros k Hk; apply A2, in_or_app; right; assumption|assumption]. cbn [bind].
      eexists. split; [reflexivity|]. split.
      * constructor; cbn [f_heap f_subs f_active f_inactive f_next f_nsub].
        -- apply NoDup_app_iff. split; [assumption|]. split; [apply NoDup_remove_l; assumption|]. intros x Hx Hy. apply in_remove_iff in Hy as [Hy _]. apply (N3 x); assumption.
        -- intros k. destruct (Nat.eq_dec k i) as [->|Hk]; [rewrite upd_same|rewrite upd_other by assumption].
           ++ split; [intros H; contradiction|]. rewrite in_app_iff, in_remove_iff. tauto.
           ++ rewrite A2, !in_app_iff, in_remove_iff. tauto.
        -- intros k s' Hs. destruct (Nat.eq_dec k i) as [->|Hk]; [rewrite upd_same in Hs; discriminate|rewrite upd_other in Hs by assumption]. rewrite in_remove_iff, (A3 k s' Hs). tauto.
        -- intros k s' Hs Hin'. destruct (Nat.eq_dec k i) as [->|Hk]; [rewrite upd_same in Hs; discriminate|rewrite upd_other in Hs by assumption]. apply in_remove_iff in Hin' as [Hin' _]. eapply A4; eassumption.
        -- assumption.
        -- intros n k Hn. destruct (A6 n k Hn) as [s' [B1 B2]]. assert (k <> i) by (intros ->; rewrite E in B1; inversion B1; subst; rewrite En in B2; destruct B2).
           exists s'. rewrite upd_other by assumption. split; assumption.
        -- intros k s' n Hs Hn. destruct (Nat.eq_dec k i) as [->|Hk]; [rewrite upd_same in Hs; discriminate|rewrite upd_other in Hs by assumption]. eapply A7; eassumption.
        -- intros k s' Hs. destruct (Nat.eq_dec k i) as [->|Hk]; [rewrite upd_same in Hs; discriminate|rewrite upd_other in Hs by assumption]. eapply A8; eassumption.
        -- intros k Hk. apply A9. rewrite in_app_iff in *. rewrite in_remove_iff in Hk. tauto.
        -- assumption.
      * cbn [f_heap f_subs f_active f_inactive f_next f_nsub]. repeat (split; [reflexivity|]). split; [intros; apply upd_other; assumption|].
        right. rewrite upd_same. split; [reflexivity|]. exists s. repeat split; assumption.
    + exists f. split; [reflexivity|]. split; [|split; [reflexivity|]; split; [reflexivity|]; split; [reflexivity|]; split; [reflexivity|]; split; [reflexivity|]; left; assumption].
      constructor; try assumption. intros k s' Hs Hin. destruct (Nat.eq_dec k i) as [->|Hk]; [|eapply A4; eassumption]. rewrite E in Hs. inversion Hs; subst. rewrite En. discriminate.
  - exists f. split; [reflexivity|]. split; [|split; [reflexivity|]; split; [reflexivity|]; split; [reflexivity|]; split; [reflexivity|]; split; [reflexivity|]; left; assumption].
    constructor; try assumption. intros k s' Hs Hin. destruct (Nat.eq_dec k i) as [->|Hk]; [|eapply A4; eassumption]. rewrite E in Hs. inversion Hs; subst.
    apply (A3 i s' E) in Hin. congruence.
Qed.

Lemma finv0 : finv feeds0 [].
Proof. constructor; cbn; try constructor; try tauto; try discriminate; try (intros; contradiction). Qed.

Lemma add_inv : forall f held c, finv f held -> finv (add_clock f c) held.
Proof.
  intros f held c [A1 A2 A3 A4 A5 A6 A7 A8 A9 A10]. assert (Fr : ~ In (f_next f) (f_active f ++ f_inactive f)) by (intros H; apply A9 in H; lia).
  assert (Hn : f_heap f (f_next f) = None). { destruct (f_heap f (f_next f)) eqn:E; [|reflexivity]. exfalso. apply Fr, A2. congruence. }
  assert (Fr2 : ~ In (f_next f) (f_inactive f)) by (intros H; apply Fr, in_or_app; right; assumption).
  constructor; cbn [add_clock f_heap f_subs f_active f_inactive f_next f_nsub].
  - cbn [app]. constructor; assumption.
  - intros i. cbn [app In]. destruct (Nat.eq_dec i (f_next f)) as [->|Hi]; [rewrite upd_same; split; [intros; left; reflexivity|discriminate]|rewrite upd_other by assumption].
    rewrite A2. split; [intros; right; assumption|]. intros [H|H]; [congruence|assumption].
  - intros i s Hs. destruct (Nat.eq_dec i (f_next f)) as [->|Hi]; [rewrite upd_same in Hs; inversion Hs; subst; cbn; split; [discriminate|intros; contradiction]|rewrite upd_other in Hs by assumption]. apply A3. assumption.
  - intros i s Hs Hin. destruct (Nat.eq_dec i (f_next f)) as [->|Hi]; [contradiction|rewrite upd_other in Hs by assumption]. eapply A4; eassumption.
  - assumption.
  - intros n i Hs. destruct (A6 n i Hs) as [s [B1 B2]]. exists s. rewrite upd_other by congruence. split; assumption.
  - intros i s n Hs Hin. destruct (Nat.eq_dec i (f_next f)) as [->|Hi]; [rewrite upd_same in Hs; inversion Hs; subst; destruct Hin|rewrite upd_other in Hs by assumption]. eapply A7; eassumption.
  - intros i s Hs. destruct (Nat.eq_dec i (f_next f)) as [->|Hi]; [rewrite upd_same in Hs; inversion Hs; constructor|rewrite upd_other in Hs by assumption]. eapply A8; eassumption.
  - intros i [<-|Hi]; [lia|]. apply A9 in Hi. lia.
  - assumption.
Qed.

Lemma remove_ok : forall f held c, finv f held -> exists f', remove_clock f c = Some f' /\ finv f' held /\ f_subs f' = f_subs f /\
  ((forall i s, In i (f_active f) -> f_heap f i = Some s -> s_clock s <> c) /\ f' = f \/
   exists i s, In i (f_active f) /\ f_heap f i = Some s /\ s_clock s = c /\ f_active f' = List.remove Nat.eq_dec i (f_active f) /\
     (s_subs s = [] -> f_heap f' i = None) /\ (s_subs s <> [] -> f_heap f' i <> None) /\ forall k, k <> i -> f_heap f' k = f_heap f k).
Proof.
  intros f held c Iv. pose proof Iv as [A1 A2 A3 A4 A5 A6 A7 A8 A9 A10]. unfold remove_clock.
  destruct (find_clock_total (f_heap f) (f_active f) c) as [r [E [Es En]]]; [intros i Hi; apply A2, in_or_app; left; assumption|]. rewrite E. cbn [bind].
  destruct r as [i|].
  - destruct (Es i eq_refl) as [Hi [s [Hs Hcl]]]. rewrite Hs. cbn [bind]. apply NoDup_app_iff in A1 as [N1 [N2 N3]].
    assert (Hni : ~ In i (f_inactive f)) by (apply N3; assumption).
    set (f1 := mkFeeds (upd (f_heap f) i (Some (mkSource (s_clock s) (s_subs s) true))) (f_subs f) (List.remove Nat.eq_dec i (f_active f)) (i :: f_inactive f) (f_next f) (f_nsub f)).
    destruct (reap_ok f1 held i) as [f' [R1 [R2 [R3 [R4 [R5 [R6 [R7 R8]]]]]]]].
    + unfold finv_but, f1; cbn [f_heap f_subs f_active f_inactive f_next f_nsub]. repeat split.
      * apply NoDup_app_iff. split; [apply NoDup_remove_l; assumption|]. split; [constructor; assumption|]. intros x Hx. apply in_remove_iff in Hx as [Hx Hx']. intros [<-|H]; [congruence|]. apply (N3 x); assumption.
      * intros H. destruct (Nat.eq_dec i0 i) as [->|Hk]; [apply in_or_app; right; left; reflexivity|]. rewrite upd_other in H by assumption. apply A2 in H. rewrite in_app_iff in *. rewrite in_remove_iff. cbn. tauto.
      * intros H. destruct (Nat.eq_dec i0 i) as [->|Hk]; [rewrite upd_same; discriminate|]. rewrite upd_other by assumption. apply A2. rewrite in_app_iff, in_remove_iff in H. rewrite in_app_iff. cbn in H. destruct H as [[H _]|[H|H]]; [tauto|congruence|tauto].
      * intros H0. destruct (Nat.eq_dec i0 i) as [->|Hk]; [left; reflexivity|]. rewrite upd_other in H by assumption. right. apply (A3 i0 s0 H). assumption.
      * intros H0. destruct (Nat.eq_dec i0 i) as [->|Hk]; [rewrite upd_same in H; inversion H; reflexivity|]. rewrite upd_other in H by assumption. apply (A3 i0 s0 H). destruct H0; [congruence|assumption].
      * intros k s' Hk Hs' Hin. rewrite upd_other in Hs' by assumption. destruct Hin; [congruence|]. eapply A4; eassumption.
      * apply A5.
      * apply A5.
      * intros n k Hn. destruct (A6 n k Hn) as [s' [B1 B2]]. destruct (Nat.eq_dec k i) as [->|Hk].
        -- rewrite upd_same. eexists. split; [reflexivity|]. cbn. congruence.
        -- rewrite upd_other by assumption. exists s'. split; assumption.
      * intros k s' n Hs' Hn. destruct (Nat.eq_dec k i) as [->|Hk]; [rewrite upd_same in Hs'; inversion Hs'; subst; cbn in Hn|rewrite upd_other in Hs' by assumption]; eapply A7; eassumption.
      * intros k s' Hs'. destruct (Nat.eq_dec k i) as [->|Hk]; [rewrite upd_same in Hs'; inversion Hs'; subst; cbn|rewrite upd_other in Hs' by assumption]; eapply A8; eassumption.
      * intros k Hk. apply A9. rewrite in_app_iff, in_remove_iff in Hk. cbn in Hk. rewrite in_app_iff. destruct Hk as [[Hk _]|[Hk|Hk]]; [tauto|subst; tauto|tauto].
      * assumption.
    + unfold f1. cbn. rewrite upd_same. discriminate.
    + exists f'. split; [assumption|]. split; [assumption|]. split; [rewrite R3; reflexivity|]. right. exists i, s. split; [assumption|]. split; [assumption|]. split; [assumption|].
      split; [rewrite R6; reflexivity|]. unfold f1 in R7, R8. cbn in R7, R8. rewrite upd_same in R8. split; [|split].
      * intros Hsub. destruct R8 as [R8|[R8 _]]; [|assumption]. exfalso. apply (v_zombie _ _ R2 i _ R8); [|assumption]. apply (v_flag _ _ R2 i _ R8). reflexivity.
      * intros Hsub. destruct R8 as [R8|[R8 [s' [B1 [B2 B3]]]]]; [congruence|]. inversion B1; subst. cbn in B3. contradiction.
      * intros k Hk. rewrite R7 by assumption. apply upd_other. assumption.
  - exists f. split; [reflexivity|]. split; [assumption|]. split; [reflexivity|]. left. split; [|reflexivity]. intros i s. apply En. reflexivity.
Qed.

Lemma subscribe_ok : forall f held c, finv f held -> exists f' r, subscribe f c = Some (f', r) /\
  match r with
  | None => f' = f /\ forall i s, f_heap f i = Some s -> s_clock s <> c
  | Some n => ~ In n held /\ finv f' (n :: held) /\ (exists i s, f_subs f' n = Some i /\ f_heap f i = Some s /\ s_clock s = c) /\
              (forall k, f_heap f' k = None <-> f_heap f k = None)
  end.
Proof.
  intros f held c Iv. pose proof Iv as [A1 A2 A3 A4 A5 A6 A7 A8 A9 A10]. unfold subscribe.
  destruct (find_clock_total (f_heap f) (f_active f) c) as [r1 [E1 [Es1 En1]]]; [intros i Hi; apply A2, in_or_app; left; assumption|]. rewrite E1. cbn [bind].
  assert (E : exists r, match r1 with Some i => Some (Some i) | None => find_clock (f_heap f) (f_inactive f) c end = Some r /\
     (forall i, r = Some i -> exists s, f_heap f i = Some s /\ s_clock s = c) /\ (r = None -> forall i s, f_heap f i = Some s -> s_clock s <> c)).
  { destruct r1 as [i|].
    - exists (Some i). split; [reflexivity|]. split; [|discriminate]. intros k Hk. inversion Hk; subst. apply (Es1 k eq_refl).
    - destruct (find_clock_total (f_heap f) (f_inactive f) c) as [r2 [E2 [Es2 En2]]]; [intros i Hi; apply A2, in_or_app; right; assumption|].
      exists r2. split; [assumption|]. split; [intros i Hi; apply (Es2 i Hi)|]. intros Hr i s Hs. assert (Hin : In i (f_active f ++ f_inactive f)) by (apply A2; congruence).
      apply in_app_or in Hin as [Hin|Hin]; [apply (En1 eq_refl i s Hin Hs)|apply (En2 Hr i s Hin Hs)]. }
  destruct E as [r [E [Es En]]]. rewrite E. cbn [bind]. destruct r as [i|].
  - destruct (Es i eq_refl) as [s [Hs Hcl]]. rewrite Hs. cbn [bind]. set (n := f_nsub f).
    assert (Fn : f_subs f n = None). { destruct (f_subs f n) eqn:En'; [|reflexivity]. assert (n < f_nsub f)%nat by (apply A10; congruence). unfold n in *. lia. }
    assert (Hh : ~ In n held) by (rewrite A5, Fn; intros H; apply H; reflexivity).
    eexists; eexists. split; [reflexivity|]. split; [assumption|]. split.
    + constructor; cbn [f_heap f_subs f_active f_inactive f_next f_nsub].
      * assumption.
      * intros k. destruct (Nat.eq_dec k i) as [->|Hk]; [rewrite upd_same|rewrite upd_other by assumption; apply A2]. split; [intros _; apply A2; congruence|discriminate].
      * intros k s' Hs'. destruct (Nat.eq_dec k i) as [->|Hk]; [rewrite upd_same in Hs'; inversion Hs'; subst; cbn|rewrite upd_other in Hs' by assumption]; apply A3; assumption.
      * intros k s' Hs' Hin. destruct (Nat.eq_dec k i) as [->|Hk]; [rewrite upd_same in Hs'; inversion Hs'; subst; cbn; discriminate|rewrite upd_other in Hs' by assumption]. eapply A4; eassumption.
      * intros m. destruct (Nat.eq_dec m n) as [->|Hm]; [rewrite upd_same; split; [discriminate|intros; left; reflexivity]|rewrite upd_other by assumption]. rewrite <- A5. cbn. split; [intros [H|H]; [congruence|assumption]|tauto].
      * intros m k Hm. destruct (Nat.eq_dec m n) as [->|Hmn].
        -- rewrite upd_same in Hm. inversion Hm; subst. rewrite upd_same. eexists. split; [reflexivity|]. left. reflexivity.
        -- rewrite upd_other in Hm by assumption. destruct (A6 m k Hm) as [s' [B1 B2]]. destruct (Nat.eq_dec k i) as [->|Hk]; [rewrite upd_same; eexists; split; [reflexivity|]; right; congruence|rewrite upd_other by assumption; exists s'; split; assumption].
      * intros k s' m Hs' Hm. destruct (Nat.eq_dec k i) as [->|Hk].
        -- rewrite upd_same in Hs'. inversion Hs'; subst. destruct Hm as [<-|Hm]; [apply upd_same|]. pose proof (A7 i s m Hs Hm) as Q. rewrite upd_other by congruence. assumption.
        -- rewrite upd_other in Hs' by assumption. pose proof (A7 k s' m Hs' Hm) as Q. rewrite upd_other by congruence. assumption.
      * intros k s' Hs'. destruct (Nat.eq_dec k i) as [->|Hk]; [rewrite upd_same in Hs'; inversion Hs'; subst; cbn|rewrite upd_other in Hs' by assumption; eapply A8; eassumption].
        constructor; [|eapply A8; eassumption]. intros Hin. rewrite (A7 i s n Hs Hin) in Fn. discriminate.
      * assumption.
      * intros m Hm. destruct (Nat.eq_dec m n) as [->|Hmn]; [lia|]. rewrite upd_other in Hm by assumption. apply A10 in Hm. lia.
    + split.
      * exists i, s. cbn. rewrite upd_same. repeat split; assumption.
      * intros k. cbn. destruct (Nat.eq_dec k i) as [->|Hk]; [rewrite upd_same, Hs; split; discriminate|rewrite upd_other by assumption; reflexivity].
  - exists f, None. split; [reflexivity|]. split; [reflexivity|]. apply En. reflexivity.
Qed.

Lemma unsubscribe_ok : forall f held n, finv f held -> In n held -> exists f', unsubscribe f n = Some f' /\
  finv f' (List.remove Nat.eq_dec n held) /\
  (exists i s, f_subs f n = Some i /\ f_heap f i = Some s /\
     (f_heap f' i = None <-> s_inactive s = true /\ s_subs s = [n]) /\ forall k, k <> i -> f_heap f' k = f_heap f k).
Proof.
  intros f held n Iv Hn. pose proof Iv as [A1 A2 A3 A4 A5 A6 A7 A8 A9 A10]. unfold unsubscribe.
  apply A5 in Hn. destruct (f_subs f n) as [i|] eqn:Ei; [|contradiction]. cbn [bind]. destruct (A6 n i Ei) as [s [Hs Hin]]. rewrite Hs. cbn [bind].
  set (f0 := mkFeeds (upd (f_heap f) i (Some (mkSource (s_clock s) (List.remove Nat.eq_dec n (s_subs s)) (s_inactive s)))) (f_subs f) (f_active f) (f_inactive f) (f_next f) (f_nsub f)).
  set (f1 := mkFeeds (f_heap f0) (upd (f_subs f) n None) (f_active f) (f_inactive f) (f_next f) (f_nsub f)).
  assert (Eq : reap f0 i = match reap f1 i with Some g => Some (mkFeeds (f_heap g) (f_subs f) (f_active g) (f_inactive g) (f_next g) (f_nsub g)) | None => None end).
  { unfold reap, f1, f0. cbn [f_heap f_subs f_active f_inactive f_next f_nsub]. destruct (upd (f_heap f) i _ i) as [x|]; [|reflexivity]. cbn [bind].
    destruct (s_inactive x); [|reflexivity]. destruct (s_subs x); [|reflexivity]. destruct (walk _ _ _); reflexivity. }
  destruct (reap_ok f1 (List.remove Nat.eq_dec n held) i) as [f' [R1 [R2 [R3 [R4 [R5 [R6 [R7 R8]]]]]]]].
  - unfold finv_but, f1, f0; cbn [f_heap f_subs f_active f_inactive f_next f_nsub]. repeat split.
    + assumption.
    + intros H. destruct (Nat.eq_dec i0 i) as [->|Hk]; [apply A2; congruence|rewrite upd_other in H by assumption; apply A2; assumption].
    + intros H. destruct (Nat.eq_dec i0 i) as [->|Hk]; [rewrite upd_same; discriminate|rewrite upd_other by assumption; apply A2; assumption].
    + intros H0. destruct (Nat.eq_dec i0 i) as [->|Hk]; [rewrite upd_same in H; inversion H; subst; cbn in H0; apply (A3 i s Hs); assumption|rewrite upd_other in H by assumption; apply (A3 i0 s0 H); assumption].
    + intros H0. destruct (Nat.eq_dec i0 i) as [->|Hk]; [rewrite upd_same in H; inversion H; subst; cbn; apply (A3 i s Hs); assumption|rewrite upd_other in H by assumption; apply (A3 i0 s0 H); assumption].
    + intros k s' Hk Hs' Hin'. rewrite upd_other in Hs' by assumption. eapply A4; eassumption.
    + intros H. apply in_remove_iff in H as [H H']. rewrite upd_other by assumption. apply A5. assumption.
    + intros H. destruct (Nat.eq_dec n0 n) as [->|Hk]; [rewrite upd_same in H; contradiction|]. rewrite upd_other in H by assumption. apply in_remove_iff. split; [apply A5; assumption|assumption].
    + intros m k Hm. destruct (Nat.eq_dec m n) as [->|Hmn]; [rewrite upd_same in Hm; discriminate|]. rewrite upd_other in Hm by assumption. destruct (A6 m k Hm) as [s' [B1 B2]].
      destruct (Nat.eq_dec k i) as [->|Hk]; [|rewrite upd_other by assumption; exists s'; split; assumption]. rewrite upd_same. eexists. split; [reflexivity|]. cbn. apply in_remove_iff. split; [congruence|assumption].
    + intros k s' m Hs' Hm. destruct (Nat.eq_dec k i) as [->|Hk].
      * rewrite upd_same in Hs'. inversion Hs'; subst. cbn in Hm. apply in_remove_iff in Hm as [Hm Hm']. rewrite upd_other by assumption. eapply A7; eassumption.
      * rewrite upd_other in Hs' by assumption. pose proof (A7 k s' m Hs' Hm) as Q. rewrite upd_other by congruence. assumption.
    + intros k s' Hs'. destruct (Nat.eq_dec k i) as [->|Hk]; [rewrite upd_same in Hs'; inversion Hs'; subst; cbn; apply NoDup_remove_l; eapply A8; eassumption|rewrite upd_other in Hs' by assumption; eapply A8; eassumption].
    + assumption.
    + intros m Hm. destruct (Nat.eq_dec m n) as [->|Hmn]; [rewrite upd_same in Hm; contradiction|]. rewrite upd_other in Hm by assumption. apply A10. assumption.
  - unfold f1, f0. cbn. rewrite upd_same. discriminate.
  - rewrite Eq, R1. cbn [bind f_heap f_subs f_active f_inactive f_next f_nsub].
    assert (Eg : mkFeeds (f_heap f') (upd (f_subs f) n None) (f_active f') (f_inactive f') (f_next f') (f_nsub f') = f').
    { destruct f'. cbn in *. subst. reflexivity. }
    rewrite Eg. exists f'. split; [reflexivity|]. split; [assumption|]. exists i, s. split; [reflexivity|]. split; [assumption|].
    unfold f1, f0 in R7, R8. cbn in R7, R8. rewrite upd_same in R8. split.
    + assert (Rm : List.remove Nat.eq_dec n (s_subs s) = [] <-> s_subs s = [n]).
      { pose proof (A8 i s Hs) as Nd. clear - Hin Nd. split.
        - intros H. destruct (s_subs s) as [|a l]; [destruct Hin|]. inversion Nd; subst. cbn in H. destruct (Nat.eq_dec n a) as [->|Na]; [|discriminate].
          destruct l as [|b l]; [reflexivity|]. exfalso. assert (In b (List.remove Nat.eq_dec a (b :: l))) by (apply in_in_remove; [intros ->; apply H2; left; reflexivity|left; reflexivity]). rewrite H in H0. destruct H0.
        - intros ->. cbn. destruct (Nat.eq_dec n n); [reflexivity|congruence]. }
      split.
      * intros H. destruct R8 as [R8|[R8 [s' [B1 [B2 B3]]]]]; [congruence|]. inversion B1; subst. cbn in B2, B3. split; [assumption|apply Rm; assumption].
      * intros [H1 H2]. apply Rm in H2. destruct R8 as [R8|[R8 _]]; [|assumption]. exfalso. apply (v_zombie _ _ R2 i _ R8); [|assumption]. apply (v_flag _ _ R2 i _ R8). assumption.
    + intros k Hk. rewrite R7 by assumption. apply upd_other. assumption.
Qed.

(** Shutdown. *)
Lemma deactivate_ok : forall l h, NoDup l -> (forall i, In i l -> exists s, h i = Some s /\ s_inactive s = false) ->
  exists h', deactivate h l = Some h' /\ (forall i, ~ In i l -> h' i = h i) /\
    (forall i s, In i l -> h i = Some s -> h' i = Some (mkSource (s_clock s) (s_subs s) true)).
Proof.
  induction l as [|a l IH]; intros h Nd H; cbn [deactivate].
  - exists h. split; [reflexivity|]. split; [reflexivity|]. intros i s [].
  - destruct (H a (or_introl eq_refl)) as [s [Hs Hf]]. rewrite Hs. cbn [bind]. rewrite Hf. inversion Nd as [|? ? Ha Nd']; subst.
    destruct (IH (upd h a (Some (mkSource (s_clock s) (s_subs s) true))) Nd') as [h' [E [A B]]].
    { intros i Hi. rewrite upd_other by congruence. apply H. right. assumption. }
    exists h'. split; [assumption|]. split.
    + intros i Hi. rewrite A by (intros Hin; apply Hi; right; assumption). apply upd_other. intros ->. apply Hi. left. reflexivity.
    + intros i s' [<-|Hi] Hs'.
      * rewrite A by assumption. rewrite upd_same. congruence.
      * apply B; [assumption|]. rewrite upd_other by congruence. assumption.
Qed.

Lemma reap_keep : forall f i s, f_heap f i = Some s -> s_subs s <> [] -> reap f i = Some f.
Proof. intros f i s H Hs. unfold reap. rewrite H. cbn [bind]. destruct (s_inactive s); [|reflexivity]. destruct (s_subs s); [contradiction|reflexivity]. Qed.

Lemma shutdown_used : forall f held, finv f held ->
  (forall i s, In i (f_active f) -> f_heap f i = Some s -> s_subs s <> []) -> shutdown f <> None.
Proof.
  intros f held Iv Hs. pose proof Iv as [A1 A2 A3 A4 A5 A6 A7 A8 A9 A10]. unfold shutdown. apply NoDup_app_iff in A1 as [N1 [N2 N3]].
  destruct (deactivate_ok (f_active f) (f_heap f) N1) as [h' [E [Out Inn]]].
  { intros i Hi. assert (L : f_heap f i <> None) by (apply A2, in_or_app; left; assumption). destruct (f_heap f i) as [s|] eqn:Es; [|contradiction]. exists s. split; [reflexivity|].
    destruct (s_inactive s) eqn:Ef; [|reflexivity]. exfalso. apply (N3 i Hi). apply (A3 i s Es). assumption. }
  rewrite E. cbn [bind].
  assert (L : forall i, In i (f_active f ++ f_inactive f) -> exists s, h' i = Some s /\ s_subs s <> []).
  { intros i Hi. pose proof Hi as Hi'. apply A2 in Hi'. destruct (f_heap f i) as [s|] eqn:Es; [|contradiction]. destruct (in_dec Nat.eq_dec i (f_active f)) as [Ha|Ha].
    - exists (mkSource (s_clock s) (s_subs s) true). split; [apply Inn; assumption|]. cbn. eapply Hs; eassumption.
    - exists s. rewrite (Out i Ha). split; [assumption|]. apply in_app_or in Hi as [Hi|Hi]; [contradiction|]. eapply A4; eassumption. }
  set (g := mkFeeds h' (f_subs f) [] (f_active f ++ f_inactive f) (f_next f) (f_nsub f)).
  assert (R : forall l, (forall i, In i l -> In i (f_active f ++ f_inactive f)) -> reap_all g l = Some g).
  { induction l as [|a l IH]; intros Hl; [reflexivity|]. cbn [reap_all]. destruct (L a (Hl a (or_introl eq_refl))) as [s [B1 B2]].
    rewrite (reap_keep g a s B1 B2). cbn [bind]. unfold g at 1. cbn [f_heap]. rewrite B1. cbn [bind]. apply IH. intros; apply Hl; right; assumption. }
  rewrite R by auto. discriminate.
Qed.

Lemma shutdown_unused : forall f held i s, finv f held -> In i (f_active f) -> f_heap f i = Some s -> s_subs s = [] -> shutdown f = None.
Proof.
  intros f held i s Iv Hi Hs Hu. pose proof Iv as [A1 A2 A3 A4 A5 A6 A7 A8 A9 A10]. unfold shutdown. apply NoDup_app_iff in A1 as [N1 [N2 N3]].
  destruct (deactivate_ok (f_active f) (f_heap f) N1) as [h' [E [Out Inn]]].
  { intros k Hk. assert (L : f_heap f k <> None) by (apply A2, in_or_app; left; assumption). destruct (f_heap f k) as [s'|] eqn:Es; [|contradiction]. exists s'. split; [reflexivity|].
    destruct (s_inactive s') eqn:Ef; [|reflexivity]. exfalso. apply (N3 k Hk). apply (A3 k s' Es). assumption. }
  rewrite E. cbn [bind].
  assert (G : forall l g, In i l -> f_heap g i = Some (mkSource (s_clock s) [] true) -> reap_all g l = None).
  { induction l as [|a l IH]; intros g Hin Hg; [destruct Hin|]. cbn [reap_all]. destruct (Nat.eq_dec a i) as [->|Ha].
    - unfold reap. rewrite Hg. cbn [bind s_inactive s_subs]. destruct (walk (f_heap g) (f_inactive g) i); [|reflexivity]. cbn [bind f_heap]. rewrite upd_same. reflexivity.
    - destruct Hin as [Hin|Hin]; [congruence|]. destruct (reap g a) as [g'|] eqn:Er; [|reflexivity]. cbn [bind].
      assert (Hg' : f_heap g' i = Some (mkSource (s_clock s) [] true)).
      { unfold reap in Er. destruct (f_heap g a) as [sa|]; [|discriminate]. cbn [bind] in Er. destruct (s_inactive sa); [|inversion Er; subst; assumption].
        destruct (s_subs sa); [|inversion Er; subst; assumption]. destruct (walk _ _ _); [|discriminate]. cbn [bind] in Er. inversion Er; subst. cbn. rewrite upd_other by congruence. assumption. }
      destruct (f_heap g' a); [|reflexivity]. cbn [bind]. apply IH; assumption. }
  apply G; [apply in_or_app; left; assumption|]. cbn. rewrite (Inn i s Hi Hs), Hu. reflexivity.
Qed.
