(** Proofs about string functions. *)
Require Import ZArith Lia List Bool Arith.
Require Import Verif.Base Verif.ListLib Verif.StrSpec Verif.StrModel.
Import ListNotations.
Open Scope Z_scope.

Lemma write_at_some : forall off d b, (off + length d <= length b)%nat ->
  write_at off d b = Some (firstn off b ++ d ++ skipn (off + length d) b).
Proof. intros. unfold write_at. apply Nat.leb_le in H. rewrite H. reflexivity. Qed.

Lemma write_at_length : forall off d b b', write_at off d b = Some b' -> length b' = length b.
Proof.
  intros off d b b' H. unfold write_at in H. destruct (_ <=? _)%nat eqn:E; [|discriminate].
  apply Nat.leb_le in E. injection H as <-. rewrite !app_length, firstn_length, skipn_length. lia.
Qed.

(** *** sfptpd_strncpy *)
Lemma strncpy_spec : forall dest src n, (0 < n <= length dest)%nat ->
  strncpy dest src n =
  Some (firstn (n - 1) src ++ repeat 0 (n - length (firstn (n - 1) src)) ++ skipn n dest).
Proof.
  intros dest src n H. unfold strncpy, c_strncpy.
  assert (L : length (firstn n src ++ repeat 0 (n - length src)) = n).
  { rewrite app_length, firstn_length, repeat_length. lia. }
  rewrite write_at_some by lia. rewrite L. cbn [bind firstn app Nat.add].
  destruct (n =? 0)%nat eqn:E; [apply Nat.eqb_eq in E; lia|].
  rewrite write_at_some by (rewrite !app_length in *; rewrite skipn_length; cbn [length]; lia). f_equal.
  rewrite <- !(app_assoc (firstn n src) (repeat 0 (n - length src)) (skipn n dest)).
  replace (n - 1 + length [0%Z])%nat with n by (cbn; lia).
  assert (S1 : skipn n (firstn n src ++ repeat 0 (n - length src) ++ skipn n dest) = skipn n dest).
  { rewrite app_assoc, skipn_app, L, Nat.sub_diag. rewrite skipn_all2 by lia. reflexivity. }
  rewrite S1. rewrite firstn_app, firstn_firstn, firstn_length, Nat.min_l by lia.
  rewrite firstn_app, repeat_length, firstn_length.
  destruct (Nat.le_gt_cases n (length src)).
  - replace (n - 1 - Nat.min n (length src))%nat with 0%nat by lia. cbn [firstn].
    replace (0 - (n - length src))%nat with 0%nat by lia. cbn [firstn].
    rewrite !app_nil_r. rewrite Nat.min_l by lia. replace (n - (n - 1))%nat with 1%nat by lia. reflexivity.
  - rewrite (Nat.min_r n) by lia. rewrite (Nat.min_r (n - 1)) by lia.
    replace (n - 1 - length src - (n - length src))%nat with 0%nat by lia. cbn [firstn]. rewrite app_nil_r.
    rewrite <- app_assoc. f_equal. 
    replace (n - length src)%nat with (S (n - 1 - length src)) by lia.
    cbn [repeat].
    assert (R : forall k, firstn k (0 :: repeat 0 k) = repeat 0 k).
    { induction k; cbn; [reflexivity|]. destruct k; [reflexivity|]. cbn in *. rewrite IHk. reflexivity. }
    rewrite R. clear. induction (n - 1 - length src)%nat; cbn; [reflexivity|]. f_equal. assumption.
Qed.

Lemma text_of_app : forall s r, is_string s -> text_of (s ++ 0 :: r) = Some s.
Proof.
  induction s as [|c s IH]; intros r H; cbn; [reflexivity|]. inversion H; subst.
  destruct (c =? 0) eqn:E; [apply Z.eqb_eq in E; contradiction|]. rewrite IH by assumption. reflexivity.
Qed.

Lemma firstn_string : forall n s, is_string s -> is_string (firstn n s).
Proof.
  induction n; intros s H; [constructor|]. destruct s; [constructor|]. inversion H; subst. constructor; auto.
  apply IHn. assumption.
Qed.

(** *** sfptpd_format *)
Lemma lookup_none : forall tbl c, (forall cv, In cv (map in_conv tbl) -> cv_char cv <> c) -> lookup tbl c = None.
Proof.
  induction tbl as [|w tbl IH]; intros c H; [reflexivity|]. cbn.
  destruct (c =? cv_char (in_conv w)) eqn:E.
  - apply Z.eqb_eq in E. exfalso. apply (H (in_conv w)); [left; reflexivity|congruence].
  - apply IH. intros. apply H. right. assumption.
Qed.

Lemma lookup_some : forall tbl c cv before after, map in_conv tbl = before ++ cv :: after ->
  (forall cv', In cv' before -> cv_char cv' <> c) -> cv_char cv = c ->
  exists w, lookup tbl c = Some w /\ in_conv w = cv /\ In w tbl.
Proof.
  induction tbl as [|w tbl IH]; intros c cv before after H Hb Hc.
  - destruct before; discriminate.
  - destruct before as [|b before]; cbn in H; injection H as E1 E2.
    + exists w. cbn. rewrite E1, Hc, Z.eqb_refl. auto.
    + destruct (IH c cv before after E2) as [w' [A [B D]]]; auto.
      { intros. apply Hb. right. assumption. }
      exists w'. cbn. replace (c =? cv_char (in_conv w)) with false; [auto|].
      symmetry. apply Z.eqb_neq. rewrite E1. intros E. apply (Hb b); [left; reflexivity|congruence].
Qed.

Definition fits (tbl : list interp) : Prop :=
  forall w o t, In w tbl -> in_lib w = Strftime -> cv_text (in_conv w) o = Some t -> (length t < 128)%nat.

(** Measuring pass. *)
Lemma call_writer_null : forall tbl w o x n, fits tbl -> In w tbl -> cv_text (in_conv w) o = Some x ->
  call_writer 0 (mkF None n false) w o = Some (mkF None (n + length x) false).
Proof.
  intros tbl w o x n Hf Hw Hx. unfold call_writer. cbn [Nat.eqb negb andb]. unfold writer. rewrite Hx.
  destruct (in_lib w) eqn:El; cbn [f_buf f_len bind].
  - reflexivity.
  - pose proof (Hf w o x Hw El Hx) as L. apply Nat.ltb_lt in L. rewrite L. reflexivity.
Qed.

Lemma loop_null : forall tbl fmt t, fits tbl -> expands (map in_conv tbl) fmt t -> forall n,
  format_loop tbl 0 fmt (mkF None n false) = Some (mkF None (n + length t) false, true).
Proof.
  intros tbl fmt t Hf H.
  induction H as [|c r t Hc H IH|r t H IH|c r t Hc Hn H IH|c cv b a x r t Hc Hcs Hb Hcc Ho Hx H IH|c cv b a o x r t Hc Hcs Hb Hcc Ho Hx H IH];
    intros n; cbn [format_loop].
  - cbn. rewrite Nat.add_0_r. reflexivity.
  - apply Z.eqb_neq in Hc. rewrite Hc. cbn [put_char f_buf f_len f_neg bind]. rewrite IH. cbn [length]. do 3 f_equal. lia.
  - rewrite Z.eqb_refl. cbn [put_char f_buf f_len f_neg bind]. rewrite IH. cbn [length]. do 3 f_equal. lia.
  - rewrite Z.eqb_refl. apply Z.eqb_neq in Hc as Hc'. rewrite Hc'. rewrite lookup_none by assumption. apply IH.
  - rewrite Z.eqb_refl. apply Z.eqb_neq in Hc as Hc'. rewrite Hc'.
    destruct (lookup_some tbl c cv b a Hcs Hb Hcc) as [w [Hl [Hw Hin]]]. rewrite Hl, Hw, Ho.
    rewrite (call_writer_null tbl w 0 x n Hf Hin) by (rewrite Hw; assumption).
    cbn [bind]. rewrite IH, app_length, Nat.add_assoc. reflexivity.
  - rewrite Z.eqb_refl. apply Z.eqb_neq in Hc as Hc'. rewrite Hc'.
    destruct (lookup_some tbl c cv b a Hcs Hb Hcc) as [w [Hl [Hw Hin]]]. rewrite Hl, Hw, Ho.
    rewrite (call_writer_null tbl w o x n Hf Hin) by (rewrite Hw; assumption).
    cbn [bind]. rewrite IH, app_length, Nat.add_assoc. reflexivity.
Qed.

(** Writing pass. *)
Definition wrote (n : nat) (t b b' : list Z) : Prop :=
  length b' = length b /\ firstn (n + length t) b' = firstn n b ++ t /\
  skipn (S (n + length t)) b' = skipn (S (n + length t)) b.

Lemma wrote_nil : forall n b, wrote n [] b b.
Proof. intros. split; [reflexivity|]. rewrite Nat.add_0_r, app_nil_r. auto. Qed.

Lemma skipn_skipn : forall A n m (l : list A), skipn n (skipn m l) = skipn (n + m) l.
Proof.
  intros A n m. induction m as [|m IH]; intros l; [rewrite Nat.add_0_r; reflexivity|].
  destruct l as [|x l]; [rewrite !skipn_nil; reflexivity|]. rewrite Nat.add_succ_r. cbn [skipn]. apply IH.
Qed.

Lemma skipn_more : forall A n m (b b' : list A), (n <= m)%nat -> skipn n b = skipn n b' -> skipn m b = skipn m b'.
Proof.
  intros A n m b b' H E. replace m with (m - n + n)%nat by lia. rewrite <- !skipn_skipn, E. reflexivity.
Qed.

Lemma wrote_app : forall n t1 t2 b b1 b2, wrote n t1 b b1 -> wrote (n + length t1) t2 b1 b2 ->
  wrote n (t1 ++ t2) b b2.
Proof.
  intros n t1 t2 b b1 b2 [L1 [F1 S1]] [L2 [F2 S2]]. unfold wrote. rewrite app_length, Nat.add_assoc.
  split; [congruence|]. split.
  - rewrite F2, F1, app_assoc. reflexivity.
  - rewrite S2. eapply skipn_more; [|exact S1]. lia.
Qed.

Lemma wrote_char : forall n c b, (n < length b)%nat ->
  exists b', write_at n [c] b = Some b' /\ wrote n [c] b b'.
Proof.
  intros n c b H. eexists. rewrite write_at_some by (cbn; lia). split; [reflexivity|].
  assert (Lf : length (firstn n b) = n) by (rewrite firstn_length; lia).
  split; [|split].
  - rewrite !app_length, Lf, skipn_length. cbn. lia.
  - cbn [length]. rewrite app_assoc, firstn_app. rewrite app_length, Lf. cbn [length].
    rewrite firstn_all2 by (rewrite app_length, Lf; cbn; lia). rewrite Nat.sub_diag. cbn. apply app_nil_r.
  - cbn [length]. rewrite app_assoc, skipn_app, app_length, Lf. cbn [length].
    rewrite skipn_all2 by (rewrite app_length, Lf; cbn; lia). cbn [app].
    replace (S (n + 1) - (n + 1))%nat with 1%nat by lia. rewrite skipn_skipn. f_equal.
Qed.

Lemma wrote_text : forall n t b, (n + length t < length b)%nat ->
  exists b', write_at n (t ++ [0]) b = Some b' /\ wrote n t b b'.
Proof.
  intros n t b H. eexists. rewrite write_at_some by (rewrite app_length; cbn; lia). split; [reflexivity|].
  assert (Lf : length (firstn n b) = n) by (rewrite firstn_length; lia).
  split; [|split].
  - rewrite !app_length, Lf, skipn_length. cbn. lia.
  - rewrite <- app_assoc, app_assoc, firstn_app, app_length, Lf, Nat.sub_diag. cbn [firstn].
    rewrite firstn_all2 by (rewrite app_length, Lf; lia). apply app_nil_r.
  - rewrite app_assoc, app_assoc, skipn_app, !app_length, Lf. cbn [length].
    rewrite skipn_all2 by (rewrite !app_length, Lf; cbn; lia). cbn [app].
    replace (S (n + length t) - (n + length t + 1))%nat with 0%nat by lia. rewrite skipn_O. f_equal. lia.
Qed.

Lemma put_char_ok : forall space n c b, (n + 1 < space)%nat -> (space <= length b)%nat ->
  exists b', put_char space (mkF (Some b) n false) c = Some (mkF (Some b') (n + 1) false) /\ wrote n [c] b b'.
Proof.
  intros space n c b H1 H2. destruct (wrote_char n c b) as [b' [E W]]; [lia|]. exists b'. split; [|assumption].
  unfold put_char. cbn [f_buf f_len f_neg]. apply Nat.ltb_lt in H1. rewrite H1, E. cbn [bind].
  replace (S n) with (n + 1)%nat by lia. reflexivity.
Qed.

Lemma call_writer_ok : forall w space o x n b, cv_text (in_conv w) o = Some x ->
  (n + length x < space)%nat -> (space <= length b)%nat ->
  exists b', call_writer space (mkF (Some b) n false) w o = Some (mkF (Some b') (n + length x) false) /\ wrote n x b b'.
Proof.
  intros w space o x n b Hx H1 H2. destruct (wrote_text n x b) as [b' [E W]]; [lia|]. exists b'. split; [|assumption].
  unfold call_writer. cbn [f_buf f_len f_neg].
  replace (space =? 0)%nat with false by (symmetry; apply Nat.eqb_neq; lia).
  replace (space <? n)%nat with false by (symmetry; apply Nat.ltb_ge; lia). cbn [negb andb].
  unfold writer. rewrite Hx. apply Nat.ltb_lt in H1 as H1'.
  destruct (in_lib w).
  - destruct (space - n)%nat as [|k] eqn:Ek; [lia|]. rewrite firstn_all2 by lia. rewrite E. cbn [bind orb].
    rewrite H1'. reflexivity.
  - destruct (space - n)%nat as [|k] eqn:Ek; [lia|]. rewrite <- Ek.
    replace (length x <? space - n)%nat with true by (symmetry; apply Nat.ltb_lt; lia).
    rewrite E. cbn [bind orb]. rewrite H1'. reflexivity.
Qed.

Lemma loop_buf : forall tbl space fmt t, expands (map in_conv tbl) fmt t -> forall n b,
  (n + length t < space)%nat -> (space <= length b)%nat ->
  exists b', format_loop tbl space fmt (mkF (Some b) n false) =
    Some (mkF (Some b') (n + length t) false, true) /\ wrote n t b b'.
Proof.
  intros tbl space fmt t H.
  induction H as [|c r t Hc H IH|r t H IH|c r t Hc Hn H IH|c cv b0 a x r t Hc Hcs Hb Hcc Ho Hx H IH|c cv b0 a o x r t Hc Hcs Hb Hcc Ho Hx H IH];
    intros n b L1 L2; cbn [format_loop].
  - exists b. split; [cbn; rewrite Nat.add_0_r; reflexivity|]. apply wrote_nil.
  - cbn [length] in L1. apply Z.eqb_neq in Hc. rewrite Hc.
    destruct (put_char_ok space n c b) as [b1 [E1 W1]]; [lia|assumption|]. rewrite E1. cbn [bind].
    destruct (IH (n + 1)%nat b1) as [b2 [E2 W2]]; [lia|destruct W1; lia|].
    exists b2. split; [rewrite E2; cbn [length]; do 3 f_equal; lia|].
    change (c :: t) with ([c] ++ t). eapply wrote_app; eassumption.
  - cbn [length] in L1. rewrite Z.eqb_refl.
    destruct (put_char_ok space n PERCENT b) as [b1 [E1 W1]]; [lia|assumption|]. rewrite E1. cbn [bind].
    destruct (IH (n + 1)%nat b1) as [b2 [E2 W2]]; [lia|destruct W1; lia|].
    exists b2. split; [rewrite E2; cbn [length]; do 3 f_equal; lia|].
    change (PERCENT :: t) with ([PERCENT] ++ t). eapply wrote_app; eassumption.
  - rewrite Z.eqb_refl. apply Z.eqb_neq in Hc as Hc'. rewrite Hc'. rewrite lookup_none by assumption. apply IH; assumption.
  - rewrite app_length in L1. rewrite Z.eqb_refl. apply Z.eqb_neq in Hc as Hc'. rewrite Hc'.
    destruct (lookup_some tbl c cv b0 a Hcs Hb Hcc) as [w [Hl [Hw Hin]]]. rewrite Hl, Hw, Ho.
    destruct (call_writer_ok w space 0 x n b) as [b1 [E1 W1]]; [rewrite Hw; assumption|lia|assumption|].
    rewrite E1. cbn [bind]. destruct (IH (n + length x)%nat b1) as [b2 [E2 W2]]; [lia|destruct W1; lia|].
    exists b2. split; [rewrite E2, app_length, Nat.add_assoc; reflexivity|]. eapply wrote_app; eassumption.
  - rewrite app_length in L1. rewrite Z.eqb_refl. apply Z.eqb_neq in Hc as Hc'. rewrite Hc'.
    destruct (lookup_some tbl c cv b0 a Hcs Hb Hcc) as [w [Hl [Hw Hin]]]. rewrite Hl, Hw, Ho.
    destruct (call_writer_ok w space o x n b) as [b1 [E1 W1]]; [rewrite Hw; assumption|lia|assumption|].
    rewrite E1. cbn [bind]. destruct (IH (n + length x)%nat b1) as [b2 [E2 W2]]; [lia|destruct W1; lia|].
    exists b2. split; [rewrite E2, app_length, Nat.add_assoc; reflexivity|]. eapply wrote_app; eassumption.
Qed.

Theorem format_null : forall tbl fmt t, fits tbl -> expands (map in_conv tbl) fmt t ->
  format tbl None 0 fmt = Some (None, Some (length t)).
Proof.
  intros tbl fmt t Hf H. unfold format. rewrite (loop_null tbl fmt t Hf H). reflexivity.
Qed.

Theorem format_buf : forall tbl fmt t b space, expands (map in_conv tbl) fmt t ->
  (length t < space <= length b)%nat ->
  format tbl (Some b) space fmt = Some (Some (t ++ 0 :: skipn (S (length t)) b), Some (length t)).
Proof.
  intros tbl fmt t b space H [L1 L2]. unfold format.
  destruct (loop_buf tbl space fmt t H 0 b L1 L2) as [b' [E [W1 [W2 W3]]]].
  destruct space as [|sp]; [lia|]. cbn [Nat.add] in *. rewrite E. cbn [bind negb f_buf f_len f_neg orb].
  apply Nat.ltb_lt in L1 as L1'. rewrite L1'.
  rewrite write_at_some by (cbn; lia). cbn [bind]. do 4 f_equal.
  - rewrite W2. reflexivity.
  - cbn [length app]. f_equal. replace (length t + 1)%nat with (S (length t)) by lia. assumption.
Qed.

(** The result does not fit. *)
Definition all_snprintf (tbl : list interp) : Prop := forall w, In w tbl -> in_lib w = Snprintf.

Lemma put_char_len : forall space s c s', put_char space s c = Some s' ->
  f_len s' = S (f_len s) /\ (f_buf s = None <-> f_buf s' = None).
Proof.
  intros space [b n g] c s' H. unfold put_char in H. cbn [f_buf f_len f_neg] in *. destruct b as [b|]; cbn [bind] in H.
  - destruct (n + 1 <? space)%nat.
    + destruct (write_at n [c] b); [|discriminate]. cbn in H. injection H as <-. cbn. split; [reflexivity|]. split; discriminate.
    + cbn in H. injection H as <-. cbn. split; [reflexivity|]. split; discriminate.
  - injection H as <-. cbn. tauto.
Qed.

Lemma call_writer_len : forall space s w o x s', in_lib w = Snprintf -> cv_text (in_conv w) o = Some x ->
  call_writer space s w o = Some s' -> f_len s' = (f_len s + length x)%nat /\ (f_buf s = None <-> f_buf s' = None).
Proof.
  intros space [b n g] w o x s' Hl Hx H. unfold call_writer in H. cbn [f_buf f_len f_neg] in *.
  destruct (_ && _); [discriminate|]. unfold writer in H. rewrite Hx, Hl in H.
  destruct b as [b|].
  - destruct (write_at _ _ b); [|discriminate]. cbn [bind] in H. destruct (_ || _); [|discriminate]. injection H as <-.
    cbn. split; [reflexivity|]. split; discriminate.
  - destruct (match _ with O => _ | S _ => _ end) as [|z l]; [|discriminate]. cbn [bind] in H.
    destruct (_ || _); [|discriminate]. injection H as <-. cbn. tauto.
Qed.

Lemma loop_len : forall tbl space fmt t, all_snprintf tbl -> expands (map in_conv tbl) fmt t -> forall s s' i,
  format_loop tbl space fmt s = Some (s', i) -> f_len s' = (f_len s + length t)%nat /\ (f_buf s = None <-> f_buf s' = None).
Proof.
  intros tbl space fmt t Ha H.
  induction H as [|c r t Hc H IH|r t H IH|c r t Hc Hn H IH|c cv b0 a x r t Hc Hcs Hb Hcc Ho Hx H IH|c cv b0 a o x r t Hc Hcs Hb Hcc Ho Hx H IH];
    intros s s' i E; cbn [format_loop] in E.
  - injection E as <- _. cbn. split; [lia|tauto].
  - apply Z.eqb_neq in Hc. rewrite Hc in E. destruct (put_char space s c) as [s1|] eqn:E1; [|discriminate].
    apply put_char_len in E1 as [A B]. apply IH in E as [A2 B2]. cbn [length]. split; [lia|tauto].
  - rewrite Z.eqb_refl in E. destruct (put_char space s PERCENT) as [s1|] eqn:E1; [|discriminate].
    apply put_char_len in E1 as [A B]. apply IH in E as [A2 B2]. cbn [length]. split; [lia|tauto].
  - rewrite Z.eqb_refl in E. apply Z.eqb_neq in Hc as Hc'. rewrite Hc' in E. rewrite lookup_none in E by assumption.
    apply IH in E. assumption.
  - rewrite Z.eqb_refl in E. apply Z.eqb_neq in Hc as Hc'. rewrite Hc' in E.
    destruct (lookup_some tbl c cv b0 a Hcs Hb Hcc) as [w [Hl [Hw Hin]]]. rewrite Hl, Hw, Ho in E.
    destruct (call_writer space s w 0) as [s1|] eqn:E1; [|discriminate].
    apply (call_writer_len _ _ _ _ x) in E1 as [A B]; [|apply Ha; assumption|rewrite Hw; assumption].
    apply IH in E as [A2 B2]. rewrite app_length. split; [lia|tauto].
  - rewrite Z.eqb_refl in E. apply Z.eqb_neq in Hc as Hc'. rewrite Hc' in E.
    destruct (lookup_some tbl c cv b0 a Hcs Hb Hcc) as [w [Hl [Hw Hin]]]. rewrite Hl, Hw, Ho in E.
    destruct (call_writer space s w o) as [s1|] eqn:E1; [|discriminate].
    apply (call_writer_len _ _ _ _ x) in E1 as [A B]; [|apply Ha; assumption|rewrite Hw; assumption].
    apply IH in E as [A2 B2]. rewrite app_length. split; [lia|tauto].
Qed.

Theorem format_too_long : forall tbl fmt t b space, all_snprintf tbl -> expands (map in_conv tbl) fmt t ->
  (space <= length t)%nat -> format tbl (Some b) space fmt = None.
Proof.
  intros tbl fmt t b space Ha H L. unfold format.
  assert (G : (do x <- format_loop tbl space fmt (mkF (Some b) 0 false);
      let (s, idle) := x in
      let neg := negb idle || f_neg s in
      do b <- match f_buf s with
              | None => Some None
              | Some b => if (f_len s <? space)%nat
                          then do b' <- write_at (f_len s) [0] b; Some (Some b') else None
              end;
      Some (b, if neg then None else Some (f_len s))) = None).
  { destruct (format_loop tbl space fmt (mkF (Some b) 0 false)) as [[s i]|] eqn:E; [|reflexivity].
    apply (loop_len tbl space fmt t Ha H) in E as [A B]. cbn [bind f_buf f_len] in *.
    destruct (f_buf s) as [b'|].
    - replace (f_len s <? space)%nat with false by (symmetry; apply Nat.ltb_ge; lia). reflexivity.
    - destruct B as [_ B]. specialize (B eq_refl). discriminate. }
  destruct space; exact G.
Qed.
