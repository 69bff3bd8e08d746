(** Proofs about the edits of chronyd's environment files: patterns (C62). *)
Require Import ZArith List Bool String Lia.
Require Import Verif.Base Verif.ListLib Verif.CevSpec Verif.CevModel.
Import ListNotations.
Open Scope Z_scope.

Lemma strip_prefix_some : forall p l r, strip_prefix p l = Some r <-> l = p ++ r.
Proof.
  induction p as [|a p IH]; intros l r; cbn [strip_prefix].
  - split; intros H; [injection H as H; subst; reflexivity|cbn in H; subst; reflexivity].
  - destruct l as [|b l]; [split; intros H; [discriminate|discriminate H]|].
    destruct (a =? b) eqn:E.
    + apply Z.eqb_eq in E. subst b. rewrite IH. split; intros H; [subst; reflexivity|injection H as H; exact H].
    + split; intros H; [discriminate|]. injection H as H1 H2. subst. lia.
Qed.

Lemma starts_iff : forall p l, starts p l = true <-> begins p l.
Proof.
  intros p l. unfold starts, begins. destruct (strip_prefix p l) as [r|] eqn:E.
  - split; [|reflexivity]. intros _. exists r. apply strip_prefix_some, E.
  - split; [discriminate|]. intros [r H]. apply strip_prefix_some in H. congruence.
Qed.

Lemma starts_false : forall p l, starts p l = false <-> ~ begins p l.
Proof.
  intros p l. rewrite <- starts_iff. destruct (starts p l); split; congruence.
Qed.

Lemma isspace_iff : forall c, isspace c = true <-> space c.
Proof. intros c. unfold isspace, space. lia. Qed.

Lemma skip_space_spec : forall l, exists s,
  l = s ++ skip_space l /\ spaces s /\ (forall c r, skip_space l = c :: r -> ~ space c).
Proof.
  induction l as [|c l IH]; cbn [skip_space].
  - exists []. split; [reflexivity|]. split; [intros x []|discriminate].
  - destruct (isspace c) eqn:E.
    + destruct IH as [s [H1 [H2 H3]]]. exists (c :: s). split; [cbn; congruence|].
      split; [|exact H3]. intros x [X|X]; [subst; apply isspace_iff, E|apply H2, X].
    + exists []. split; [reflexivity|]. split; [intros x []|].
      intros d r X. injection X as X1 X2. subst d. rewrite <- isspace_iff. congruence.
Qed.

Lemma skip_space_app : forall s r, spaces s -> (forall c r', r = c :: r' -> ~ space c) ->
  skip_space (s ++ r) = r.
Proof.
  induction s as [|c s IH]; intros r H N; cbn [app skip_space].
  - destruct r as [|c r]; [reflexivity|]. cbn [skip_space]. destruct (isspace c) eqn:E; [|reflexivity].
    exfalso. apply (N c r eq_refl), isspace_iff, E.
  - assert (E : isspace c = true) by (apply isspace_iff, H; left; reflexivity). rewrite E.
    apply IH; [|exact N]. intros x X. apply H. right. exact X.
Qed.

Lemma split_quote_none : forall l, split_quote l = None <-> unquoted l.
Proof.
  unfold unquoted. induction l as [|c l IH]; cbn [split_quote]; [split; [intros _ []|reflexivity]|].
  destruct (c =? QUOTE) eqn:E.
  - split; [discriminate|]. intros H. exfalso. apply H. left. lia.
  - destruct (split_quote l) as [[a b]|].
    + split; [discriminate|]. intros H. exfalso. assert (X : ~ In QUOTE l) by (intros X; apply H; right; exact X).
      apply IH in X. discriminate X.
    + split; [|reflexivity]. intros _ [X|X]; [lia|]. apply IH in X; [exact X|reflexivity].
Qed.

Lemma split_quote_some : forall l a b, split_quote l = Some (a, b) -> l = a ++ QUOTE :: b /\ unquoted a.
Proof.
  unfold unquoted. induction l as [|c l IH]; intros a b H; cbn [split_quote] in H; [discriminate|].
  destruct (c =? QUOTE) eqn:E.
  - injection H as <- <-. apply Z.eqb_eq in E. subst c. split; [reflexivity|intros []].
  - destruct (split_quote l) as [[a1 b1]|]; [|discriminate]. injection H as <- <-.
    destruct (IH _ _ eq_refl) as [H1 H2]. split; [cbn; congruence|].
    intros [X|X]; [lia|exact (H2 X)].
Qed.

Definition comment (c : Z) : Prop := c = 59 \/ c = 35.

Lemma before_comment_none : forall l, before_comment l = None -> forall a c r, l = a ++ c :: r -> ~ comment c.
Proof.
  induction l as [|d l IH]; intros H a c r E K; cbn [before_comment] in H.
  - destruct a; discriminate E.
  - destruct (before_comment l); [discriminate|]. destruct ((d =? 59) || (d =? 35)) eqn:D; [discriminate|].
    destruct a as [|x a]; injection E as E1 E2.
    + subst. unfold comment in K. lia.
    + apply (IH eq_refl a c r E2 K).
Qed.

Lemma before_comment_some : forall l w, before_comment l = Some w ->
  (exists c r, l = w ++ c :: r /\ comment c) /\
  (forall a c r, l = a ++ c :: r -> comment c -> (List.length a <= List.length w)%nat).
Proof.
  induction l as [|d l IH]; intros w H; cbn [before_comment] in H; [discriminate|].
  destruct (before_comment l) as [w1|] eqn:B.
  - injection H as <-. destruct (IH _ eq_refl) as [[c [r [H1 H2]]] H3]. split.
    + exists c, r. split; [cbn; congruence|exact H2].
    + intros a x y E K. destruct a as [|z a]; [cbn; lia|]. injection E as E1 E2.
      specialize (H3 _ _ _ E2 K). cbn. lia.
  - destruct ((d =? 59) || (d =? 35)) eqn:D; [|discriminate]. injection H as <-. split.
    + exists d, l. split; [reflexivity|]. unfold comment. lia.
    + intros a x y E K. destruct a as [|z a]; [cbn; lia|]. injection E as E1 E2.
      exfalso. apply (before_comment_none l B _ _ _ E2 K).
Qed.

Lemma comment_or_end_iff : forall l, comment_or_end l = true <->
  exists sp c, l = sp ++ c /\ spaces sp /\ (c = [] \/ exists x r, c = x :: r /\ comment x).
Proof.
  intros l. unfold comment_or_end. destruct (skip_space_spec l) as [s [E [HS N]]]. split.
  - intros H. exists s, (skip_space l). split; [exact E|]. split; [exact HS|].
    destruct (skip_space l) as [|c r]; [left; reflexivity|]. right. exists c, r.
    split; [reflexivity|]. unfold comment. lia.
  - intros [sp [c [H1 [H2 H3]]]].
    assert (X : skip_space l = c).
    { rewrite H1. apply skip_space_app; [exact H2|]. intros d r' ->. destruct H3 as [H3|[x [r [H3 K]]]]; [discriminate|].
      injection H3 as -> ->. unfold comment, space in *. lia. }
    rewrite X. destruct H3 as [->|[x [r [-> K]]]]; [reflexivity|]. unfold comment in K. lia.
Qed.

(** A position in two splittings of a list. *)
Lemma app_split : forall A (a b c d : list A), a ++ b = c ++ d -> (List.length a <= List.length c)%nat ->
  exists m, c = a ++ m /\ b = m ++ d.
Proof.
  induction a as [|x a IH]; intros b c d E L; cbn in *.
  - exists c. split; [reflexivity|exact E].
  - destruct c as [|y c]; [cbn in L; lia|]. injection E as -> E. cbn in L.
    destruct (IH b c d E) as [m [H1 H2]]; [lia|]. exists m. split; [congruence|exact H2].
Qed.

Lemma unquoted_before : forall v t a b, v ++ t = a ++ QUOTE :: b -> unquoted v ->
  (List.length v <= List.length a)%nat.
Proof.
  intros v t a b E U. destruct (Nat.le_gt_cases (List.length v) (List.length a)) as [L|L]; [exact L|].
  exfalso. symmetry in E. apply app_split in E; [|lia]. destruct E as [m [H1 H2]]. subst v. destruct m as [|x m].
  - rewrite app_length in L. cbn in L. lia.
  - injection H2 as <- _. apply U, in_or_app. right. left. reflexivity.
Qed.

(** What a reading without its opening quote looks like, if a quote follows. *)
Lemma ending_quote : forall v t a b, v ++ t = a ++ QUOTE :: b -> unquoted v -> unquoted a -> ending t ->
  (v = a /\ t = QUOTE :: b /\ comment_or_end b = true) \/
  (exists m x r, a = v ++ m ++ x :: r /\ comment x).
Proof.
  intros v t a b E V A [q [sp [c [T [Q [SP C]]]]]].
  pose proof (unquoted_before _ _ _ _ E V) as L.
  destruct (app_split _ _ _ _ _ E L) as [m [H1 H2]].
  destruct m as [|x m].
  - left. rewrite app_nil_r in H1. split; [congruence|]. cbn in H2. split; [exact H2|].
    assert (X : ~ space QUOTE) by (unfold space, QUOTE; lia).
    assert (Y : ~ comment QUOTE) by (unfold comment, QUOTE; lia).
    rewrite H2 in T. destruct Q as [->| ->].
    + exfalso. cbn in T. destruct sp as [|s sp].
      * cbn in T. destruct C as [->|[x [r [-> K]]]]; [discriminate|]. injection T as <- _. exact (Y K).
      * injection T as <- _. apply X, SP. left. reflexivity.
    + injection T as T. apply comment_or_end_iff. exists sp, c. split; [exact T|]. split; [exact SP|].
      destruct C as [C|[x [r [C K]]]]; [left; exact C|right; exists x, r; split; assumption].
  - right. rewrite H2 in T. assert (Q0 : q = []).
    { destruct Q as [Q|Q]; [exact Q|]. subst q. injection T as -> _. exfalso. apply A. rewrite H1. apply in_or_app. right. left. reflexivity. }
    subst q. cbn [app] in T.
    (* the run of white space ends before the quote *)
    assert (L2 : (List.length sp <= List.length (x :: m))%nat).
    { apply (unquoted_before sp c (x :: m) b); [symmetry; exact T|].
      intros X. apply SP in X. unfold space, QUOTE in X. lia. }
    symmetry in T. change (x :: m ++ QUOTE :: b) with ((x :: m) ++ QUOTE :: b) in T.
    destruct (app_split _ _ _ _ _ T L2) as [k [K1 K2]].
    destruct C as [->|[y [r [-> K]]]]; [destruct k; discriminate K2|].
    destruct k as [|z k].
    + exfalso. injection K2 as -> _. unfold comment, QUOTE in K. lia.
    + injection K2 as -> _. exists sp, z, k. split; [rewrite H1, K1; reflexivity|exact K].
Qed.

Definition core (r : list Z) : option (list Z) :=
  match split_quote r with
  | None => Some r
  | Some (v, after) => if comment_or_end after then Some v else before_comment v
  end.

Lemma ending_comment : forall c r, comment c -> ending (c :: r).
Proof.
  intros c r K. exists [], [], (c :: r). split; [reflexivity|]. split; [left; reflexivity|].
  split; [intros x []|]. right. exists c, r. split; [reflexivity|exact K].
Qed.

Lemma core_some : forall r v, core r = Some v ->
  (exists t, r = v ++ t /\ unquoted v /\ ending t) /\
  (forall v' t', r = v' ++ t' -> unquoted v' -> ending t' -> (List.length v' <= List.length v)%nat).
Proof.
  intros r v H. unfold core in H. destruct (split_quote r) as [[a b]|] eqn:SQ.
  - destruct (split_quote_some _ _ _ SQ) as [E A]. destruct (comment_or_end b) eqn:CE.
    + injection H as <-. split.
      * exists (QUOTE :: b). split; [exact E|]. split; [exact A|].
        apply comment_or_end_iff in CE. destruct CE as [sp [c [H1 [H2 H3]]]].
        exists [QUOTE], sp, c. split; [cbn; congruence|]. split; [right; reflexivity|]. split; [exact H2|]. exact H3.
      * intros v' t' X U _. apply (unquoted_before v' t' a b); [congruence|exact U].
    + destruct (before_comment_some _ _ H) as [[c [q [H1 H2]]] H3]. split.
      * exists (c :: q ++ QUOTE :: b). split; [rewrite E, H1, <- app_assoc; reflexivity|].
        split; [|apply ending_comment, H2]. intros X. apply A. rewrite H1. apply in_or_app. left. exact X.
      * intros v' t' X U G. rewrite E in X. symmetry in X.
        destruct (ending_quote _ _ _ _ X U A G) as [[_ [_ K]]|[m [x [y [K1 K2]]]]]; [congruence|].
        rewrite app_assoc in K1. specialize (H3 _ _ _ K1 K2). rewrite app_length in H3. lia.
  - injection H as <-. split.
    + exists []. split; [rewrite app_nil_r; reflexivity|]. split; [apply split_quote_none, SQ|].
      exists [], [], []. split; [reflexivity|]. split; [left; reflexivity|]. split; [intros x []|left; reflexivity].
    + intros v' t' -> _ _. rewrite app_length. lia.
Qed.

Lemma core_none : forall r, core r = None -> exists a b,
  r = a ++ QUOTE :: b /\ unquoted a /\ comment_or_end b = false /\ before_comment a = None.
Proof.
  intros r H. unfold core in H. destruct (split_quote r) as [[a b]|] eqn:SQ; [|discriminate].
  destruct (split_quote_some _ _ _ SQ) as [E A]. destruct (comment_or_end b) eqn:CE; [discriminate|].
  exists a, b. auto.
Qed.

Lemma core_none_reading : forall r, core r = None -> forall v t, r = v ++ t -> unquoted v -> ending t -> False.
Proof.
  intros r H v t E U G. destruct (core_none r H) as [a [b [H1 [H2 [H3 H4]]]]]. rewrite H1 in E. symmetry in E.
  destruct (ending_quote _ _ _ _ E U H2 G) as [[_ [_ K]]|[m [x [y [K1 K2]]]]]; [congruence|].
  rewrite app_assoc in K1. apply (before_comment_none _ H4 _ _ _ K1 K2).
Qed.

Lemma match_value_iff : forall r v, match_value r = Some v <-> value r v.
Proof.
  assert (UNIQ : forall r v w, value r v -> value r w -> v = w).
  { intros r v w [q [t [R M]]] [q' [t' [R' M']]]. pose proof (M _ _ _ R') as A. pose proof (M' _ _ _ R) as B.
    assert (Q : q = q') by (destruct A as [A|[A _]], B as [B|[B _]]; try congruence; lia). subst q'.
    assert (L : List.length v = List.length w) by lia.
    destruct R as [E _], R' as [E' _]. rewrite E in E'. apply app_inv_head in E'.
    destruct (app_split _ _ _ _ _ E') as [m [H1 _]]; [lia|]. subst w. rewrite app_length in L.
    destruct m; [rewrite app_nil_r; reflexivity|cbn in L; lia]. }
  assert (SOUND : forall r v, match_value r = Some v -> value r v).
  { intros r v H. unfold match_value in H. destruct r as [|c r'] eqn:R.
    - apply core_some in H. destruct H as [[t [H1 [H2 H3]]] H4]. exists [], t. split.
      + split; [exact H1|]. split; [left; reflexivity|]. split; assumption.
      + intros q' v' t' [E [[->| ->] [U G]]]; [|discriminate E]. right. split; [reflexivity|]. apply (H4 v' t'); assumption.
    - destruct (c =? QUOTE) eqn:C.
      + apply Z.eqb_eq in C. subst c. apply core_some in H. destruct H as [[t [H1 [H2 H3]]] H4]. exists [QUOTE], t. split.
        * split; [cbn; congruence|]. split; [right; reflexivity|]. split; assumption.
        * intros q' v' t' [E [[->| ->] [U G]]]; [left; cbn; lia|]. right. split; [reflexivity|].
          injection E as E. apply (H4 v' t'); assumption.
      + apply core_some in H. destruct H as [[t [H1 [H2 H3]]] H4]. exists [], t. split.
        * split; [exact H1|]. split; [left; reflexivity|]. split; assumption.
        * intros q' v' t' [E [[->| ->] [U G]]]; [|injection E as E _; lia]. right. split; [reflexivity|]. apply (H4 v' t'); assumption. }
  intros r v. split; [apply SOUND|]. intros V. destruct (match_value r) as [w|] eqn:H.
  - f_equal. apply (UNIQ r); [apply SOUND, H|exact V].
  - exfalso. destruct V as [q [t [[E [Q [U G]]] _]]]. unfold match_value in H. destruct r as [|c r'].
    + fold (core []) in H. apply core_none_reading with (v := []) (t := []) in H; auto; [intros []|].
      exists [], [], []. split; [reflexivity|]. split; [left; reflexivity|]. split; [intros x []|left; reflexivity].
    + destruct (c =? QUOTE) eqn:C.
      * apply Z.eqb_eq in C. subst c. fold (core r') in H. destruct Q as [->| ->].
        -- assert (V0 : v = []).
           { destruct v as [|x v]; [reflexivity|]. injection E as E _. exfalso. apply U. left. congruence. }
           subst v. cbn in E. subst t. destruct (core_none r' H) as [a [b [H1 [H2 [H3 H4]]]]].
           destruct (ending_quote [] (QUOTE :: r') [] r' eq_refl U U G) as [[_ [_ K]]|[m [x [y [K1 _]]]]]; [|destruct m; discriminate K1].
           apply comment_or_end_iff in K. destruct K as [sp [z [K1 [K2 K3]]]].
           apply (core_none_reading r' H [] r' eq_refl); [intros []|].
           exists [], sp, z. split; [exact K1|]. split; [left; reflexivity|]. split; assumption.
        -- injection E as E. apply (core_none_reading r' H v t E U G).
      * fold (core (c :: r')) in H. destruct Q as [->| ->].
        -- apply (core_none_reading _ H v t E U G).
        -- injection E as E _. lia.
Qed.

(** Keys: words whose first character is neither white space nor a hash. *)
Definition key_ok (key : list Z) : Prop := exists k r, key = k :: r /\ ~ space k /\ k <> 35.

Lemma match_option_iff : forall key l v, key_ok key -> (match_option key l = Some v <-> assigns key l v).
Proof.
  intros key l v [k [kr [K [NK _]]]]. unfold match_option, assigns. split.
  - intros H. destruct (skip_space_spec l) as [s1 [E1 [S1 _]]].
    destruct (strip_prefix key (skip_space l)) as [a|] eqn:P1; [|discriminate]. cbn [bind] in H.
    destruct (skip_space_spec a) as [s2 [E2 [S2 _]]].
    destruct (strip_prefix (txt "=") (skip_space a)) as [b|] eqn:P2; [|discriminate]. cbn [bind] in H.
    destruct (skip_space_spec b) as [s3 [E3 [S3 N3]]].
    apply strip_prefix_some in P1, P2. apply match_value_iff in H.
    exists s1, s2, s3, (skip_space b). split; [|repeat split; assumption].
    rewrite E1, P1, E2, P2. rewrite E3 at 1. reflexivity.
  - intros [s1 [s2 [s3 [r [E [S1 [S2 [S3 [N V]]]]]]]]].
    assert (A : skip_space l = key ++ s2 ++ txt "=" ++ s3 ++ r).
    { rewrite E. apply skip_space_app; [exact S1|]. intros c r' X. rewrite K in X. injection X as <- _. exact NK. }
    rewrite A. assert (P1 : strip_prefix key (key ++ s2 ++ txt "=" ++ s3 ++ r) = Some (s2 ++ txt "=" ++ s3 ++ r)) by (apply strip_prefix_some; reflexivity).
    rewrite P1. cbn [bind].
    assert (B : skip_space (s2 ++ txt "=" ++ s3 ++ r) = txt "=" ++ s3 ++ r).
    { apply skip_space_app; [exact S2|]. intros c r' X. injection X as <- _. unfold space. lia. }
    rewrite B. assert (P2 : strip_prefix (txt "=") (txt "=" ++ s3 ++ r) = Some (s3 ++ r)) by (apply strip_prefix_some; reflexivity).
    rewrite P2. cbn [bind]. rewrite skip_space_app by assumption. apply match_value_iff, V.
Qed.
