(** Proofs about the tokenizer. *)
Require Import ZArith Lia List Bool Arith.
Require Import Verif.Base Verif.ListLib Verif.StrSpec Verif.StrProof Verif.TokSpec Verif.TokModel.
Import ListNotations.
Open Scope Z_scope.

(** The same scanner over a stream of characters, with words instead of positions. *)
Definition inq (sq dq : bool) (c : Z) : bool := (sq && (c =? SQ)) || (dq && (c =? DQ)).
Definition closes (sq dq : bool) (c : Z) : bool :=
  inq sq dq c || (negb sq && negb dq && ((c =? SP) || (c =? TAB) || (c =? NL) || (c =? HASH))).

Definition lex_end (cur : option (list Z)) (out : list (list Z)) : list (list Z) :=
  match cur with None => out | Some w => out ++ [w] end.

Fixpoint lex (max : nat) (cur : option (list Z)) (esc sq dq : bool) (out : list (list Z)) (l : list Z)
  {struct l} : list (list Z) :=
  match l with
  | [] => lex_end cur out
  | c :: r =>
    if c =? 0 then lex_end cur out
    else if negb esc && (c =? BS) then lex max cur true sq dq out r
    else match cur with
    | None =>
        if sq || dq then
          if negb esc && inq sq dq c then
            if (length (out ++ [[]]) =? max)%nat then out ++ [[]]
            else lex max None false false false (out ++ [[]]) r
          else lex max (Some [c]) false sq dq out r
        else if negb esc && (c =? SQ) then lex max None false true dq out r
        else if negb esc && (c =? DQ) then lex max None false sq true out r
        else if negb esc && ((c =? NL) || (c =? HASH)) then out
        else if negb (c =? SP) && negb (c =? TAB) then lex max (Some [c]) false sq dq out r
        else lex max None false sq dq out r
    | Some w =>
        if esc then lex max (Some (w ++ [c])) false sq dq out r
        else if closes sq dq c then
          if (c =? NL) || (c =? HASH) || (length (out ++ [w]) =? max)%nat then out ++ [w]
          else lex max None esc false false (out ++ [w]) r
        else lex max (Some (w ++ [c])) esc sq dq out r
    end
  end.

Definition finish (max : nat) (s : tst) : option (list Z * list nat) :=
  match t_tok s with
  | None => Some (t_buf s, t_out s)
  | Some t =>
      do b <- (if t_esc s
               then match t_in s with O => None | S i => put0 i (t_buf s) end
               else put0 (t_in s) (t_buf s));
      do out <- push max (t_out s) t;
      Some (b, out)
  end.
Lemma tokenize_eq : forall max l, tokenize max l =
  bind (tok_loop (S (length l)) max (mkT l 0 None false false false [])) (finish max).
Proof. reflexivity. Qed.

Definition holds (b : list Z) (t : nat) (w : list Z) : Prop :=
  forall j x, nth_error w j = Some x -> nth_error b (t + j) = Some x.
Definition term (b : list Z) (lim t : nat) (w : list Z) : Prop :=
  holds b t w /\ nth_error b (t + length w) = Some 0 /\ is_string w /\ (t + length w < lim)%nat.

Lemma holds_frame : forall b b' t w, (forall j, (t <= j < t + length w)%nat -> nth_error b j = nth_error b' j) ->
  holds b t w -> holds b' t w.
Proof.
  intros b b' t w H Hh j x Hj. rewrite <- H; [apply Hh; assumption|].
  assert (j < length w)%nat by (apply nth_error_Some; congruence). lia.
Qed.

Lemma term_frame : forall b b' lim lim' t w, (forall j, (j < lim)%nat -> nth_error b j = nth_error b' j) ->
  (lim <= lim')%nat -> term b lim t w -> term b' lim' t w.
Proof.
  intros b b' lim lim' t w H L [A [B [C D]]]. split; [|split; [|split]].
  - eapply holds_frame; [|exact A]. intros. apply H. lia.
  - rewrite <- H by lia. assumption.
  - assumption.
  - lia.
Qed.

Lemma Forall2_impl : forall A B (P Q : A -> B -> Prop) l l', (forall a b, P a b -> Q a b) -> Forall2 P l l' -> Forall2 Q l l'.
Proof. intros A B P Q l l' H F. induction F; constructor; auto. Qed.

Lemma terms_frame : forall b b' lim lim' ts ws, (forall j, (j < lim)%nat -> nth_error b j = nth_error b' j) ->
  (lim <= lim')%nat -> Forall2 (term b lim) ts ws -> Forall2 (term b' lim') ts ws.
Proof. intros. eapply Forall2_impl; [|eassumption]. intros. eapply term_frame; eassumption. Qed.

Lemma Forall2_snoc : forall A B (P : A -> B -> Prop) l l' x y, Forall2 P l l' -> P x y -> Forall2 P (l ++ [x]) (l' ++ [y]).
Proof. intros. apply Forall2_app; [assumption|]. constructor; [assumption|constructor]. Qed.

Definition tok_inv (line : list Z) (z : nat) (s : tst) (cur : option (list Z)) (out : list (list Z)) : Prop :=
  length (t_buf s) = length line /\ (t_in s <= z)%nat /\
  (forall j, (t_in s <= j)%nat -> nth_error (t_buf s) j = nth_error line j) /\
  match t_tok s, cur with
  | None, None => Forall2 (term (t_buf s) (t_in s)) (t_out s) out
  | Some t, Some w =>
      Forall2 (term (t_buf s) t) (t_out s) out /\
      (t + length w + (if t_esc s then 1 else 0) = t_in s)%nat /\
      holds (t_buf s) t w /\ is_string w /\ w <> []
  | _, _ => False
  end.

Definition post (line : list Z) (z max : nat) (s : tst) (ws : list (list Z)) : Prop :=
  exists b ts, finish max s = Some (b, ts) /\ length b = length line /\ (length ts <= max)%nat /\
    (forall j, (z < j)%nat -> nth_error b j = nth_error line j) /\
    Forall2 (term b (S z)) ts ws.

Lemma put0_some : forall i b, (i < length b)%nat -> put0 i b = Some (set_nth i 0 b).
Proof. intros. unfold put0. apply Nat.ltb_lt in H. rewrite H. reflexivity. Qed.
Lemma push_some : forall max out t, (length out < max)%nat -> push max out t = Some (out ++ [t]).
Proof. intros. unfold push. apply Nat.ltb_lt in H. rewrite H. reflexivity. Qed.

Lemma holds_snoc : forall b t w c, holds b t w -> nth_error b (t + length w) = Some c -> holds b t (w ++ [c]).
Proof.
  intros b t w c H Hc j x Hj. destruct (Nat.lt_ge_cases j (length w)).
  - rewrite nth_error_app1 in Hj by assumption. apply H. assumption.
  - rewrite nth_error_app2 in Hj by assumption.
    destruct (j - length w)%nat eqn:E; cbn in Hj; [|destruct n; discriminate].
    replace j with (length w) by lia. congruence.
Qed.

Lemma string_snoc : forall w c, is_string w -> c <> 0 -> is_string (w ++ [c]).
Proof. intros. apply Forall_app. split; [assumption|]. constructor; [assumption|constructor]. Qed.

Lemma nth_skipn : forall A n m (l : list A), nth_error (skipn n l) m = nth_error l (n + m).
Proof. induction n; intros m l; [reflexivity|]. destruct l; [destruct m; reflexivity|]. cbn. apply IHn. Qed.

Lemma nth_firstn : forall A n m (l : list A), (m < n)%nat -> nth_error (firstn n l) m = nth_error l m.
Proof.
  induction n; intros m l H; [lia|]. destruct l; [reflexivity|]. destruct m; [reflexivity|]. cbn. apply IHn. lia.
Qed.

Lemma shift_up_spec : forall b t i, (t < i <= length b)%nat ->
  exists b', shift_up b t i = Some b' /\ length b' = length b /\
   (forall j, (j <= t)%nat -> nth_error b' j = nth_error b j) /\
   (forall j, (t < j < i)%nat -> nth_error b' j = nth_error b (j - 1)) /\
   (forall j, (i <= j)%nat -> nth_error b' j = nth_error b j).
Proof.
  intros b t i H. unfold shift_up.
  replace ((t <? i)%nat && (i <=? length b)%nat) with true.
  2:{ symmetry. apply andb_true_iff. split; [apply Nat.ltb_lt|apply Nat.leb_le]; lia. }
  eexists. split; [reflexivity|].
  assert (L1 : length (firstn (S t) b) = S t) by (rewrite firstn_length; lia).
  assert (L2 : length (firstn (i - t - 1) (skipn t b)) = (i - t - 1)%nat) by (rewrite firstn_length, skipn_length; lia).
  split; [|split; [|split]].
  - rewrite !app_length, L1, L2, skipn_length. lia.
  - intros j Hj. rewrite nth_error_app1 by lia. apply nth_firstn. lia.
  - intros j Hj. rewrite nth_error_app2 by lia. rewrite nth_error_app1 by lia. rewrite L1.
    rewrite nth_firstn by lia. rewrite nth_skipn. f_equal. lia.
  - intros j Hj. rewrite nth_error_app2 by lia. rewrite nth_error_app2 by lia. rewrite L1, L2, nth_skipn. f_equal. lia.
Qed.

Lemma skipn_nth : forall A i (l : list A) c, nth_error l i = Some c -> skipn i l = c :: skipn (S i) l.
Proof.
  induction i; intros l c H; destruct l; cbn in *; try discriminate; [congruence|].
  rewrite (IHi _ _ H). destruct l; reflexivity.
Qed.

Lemma set_nth_frame : forall i x (b : list Z) j, i <> j -> nth_error b j = nth_error (set_nth i x b) j.
Proof. intros. symmetry. apply nth_error_set_nth_other. assumption. Qed.

Lemma post_done : forall line z max s out, tok_inv line z s None out -> (length (t_out s) <= max)%nat ->
  t_tok s = None -> post line z max s out.
Proof.
  intros line z max s out [L [Z0 [Fr H]]] Hmax Ht. rewrite Ht in H.
  exists (t_buf s), (t_out s). unfold finish. rewrite Ht. split; [reflexivity|]. split; [assumption|].
  split; [assumption|]. split; [intros; apply Fr; lia|]. eapply terms_frame; [| |exact H]; [reflexivity|lia].
Qed.

(** Stop with token [w] terminated at the current character. *)
Lemma stop_word : forall line z max b i t w out ws, length b = length line -> (i <= z)%nat -> (z < length line)%nat ->
  (forall j, (i <= j)%nat -> nth_error b j = nth_error line j) -> (t + length w = i)%nat ->
  holds b t w -> is_string w -> Forall2 (term b t) out ws -> (length out < max)%nat -> 
  let b' := set_nth i 0 b in
  length b' = length line /\ (forall j, (i < j)%nat -> nth_error b' j = nth_error line j) /\
  Forall2 (term b' (S i)) (out ++ [t]) (ws ++ [w]) /\ (length (out ++ [t]) <= max)%nat.
Proof.
  intros line z max b i t w out ws L Z0 Z1 Fr Ht Hh Hs Ho Hm b'.
  split; [unfold b'; rewrite set_nth_length; assumption|].
  split; [intros j Hj; unfold b'; rewrite nth_error_set_nth_other by lia; apply Fr; lia|].
  split; [|rewrite app_length; cbn; lia].
  apply Forall2_snoc.
  - eapply terms_frame; [| |exact Ho]; [|lia]. intros j Hj. apply set_nth_frame. lia.
  - split; [|split; [|split; [assumption|lia]]].
    + eapply holds_frame; [|exact Hh]. intros j Hj. apply set_nth_frame. lia.
    + rewrite Ht. apply nth_error_set_nth_same. lia.
Qed.

Lemma forall2_len : forall A B (P : A -> B -> Prop) l l', Forall2 P l l' -> length l = length l'.
Proof. induction 1; cbn; congruence. Qed.

Theorem loop_refines : forall line z max, nth_error line z = Some 0 -> (forall j, (j < z)%nat -> nth_error line j <> Some 0) ->
  forall fuel s cur out, tok_inv line z s cur out -> (length (t_out s) < max)%nat -> (z - t_in s < fuel)%nat ->
  exists s', tok_loop fuel max s = Some s' /\
    post line z max s' (lex max cur (t_esc s) (t_sq s) (t_dq s) out (skipn (t_in s) line)).
Proof.
  intros line z max Hz Hnz. 
  assert (Zl : (z < length line)%nat) by (apply nth_error_Some; congruence).
  induction fuel as [|fuel IH]; intros s cur out Hinv Hmax Hf; [lia|].
  pose proof Hinv as [L [Z0 [Fr Hcur]]].
  destruct s as [b i tok esc sq dq ts]. cbn [t_buf t_in t_tok t_esc t_sq t_dq t_out] in *.
  cbn [tok_loop].
  destruct (nth_error line i) as [c|] eqn:Ec.
  2:{ apply nth_error_None in Ec. lia. }
  rewrite (skipn_nth _ i line c Ec). cbn [lex]. unfold tok_step at 1.
  rewrite (Fr i (le_n i)), Ec. cbn [bind].
  destruct (c =? 0) eqn:Ec0.
  { apply Z.eqb_eq in Ec0. subst c. eexists. split; [reflexivity|].
    assert (i = z). { destruct (Nat.eq_dec i z); [assumption|]. exfalso. apply (Hnz i); [lia|assumption]. } subst i.
    destruct tok as [t|], cur as [w|]; try contradiction.
    - destruct Hcur as [Ho [Ht [Hh [Hs Hne]]]]. cbn [lex_end].
      set (e := if esc then 1%nat else 0%nat) in *.
      (* the terminator goes to position z - e *)
      assert (E : exists i', (t + length w = i' /\ i' <= z)%nat /\ 
                  finish max (mkT b z (Some t) esc sq dq ts) = Some (set_nth i' 0 b, ts ++ [t])).
      { exists (z - e)%nat. split; [lia|]. unfold finish. cbn [t_tok t_esc t_in t_buf t_out].
        destruct esc; unfold e in *.
        - destruct z as [|z']; [lia|]. rewrite put0_some by lia. cbn [bind]. rewrite push_some by assumption. cbn [bind].
          replace (S z' - 1)%nat with z' by lia. reflexivity.
        - rewrite put0_some by lia. cbn [bind]. rewrite push_some by assumption. cbn [bind]. rewrite Nat.sub_0_r. reflexivity. }
      destruct E as [i' [[Hi1 Hi2] Ef]].
      exists (set_nth i' 0 b), (ts ++ [t]). split; [assumption|].
      split; [rewrite set_nth_length; assumption|]. split; [rewrite app_length; cbn; lia|].
      split; [intros j Hj; rewrite nth_error_set_nth_other by lia; apply Fr; lia|].
      apply Forall2_snoc.
      + eapply terms_frame; [| |exact Ho]; [|lia]. intros j Hj. apply set_nth_frame. lia.
      + split; [|split; [|split; [assumption|lia]]].
        * eapply holds_frame; [|exact Hh]. intros j Hj. apply set_nth_frame. lia.
        * rewrite Hi1. apply nth_error_set_nth_same. lia.
    - cbn [lex_end]. apply post_done; [exact Hinv|cbn; lia|reflexivity]. }
  assert (Cnz : c <> 0) by (apply Z.eqb_neq; assumption).
  assert (Iz : (i < z)%nat). { destruct (Nat.eq_dec i z); [|lia]. subst. congruence. }
  assert (Fr' : forall j, (S i <= j)%nat -> nth_error b j = nth_error line j) by (intros; apply Fr; lia).
  assert (Bi : nth_error b i = Some c) by (rewrite Fr by lia; assumption).
  (* a step that only advances *)
  assert (Step : forall s' cur' out', tok_inv line z s' cur' out' -> t_in s' = S i -> (length (t_out s') < max)%nat ->
     exists s2, tok_loop fuel max s' = Some s2 /\
       post line z max s2 (lex max cur' (t_esc s') (t_sq s') (t_dq s') out' (skipn (S i) line))).
  { intros s' cur' out' Hi' E Hm. rewrite <- E. apply IH; [assumption|assumption|lia]. }
  destruct (negb esc && (c =? BS)) eqn:Eesc.
  { apply andb_true_iff in Eesc as [En _]. apply negb_true_iff in En. subst esc. cbn [bind].
    apply (Step (mkT b (S i) tok true sq dq ts)); [|reflexivity|assumption].
    split; [assumption|]. split; [cbn; lia|]. split; [assumption|]. cbn [t_tok t_buf t_in t_out t_esc].
    destruct tok as [t|], cur as [w|]; try contradiction.
    - destruct Hcur as [Ho [Ht Hr]]. split; [assumption|]. split; [lia|assumption].
    - eapply terms_frame; [| |exact Hcur]; [reflexivity|lia]. }
  destruct tok as [t|], cur as [w|]; try contradiction.
  - (* in a token *)
    destruct Hcur as [Ho [Ht [Hh [Hs Hne]]]].
    destruct esc.
    + (* escaped *)
      destruct (shift_up_spec b t i) as [b' [Eb [Lb [B1 [B2 B3]]]]]; [lia|]. rewrite Eb. cbn [bind].
      apply (Step (mkT b' (S i) (Some (S t)) false sq dq ts)); [|reflexivity|assumption].
      split; [cbn; congruence|]. split; [cbn; lia|].
      split; [intros j Hj; cbn [t_buf t_in] in *; rewrite B3 by lia; apply Fr; lia|].
      cbn [t_tok t_buf t_in t_out t_esc].
      split; [|split; [rewrite app_length; cbn; lia|split; [|split; [apply string_snoc; assumption|destruct w; discriminate]]]].
      * eapply terms_frame; [| |exact Ho]; [|lia]. intros j Hj. symmetry. apply B1. lia.
      * apply holds_snoc.
        -- intros j x Hj. assert (j < length w)%nat by (apply nth_error_Some; congruence).
           replace (S t + j)%nat with (S (t + j)) by lia. rewrite B2 by lia.
           replace (S (t + j) - 1)%nat with (t + j)%nat by lia. apply Hh. assumption.
        -- rewrite B3 by lia. replace (S t + length w)%nat with i by lia. assumption.
    + change (in_quote (mkT b i (Some t) false sq dq ts) c) with (inq sq dq c).
      change (inq sq dq c || _) with (closes sq dq c).
      destruct (closes sq dq c).
      * (* end of token *)
        destruct (stop_word line z max b i t w ts out L ltac:(lia) Zl Fr ltac:(lia) Hh Hs Ho Hmax) as [L' [Fr2 [Ho' Hm']]].
        rewrite put0_some by lia. cbn [bind]. rewrite push_some by assumption. cbn [bind].
        assert (Len : length (ts ++ [t]) = length (out ++ [w])) by (eapply forall2_len; exact Ho').
        rewrite Len.
        assert (Hinv' : tok_inv line z (mkT (set_nth i 0 b) (S i) None false false false (ts ++ [t])) None (out ++ [w])).
        { split; [assumption|]. split; [cbn; lia|]. split; [intros j Hj; cbn in Hj |- *; apply Fr2; lia|]. cbn. assumption. }
        destruct ((c =? NL) || (c =? HASH) || (length (out ++ [w]) =? max)%nat) eqn:Est.
        -- eexists. split; [reflexivity|].
           exists (set_nth i 0 b), (ts ++ [t]). split; [reflexivity|]. split; [assumption|]. split; [assumption|].
           split; [intros; apply Fr2; lia|]. eapply terms_frame; [| |exact Ho']; [reflexivity|lia].
        -- apply (Step (mkT (set_nth i 0 b) (S i) None false false false (ts ++ [t]))); [assumption|reflexivity|].
           cbn [t_out]. rewrite orb_false_iff in Est. destruct Est as [_ Est]. apply Nat.eqb_neq in Est. lia.
      * cbn [bind]. apply (Step (mkT b (S i) (Some t) false sq dq ts)); [|reflexivity|assumption].
        split; [assumption|]. split; [cbn; lia|]. split; [assumption|]. cbn [t_tok t_buf t_in t_out t_esc].
        split; [assumption|]. split; [rewrite app_length; cbn; lia|].
        split; [|split; [apply string_snoc; assumption|destruct w; discriminate]].
        apply holds_snoc; [assumption|]. replace (t + length w)%nat with i by lia. assumption.
  - (* between tokens *)
    assert (Start : tok_inv line z (mkT b (S i) (Some i) false sq dq ts) (Some [c]) out).
    { split; [assumption|]. split; [cbn; lia|]. split; [assumption|]. cbn [t_tok t_buf t_in t_out t_esc].
      split; [assumption|]. split; [cbn; lia|]. split; [|split; [constructor; [assumption|constructor]|discriminate]].
      intros j x Hj. destruct j as [|j]; [|destruct j; discriminate]. rewrite Nat.add_0_r. cbn in Hj. congruence. }
    assert (Skip : forall e q1 q2, tok_inv line z (mkT b (S i) None e q1 q2 ts) None out).
    { intros. split; [assumption|]. split; [cbn; lia|]. split; [assumption|]. cbn.
      eapply terms_frame; [| |exact Hcur]; [reflexivity|lia]. }
    change (in_quote (mkT b i None esc sq dq ts) c) with (inq sq dq c).
    destruct (sq || dq).
    + destruct (negb esc && inq sq dq c) eqn:Ecl.
      * assert (Ho : Forall2 (term b i) ts out) by assumption.
        destruct (stop_word line z max b i i [] ts out L ltac:(lia) Zl Fr ltac:(cbn; lia)) as [L' [Fr2 [Ho' Hm']]];
          [intros j x Hj; destruct j; discriminate|constructor|assumption|assumption|].
        rewrite put0_some by lia. cbn [bind]. rewrite push_some by assumption. cbn [bind].
        assert (Len : length (ts ++ [i]) = length (out ++ [[]])) by (eapply forall2_len; exact Ho').
        rewrite Len. destruct (length (out ++ [[]]) =? max)%nat eqn:Em.
        -- eexists. split; [reflexivity|].
           exists (set_nth i 0 b), (ts ++ [i]). split; [reflexivity|]. split; [assumption|]. split; [assumption|].
           split; [intros; apply Fr2; lia|]. eapply terms_frame; [| |exact Ho']; [reflexivity|lia].
        -- apply (Step (mkT (set_nth i 0 b) (S i) None false false false (ts ++ [i]))); [|reflexivity|].
           ++ split; [assumption|]. split; [cbn; lia|]. split; [intros j Hj; cbn in Hj |- *; apply Fr2; lia|]. assumption.
           ++ cbn [t_out]. apply Nat.eqb_neq in Em. lia.
      * cbn [bind]. apply (Step _ _ _ Start eq_refl Hmax).
    + destruct (negb esc && (c =? SQ)); [cbn [bind]; apply (Step _ _ _ (Skip false true dq) eq_refl Hmax)|].
      destruct (negb esc && (c =? DQ)); [cbn [bind]; apply (Step _ _ _ (Skip false sq true) eq_refl Hmax)|].
      destruct (negb esc && ((c =? NL) || (c =? HASH))).
      { eexists. split; [reflexivity|]. apply post_done; [assumption|cbn; lia|reflexivity]. }
      destruct (negb (c =? SP) && negb (c =? TAB)); cbn [bind].
      * apply (Step _ _ _ Start eq_refl Hmax).
      * apply (Step _ _ _ (Skip false sq dq) eq_refl Hmax).
Qed.

(** Every line, with anything after its terminator. *)
Theorem tokenize_refines : forall l rest max, is_string l -> (0 < max)%nat ->
  exists b ts, tokenize max (l ++ 0 :: rest) = Some (b, ts) /\ length b = length (l ++ 0 :: rest) /\
    (length ts <= max)%nat /\ skipn (S (length l)) b = rest /\
    Forall (fun t => (t <= length l)%nat) ts /\
    token_texts (b, ts) = map Some (lex max None false false false [] (l ++ 0 :: rest)).
Proof.
  intros l rest max Hs Hm. set (line := l ++ 0 :: rest).
  assert (Hz : nth_error line (length l) = Some 0) by (unfold line; rewrite nth_error_app2, Nat.sub_diag by lia; reflexivity).
  assert (Hnz : forall j, (j < length l)%nat -> nth_error line j <> Some 0).
  { intros j Hj E. unfold line in E. rewrite nth_error_app1 in E by assumption. apply nth_error_In in E.
    unfold is_string in Hs. rewrite Forall_forall in Hs. apply (Hs 0 E). reflexivity. }
  destruct (loop_refines line (length l) max Hz Hnz (S (length line)) (mkT line 0 None false false false []) None [])
    as [s [E P]].
  - split; [reflexivity|]. split; [cbn; lia|]. split; [reflexivity|]. constructor.
  - cbn. lia.
  - cbn. unfold line. rewrite app_length. cbn. lia.
  - rewrite tokenize_eq, E. cbn [bind]. destruct P as [b [ts [Ef [Lb [Lt [Fr H]]]]]]. exists b, ts.
    split; [assumption|]. split; [assumption|]. split; [assumption|].
    cbn [t_esc t_sq t_dq t_in skipn] in H.
    split; [|split].
    + assert (forall (x y : list Z) , (forall j, nth_error x j = nth_error y j) -> x = y) as Ext.
      { induction x as [|h x IHx]; intros [|h' y] Hx; [reflexivity| | |].
        - specialize (Hx 0%nat). discriminate.
        - specialize (Hx 0%nat). discriminate.
        - f_equal; [specialize (Hx 0%nat); cbn in Hx; congruence|]. apply IHx. intros j. apply (Hx (S j)). }
      apply Ext. intros j. rewrite nth_skipn, Fr by lia. unfold line.
      rewrite nth_error_app2 by lia. replace (S (length l) + j - length l)%nat with (S j) by lia. reflexivity.
    + clear - H. induction H as [|t w ts ws [_ [_ [_ T]]] H IH]; constructor; [lia|assumption].
    + unfold token_texts. cbn [fst snd]. clear - H. induction H as [|t w ts ws [A [B [C D]]] H IH]; cbn [map]; [reflexivity|].
      f_equal; [|assumption]. clear IH H.
      assert (G : forall w b t, holds b t w -> nth_error b (t + length w) = Some 0 -> is_string w -> text_of (skipn t b) = Some w).
      { clear. induction w as [|c w IH]; intros b t A B C.
        - cbn in B. rewrite Nat.add_0_r in B. rewrite (skipn_nth _ t b 0 B). reflexivity.
        - assert (Hc : nth_error b t = Some c) by (rewrite <- (Nat.add_0_r t); apply A; reflexivity).
          rewrite (skipn_nth _ t b c Hc). inversion C as [|? ? Hc0 C']; subst. cbn [text_of].
          apply Z.eqb_neq in Hc0. rewrite Hc0. rewrite (IH b (S t)); [reflexivity| | |assumption].
          + intros j x Hj. replace (S t + j)%nat with (t + S j)%nat by lia. apply A. assumption.
          + cbn in B. replace (S t + length w)%nat with (t + S (length w))%nat by lia. assumption. }
      apply G; assumption.
Qed.

(** *** The words spelled by a line *)
Lemma lex_plain : forall t w, plain t w -> forall r rest max cur out, is_string (t ++ r) -> ends_word r ->
  lex max (Some cur) false false false out (t ++ r ++ 0 :: rest) =
  lex max (Some (cur ++ w)) false false false out (r ++ 0 :: rest).
Proof.
  intros t w H. induction H as [|c t w Hbl Hn Hh Hb H IH|c t w H IH]; intros r rest max cur out Hs He.
  - rewrite app_nil_r. reflexivity.
  - cbn [app lex]. inversion Hs as [|? ? Hc0 Hs']; subst. apply Z.eqb_neq in Hc0, Hb. rewrite Hc0, Hb. cbn [negb andb].
    replace (closes false false c) with false.
    2:{ unfold closes, inq. cbn [andb orb negb]. apply Z.eqb_neq in Hn, Hh. rewrite Hn, Hh.
        unfold blank in Hbl. destruct (c =? SP) eqn:E1; [apply Z.eqb_eq in E1; tauto|].
        destruct (c =? TAB) eqn:E2; [apply Z.eqb_eq in E2; tauto|]. reflexivity. }
    rewrite IH by assumption. rewrite <- app_assoc. reflexivity.
  - cbn [app lex]. inversion Hs as [|? ? Hc0 Hs']; subst. inversion Hs' as [|? ? Hc1 Hs2]; subst.
    apply Z.eqb_neq in Hc0, Hc1. rewrite Hc0, Hc1. change (BS =? BS) with true. cbn [negb andb].
    rewrite IH by assumption. rewrite <- app_assoc. reflexivity.
Qed.

(** After an unquoted word. *)
Lemma lex_after : forall r rest max w out ws, line r ws -> ends_word r -> is_string r -> (length out < max)%nat ->
  lex max (Some w) false false false out (r ++ 0 :: rest) =
  (if (length (out ++ [w]) =? max)%nat then out ++ [w]
   else lex max None false false false (out ++ [w]) (r ++ 0 :: rest)).
Proof.
  intros r rest max w out ws Hl He Hs Hm.
  destruct r as [|c r]; [cbn; destruct (_ =? max)%nat; reflexivity|].
  cbn [app]. inversion Hs as [|? ? Hc0 Hs']; subst. cbn [ends_word] in He.
  destruct He as [[->| ->]|[->| ->]]; cbn [lex Z.eqb SP TAB NL HASH BS SQ DQ negb andb orb closes inq Pos.eqb];
    destruct (length (out ++ [w]) =? max)%nat; reflexivity.
Qed.

Lemma spells_lex : forall t w, spells t w -> forall r rest max out ws, line r ws -> ends_word r -> is_string (t ++ r) ->
  (length out < max)%nat ->
  lex max None false false false out (t ++ r ++ 0 :: rest) =
  (if (length (out ++ [w]) =? max)%nat then out ++ [w]
   else lex max None false false false (out ++ [w]) (r ++ 0 :: rest)).
Proof.
  intros t w H r rest max out ws Hl He Hs Hm.
  assert (Hsr : is_string r) by (apply Forall_app in Hs; apply Hs).
  destruct H as [c t w Hbl Hn Hh Hb Hsq Hdq H|c t w Hbl H|q t w Hq H].
  - cbn [app lex]. inversion Hs as [|? ? Hc0 Hs']; subst. apply Z.eqb_neq in Hc0, Hb, Hsq, Hdq, Hn, Hh.
    rewrite Hc0, Hb, Hsq, Hdq, Hn, Hh. cbn [negb andb orb].
    assert (E : negb (c =? SP) && negb (c =? TAB) = true).
    { unfold blank in Hbl. destruct (c =? SP) eqn:E1; [apply Z.eqb_eq in E1; tauto|].
      destruct (c =? TAB) eqn:E2; [apply Z.eqb_eq in E2; tauto|]. reflexivity. }
    rewrite E. rewrite (lex_plain t w H) by assumption.
    rewrite (lex_after r rest max ([c] ++ w) out ws) by assumption. reflexivity.
  - cbn [app lex]. inversion Hs as [|? ? Hc0 Hs']; subst. inversion Hs' as [|? ? Hc1 Hs2]; subst.
    apply Z.eqb_neq in Hc0, Hc1. rewrite Hc0, Hc1. change (BS =? BS) with true. cbn [negb andb orb].
    assert (E : negb (c =? SP) && negb (c =? TAB) = true).
    { unfold blank in Hbl. destruct (c =? SP) eqn:E1; [apply Z.eqb_eq in E1; tauto|].
      destruct (c =? TAB) eqn:E2; [apply Z.eqb_eq in E2; tauto|]. reflexivity. }
    rewrite E. rewrite (lex_plain t w H) by assumption.
    rewrite (lex_after r rest max ([c] ++ w) out ws) by assumption. reflexivity.
  - cbn [app lex]. inversion Hs as [|? ? Hc0 Hs']; subst.
    rewrite <- app_assoc in Hs'. cbn [app] in Hs'.
    assert (E : lex max None false (q =? SQ) (q =? DQ) out ((t ++ [q]) ++ r ++ 0 :: rest) =
      (if (length (out ++ [w]) =? max)%nat then out ++ [w] else lex max None false false false (out ++ [w]) (r ++ 0 :: rest))).
    { rewrite <- app_assoc. cbn [app]. clear Hs Hc0.
      (* the characters of the word are not zero; what follows does not matter *)
      revert Hs'. clear - Hq H. intros Hs'.
      assert (G : forall l, is_string (t ++ [q]) ->
         lex max None false (q =? SQ) (q =? DQ) out (t ++ q :: l) =
         (if (length (out ++ [w]) =? max)%nat then out ++ [w] else lex max None false false false (out ++ [w]) l)).
      { clear Hs'. intros l Hs. 
        assert (Q : forall t w, quoted q t w -> forall cur out, is_string (t ++ [q]) ->
           lex max (Some cur) false (q =? SQ) (q =? DQ) out (t ++ q :: l) =
           (if (length (out ++ [cur ++ w]) =? max)%nat then out ++ [cur ++ w]
            else lex max None false false false (out ++ [cur ++ w]) l)).
        { clear - Hq. intros t w H. induction H as [|c t w Hc Hb H IH|c t w H IH]; intros cur out Hs.
          - cbn [app lex]. rewrite app_nil_r. inversion Hs as [|? ? Hq0 Hs']; subst. apply Z.eqb_neq in Hq0. rewrite Hq0.
            destruct Hq as [->| ->]; cbn [Z.eqb negb andb]; reflexivity.
          - cbn [app lex]. inversion Hs as [|? ? Hc0 Hs']; subst. apply Z.eqb_neq in Hc0, Hb. rewrite Hc0, Hb. cbn [negb andb].
            replace (closes (q =? SQ) (q =? DQ) c) with false.
            2:{ unfold closes, inq. destruct Hq as [->| ->]; apply Z.eqb_neq in Hc;
                change (SQ =? SQ) with true; change (DQ =? DQ) with true; change (SQ =? DQ) with false; change (DQ =? SQ) with false;
                cbn [andb orb negb]; rewrite Hc; reflexivity. }
            rewrite IH by assumption. rewrite <- app_assoc. reflexivity.
          - cbn [app lex]. inversion Hs as [|? ? Hc0 Hs']; subst. inversion Hs' as [|? ? Hc1 Hs2]; subst.
            apply Z.eqb_neq in Hc0, Hc1. rewrite Hc0, Hc1. change (BS =? BS) with true. cbn [negb andb].
            rewrite IH by assumption. rewrite <- app_assoc. reflexivity. }
        inversion H as [|c t' w' Hc Hb H'|c t' w' H']; subst.
        - cbn [app lex]. inversion Hs as [|? ? Hq0 Hs']; subst. apply Z.eqb_neq in Hq0. rewrite Hq0.
          destruct Hq as [->| ->]; reflexivity.
        - cbn [app lex]. inversion Hs as [|? ? Hc0 Hs']; subst. apply Z.eqb_neq in Hc0, Hb. rewrite Hc0, Hb. cbn [negb andb].
          assert (E1 : (q =? SQ) || (q =? DQ) = true) by (destruct Hq as [->| ->]; reflexivity). rewrite E1.
          replace (inq (q =? SQ) (q =? DQ) c) with false.
          2:{ unfold inq. destruct Hq as [->| ->]; apply Z.eqb_neq in Hc;
              change (SQ =? SQ) with true; change (DQ =? DQ) with true; change (SQ =? DQ) with false; change (DQ =? SQ) with false;
              cbn [andb orb negb]; rewrite Hc; reflexivity. }
          rewrite (Q t' w' H' [c] out Hs'). reflexivity.
        - cbn [app lex]. inversion Hs as [|? ? Hc0 Hs']; subst. inversion Hs' as [|? ? Hc1 Hs2]; subst.
          apply Z.eqb_neq in Hc0, Hc1. rewrite Hc0, Hc1. change (BS =? BS) with true. cbn [negb andb].
          assert (E1 : (q =? SQ) || (q =? DQ) = true) by (destruct Hq as [->| ->]; reflexivity). rewrite E1.
          rewrite (Q t' w' H' [c] out Hs2). reflexivity. }
      apply G. change (t ++ q :: r) with (t ++ [q] ++ r) in Hs'. rewrite app_assoc in Hs'. apply Forall_app in Hs'. apply Hs'. }
    destruct Hq as [->| ->]; exact E.
Qed.

Lemma firstn_more : forall A (l1 l2 : list A) n, (length l1 = n)%nat -> firstn n (l1 ++ l2) = l1.
Proof. intros A l1 l2 n <-. rewrite firstn_app, Nat.sub_diag, firstn_all. cbn. apply app_nil_r. Qed.

Theorem line_lex : forall l ws, line l ws -> forall rest max out, is_string l -> (length out < max)%nat ->
  lex max None false false false out (l ++ 0 :: rest) = firstn max (out ++ ws).
Proof.
  intros l ws H. induction H as [|r|r|c r ws Hb H IH|t w r ws Hsp He H IH]; intros rest max out Hs Hm.
  - cbn. rewrite app_nil_r, firstn_all2 by lia. reflexivity.
  - cbn. rewrite app_nil_r, firstn_all2 by lia. reflexivity.
  - cbn. rewrite app_nil_r, firstn_all2 by lia. reflexivity.
  - inversion Hs as [|? ? Hc0 Hs']; subst. rewrite <- (IH rest max out Hs' Hm).
    destruct Hb as [->| ->]; reflexivity.
  - rewrite <- app_assoc. rewrite (spells_lex t w Hsp r rest max out ws) by assumption.
    change (w :: ws) with ([w] ++ ws). rewrite app_assoc.
    destruct (length (out ++ [w]) =? max)%nat eqn:E.
    + apply Nat.eqb_eq in E. symmetry. apply firstn_more. assumption.
    + apply Nat.eqb_neq in E. rewrite app_length in E. cbn in E. apply IH.
      * apply Forall_app in Hs. apply Hs.
      * rewrite app_length. cbn. lia.
Qed.

Lemma quote_word_spells : forall w, spells (quote_word w) w.
Proof.
  intros w. unfold quote_word. apply s_quoted; [right; reflexivity|].
  induction w as [|c w IH]; cbn [flat_map]; [constructor|].
  destruct ((c =? DQ) || (c =? BS)) eqn:E.
  - cbn [app]. apply q_esc. assumption.
  - apply orb_false_iff in E as [E1 E2]. apply Z.eqb_neq in E1, E2. cbn [app]. apply q_char; assumption.
Qed.

Lemma quote_word_string : forall w, is_string w -> is_string (quote_word w).
Proof.
  intros w H. unfold quote_word. constructor; [discriminate|]. apply Forall_app. split; [|repeat constructor; discriminate].
  induction H as [|c w Hc H IH]; [constructor|]. cbn [flat_map]. apply Forall_app. split; [|assumption].
  destruct ((c =? DQ) || (c =? BS)); repeat constructor; try assumption; discriminate.
Qed.

Lemma quote_line_line : forall ws, line (quote_line ws) ws.
Proof.
  induction ws as [|w ws IH]; [constructor|]. unfold quote_line. cbn [flat_map]. rewrite <- app_assoc. cbn [app].
  apply l_word; [apply quote_word_spells|left; left; reflexivity|]. apply l_blank; [left; reflexivity|exact IH].
Qed.

Lemma quote_line_string : forall ws, Forall is_string ws -> is_string (quote_line ws).
Proof.
  induction 1 as [|w ws H _ IH]; [constructor|]. unfold quote_line. cbn [flat_map]. apply Forall_app.
  split; [|exact IH]. apply Forall_app. split; [apply quote_word_string; assumption|repeat constructor; discriminate].
Qed.
