(** Proofs about the edits of chronyd's environment files: the loop (C62). *)
Require Import ZArith List Bool String Lia.
Require Import Verif.Base Verif.ListLib Verif.CevSpec Verif.CevModel Verif.CevProof.
Import ListNotations.
Open Scope Z_scope.

Notation len := (@List.length Z).

(** The lines left, and the option found. *)
Fixpoint go (p : option (list line)) (ls : list line) : list line :=
  match ls with
  | [] => match p with Some q => q | None => [] end
  | l :: r =>
      match p with
      | None => if starts START l then go (Some [l]) r else l :: go None r
      | Some q => if starts FINISH l || (match r with [] => true | _ => false end) then go None r
                  else go (Some (q ++ [l])) r
      end
  end.

Definition next_val (key : list Z) (v : option (list Z)) (l : line) : option (list Z) :=
  match match_option key l with Some x => Some x | None => v end.
Definition val_after (key : list Z) (v : option (list Z)) (u : list line) : option (list Z) :=
  fold_left (next_val key) u v.

Lemma start_no_option : forall key l, key_ok key -> starts START l = true -> match_option key l = None.
Proof.
  intros key l [k [r [-> [N H]]]] S. apply starts_iff in S. destruct S as [t ->]. unfold match_option.
  change (skip_space (START ++ t)) with (35 :: skipn 1 START ++ t). cbn [strip_prefix].
  destruct (k =? 35) eqn:E; [lia|]. reflexivity.
Qed.

Definition enc (ls : list line) : list Z := flat_map (fun l => l ++ [0]) ls.

Lemma enc_app : forall a b, enc (a ++ b) = enc a ++ enc b.
Proof. intros. unfold enc. apply flat_map_app. Qed.
Lemma text_app : forall a b, text (a ++ b) = text a ++ text b.
Proof. intros. unfold text. apply flat_map_app. Qed.
Lemma text_cons : forall l ls, text (l :: ls) = l ++ NEWLINE :: text ls.
Proof. intros. cbn. rewrite <- app_assoc. reflexivity. Qed.
Lemma enc_one : forall l, enc [l] = l ++ [0].
Proof. intros. cbn. rewrite app_nil_r. reflexivity. Qed.

Lemma find_newline_line : forall l r, line_ok l -> find_newline (l ++ NEWLINE :: r) = Some (len l).
Proof.
  induction l as [|c l IH]; intros r H; [reflexivity|]. cbn [app find_newline].
  destruct (H c (or_introl eq_refl)) as [H1 H2]. unfold NEWLINE in *.
  destruct (c =? 0) eqn:E1; [lia|]. destruct (c =? 10) eqn:E2; [lia|].
  rewrite IH; [reflexivity|]. intros x X. apply H. right. exact X.
Qed.

Lemma cstr_line : forall l r, (forall c, In c l -> c <> 0) -> cstr (l ++ 0 :: r) = Some l.
Proof.
  induction l as [|c l IH]; intros r H; [reflexivity|]. cbn [app cstr].
  pose proof (H c (or_introl eq_refl)). destruct (c =? 0) eqn:E1; [lia|].
  rewrite IH; [reflexivity|]. intros x X. apply H. right. exact X.
Qed.

Lemma set_nth_mid : forall (a : list Z) x y r, set_nth (len a) x (a ++ y :: r) = a ++ x :: r.
Proof. induction a as [|c a IH]; intros; cbn; [reflexivity|]. rewrite IH. reflexivity. Qed.

Lemma skipn_len : forall (a b : list Z), skipn (len a) (a ++ b) = b.
Proof. intros. rewrite skipn_app, skipn_all, Nat.sub_diag. reflexivity. Qed.
Lemma firstn_len : forall (a b : list Z), firstn (len a) (a ++ b) = a.
Proof. intros. rewrite firstn_app, firstn_all, Nat.sub_diag. cbn. apply app_nil_r. Qed.

(** One pass over a line, newline mode. *)
Lemma step_line : forall key pre l post fin ours val, line_ok l ->
  edit_step key false (mkE (pre ++ l ++ NEWLINE :: post) (len pre) fin ours val) =
  let b1 := pre ++ (l ++ [0]) ++ post in
  let next := (len pre + len l + 1)%nat in
  match ours with
  | None =>
      if starts START l then Some (mkE b1 next fin (Some (len pre)) val)
      else Some (mkE b1 next fin None (next_val key val l))
  | Some os =>
      if starts FINISH l || (next =? fin)%nat then
        let chunk := (fin - next)%nat in
        let moved := firstn os b1 ++ firstn chunk (skipn next b1) ++ skipn (os + chunk) b1 in
        let fin' := (fin - (next - os))%nat in
        Some (mkE (set_nth fin' 0 moved) os fin' None val)
      else Some (mkE b1 next fin ours val)
  end.
Proof.
  intros key pre l post fin ours val H. unfold edit_step. rewrite skipn_len. cbn [bind].
  rewrite find_newline_line by exact H. cbn [bind].
  assert (B : set_nth (len pre + len l) 0 (pre ++ l ++ NEWLINE :: post) = pre ++ (l ++ [0]) ++ post).
  { rewrite app_assoc. rewrite <- app_length, set_nth_mid. rewrite <- !app_assoc. reflexivity. }
  rewrite B. rewrite skipn_len. rewrite <- app_assoc. cbn [app]. rewrite cstr_line; [|intros c X; apply H, X].
  cbn [bind]. cbv zeta. destruct ours as [os|].
  - reflexivity.
  - destruct (starts START l); [reflexivity|]. unfold next_val. destruct (match_option key l); reflexivity.
Qed.

Lemma loop_lines : forall key, key_ok key -> forall ls, Forall line_ok ls ->
  (forall u junk val fuel, (List.length ls <= fuel)%nat ->
     exists junk' ptr' st',
     edit_loop fuel key false (mkE (enc u ++ text ls ++ junk) (len (enc u)) (len (enc u) + len (text ls)) None val)
     = Some (mkE (enc (u ++ go None ls) ++ junk') ptr' (len (enc (u ++ go None ls))) st' (val_after key val (go None ls)))) /\
  (forall u p junk val fuel, (List.length ls <= fuel)%nat ->
     (ls = [] -> exists b, p = [b] /\ starts START b = true) ->
     exists junk' ptr' st',
     edit_loop fuel key false (mkE (enc u ++ enc p ++ text ls ++ junk) (len (enc u) + len (enc p))
                                   (len (enc u) + len (enc p) + len (text ls)) (Some (len (enc u))) val)
     = Some (mkE (enc (u ++ go (Some p) ls) ++ junk') ptr' (len (enc (u ++ go (Some p) ls))) st'
                 (val_after key val (go (Some p) ls)))).
Proof.
  intros key K. induction ls as [|l ls IH]; intros OK.
  - split.
    + intros u junk val fuel _. exists junk, (len (enc u)), None. cbn [text flat_map go]. rewrite app_nil_r.
      cbn [List.length app]. rewrite Nat.add_0_r. destruct fuel; cbn [edit_loop e_ptr e_end]; rewrite Nat.ltb_irrefl; reflexivity.
    + intros u p junk val fuel _ P. destruct (P eq_refl) as [b [-> B]].
      exists junk, (len (enc u) + len (enc [b]))%nat, (Some (len (enc u))). cbn [text flat_map go].
      rewrite enc_app, app_length. cbn [List.length app]. rewrite Nat.add_0_r.
      assert (V : val_after key val [b] = val).
      { unfold val_after. cbn [fold_left]. unfold next_val. rewrite start_no_option by assumption. reflexivity. }
      rewrite V, <- app_assoc. destruct fuel; cbn [edit_loop e_ptr e_end]; rewrite Nat.ltb_irrefl; reflexivity.
  - inversion OK as [|x y L OK']; subst. specialize (IH OK'). destruct IH as [IHI IHO]. split.
    + intros u junk val fuel F. destruct fuel as [|fuel]; [cbn in F; lia|]. cbn in F.
      rewrite text_cons. rewrite <- app_assoc. cbn [app]. cbn [edit_loop e_ptr e_end].
      assert (LT : (len (enc u) <? len (enc u) + len (l ++ NEWLINE :: text ls))%nat = true).
      { apply Nat.ltb_lt. rewrite app_length. cbn. lia. }
      rewrite LT, step_line by exact L. cbv zeta. cbn [go].
      assert (FIN : (len (enc u) + len (l ++ NEWLINE :: text ls) = len (enc u) + len (enc [l]) + len (text ls))%nat).
      { rewrite enc_one, !app_length. cbn. lia. }
      rewrite FIN. rewrite <- enc_one.
      assert (NXT : (len (enc u) + len l + 1 = len (enc u) + len (enc [l]))%nat) by (rewrite enc_one, app_length; cbn; lia).
      rewrite NXT. destruct (starts START l) eqn:SL; cbn [bind].
      * apply IHO; [lia|]. intros _. exists l. split; [reflexivity|exact SL].
      * specialize (IHI (u ++ [l]) junk (next_val key val l) fuel). rewrite enc_app, app_length, <- app_assoc in IHI.
        destruct IHI as [j [p' [s' E]]]; [lia|]. exists j, p', s'. rewrite E. rewrite <- app_assoc. reflexivity.
    + intros u p junk val fuel F P. destruct fuel as [|fuel]; [cbn in F; lia|]. cbn in F.
      rewrite text_cons. rewrite <- app_assoc. cbn [app]. cbn [edit_loop e_ptr e_end].
      assert (LT : (len (enc u) + len (enc p) <? len (enc u) + len (enc p) + len (l ++ NEWLINE :: text ls))%nat = true).
      { apply Nat.ltb_lt. rewrite app_length. cbn. lia. }
      rewrite LT. rewrite (app_assoc (enc u)), <- app_length, step_line by exact L. cbv zeta. cbn [go].
      set (pre := enc u ++ enc p). set (next := (len pre + len l + 1)%nat).
      set (fin := (len pre + len (l ++ NEWLINE :: text ls))%nat).
      assert (FIN : fin = (next + len (text ls))%nat) by (unfold fin, next; rewrite app_length; cbn; lia).
      assert (NE : (next =? fin)%nat = match ls with [] => true | _ => false end).
      { rewrite FIN. destruct ls as [|m ls']; [cbn; apply Nat.eqb_eq; lia|]. apply Nat.eqb_neq. rewrite text_cons, app_length. cbn. lia. }
      rewrite NE. destruct (starts FINISH l || match ls with [] => true | _ :: _ => false end) eqn:D; cbn [bind].
      * assert (CH : (fin - next = len (text ls))%nat) by lia.
        assert (FN : (fin - (next - len (enc u)) = len (enc u) + len (text ls))%nat).
        { unfold next, pre in *. rewrite app_length in *. lia. }
        rewrite CH, FN. set (b1 := pre ++ (l ++ [0]) ++ text ls ++ junk).
        assert (B1 : firstn (len (enc u)) b1 = enc u) by (unfold b1, pre; rewrite <- app_assoc; apply firstn_len).
        assert (B2 : skipn next b1 = text ls ++ junk).
        { unfold b1. rewrite app_assoc. replace next with (len (pre ++ l ++ [0])); [apply skipn_len|].
          unfold next. rewrite !app_length. cbn. lia. }
        assert (B3 : exists y r, skipn (len (enc u) + len (text ls)) b1 = y :: r).
        { destruct (skipn (len (enc u) + len (text ls)) b1) as [|y r] eqn:E; [|eauto]. exfalso.
          assert (X : len (skipn (len (enc u) + len (text ls)) b1) = 0%nat) by (rewrite E; reflexivity).
          rewrite skipn_length in X. unfold b1, pre in X. rewrite !app_length in X. cbn in X. lia. }
        destruct B3 as [y [r B3]]. rewrite B1, B2, B3, firstn_len.
        replace (set_nth (len (enc u) + len (text ls)) 0 (enc u ++ text ls ++ y :: r)) with (enc u ++ text ls ++ 0 :: r).
        2:{ rewrite (app_assoc (enc u) (text ls) (y :: r)), <- (app_length (enc u) (text ls)), set_nth_mid, <- app_assoc. reflexivity. }
        apply IHI. lia.
      * assert (LS : ls <> []) by (intros ->; rewrite orb_true_r in D; discriminate).
        specialize (IHO u (p ++ [l]) junk val fuel). rewrite enc_app in IHO. rewrite app_length in IHO.
        destruct IHO as [j [p' [s' E]]]; [lia|intros X; exfalso; exact (LS X)|]. exists j, p', s'. etransitivity; [|exact E].
        f_equal. f_equal; [unfold pre; rewrite enc_one, <- !app_assoc; reflexivity|..];
          unfold fin, next, pre; rewrite enc_one, !app_length; cbn; lia.
Qed.

Lemma go_in : forall ls, (forall l, In l (go None ls) -> In l ls) /\
  (forall p l, In l (go (Some p) ls) -> In l p \/ In l ls).
Proof.
  induction ls as [|x ls [IH1 IH2]]; (split; [intros l H|intros p l H]); cbn [go] in H.
  - destruct H.
  - left. exact H.
  - destruct (starts START x).
    + apply IH2 in H. destruct H as [[<-|[]]|H]; [left; reflexivity|right; exact H].
    + destruct H as [<-|H]; [left; reflexivity|right; apply IH1, H].
  - destruct (starts FINISH x || _); [apply IH1 in H; right; right; exact H|].
    apply IH2 in H. destruct H as [H|H]; [|right; right; exact H]. apply in_app_or in H.
    destruct H as [H|[<-|[]]]; [left; exact H|right; left; reflexivity].
Qed.

Lemma map_enc : forall u, (forall l, In l u -> line_ok l) ->
  map (fun c => if c =? 0 then NEWLINE else c) (enc u) = text u.
Proof.
  induction u as [|l u IH]; intros H; [reflexivity|]. cbn [enc text flat_map]. rewrite !map_app. f_equal.
  - f_equal. assert (L : forall c, In c l -> c <> 0) by (intros c X; apply (H l (or_introl eq_refl)), X).
    clear -L. induction l as [|c l IH]; [reflexivity|]. cbn [map]. pose proof (L c (or_introl eq_refl)).
    destruct (c =? 0) eqn:E; [lia|]. f_equal. apply IH. intros x X. apply L. right. exact X.
  - apply IH. intros x X. apply H. right. exact X.
Qed.

Lemma last_text : forall ls, ls <> [] -> last (text ls) 0 = NEWLINE.
Proof.
  intros ls H. destruct (exists_last H) as [a [l ->]]. rewrite text_app. cbn [text flat_map]. rewrite app_nil_r, app_assoc.
  apply last_last.
Qed.

Lemma written_lines : forall key op u junk p st v, (forall l, In l u -> line_ok l) ->
  written key false op (mkE (enc u ++ junk) p (len (enc u)) st v) = text (result key op u v).
Proof.
  intros key op u junk p st v H. unfold written. cbn [e_end e_text e_val]. rewrite firstn_len, map_enc by exact H. cbn [app].
  destruct op; try apply app_nil_r. unfold result. rewrite text_app. f_equal.
  unfold section. rewrite !text_cons. cbn [text flat_map]. rewrite <- !app_assoc. destruct v; reflexivity.
Qed.

Lemma edit_lines : forall key op ls, key_ok key -> Forall line_ok ls ->
  edit_text key op (text ls) = Some (text (result key op (go None ls) (val_after key None (go None ls)))).
Proof.
  intros key op ls K OK. destruct ls as [|l ls0] eqn:LS.
  - cbn [text flat_map edit_text go val_after fold_left].
    f_equal. apply (written_lines key op [] [] 0 None None). intros l [].
  - rewrite <- LS in *. assert (NE : ls <> []) by (rewrite LS; discriminate).
    unfold edit_text. destruct (text ls) as [|c t] eqn:T.
    { rewrite LS, text_cons in T. destruct l; discriminate T. }
    rewrite <- T. rewrite last_text by exact NE. rewrite Z.eqb_refl. cbn [negb].
    destruct (loop_lines key K ls OK) as [L _].
    assert (LEN : (List.length ls <= S (len (text ls)))%nat).
    { clear. induction ls as [|l ls IH]; [cbn; lia|]. rewrite text_cons, app_length. cbn. lia. }
    specialize (L [] (if (len (text ls) mod PAGE =? 0)%nat then [] else [0]) None (S (len (text ls))) LEN).
    destruct L as [j [p [st L]]]. cbn [enc flat_map app List.length Nat.add] in L.
    cbv zeta. rewrite L. cbn [bind]. f_equal. apply written_lines.
    intros m M. rewrite Forall_forall in OK. apply OK, (proj1 (go_in ls)), M.
Qed.

(** ** Sections *)

Lemma go_outside : forall ls, outside ls (go None ls) /\
  (forall b body, begins START b -> (forall x, In x body -> ~ begins FINISH x) -> (ls = [] -> body = []) ->
     outside (b :: body ++ ls) (go (Some (b :: body)) ls)).
Proof.
  induction ls as [|l ls [IH1 IH2]].
  - split; [constructor|]. intros b body B _ N. rewrite (N eq_refl). cbn. apply out_lone, B.
  - split.
    + cbn [go]. destruct (starts START l) eqn:S.
      * apply (IH2 l []); [apply starts_iff, S|intros x []|reflexivity].
      * apply out_keep; [apply starts_false, S|exact IH1].
    + intros b body B N _. cbn [go]. destruct (starts FINISH l) eqn:F; cbn [orb].
      * apply out_section; [exact B|exact N|apply starts_iff, F|exact IH1].
      * apply starts_false in F. destruct ls as [|m ls'].
        -- cbn. apply out_unfinished; [exact B|destruct body; discriminate|].
           intros x X. apply in_app_or in X. destruct X as [X|[<-|[]]]; [apply N, X|exact F].
        -- change (b :: body ++ l :: m :: ls') with ((b :: body) ++ [l] ++ m :: ls'). rewrite app_assoc.
           apply (IH2 b (body ++ [l])); [exact B| |discriminate].
           intros x X. apply in_app_or in X. destruct X as [X|[<-|[]]]; [apply N, X|exact F].
Qed.

Lemma go_body : forall body p ls, (forall x, In x body -> ~ begins FINISH x) -> ls <> [] ->
  go (Some p) (body ++ ls) = go (Some (p ++ body)) ls.
Proof.
  induction body as [|x body IH]; intros p ls H NE; [cbn; rewrite app_nil_r; reflexivity|].
  cbn [app go]. assert (F : starts FINISH x = false) by (apply starts_false, H; left; reflexivity). rewrite F. cbn [orb].
  destruct (body ++ ls) as [|y r] eqn:E; [destruct body; [cbn in E; congruence|discriminate]|].
  rewrite <- E, IH; [|intros z Z; apply H; right; exact Z|exact NE]. rewrite <- app_assoc. reflexivity.
Qed.

Lemma outside_go : forall ls u, outside ls u -> go None ls = u.
Proof.
  induction 1 as [|l ls u N H IH|b body e ls u B N E H IH|b body B NE N|b B]; cbn [go].
  - reflexivity.
  - apply starts_false in N. rewrite N, IH. reflexivity.
  - apply starts_iff in B. rewrite B, go_body; [|exact N|discriminate]. cbn [go]. apply starts_iff in E. rewrite E. exact IH.
  - apply starts_iff in B. rewrite B. destruct (exists_last NE) as [body' [x ->]].
    rewrite go_body; [|intros z Z; apply N, in_or_app; left; exact Z|discriminate]. cbn [go]. rewrite orb_true_r. reflexivity.
  - apply starts_iff in B. rewrite B. reflexivity.
Qed.

(** ** The value in force *)

Lemma val_app : forall key v a b, val_after key v (a ++ b) = val_after key (val_after key v a) b.
Proof. intros. unfold val_after. apply fold_left_app. Qed.

Lemma in_force_val : forall key u v, key_ok key -> (in_force key u v <-> v = val_after key None u).
Proof.
  intros key u v K. assert (SKIP : forall b w, (forall m y, In m b -> ~ assigns key m y) -> val_after key w b = w).
  { induction b as [|m b IH]; intros w H; [reflexivity|]. unfold val_after. cbn [fold_left].
    assert (X : next_val key w m = w).
    { unfold next_val. destruct (match_option key m) as [y|] eqn:M; [|reflexivity].
      exfalso. apply (H m y (or_introl eq_refl)), match_option_iff; assumption. }
    rewrite X. apply IH. intros z y Z. apply H. right. exact Z. }
  split.
  - destruct v as [x|]; intros H.
    + destruct H as [a [l [b [-> [A N]]]]]. change (l :: b) with ([l] ++ b). rewrite app_assoc, val_app, SKIP by exact N.
      rewrite val_app. unfold val_after at 1. cbn [fold_left]. unfold next_val.
      apply match_option_iff in A; [|exact K]. rewrite A. reflexivity.
    + symmetry. apply SKIP, H.
  - intros ->. induction u as [|l u IH] using rev_ind.
    + intros m y [].
    + rewrite val_app. unfold val_after at 1. cbn [fold_left]. unfold next_val. destruct (match_option key l) as [x|] eqn:M.
      * exists u, l, []. split; [reflexivity|]. split; [apply match_option_iff; assumption|intros m y []].
      * destruct (val_after key None u) as [x|]; cbn [in_force] in *.
        -- destruct IH as [a [k [b [-> [A N]]]]]. exists a, k, (b ++ [l]). split; [rewrite <- app_assoc; reflexivity|].
           split; [exact A|]. intros m y X. apply in_app_or in X. destruct X as [X|[<-|[]]]; [apply N, X|].
           intros Y. apply match_option_iff in Y; [congruence|exact K].
        -- intros m y X. apply in_app_or in X. destruct X as [X|[<-|[]]]; [apply IH, X|].
           intros Y. apply match_option_iff in Y; [congruence|exact K].
Qed.

Lemma assigns_in : forall key l v c, assigns key l v -> In c v -> In c l.
Proof.
  intros key l v c [s1 [s2 [s3 [r [-> [_ [_ [_ [_ [q [t [[-> _] _]]]]]]]]]]]] H.
  do 5 (apply in_or_app; right). apply in_or_app. right. apply in_or_app. left. exact H.
Qed.

Lemma in_force_ok : forall key u v, in_force key u (Some v) -> (forall l, In l u -> line_ok l) -> line_ok v.
Proof.
  intros key u v [a [l [b [-> [A _]]]]] H c C. apply (H l); [apply in_or_app; right; left; reflexivity|].
  apply (assigns_in key l v c A C).
Qed.

Lemma clean_outside : forall u, clean u -> outside u u.
Proof.
  induction u as [|l u IH]; intros H; [constructor|]. apply out_keep; [apply H; left; reflexivity|].
  apply IH. intros x X. apply H. right. exact X.
Qed.

Lemma app_outside : forall u ls w, clean u -> outside ls w -> outside (u ++ ls) (u ++ w).
Proof.
  induction u as [|l u IH]; intros ls w H O; [exact O|]. cbn. apply out_keep; [apply H; left; reflexivity|].
  apply IH; [|exact O]. intros x X. apply H. right. exact X.
Qed.

Lemma keys_ok : forall key, KEYS key -> key_ok key.
Proof.
  intros key [->| ->]; (eexists; eexists; split; [reflexivity|]); unfold space; split; cbn; lia.
Qed.

Lemma section_outside : forall key v, KEYS key -> outside (section key v) [].
Proof.
  intros key v K. unfold section. apply (out_section START [_] FINISH [] []).
  - exists []. rewrite app_nil_r. reflexivity.
  - intros x [<-|[]] [r E]. destruct K as [->| ->]; cbn in E; discriminate E.
  - exists []. rewrite app_nil_r. reflexivity.
  - constructor.
Qed.

Lemma section_ok : forall key v, KEYS key -> (forall x, v = Some x -> line_ok x) ->
  forall l, In l (section key v) -> line_ok l.
Proof.
  intros key v K V l H.
  assert (D : forall s, forallb (fun c => negb (c =? 0) && negb (c =? 10)) s = true -> line_ok s).
  { intros s S c C. rewrite forallb_forall in S. specialize (S c C). unfold NEWLINE. lia. }
  destruct H as [<-|[<-|[<-|[]]]]; [apply D; reflexivity| |apply D; reflexivity].
  assert (KO : line_ok key) by (destruct K as [->| ->]; apply D; reflexivity).
  intros c C. repeat (apply in_app_or in C; destruct C as [C|C]).
  - apply KO, C.
  - revert c C. apply D. reflexivity.
  - destruct v as [x|]; [|destruct C]. apply in_app_or in C. destruct C as [C|C]; [apply (V x eq_refl c C)|].
    revert c C. apply D. reflexivity.
  - revert c C. apply D. reflexivity.
Qed.

(** ** A history of requests *)

Lemma requests_steady : forall key u v, KEYS key -> (forall l, In l u -> line_ok l) -> clean u -> in_force key u v ->
  forall ops ls, Forall line_ok ls -> outside ls u ->
  requests key ops (text ls) = Some (text (fold_left (fun ls op => if edits op then result key op u v else ls) ops ls)).
Proof.
  intros key u v K U C V. pose proof (keys_ok _ K) as KO. induction ops as [|op ops IH]; intros ls L O; [reflexivity|].
  cbn [requests fold_left]. destruct (edits op) eqn:E; cbn [bind]; [|apply IH; assumption].
  rewrite edit_lines by assumption. cbn [bind]. rewrite (outside_go _ _ O). apply in_force_val in V as V'; [|exact KO].
  rewrite <- V'. apply IH.
  - apply Forall_forall. intros l X. unfold result in X. destruct op; try (apply U, X).
    apply in_app_or in X. destruct X as [X|X]; [apply U, X|]. apply (section_ok key v K) with (l := l); [|exact X].
    intros x ->. apply (in_force_ok key u x V U).
  - unfold result. destruct op; try (apply clean_outside, C). rewrite <- (app_nil_r u) at 2.
    apply app_outside; [exact C|apply section_outside, K].
Qed.

(** ** A file without a newline at its end *)

Lemma strnlen_all : forall l r, (forall c, In c l -> c <> 0) -> strnlen (l ++ r) (len l) = Some (len l).
Proof.
  induction l as [|c l IH]; intros r H; [destruct r; reflexivity|]. cbn [app List.length strnlen].
  pose proof (H c (or_introl eq_refl)). destruct (c =? 0) eqn:E; [lia|]. rewrite IH; [reflexivity|].
  intros x X. apply H. right. exact X.
Qed.

Lemma cstr_none : forall l, (forall c, In c l -> c <> 0) -> cstr l = None.
Proof.
  induction l as [|c l IH]; intros H; [reflexivity|]. cbn [cstr].
  pose proof (H c (or_introl eq_refl)). destruct (c =? 0) eqn:E; [lia|]. rewrite IH; [reflexivity|].
  intros x X. apply H. right. exact X.
Qed.

Lemma edit_unterminated : forall key op f, f <> [] -> (forall c, In c f -> c <> 0) -> last f 0 <> NEWLINE ->
  edit_text key op f =
  if (len f mod PAGE =? 0)%nat then None
  else Some (f ++ NEWLINE :: text (result key op [] (if starts START f then None else match_option key f))).
Proof.
  intros key op f NE H LST. unfold edit_text. destruct f as [|c0 f0] eqn:F; [congruence|]. rewrite <- F in *. clear c0 f0 F.
  cbv zeta. assert (LE : last f 0 =? NEWLINE = false) by lia. rewrite LE. cbn [negb].
  assert (POS : (0 <? len f)%nat = true) by (destruct f; [congruence|reflexivity]).
  cbn [edit_loop e_ptr e_end]. rewrite POS. unfold edit_step. cbn [skipn]. rewrite Nat.sub_0_r.
  rewrite strnlen_all by exact H. cbn [bind]. rewrite Nat.eqb_refl. cbn [bind skipn].
  destruct (len f mod PAGE =? 0)%nat.
  { rewrite app_nil_r, cstr_none by exact H. reflexivity. }
  rewrite cstr_line by exact H. cbn [bind].
  assert (LOOP : forall st v, edit_loop (len f) key true (mkE (f ++ [0]) (len f) (len f) st v) = Some (mkE (f ++ [0]) (len f) (len f) st v)).
  { intros st v. destruct (len f); cbn [edit_loop e_ptr e_end]; rewrite Nat.ltb_irrefl; reflexivity. }
  assert (MAP : map (fun c => if c =? 0 then NEWLINE else c) f = f).
  { clear -H. induction f as [|c f IH]; [reflexivity|]. cbn [map]. pose proof (H c (or_introl eq_refl)).
    destruct (c =? 0) eqn:E; [lia|]. f_equal. apply IH. intros x X. apply H. right. exact X. }
  assert (W : forall st v, written key true op (mkE (f ++ [0]) (len f) (len f) st v) = f ++ NEWLINE :: text (result key op [] v)).
  { intros st v. unfold written. cbn [e_end e_text e_val]. rewrite firstn_len, MAP. f_equal. cbn [app]. f_equal.
    destruct op; try reflexivity. unfold result, section. cbn [app]. rewrite !text_cons. cbn [text flat_map].
    rewrite <- !app_assoc. destruct v; reflexivity. }
  destruct (starts START f); [|destruct (match_option key f)]; cbn [bind]; rewrite LOOP; cbn [bind]; rewrite W; reflexivity.
Qed.

(** A zero byte. *)
Lemma find_newline_zero : forall l r, (forall c, In c l -> c <> NEWLINE) -> find_newline (l ++ 0 :: r) = None.
Proof.
  induction l as [|c l IH]; intros r H; [reflexivity|]. cbn [app find_newline]. destruct (c =? 0); [reflexivity|].
  pose proof (H c (or_introl eq_refl)) as X. destruct (c =? NEWLINE) eqn:E; [lia|]. rewrite IH; [reflexivity|].
  intros x Y. apply H. right. exact Y.
Qed.
