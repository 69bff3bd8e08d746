(** C34: splitting configuration lines into words. *)
Require Import ZArith Lia List Bool Arith.
Require Import Verif.Base Verif.ListLib Verif.StrSpec Verif.TokSpec Verif.TokModel Verif.TokProof.
Import ListNotations.
Open Scope Z_scope.

(** Whatever the line, no access leaves the buffer or the token array, at most [max] tokens
    are returned, each a terminated string inside the line; bytes after the line are kept. *)
Theorem C34_safe : forall l rest max, is_string l -> (0 < max)%nat ->
  exists b ts ws, tokenize max (l ++ 0 :: rest) = Some (b, ts) /\ length b = length (l ++ 0 :: rest) /\
    (length ts <= max)%nat /\ skipn (S (length l)) b = rest /\
    Forall (fun t => (t <= length l)%nat) ts /\ token_texts (b, ts) = map Some ws.
Proof.
  intros l rest max Hs Hm. destruct (tokenize_refines l rest max Hs Hm) as [b [ts [A [B [C [D [E F]]]]]]].
  exists b, ts. eexists. repeat (split; [eassumption|]). eassumption.
Qed.
Print Assumptions C34_safe.

(** A line that spells words gives those words in order, up to the size of the token array. *)
Theorem C34_words : forall l ws rest max, is_string l -> line l ws -> (0 < max)%nat ->
  exists b ts, tokenize max (l ++ 0 :: rest) = Some (b, ts) /\
    token_texts (b, ts) = map Some (firstn max ws).
Proof.
  intros l ws rest max Hs Hl Hm. destruct (tokenize_refines l rest max Hs Hm) as [b [ts [A [_ [_ [_ [_ F]]]]]]].
  exists b, ts. split; [assumption|]. rewrite F. f_equal. apply (line_lex l ws Hl rest max []); assumption.
Qed.
Print Assumptions C34_words.

(** Any words at all can be written, empty ones, blanks, quotes, hashes and backslashes
    included, and come back. *)
Theorem C34_round_trip : forall ws rest max, Forall is_string ws -> (length ws <= max)%nat -> (0 < max)%nat ->
  exists b ts, tokenize max (quote_line ws ++ 0 :: rest) = Some (b, ts) /\ token_texts (b, ts) = map Some ws.
Proof.
  intros ws rest max Hs Hw Hm.
  destruct (C34_words (quote_line ws) ws rest max (quote_line_string ws Hs) (quote_line_line ws) Hm) as [b [ts [A B]]].
  exists b, ts. split; [assumption|]. rewrite B, firstn_all2 by assumption. reflexivity.
Qed.
Print Assumptions C34_round_trip.

(** A line spells at most one list of words, so [line] says what the words are. *)
Theorem C34_unique : forall l ws ws', is_string l -> line l ws -> line l ws' -> ws = ws'.
Proof.
  intros l ws ws' Hs H H'.
  pose proof (line_lex l ws H [] (S (length ws + length ws')) [] Hs ltac:(cbn; lia)) as A.
  pose proof (line_lex l ws' H' [] (S (length ws + length ws')) [] Hs ltac:(cbn; lia)) as B.
  rewrite A in B. cbn [app] in B. rewrite !firstn_all2 in B by lia. assumption.
Qed.
Print Assumptions C34_unique.

(** An escaped blank at the start of a word is lost: the line [\ a] gives the word [a], and
    [x \  y] the words [x] and [y]. *)
Theorem C34_escaped_blank_refuted :
  (exists b ts, tokenize 64 [BS; SP; 97; 0] = Some (b, ts) /\ token_texts (b, ts) = [Some [97]]) /\
  (exists b ts, tokenize 64 [120; SP; BS; SP; SP; 121; 0] = Some (b, ts) /\ token_texts (b, ts) = [Some [120]; Some [121]]).
Proof. split; eexists; eexists; (split; [vm_compute; reflexivity|vm_compute; reflexivity]). Qed.
Print Assumptions C34_escaped_blank_refuted.

(** With no room for tokens at all, a word is stored past the end of the array. *)
Theorem C34_no_tokens_refuted : exists l, is_string l /\ tokenize 0 (l ++ [0]) = None.
Proof. exists [97]. split; [repeat constructor; discriminate|reflexivity]. Qed.
Print Assumptions C34_no_tokens_refuted.

(** An unquoted word with an escaped blank, a word in double quotes with an escaped quote and
    a hash, an empty word in single quotes, a word followed by a comment. *)
Definition ex_line : list Z :=
  [97; BS; SP; 98; SP; SP; DQ; 99; SP; BS; DQ; 100; HASH; DQ; TAB; SQ; SQ; SP; 101; HASH; 102; NL].
Definition ex_words : list (list Z) := [[97; SP; 98]; [99; SP; DQ; 100; HASH]; []; [101]].
Example ex_is_line : is_string ex_line /\ line ex_line ex_words.
Proof.
  split; [repeat constructor; discriminate|].
  apply (l_word [97; BS; SP; 98]); [|left; left; reflexivity|].
  - apply s_char; try discriminate; [intros [H|H]; discriminate|]. apply p_esc. apply p_char; try discriminate; [intros [H|H]; discriminate|]. constructor.
  - do 2 (apply l_blank; [left; reflexivity|]).
    apply (l_word (DQ :: [99; SP; BS; DQ; 100; HASH] ++ [DQ])); [|left; right; reflexivity|].
    + apply s_quoted; [right; reflexivity|]. do 2 (apply q_char; [discriminate|discriminate|]). apply q_esc.
      do 2 (apply q_char; [discriminate|discriminate|]). constructor.
    + apply l_blank; [right; reflexivity|].
      apply (l_word (SQ :: [] ++ [SQ])); [apply s_quoted; [left; reflexivity|constructor]|left; left; reflexivity|].
      apply l_blank; [left; reflexivity|]. apply (l_word [101]); [|right; right; reflexivity|constructor].
      apply s_char; try discriminate; [intros [H|H]; discriminate|constructor].
Qed.
Example ex_tokenize : exists b ts, tokenize 64 (ex_line ++ [0; 7]) = Some (b, ts) /\ token_texts (b, ts) = map Some ex_words.
Proof. eexists; eexists; (split; [vm_compute; reflexivity|vm_compute; reflexivity]). Qed.
