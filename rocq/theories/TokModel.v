(** Model of tokenize, src/sfptpd_config.c:141-252. *)
Require Import ZArith List Bool.
Require Import Verif.Base Verif.ListLib Verif.StrSpec Verif.TokSpec.
Import ListNotations.
Open Scope Z_scope.

(** Loop state: the line buffer, the index of [input] in it, the index of the current token
    if any, the flags, and the indices stored in tokens[] so far. *)
Record tst := mkT { t_buf : list Z; t_in : nat; t_tok : option nat;
                    t_esc : bool; t_sq : bool; t_dq : bool; t_out : list nat }.

(** *p = '\0' and tokens[token_count++] = token: [None] is an access out of bounds. *)
Definition put0 (i : nat) (b : list Z) : option (list Z) :=
  if (i <? length b)%nat then Some (set_nth i 0 b) else None.
Definition push (max : nat) (out : list nat) (t : nat) : option (list nat) :=
  if (length out <? max)%nat then Some (out ++ [t]) else None.

(** memmove(token + 1, token, input - token - 1), line 213. *)
Definition shift_up (b : list Z) (tok i : nat) : option (list Z) :=
  if ((tok <? i) && (i <=? length b))%nat
  then Some (firstn (S tok) b ++ firstn (i - tok - 1) (skipn tok b) ++ skipn i b) else None.

Definition in_quote (s : tst) (c : Z) : bool :=
  (t_sq s && (c =? SQ)) || (t_dq s && (c =? DQ)).

(** One pass through the loop, lines 150-238: [inl] leaves the loop. *)
Definition tok_step (max : nat) (s : tst) : option (tst + tst) :=
  let (b, i, tok, esc, sq, dq, out) := s in
  do c <- nth_error b i;
  if c =? 0 then Some (inl s)
  else if negb esc && (c =? BS) then Some (inr (mkT b (S i) tok true sq dq out))
  else match tok with
  | None =>
      if sq || dq then
        if negb esc && in_quote s c then
          do b' <- put0 i b; do out' <- push max out i;
          if (length out' =? max)%nat then Some (inl (mkT b' i None esc false false out'))
          else Some (inr (mkT b' (S i) None false false false out'))
        else Some (inr (mkT b (S i) (Some i) false sq dq out))
      else if negb esc && (c =? SQ) then Some (inr (mkT b (S i) None false true dq out))
      else if negb esc && (c =? DQ) then Some (inr (mkT b (S i) None false sq true out))
      else if negb esc && ((c =? NL) || (c =? HASH)) then Some (inl s)
      else if negb (c =? SP) && negb (c =? TAB) then Some (inr (mkT b (S i) (Some i) false sq dq out))
      else Some (inr (mkT b (S i) None false sq dq out))
  | Some t =>
      if esc then do b' <- shift_up b t i; Some (inr (mkT b' (S i) (Some (S t)) false sq dq out))
      else if in_quote s c ||
              (negb sq && negb dq && ((c =? SP) || (c =? TAB) || (c =? NL) || (c =? HASH))) then
        do b' <- put0 i b; do out' <- push max out t;
        if (c =? NL) || (c =? HASH) || (length out' =? max)%nat
        then Some (inl (mkT b' i None esc false false out'))
        else Some (inr (mkT b' (S i) None esc false false out'))
      else Some (inr (mkT b (S i) tok esc sq dq out))
  end.

Fixpoint tok_loop (fuel max : nat) (s : tst) : option tst :=
  match fuel with
  | O => None
  | S f => do r <- tok_step max s;
           match r with inl s' => Some s' | inr s' => tok_loop f max s' end
  end.

(** tokenize: the buffer afterwards and the indices of the tokens in it.  [None] is an access
    out of bounds; the loop ends within the length of the buffer. *)
Definition tokenize (max : nat) (input : list Z) : option (list Z * list nat) :=
  do s <- tok_loop (S (length input)) max (mkT input 0 None false false false []);
  match t_tok s with
  | None => Some (t_buf s, t_out s)
  | Some t =>
      do b <- (if t_esc s
               then match t_in s with O => None | S i => put0 i (t_buf s) end
               else put0 (t_in s) (t_buf s));
      do out <- push max (t_out s) t;
      Some (b, out)
  end.

(** The strings the tokens point to; [None] if one is not terminated. *)
Definition token_texts (r : list Z * list nat) : list (option (list Z)) :=
  map (fun i => text_of (skipn i (fst r))) (snd r).
