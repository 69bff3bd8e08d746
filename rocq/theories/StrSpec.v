(** Specification vocabulary for strings (C48, C49).  Characters are their codes; a string
    is its characters without the terminating zero. *)
Require Import ZArith List Bool.
Import ListNotations.
Open Scope Z_scope.

Definition is_string (s : list Z) : Prop := Forall (fun c => c <> 0) s.

(** Text held in a buffer: the characters up to the first zero; [None] if there is none. *)
Fixpoint text_of (b : list Z) : option (list Z) :=
  match b with
  | [] => None
  | c :: r => if c =? 0 then Some [] else option_map (cons c) (text_of r)
  end.

(** ** Format strings *)

(** What a conversion produces: [None] is failure. *)
Record conversion := mkConv { cv_char : Z; cv_has_opt : bool; cv_text : Z -> option (list Z) }.

Definition PERCENT : Z := 37.

(** The expansion of a format: ordinary characters stand for themselves, %% for a percent
    sign, %c (or %co if the conversion takes an option character) for the text of the first
    conversion listed with character c; a character that is not listed stands for nothing.
    [None]: the format is incomplete or a conversion fails. *)
Inductive expands (cs : list conversion) : list Z -> list Z -> Prop :=
| ex_end : expands cs [] []
| ex_char c r t : c <> PERCENT -> expands cs r t -> expands cs (c :: r) (c :: t)
| ex_percent r t : expands cs r t -> expands cs (PERCENT :: PERCENT :: r) (PERCENT :: t)
| ex_unknown c r t : c <> PERCENT -> (forall cv, In cv cs -> cv_char cv <> c) ->
    expands cs r t -> expands cs (PERCENT :: c :: r) t
| ex_conv c cv before after x r t : c <> PERCENT -> cs = before ++ cv :: after ->
    (forall cv', In cv' before -> cv_char cv' <> c) -> cv_char cv = c -> cv_has_opt cv = false ->
    cv_text cv 0 = Some x -> expands cs r t -> expands cs (PERCENT :: c :: r) (x ++ t)
| ex_conv_opt c cv before after o x r t : c <> PERCENT -> cs = before ++ cv :: after ->
    (forall cv', In cv' before -> cv_char cv' <> c) -> cv_char cv = c -> cv_has_opt cv = true ->
    cv_text cv o = Some x -> expands cs r t -> expands cs (PERCENT :: c :: o :: r) (x ++ t).
