(** How configuration lines spell words (C34).  Characters are their codes. *)
Require Import ZArith List Bool.
Import ListNotations.
Open Scope Z_scope.

Definition SP := 32. Definition TAB := 9. Definition NL := 10. Definition HASH := 35.
Definition BS := 92. Definition SQ := 39. Definition DQ := 34.
Definition blank (c : Z) : Prop := c = SP \/ c = TAB.

(** Text between quotes [q]: any character stands for itself except the quote and the
    backslash; a backslash makes the next character stand for itself. *)
Inductive quoted (q : Z) : list Z -> list Z -> Prop :=
| q_end : quoted q [] []
| q_char c t w : c <> q -> c <> BS -> quoted q t w -> quoted q (c :: t) (c :: w)
| q_esc c t w : quoted q t w -> quoted q (BS :: c :: t) (c :: w).

(** The rest of an unquoted word. *)
Inductive plain : list Z -> list Z -> Prop :=
| p_end : plain [] []
| p_char c t w : ~ blank c -> c <> NL -> c <> HASH -> c <> BS -> plain t w -> plain (c :: t) (c :: w)
| p_esc c t w : plain t w -> plain (BS :: c :: t) (c :: w).

(** A word: unquoted (not starting with a quote, nor with an escaped blank), or in single or
    double quotes. *)
Inductive spells : list Z -> list Z -> Prop :=
| s_char c t w : ~ blank c -> c <> NL -> c <> HASH -> c <> BS -> c <> SQ -> c <> DQ ->
    plain t w -> spells (c :: t) (c :: w)
| s_esc c t w : ~ blank c -> plain t w -> spells (BS :: c :: t) (c :: w)
| s_quoted q t w : q = SQ \/ q = DQ -> quoted q t w -> spells (q :: t ++ [q]) w.

(** What may follow a word. *)
Definition ends_word (r : list Z) : Prop :=
  match r with [] => True | c :: _ => blank c \/ c = NL \/ c = HASH end.

(** A line and the words it spells: words separated by blanks, up to the end of the line or
    a comment. *)
Inductive line : list Z -> list (list Z) -> Prop :=
| l_end : line [] []
| l_newline r : line (NL :: r) []
| l_comment r : line (HASH :: r) []
| l_blank c r ws : blank c -> line r ws -> line (c :: r) ws
| l_word t w r ws : spells t w -> ends_word r -> line r ws -> line (t ++ r) (w :: ws).

(** A way to write any list of words. *)
Definition quote_word (w : list Z) : list Z :=
  DQ :: flat_map (fun c => if (c =? DQ) || (c =? BS) then [BS; c] else [c]) w ++ [DQ].
Definition quote_line (ws : list (list Z)) : list Z := flat_map (fun w => quote_word w ++ [SP]) ws.
