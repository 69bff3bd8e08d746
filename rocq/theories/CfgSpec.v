(** What a configuration file means (C35).  Words are lists of character codes. *)
Require Import ZArith List Bool.
Import ListNotations.
Open Scope Z_scope.

Definition word := list Z.
Definition word_dec : forall a b : word, {a = b} + {a <> b} := list_eq_dec Z.eq_dec.
Definition DASH := 45. Definition UNDERSCORE := 95. Definition OPEN := 91. Definition CLOSE := 93.

(** Dashes and underscores are the same in section and option names. *)
Definition underscored (w : word) : word := map (fun c => if c =? DASH then UNDERSCORE else c) w.

(** What a line says, given the words on it. *)
Inductive entry := Blank | Section (n : word) | Stanza (name : word) (params : list word).
Inductive reads : list word -> entry -> Prop :=
| r_blank : reads [] Blank
| r_section w n ps : underscored w = OPEN :: n ++ [CLOSE] -> ~ In OPEN n -> ~ In CLOSE n -> reads (w :: ps) (Section n)
| r_stanza w ps : (forall n, underscored w <> OPEN :: n ++ [CLOSE]) ->
    ~ In OPEN (tl w) -> ~ In CLOSE (removelast w) -> reads (w :: ps) (Stanza (underscored w) ps).

(** An option: its name, whether it may only appear in global sections, its number of
    parameters (exactly [n], or at least [-n-1] if negative), and what it does: [Some f] reads
    its parameters into the settings of a section, giving a return code; [None] is the option
    that declares instances of a sync module. *)
Record opt (S : Type) := mkOpt { o_name : word; o_global_only : bool; o_arity : Z;
                                 o_parse : option (S -> list word -> S * Z) }.
Arguments mkOpt {S}. Arguments o_name {S}. Arguments o_global_only {S}. Arguments o_arity {S}. Arguments o_parse {S}.

Definition lookup {S} (t : list (opt S)) (n : word) : option (opt S) :=
  List.find (fun o => if word_dec n (o_name o) then true else false) t.
Definition arity_ok (a : Z) (k : nat) : Prop :=
  (0 <= a -> Z.of_nat k = a) /\ (a < 0 -> - a - 1 <= Z.of_nat k).

(** A section: its category, whether it is the global one of its category, whether instances
    of it may be declared, its name and its settings. *)
Record section (S : Type) := mkSec { s_cat : nat; s_global : bool; s_allows : bool; s_name : word; s_set : S }.
Arguments mkSec {S}. Arguments s_cat {S}. Arguments s_global {S}. Arguments s_allows {S}. Arguments s_name {S}. Arguments s_set {S}.

(** An option line together with the section it is in. *)
Record stanza := mkSt { st_sec : word; st_name : word; st_params : list word }.
Fixpoint stanzas (cur : option word) (es : list entry) : list stanza :=
  match es with
  | [] => []
  | Blank :: es' => stanzas cur es'
  | Section n :: es' => stanzas (Some n) es'
  | Stanza n ps :: es' =>
      match cur with Some s => mkSt s n ps :: stanzas cur es' | None => stanzas cur es' end
  end.

(** The settings of section [x] whose category's global section is [g]: the options given in
    either section, in the order of the file. *)
Definition apply {S} (t : list (opt S)) (s : S) (st : stanza) : S :=
  match lookup t (st_name st) with
  | Some o => match o_parse o with Some f => fst (f s (st_params st)) | None => s end
  | None => s
  end.
Definition effective {S} (t : list (opt S)) (g x : word) (sts : list stanza) (s0 : S) : S :=
  fold_left (fun s st => if word_dec (st_sec st) g then apply t s st
                         else if word_dec (st_sec st) x then apply t s st else s) sts s0.

(** The sections built into the program. *)
Definition boot_ok {S} (boot : list (section S)) : Prop :=
  NoDup (map s_name boot) /\ NoDup (map s_cat boot) /\ Forall (fun b => s_global b = true) boot.

(** Stanza [st] declares instances [ns] of the module whose global section is [g]. *)
Definition declares {S} (t : nat -> option (list (opt S))) (c0 : nat) (g : section S) (st : stanza) (ns : list word) : Prop :=
  exists tb o, t c0 = Some tb /\ lookup tb (st_name st) = Some o /\ o_parse o = None /\ st_params st = s_name g :: ns.

(** Options only appear inside sections. *)
Fixpoint inside (cur : bool) (es : list entry) : Prop :=
  match es with
  | [] => True
  | Blank :: es' => inside cur es'
  | Section _ :: es' => inside true es'
  | Stanza _ _ :: es' => cur = true /\ inside cur es'
  end.

(** The line opens section [n]. *)
Definition is_header (n : word) (l : list word) : bool :=
  match l with [] => false | w :: _ => if word_dec (underscored w) (OPEN :: n ++ [CLOSE]) then true else false end.

(** The section a line after [es] is in. *)
Fixpoint current (cn : option word) (es : list entry) : option word :=
  match es with [] => cn | Section n :: es' => current (Some n) es' | _ :: es' => current cn es' end.

Section Meaning.
Context {S : Type} (table : nat -> option (list (opt S))) (boot : list (section S)).
Definition options (k : nat) : list (opt S) := match table k with Some t => t | None => [] end.

(** The settings of [x]: those built in for its category, then the options of the file. *)
Definition settings (sts : list stanza) (x : section S) : Prop :=
  exists g, In g boot /\ s_cat g = s_cat x /\
    s_set x = effective (options (s_cat x)) (s_name g) (s_name x) sts (s_set g).

(** Some option declares instances [ns] of the module of [g]. *)
Definition declared (l : list (section S)) (sts : list stanza) (g : section S) (ns : list word) : Prop :=
  exists st k, In st sts /\ (exists x, In x l /\ s_name x = st_sec st /\ s_cat x = k) /\ declares table k g st ns.

(** The option is one of its section, allowed there and with the right number of parameters. *)
Definition allowed (x : section S) (st : stanza) : Prop :=
  exists t o, table (s_cat x) = Some t /\ lookup t (st_name st) = Some o /\
    (o_global_only o = true -> s_global x = true) /\ arity_ok (o_arity o) (length (st_params st)).
End Meaning.
