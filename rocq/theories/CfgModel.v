(** Model of configuration file parsing, src/sfptpd_config.c:255-421, 525-620, 768-897 and
    src/sfptpd_general_config.c:405-470, 1643-1667.  The array of linked lists of sections
    (one per category) is kept as one list of sections in order of creation; the list of a
    category is its sublist.  Sections are only ever appended, so a section pointer is an
    index.  Parameters are words: the tokens are disjoint strings in the line buffer.
    Logging is left out. *)
Require Import ZArith List Bool.
Require Import Verif.Base Verif.ListLib Verif.StrSpec Verif.TokModel Verif.CfgSpec.
Import ListNotations.
Open Scope Z_scope.

Definition EINVAL := 22. Definition ENOENT := 2. Definition ERANGE := 34. Definition EEXIST := 17.
Definition NAME_MAX : nat := 64.   (* include/sfptpd_config.h:450 *)
Definition CRNY : nat := 5.        (* include/sfptpd_config.h:475 *)
Definition crny_name : word := [99; 114; 110; 121].         (* "crny", include/sfptpd_crny_module.h:23 *)
Definition crny0_name : word := [99; 114; 110; 121; 48].    (* "crny0", src/crny/sfptpd_crny_module.c:2498 *)

(** strcmp(a, b) == 0 *)
Definition weqb (a b : word) : bool := if word_dec a b then true else false.

Section Config.
Variable S : Type.
(** config_options[category]: the option set, src/sfptpd_config.c:56. *)
Variable table : nat -> option (list (opt S)).
(** The validator of each set: none, the one of the general section
    (sfptpd_general_config.c:395), or one that only looks at the section
    (crny/sfptpd_crny_module.c:413-430, the file system being fixed). *)
Inductive validator := VNone | VGeneral | VCheck (f : S -> Z).
Variable valid : nat -> validator.
(** What crny's create does to the copied settings of an implicit instance
    (crny/sfptpd_crny_module.c:2497-2500). *)
Variable implicit : S -> S.

Record cfg := mkCfg { c_secs : list (section S); c_decl : list nat }.

(** sfptpd_config_find, lines 603-620. *)
Fixpoint find_from (i : nat) (l : list (section S)) (n : word) : option nat :=
  match l with
  | [] => None
  | s :: l' => if weqb (s_name s) n then Some i else find_from (Datatypes.S i) l' n
  end.
Definition cfg_find (c : cfg) (n : word) : option nat := find_from 0 (c_secs c) n.

(** sfptpd_config_section_add, lines 525-552, of an instance: the assertion that the name is
    new (537). *)
Definition sec_add (c : cfg) (s : section S) : option cfg :=
  match cfg_find c (s_name s) with
  | None => Some (mkCfg (c_secs c ++ [s]) (c_decl c))
  | Some _ => None
  end.

(** The loop of parse_sync_module, sfptpd_general_config.c:438-467: the create function
    copies the settings of the parent (e.g. ptp/sfptpd_ptp_config.c:1715-1757). *)
Fixpoint create_instances (c : cfg) (parent : nat) (ns : list word) : option (cfg * Z) :=
  match ns with
  | [] => Some (c, 0)
  | n :: ns' =>
      if (NAME_MAX <=? length n)%nat then Some (c, ERANGE)
      else match cfg_find c n with
      | Some _ => Some (c, EEXIST)
      | None =>
          do p <- nth_error (c_secs c) parent;
          do c' <- sec_add c (mkSec (s_cat p) false false n (s_set p));
          create_instances c' parent ns'
      end
  end.

(** parse_sync_module, sfptpd_general_config.c:405-470. *)
Definition parse_sync_module (c : cfg) (ps : list word) : option (cfg * Z) :=
  match ps with
  | [] => None   (* assert(num_params >= 1), line 410 *)
  | m :: ns =>
      match cfg_find c m with
      | None => Some (c, ENOENT)
      | Some i =>
          do p <- nth_error (c_secs c) i;
          if negb (s_global p) then Some (c, ENOENT)
          else if negb (s_allows p) then Some (c, EINVAL)
          else create_instances (mkCfg (c_secs c) (s_cat p :: c_decl c)) i ns
      end
  end.

(** The loop over the instances of a category, sfptpd_config.c:383-392: every section of the
    category but the first; assert(rc == 0). *)
Fixpoint to_instances (seen : bool) (cat : nat) (f : S -> list word -> S * Z) (ps : list word)
  (l : list (section S)) : option (list (section S)) :=
  match l with
  | [] => Some []
  | s :: l' =>
      if negb (s_cat s =? cat)%nat then do r <- to_instances seen cat f ps l'; Some (s :: r)
      else if negb seen then do r <- to_instances true cat f ps l'; Some (s :: r)
      else let (v, rc) := f (s_set s) ps in
           if negb (rc =? 0) then None
           else do r <- to_instances seen cat f ps l';
                Some (mkSec (s_cat s) (s_global s) (s_allows s) (s_name s) v :: r)
  end.

Definition with_set (s : section S) (v : S) : section S :=
  mkSec (s_cat s) (s_global s) (s_allows s) (s_name s) v.

(** The loop over the option table, lines 325-329. *)
Fixpoint opt_find (t : list (opt S)) (n : word) : option (opt S) :=
  match t with
  | [] => None
  | o :: t' => if weqb n (o_name o) then Some o else opt_find t' n
  end.

(** Lines 341-345; num_params is unsigned, ~n = -n - 1. *)
Definition bad_arity (a : Z) (k : nat) : bool :=
  if 0 <=? a then negb (Z.of_nat k =? a) else Z.of_nat k <? Z.lnot a.

(** config_parse_option, lines 296-401: the configuration and the errno (0 for success).
    Instances of the section holding the declaring option do not exist in the program (the
    general section does not allow instances); with any, the declaration would be repeated
    and fail. *)
Definition parse_option (c : cfg) (cur : nat) (name : word) (ps : list word) : option (cfg * Z) :=
  do sec <- nth_error (c_secs c) cur;
  match table (s_cat sec) with
  | None => Some (c, ENOENT)
  | Some t =>
      match opt_find t name with
      | None => Some (c, ENOENT)
      | Some o =>
          if o_global_only o && negb (s_global sec) then Some (c, EINVAL)
          else if bad_arity (o_arity o) (length ps) then Some (c, EINVAL)
          else match o_parse o with
          | Some f =>
              let (v, rc) := f (s_set sec) ps in
              let c' := mkCfg (set_nth cur (with_set sec v) (c_secs c)) (c_decl c) in
              if negb (rc =? 0) then Some (c', rc)
              else if s_global sec then
                do l <- to_instances false (s_cat sec) f ps (c_secs c');
                Some (mkCfg l (c_decl c), 0)
              else Some (c', 0)
          | None => parse_sync_module c ps
          end
      end
  end.

(** The validator of the section being closed, lines 846-848 and 891-893, and
    validate_config, sfptpd_general_config.c:1643-1667. *)
Definition validate (c : cfg) (cur : nat) : option (cfg * Z) :=
  do sec <- nth_error (c_secs c) cur;
  do _ <- table (s_cat sec);   (* config_options[...]-> *)
  match valid (s_cat sec) with
  | VNone => Some (c, 0)
  | VCheck f => Some (c, f (s_set sec))
  | VGeneral =>
      do i <- cfg_find c crny_name;
      do p <- nth_error (c_secs c) i;
      if negb (s_global p) then None
      else if negb (s_cat p =? CRNY)%nat then None   (* assert, crny/sfptpd_crny_module.c:2476 *)
      else if existsb (Nat.eqb CRNY) (c_decl c) then Some (c, 0)
      else do c' <- sec_add c (mkSec CRNY false false crny0_name (implicit (s_set p)));
           Some (c', 0)
  end.

(** config_syntax_check, lines 266-288: the last '[' is the first character and the first ']'
    the last one. *)
Fixpoint index_of (x : Z) (w : word) : option nat :=
  match w with
  | [] => None
  | c :: w' => if c =? x then Some O else option_map Datatypes.S (index_of x w')
  end.
Fixpoint rindex_of (x : Z) (w : word) : option nat :=
  match w with
  | [] => None
  | c :: w' => match rindex_of x w' with
               | Some i => Some (Datatypes.S i)
               | None => if c =? x then Some O else None
               end
  end.
Definition syntax_bad (w : word) : bool :=
  match rindex_of OPEN w with Some i => negb (i =? 0)%nat | None => false end ||
  match index_of CLOSE w with Some i => negb (i =? length w - 1)%nat | None => false end.

(** config_is_new_section, lines 404-421. *)
Definition new_section (w : word) : option word :=
  match w with
  | [] => None
  | c :: w' => if (c =? OPEN) && (last w 0 =? CLOSE) then Some (removelast w') else None
  end.

(** convert_dashes_to_underscores, lines 255-263. *)
Fixpoint convert_dashes (w : word) : word :=
  match w with [] => [] | c :: w' => (if c =? 45 then 95 else c) :: convert_dashes w' end.

(** The body of the loop of sfptpd_config_parse_file, lines 830-887, on the tokens of a line.
    The current section is an index or NULL.  The result is the state and the errno. *)
Definition parse_line (c : cfg) (cur : option nat) (ts : list word) : option ((cfg * option nat) * Z) :=
  match ts with
  | [] => Some ((c, cur), 0)
  | w :: ps =>
      let w := convert_dashes w in
      if syntax_bad w then Some ((c, cur), EINVAL)
      else match new_section w with
      | Some n =>
          do r <- match cur with Some i => validate c i | None => Some (c, 0) end;
          let (c', rc) := r in
          if negb (rc =? 0) then Some ((c', cur), rc)
          else match cfg_find c' n with
               | None => Some ((c', None), ENOENT)
               | Some i => Some ((c', Some i), 0)
               end
      | None =>
          match cur with
          | Some i => do r <- parse_option c i w ps; let (c', rc) := r in Some ((c', cur), rc)
          | None => Some ((c, cur), EINVAL)
          end
      end
  end.

Fixpoint parse_lines (c : cfg) (cur : option nat) (ls : list (list word)) : option ((cfg * option nat) * Z) :=
  match ls with
  | [] => Some ((c, cur), 0)
  | l :: ls' =>
      do r <- parse_line c cur l;
      let '((c', cur'), rc) := r in
      if negb (rc =? 0) then Some ((c', cur'), rc) else parse_lines c' cur' ls'
  end.

(** The loop and the validation of the last section, lines 828-893; [None] is an assertion
    failure or a null dereference. *)
Definition parse_tokens (boot : list (section S)) (ls : list (list word)) : option (cfg * Z) :=
  do r <- parse_lines (mkCfg boot []) None ls;
  let '((c, cur), rc) := r in
  if negb (rc =? 0) then Some (c, rc)
  else do i <- cur; validate c i.

(** fgets(line, size, f): up to and including a newline, or size - 1 characters. *)
Fixpoint fgets_lines (room : nat) (size : nat) (acc : list Z) (f : list Z) : list (list Z) :=
  match f with
  | [] => match acc with [] => [] | _ => [acc] end
  | ch :: f' =>
      let acc' := acc ++ [ch] in
      match room with
      | O => acc' :: fgets_lines (size - 2) size [] f'
      | Datatypes.S r => if ch =? 10 then acc' :: fgets_lines (size - 2) size [] f'
                         else fgets_lines r size acc' f'
      end
  end.

(** tokenize(line, 64, tokens), line 830. *)
Definition line_tokens (l : list Z) : option (list word) :=
  do r <- tokenize 64 (l ++ [0]);
  fold_right (fun t acc => do w <- t; do ws <- acc; Some (w :: ws)) (Some []) (token_texts r).
Fixpoint all_tokens (ls : list (list Z)) : option (list (list word)) :=
  match ls with
  | [] => Some []
  | l :: ls' => do t <- line_tokens l; do r <- all_tokens ls'; Some (t :: r)
  end.

(** sfptpd_config_parse_file, lines 828-896, on the contents of the file.  Tokenizing does
    not depend on the configuration, so all lines are tokenized first. *)
Definition parse_file (boot : list (section S)) (f : list Z) : option (cfg * Z) :=
  do ls <- all_tokens (fgets_lines (1024 - 2) 1024 [] f);
  parse_tokens boot ls.
End Config.
