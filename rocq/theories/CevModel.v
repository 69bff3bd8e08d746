(** Model of the edits of chronyd's environment files by sfptpd and its privileged helper,
    src/crny/sfptpd_crny_helper.c:159-398. *)
Require Import ZArith List Bool String.
Require Import Verif.Base Verif.ListLib Verif.CevSpec.
Import ListNotations.
Open Scope Z_scope.

Definition PAGE : nat := 4096.
Definition ENOENT := 2.

(** env_files, lines 171-174: path and default_key; the pattern of each names the same key. *)
Definition KEY_SYSCONFIG := txt "OPTIONS".
Definition KEY_DEFAULT := txt "DAEMON_OPTS".

(** isspace of the C locale. *)
Definition isspace (c : Z) : bool := (c =? 32) || ((9 <=? c) && (c <=? 13)).

Fixpoint strip_prefix (p l : list Z) : option (list Z) :=
  match p, l with
  | [], _ => Some l
  | a :: p', b :: l' => if a =? b then strip_prefix p' l' else None
  | _, [] => None
  end.

(** regexec of our_lines_start_re, our_lines_end_re (lines 179-180): anchored at the start
    of the string only. *)
Definition starts (p l : list Z) : bool :=
  match strip_prefix p l with Some _ => true | None => false end.

Fixpoint skip_space (l : list Z) : list Z :=
  match l with c :: r => if isspace c then skip_space r else l | [] => [] end.

(** The part before the first quote and the part after it. *)
Fixpoint split_quote (l : list Z) : option (list Z * list Z) :=
  match l with
  | [] => None
  | c :: r => if c =? QUOTE then Some ([], r)
              else match split_quote r with Some (a, b) => Some (c :: a, b) | None => None end
  end.

(** The longest part of [l] that is followed by a semicolon or a hash. *)
Fixpoint before_comment (l : list Z) : option (list Z) :=
  match l with
  | [] => None
  | c :: r => match before_comment r with
              | Some a => Some (c :: a)
              | None => if (c =? 59) || (c =? 35) then Some [] else None
              end
  end.

(** White space, then the end or a comment: the end of option_pattern. *)
Definition comment_or_end (l : list Z) : bool :=
  match skip_space l with [] => true | c :: _ => (c =? 59) || (c =? 35) end.

(** option_pattern, lines 172-173, from the sign of equality on: the second subexpression of
    the match POSIX prescribes (each subexpression as long as possible, the leftmost ones
    first), [None] if there is no match. *)
Definition match_value (r : list Z) : option (list Z) :=
  let r := match r with c :: r' => if c =? QUOTE then r' else r | [] => [] end in
  match split_quote r with
  | None => Some r
  | Some (v, after) => if comment_or_end after then Some v else before_comment v
  end.

(** regexec of option_re. *)
Definition match_option (key l : list Z) : option (list Z) :=
  do a <- strip_prefix key (skip_space l);
  do b <- strip_prefix (txt "=") (skip_space a);
  match_value (skip_space b).

(** The string at the start of a buffer: [None] is a read beyond the buffer. *)
Fixpoint cstr (b : list Z) : option (list Z) :=
  match b with
  | [] => None
  | c :: r => if c =? 0 then Some [] else option_map (cons c) (cstr r)
  end.

(** strsep(&next_line, newline), line 271: the offset of the newline.  [None]: a zero byte
    comes first, so that next_line becomes NULL and [ptr] meaningless, or a read beyond the
    buffer. *)
Fixpoint find_newline (b : list Z) : option nat :=
  match b with
  | [] => None
  | c :: r => if c =? 0 then None else if c =? NEWLINE then Some O else option_map S (find_newline r)
  end.

(** strnlen *)
Fixpoint strnlen (b : list Z) (n : nat) : option nat :=
  match n, b with
  | O, _ => Some O
  | S n', c :: r => if c =? 0 then Some O else option_map S (strnlen r n')
  | S _, [] => None
  end.

(** The variables of the loop: the mapping, ptr, end, state (the start of our lines when
    OURS) and options_value. *)
Record est := mkE { e_text : list Z; e_ptr : nat; e_end : nat; e_ours : option nat;
                    e_val : option (list Z) }.

(** One pass through the loop, lines 261-308. *)
Definition edit_step (key : list Z) (no_newline : bool) (s : est) : option est :=
  let (b, ptr, fin, ours, val) := s in
  let here := skipn ptr b in
  do whole <- (if no_newline then do n <- strnlen here (fin - ptr); Some (n =? fin - ptr)%nat
               else Some false);
  do r <- (if whole then Some (b, fin)
           else do k <- find_newline here; Some (set_nth (ptr + k) 0 b, (ptr + k + 1)%nat));
  let '(b1, next) := r in
  do l <- cstr (skipn ptr b1);
  match ours with
  | None =>
      if starts START l then Some (mkE b1 next fin (Some ptr) val)
      else match match_option key l with
           | Some v => Some (mkE b1 next fin None (Some v))
           | None => Some (mkE b1 next fin None val)
           end
  | Some os =>
      if starts FINISH l || (next =? fin)%nat then
        let chunk := (fin - next)%nat in
        let moved := firstn os b1 ++ firstn chunk (skipn next b1) ++ skipn (os + chunk) b1 in
        let fin' := (fin - (next - os))%nat in
        Some (mkE (set_nth fin' 0 moved) os fin' None val)
      else Some (mkE b1 next fin ours val)
  end.

Fixpoint edit_loop (fuel : nat) (key : list Z) (no_newline : bool) (s : est) : option est :=
  if (e_ptr s <? e_end s)%nat then
    match fuel with
    | O => None
    | S f => do s' <- edit_step key no_newline s; edit_loop f key no_newline s'
    end
  else Some s.

(** The text written, lines 317-339.  options_key is the key of the pattern whenever it is
    set, so it is always style->default_key. *)
Definition written (key : list Z) (no_newline : bool) (op : cop) (s : est) : list Z :=
  map (fun c => if c =? 0 then NEWLINE else c) (firstn (e_end s) (e_text s)) ++
  (if no_newline then [NEWLINE] else []) ++
  match op with
  | DISABLE => START ++ txt "
" ++ key ++ txt "=""" ++ (match e_val s with Some v => v ++ txt " " | None => [] end) ++ txt "-x""
" ++ FINISH ++ txt "
"
  | _ => []
  end.

(** Lines 233-344 for the contents of one file.  The mapping is followed by zero bytes up to
    the next page boundary; at a page boundary nothing follows it. *)
Definition edit_text (key : list Z) (op : cop) (f : list Z) : option (list Z) :=
  match f with
  | [] => Some (written key false op (mkE [] 0 0 None None))
  | _ =>
      let size := List.length f in
      let b := f ++ (if (size mod PAGE =? 0)%nat then [] else [0]) in
      let no_newline := negb (last f 0 =? NEWLINE) in
      do s <- edit_loop (S size) key no_newline (mkE b 0 size None None);
      Some (written key no_newline op s)
  end.

(** One pass through the loop of lines 206-356 (and what remains of the file afterwards);
    the regular expressions compile.  What is left of the old text beyond the new one if
    ftruncate fails is kept. *)
Definition edit_one (key : list Z) (op : cop) (f : efile) (rc : Z) (n : nat) : option (efile * Z * nat) :=
  match f with
  | OpenFails e => Some (f, e, n)
  | StatFails e _ => Some (f, e, n)
  | MapFails e t => match t with [] => do t' <- edit_text key op t; Some (Present t', 0, S n) | _ => Some (f, e, n) end
  | StreamFails t => do _t <- edit_text key op t; Some (f, match t with [] => rc | _ => 0 end, n)
  | TruncateFails t => do t' <- edit_text key op t; Some (TruncateFails (t' ++ skipn (List.length t') t), -1, n)
  | Present t => do t' <- edit_text key op t; Some (Present t', 0, S n)
  end.

(** edit_env, lines 182-365. *)
Definition edit_env (op : cop) (f1 f2 : efile) : option (efile * efile * Z) :=
  do r1 <- edit_one KEY_SYSCONFIG op f1 ENOENT 0;
  let '(g1, rc1, n1) := r1 in
  do r2 <- edit_one KEY_DEFAULT op f2 rc1 n1;
  let '(g2, rc2, n2) := r2 in
  Some (g1, g2, if (n2 =? 0)%nat then rc2 else 0).

(** sfptpd_crny_helper_control, lines 367-398.  [sys c]: what system(3) returns for a
    command. *)
Definition control (op : cop) (f1 f2 : efile) (sys : command -> Z)
  : option (efile * efile * list command * Z) :=
  match op with
  | RESTORENORESTART =>
      do r <- edit_env op f1 f2; let '(g1, g2, rc) := r in Some (g1, g2, [], rc)
  | ENABLE | DISABLE | RESTORE =>
      do r <- edit_env op f1 f2;
      let '(g1, g2, rc) := r in
      if negb (rc =? 0) then Some (g1, g2, [], rc)
      else
        let rc := sys SYSTEMCTL_CHRONYD in
        if rc =? 127 then
          let rc := sys SERVICE_CHRONYD in
          if rc =? 4 then Some (g1, g2, [SYSTEMCTL_CHRONYD; SERVICE_CHRONYD; SERVICE_CHRONY], sys SERVICE_CHRONY)
          else Some (g1, g2, [SYSTEMCTL_CHRONYD; SERVICE_CHRONYD], rc)
        else if 4 <=? rc then Some (g1, g2, [SYSTEMCTL_CHRONYD; SYSTEMCTL_CHRONY], sys SYSTEMCTL_CHRONY)
        else Some (g1, g2, [SYSTEMCTL_CHRONYD], rc)
  | SAVE | NOP => Some (f1, f2, [], 0)
  end.

(** A history of requests on one file that can be opened. *)
Fixpoint requests (key : list Z) (ops : list cop) (f : list Z) : option (list Z) :=
  match ops with
  | [] => Some f
  | op :: r => do g <- (if edits op then edit_text key op f else Some f); requests key r g
  end.
