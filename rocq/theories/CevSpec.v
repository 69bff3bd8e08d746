(** Specification vocabulary for the edits of chronyd's environment files (C62).
    A character is its code.  A text file is a list of lines, each ended by a newline. *)
Require Import ZArith List Bool String Ascii.
Import ListNotations.
Open Scope Z_scope.

Definition line := list Z.

(** The codes of a string: for writing literals. *)
Fixpoint txt (s : string) : list Z :=
  match s with EmptyString => [] | String c r => Z.of_nat (nat_of_ascii c) :: txt r end.

Definition NEWLINE : Z := 10.
Definition QUOTE : Z := 34.

Definition text (ls : list line) : list Z := flat_map (fun l => l ++ [NEWLINE]) ls.

(** A line has no newline in it, and text files contain no zero bytes. *)
Definition line_ok (l : line) : Prop := forall c, In c l -> c <> 0 /\ c <> NEWLINE.

Definition begins (p l : list Z) : Prop := exists r, l = p ++ r.

Definition START := txt "### BEGIN sfptpd ###".
Definition FINISH := txt "### END sfptpd ###".

(** [outside ls u]: [u] are the lines of [ls] that do not belong to a section written by
    sfptpd.  A section that is not finished extends to the end of the file, but a last
    line that only begins one is not a section. *)
Inductive outside : list line -> list line -> Prop :=
| out_end : outside [] []
| out_keep l ls u : ~ begins START l -> outside ls u -> outside (l :: ls) (l :: u)
| out_section b body e ls u :
    begins START b -> (forall x, In x body -> ~ begins FINISH x) -> begins FINISH e ->
    outside ls u -> outside (b :: body ++ e :: ls) u
| out_unfinished b body :
    begins START b -> body <> [] -> (forall x, In x body -> ~ begins FINISH x) ->
    outside (b :: body) []
| out_lone b : begins START b -> outside [b] [b].

(** No line begins a section. *)
Definition clean (u : list line) : Prop := forall l, In l u -> ~ begins START l.

(** White space, and runs of it. *)
Definition space (c : Z) : Prop := c = 32 \/ 9 <= c <= 13.
Definition spaces (l : list Z) : Prop := forall c, In c l -> space c.
Definition unquoted (l : list Z) : Prop := ~ In QUOTE l.

(** What may follow a value: a closing quote, white space, a comment. *)
Definition ending (t : list Z) : Prop :=
  exists q sp c, t = q ++ sp ++ c /\ (q = [] \/ q = [QUOTE]) /\ spaces sp /\
    (c = [] \/ exists x r, c = x :: r /\ (x = 59 \/ x = 35)).   (* ; # *)

(** A reading of the right-hand side of an assignment: an opening quote or none, the
    value, what follows. *)
Definition reading (r q v t : list Z) : Prop :=
  r = q ++ v ++ t /\ (q = [] \/ q = [QUOTE]) /\ unquoted v /\ ending t.

(** The value of a right-hand side: with the opening quote if there is such a reading, and
    then as long as possible. *)
Definition value (r v : list Z) : Prop :=
  exists q t, reading r q v t /\
    forall q' v' t', reading r q' v' t' ->
      (List.length q' < List.length q \/ (q' = q /\ List.length v' <= List.length v))%nat.

(** [assigns key l v]: the line [l] sets [key] to [v]. *)
Definition assigns (key : list Z) (l : line) (v : list Z) : Prop :=
  exists s1 s2 s3 r, l = s1 ++ key ++ s2 ++ txt "=" ++ s3 ++ r /\
    spaces s1 /\ spaces s2 /\ spaces s3 /\ (forall c r', r = c :: r' -> ~ space c) /\ value r v.

(** The value in force after the lines [u]: that of the last assignment, if there is one. *)
Definition in_force (key : list Z) (u : list line) (v : option (list Z)) : Prop :=
  match v with
  | Some x => exists a l b, u = a ++ l :: b /\ assigns key l x /\
                (forall m y, In m b -> ~ assigns key m y)
  | None => forall m y, In m u -> ~ assigns key m y
  end.

(** The section that takes the clock away from chronyd: the value in force and -x. *)
Definition section (key : list Z) (v : option (list Z)) : list line :=
  [START;
   key ++ txt "=""" ++ (match v with Some x => x ++ txt " " | None => [] end) ++ txt "-x""";
   FINISH].

(** The requests, include/sfptpd_crny_helper.h:13-20. *)
Inductive cop := NOP | ENABLE | DISABLE | SAVE | RESTORE | RESTORENORESTART.

Definition edits (op : cop) : bool :=
  match op with NOP | SAVE => false | _ => true end.

(** The lines a request leaves. *)
Definition result (key : list Z) (op : cop) (u : list line) (v : option (list Z)) : list line :=
  match op with DISABLE => u ++ section key v | _ => u end.

(** A file that is being overwritten: some of the bytes of the new text are in it. *)
Definition partway (old new f : list Z) : Prop :=
  exists k, (k <= List.length new)%nat /\ f = firstn k new ++ skipn k old.

(** The keys of the two files. *)
Definition KEYS (key : list Z) : Prop := key = txt "OPTIONS" \/ key = txt "DAEMON_OPTS".

(** One of the two files: its contents, or the error of open(2), of fstat(2), of mmap(2), a
    failure of fdopen(3), a failure of ftruncate(2).  Failures to write are not modelled. *)
Inductive efile :=
| Present (t : list Z)
| OpenFails (e : Z)
| StatFails (e : Z) (t : list Z)
| MapFails (e : Z) (t : list Z)
| StreamFails (t : list Z)
| TruncateFails (t : list Z).

(** What a request does to a file: edits it if it is there. *)
Inductive edited (key : list Z) (op : cop) : efile -> efile -> Prop :=
| ed_there ls u v : (forall l, In l ls -> line_ok l) -> outside ls u -> in_force key u v ->
    edited key op (Present (text ls)) (Present (text (result key op u v)))
| ed_missing e : e > 0 -> edited key op (OpenFails e) (OpenFails e).

Definition missing (f : efile) : Prop := exists e, f = OpenFails e.

(** The ways of restarting chronyd. *)
Inductive command := SYSTEMCTL_CHRONYD | SERVICE_CHRONYD | SERVICE_CHRONY | SYSTEMCTL_CHRONY.

(** What system(3) returns for a command that ran and exited with status [n]. *)
Definition exit_status (n : Z) : Z := n * 256.
