(** The clock feed as its users see it (C24-C27). *)
Require Import ZArith List Bool.
Require Import Verif.TimeSpec.
Import ListNotations.
Open Scope Z_scope.

(** *** What the feed does: it writes the words of the sample it is taking, one at a time and in
    any order, and then publishes the sample. *)
Inductive wstep := WSet (j : nat) (v : Z) | WPub.

(** The samples published so far, oldest first, each as the list of its writes; and the
    writes of the one being taken. *)
Fixpoint samples_from (done : list (list (nat * Z))) (cur : list (nat * Z)) (p : list wstep) :=
  match p with
  | [] => (done, cur)
  | WSet j v :: p' => samples_from done (cur ++ [(j, v)]) p'
  | WPub :: p' => samples_from (done ++ [cur]) [] p'
  end.
Definition samples (p : list wstep) := samples_from [] [] p.
Definition published (p : list wstep) : list (list (nat * Z)) := fst (samples p).

(** How many samples have been published after [t] steps. *)
Definition count (tr : list wstep) (t : nat) : nat := length (published (firstn t tr)).

(** The value of a word of a sample: the last one written. *)
Definition word (j : nat) (sm : list (nat * Z)) : option Z :=
  fold_left (fun o e => if Nat.eqb (fst e) j then Some (snd e) else o) sm None.

(** The words: sequence number, return code, monotonic time, system time, clock time. *)
Definition W_RC := 1%nat. Definition W_MONO := 2%nat. Definition W_SYS := 5%nat. Definition W_SNAP := 8%nat.
Definition N_WORDS := 11%nat.
Definition complete (sm : list (nat * Z)) : Prop := forall j, (j < N_WORDS)%nat -> word j sm <> None.
Definition all_complete (p : list wstep) : Prop := Forall complete (published p).

Definition has_rc (sm : list (nat * Z)) (rc : Z) : Prop := word W_RC sm = Some rc.
Definition has_ts (j : nat) (sm : list (nat * Z)) (t : ts) : Prop :=
  word j sm = Some (sec t) /\ word (j + 1) sm = Some (nsec t) /\ word (j + 2) sm = Some (frac t).

(** *** Reading times: the [i]-th memory access of a reader happens when the feed has done
    [tm i] steps. *)
Definition ordered (tm : nat -> nat) : Prop := forall i j, (i <= j)%nat -> (tm i <= tm j)%nat.

(** A sample taken by the program: return code and clock difference from the system clock,
    monotonic and system times. *)
Record taken := mkTaken { k_rc : Z; k_diff : ts; k_mono : ts; k_sys : ts }.
