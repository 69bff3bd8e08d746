(** Vocabulary for the best master clock properties C14-C18 and C53.

    Nothing here refers to the transcription in BmcModel: a reader who knows
    IEEE 1588 clause 9.3 should recognise each definition. *)
Require Import ZArith QArith List.
From Verif Require Import Base.
Import ListNotations.
Open Scope Z_scope.

(** A clock identity is eight octets. *)
Definition clock_id := list Z.
Definition is_clock_id (c : clock_id) : Prop := length c = 8%nat.

(** A port identity: clock identity and port number. *)
Record pident := mkPid { p_clk : clock_id; p_num : Z }.

(** What an Announce message says about a master: the attributes of its
    grandmaster, how many steps it is from it, the port that sent the
    message, and the sender's "UTC offset valid" flag. *)
Record dset := mkDset {
  d_prio1 : Z; d_class : Z; d_acc : Z; d_var : Z; d_prio2 : Z;
  d_gm : clock_id;
  d_steps : Z;
  d_src : pident;
  d_utcv : bool;
  d_ival : Z                       (** logMessageInterval *)
}.

Definition dset_ok (d : dset) : Prop :=
  is_clock_id (d_gm d) /\ is_clock_id (p_clk (d_src d)) /\
  0 <= d_steps d < 2^16 /\ 0 <= p_num (d_src d) < 2^16.

(** Lexicographic "less than" on number sequences. *)
Inductive lex_lt : list Z -> list Z -> Prop :=
| lex_here : forall a b l m, a < b -> lex_lt (a :: l) (b :: m)
| lex_next : forall a l m, lex_lt l m -> lex_lt (a :: l) (a :: m).

(** The attributes by which two different grandmasters are ranked, best
    first (1588 figure 27), with sfptpd's documented extension that, if so
    configured, a master whose UTC offset is valid ranks above one whose
    offset is not (immediately after priority1). *)
Definition gm_key (prefer_utc : bool) (d : dset) : list Z :=
  [ d_prio1 d;
    (if prefer_utc then if d_utcv d then 0 else 1 else 0);
    d_class d; d_acc d; d_var d; d_prio2 d ] ++ d_gm d.

(** Two masters with the same grandmaster are ranked by topology (figure 28):
    fewer steps removed, then smaller sender identity, then smaller port. *)
Definition topo_key (d : dset) : list Z :=
  d_steps d :: p_clk (d_src d) ++ [p_num (d_src d)].

(** "A is a better master than B". *)
Definition better (prefer_utc : bool) (A B : dset) : Prop :=
  (d_gm A <> d_gm B /\ lex_lt (gm_key prefer_utc A) (gm_key prefer_utc B)) \/
  (d_gm A = d_gm B /\ lex_lt (topo_key A) (topo_key B)).

(** Two data sets for the same grandmaster whose distances differ by exactly
    one step: the case in which figure 28 looks at the receiving port. *)
Definition adjacent (A B : dset) : Prop :=
  d_gm A = d_gm B /\ (d_steps A = d_steps B + 1 \/ d_steps B = d_steps A + 1).

(** The data set of the pair that is farther from the grandmaster. *)
Definition farther (A B : dset) : dset :=
  if d_steps B <? d_steps A then A else B.

(** PTP port states. *)
Inductive pstate : Set :=
  UNINITIALIZED | INITIALIZING | FAULTY | DISABLED | LISTENING | PRE_MASTER
| MASTER | PASSIVE | UNCALIBRATED | SLAVE.

Definition pstate_eqb (a b : pstate) : bool :=
  match a, b with
  | UNINITIALIZED, UNINITIALIZED | INITIALIZING, INITIALIZING
  | FAULTY, FAULTY | DISABLED, DISABLED | LISTENING, LISTENING
  | PRE_MASTER, PRE_MASTER | MASTER, MASTER | PASSIVE, PASSIVE
  | UNCALIBRATED, UNCALIBRATED | SLAVE, SLAVE => true
  | _, _ => false
  end.

(** The discriminator: a reference offset and a tolerance; a reference offset
    of exactly zero means "not in use". *)
Definition within_discriminator (off thr : Q) (seen : option Q) : Prop :=
  (off == 0)%Q \/ exists o, seen = Some o /\ (o - off < thr)%Q /\ (off - o < thr)%Q.

Lemma pid_dec : forall a b : pident, {a = b} + {a <> b}.
Proof. decide equality; [apply Z.eq_dec|apply list_eq_dec; apply Z.eq_dec]. Defined.

(** How many of the times [l] are at or after [th]. *)
Definition count_since (th : Z) (l : list Z) : nat := length (filter (fun t => th <=? t) l).
