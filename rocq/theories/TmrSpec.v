(** Specification vocabulary for the protocol's interval timers (C19). *)
Require Import ZArith QArith List Bool.
Import ListNotations.
Open Scope Z_scope.

(** What is done with the timers: started with an interval in seconds, or with a random part
    (of [0, 1)) of twice an interval; stopped; a tick (1/16 s) passes; polled. *)
Inductive top :=
  | Start (i : nat) (seconds : Q)
  | StartRandom (i : nat) (r seconds : Q)
  | Stop (i : nat)
  | Tick
  | Poll (i : nat).

(** The number of whole ticks in an interval, rounded towards zero. *)
Definition whole_ticks (q : Q) : Z := Z.quot (16 * Qnum q) (Z.pos (Qden q)).
(** A timer's period in ticks: at least one. *)
Definition period (q : Q) : Z := if whole_ticks q =? 0 then 1 else whole_ticks q.

(** The number of ticks in a history. *)
Definition ticks (h : list top) : Z := Z.of_nat (length (filter (fun o => match o with Tick => true | _ => false end) h)).

(** Operations that leave timer [i] running (or stopped): neither start nor stop it. *)
Definition undisturbed (i : nat) (h : list top) : Prop :=
  forall o, In o h -> match o with Start j _ | StartRandom j _ _ | Stop j => j <> i | _ => True end.
Definition not_started (i : nat) (h : list top) : Prop :=
  forall o, In o h -> match o with Start j _ | StartRandom j _ _ => j <> i | _ => True end.
Definition not_polled (i : nat) (h : list top) : Prop := forall o, In o h -> o <> Poll i.

(** A multiple of the period [n] lies after tick [k0] and not after tick [k]. *)
Definition due_between (n k0 k : Z) : Prop := exists j, k0 < j * n <= k.
