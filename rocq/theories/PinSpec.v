(** Specification vocabulary for a running PTP instance and what it tells the engine. *)
Require Import ZArith QArith Qabs List Bool.
Require Import Verif.Base.
Import ListNotations.
Open Scope Z_scope.

(** States of a port of the protocol engine and of a sync instance. *)
Inductive pst := Uninit | Init | Faulty | Disabled | Listening | PreMaster | Master | Passive | Uncal | Slave.
Inductive sst := SListening | SSlave | SMaster | SPassive | SDisabled | SFaulty.
(** Which state is reported for which. *)
Definition state_table : list (pst * sst) :=
  [(Uninit, SFaulty); (Init, SListening); (Faulty, SFaulty); (Disabled, SDisabled); (Listening, SListening);
   (PreMaster, SFaulty); (Master, SMaster); (Passive, SPassive); (Uncal, SFaulty); (Slave, SSlave)].

(** Classes of a clock. *)
Inductive cls := Locked | Holdover | Freerunning | UnknownClass.
(** The classes of IEEE 1588: 6 and 13 locked, 7 and 14 in holdover, 52, 58, 187, 193, 248 and 255 free running. *)
Definition class_table : list (Z * cls) :=
  [(6, Locked); (13, Locked); (7, Holdover); (14, Holdover); (52, Freerunning); (58, Freerunning);
   (187, Freerunning); (193, Freerunning); (248, Freerunning); (255, Freerunning)].

(** The accuracies of IEEE 1588: code and bound in nanoseconds. *)
Definition accuracy_table : list (Z * Z) :=
  [(32, 25); (33, 100); (34, 250); (35, 1000); (36, 2500); (37, 10000); (38, 25000); (39, 100000); (40, 250000);
   (41, 1000000); (42, 2500000); (43, 10000000); (44, 25000000); (45, 100000000); (46, 250000000);
   (47, 1000000000); (48, 10000000000)].

(** What is known of the parent: identity and port, grandmaster, its class, accuracy, variance and priorities,
    time source, address. *)
Record parent := mkPa { pa_clock : list Z; pa_port : Z; pa_gm : list Z; pa_class : Z; pa_acc : Z; pa_var : Z;
  pa_p1 : Z; pa_p2 : Z; pa_src : Z; pa_addr : list Z }.
(** The data of a port: state, alarms, interface of the last Sync, steps removed, offset from master in ns, parent,
    leap second flags, traceability, announce interval. *)
Record data := mkD { d_state : pst; d_alarms : Z; d_last : Z; d_steps : Z; d_off : Q; d_parent : parent;
  d_l59 : bool; d_l61 : bool; d_tt : bool; d_ft : bool; d_ann : Q }.

(** A status report: state, alarms, clock, priority, clustering score, offset, accuracy of the local timestamps
    in ns, grandmaster's identity, whether it is remote, its class, time source, accuracy in ns ([None]: unknown),
    variance in the scaled form of IEEE 1588 ([None]: not a number), traceability, steps removed. *)
Record status := mkS { s_state : sst; s_alarms : Z; s_clock : nat; s_prio : Z; s_score : Z; s_off : Q; s_acc : Z;
  s_gm : list Z; s_remote : bool; s_class : cls; s_src : Z; s_macc : option Z; s_var : option Z;
  s_tt : bool; s_ft : bool; s_steps : Z }.

(** The part of a report on which the choice of an instance rests, but for the clock and the clustering score. *)
Definition core (s : status) :=
  (s_state s, s_alarms s, s_prio s, s_gm s, s_remote s, s_class s, s_src s, s_macc s, s_var s, s_steps s).

(** What an instance tells others: the engine of a new state; the log and monitors its alarms, whether it is
    selected, synchronised, and whether the links changed; the clustering of an offset of a clock, and whether it
    is valid; a statistics record; a leap second announced (with a guard interval) or withdrawn; the protocol
    engine of new control flags. *)
Inductive out := State (s : status) | Publish (alarms : Z) (sel syn bond : bool) | Cluster (clock : nat) (off : Q) (valid : bool)
  | Rt | Leap59 (guard : Q) | Leap61 (guard : Q) | Cancel | Ctl (flags : Z).

(** What the engine believes, having been told [s] at the start. *)
Definition view (s : status) (l : list out) : status :=
  fold_left (fun a o => match o with State t => t | _ => a end) l s.
(** What was last published; the offset the clustering has. *)
Definition published (l : list out) : option (Z * bool * bool) :=
  fold_left (fun a o => match o with Publish x y z _ => Some (x, y, z) | _ => a end) l None.
Definition clustered (a0 : option (nat * Q * bool)) (l : list out) : option (nat * Q * bool) :=
  fold_left (fun a o => match o with Cluster x y z => Some (x, y, z) | _ => a end) l a0.

(** Control flags. *)
Definition SELECTED := 0.
Definition TIMESTAMPS := 1.
Definition DETERMINANT := 4.

(** What a tick finds: the data of the port, the clustering score of an offset of a clock, the clock of a newly chosen interface,
    if another is chosen, whether the interface has hardware timestamps, whether the chosen member can, and the
    time in seconds. *)
Record env := mkE { k_data : data; k_score : Q -> nat -> Z; k_sel : option nat; k_hw : bool; k_caps : bool; k_time : option Z }.
(** What happens: a timer tick; control flags changed under a mask; local alarms set; the links under the interface
    changed, and maybe the clock. *)
Inductive op := Tick (e : env) | Control (flags mask : Z) | Alarm (a : Z) | Link (clock : option nat).
Definition is_tick (o : op) : bool := match o with Tick _ => true | _ => false end.

(** The links did not change after the last tick. *)
Definition settled (l : list op) : Prop := forall a c b, l = a ++ Link c :: b -> existsb is_tick b = true.
(** The threshold for a configured value (0: none): by default 1000 ns with hardware timestamps, 100000 ns with software. *)
Definition thr_of (thr : Q) (hw : bool) : Q := if Qeq_bool thr 0 then (if hw then 1000#1 else 100000#1) else thr.
(** The time, if it is known, is far from the ends of its type. *)
Definition good_env (o : op) : Prop := match o with Tick e => match k_time e with Some t => - 2^62 <= t < 2^62 | None => True end | _ => True end.
(** A tick that finds a slave in order, with its offset within [m]. *)
Definition calm (m : Q) (e : env) : Prop := d_state (k_data e) = Slave /\ d_alarms (k_data e) = 0 /\ (Qabs (d_off (k_data e)) <= m)%Q /\ exists t, k_time e = Some t.
(** Times that never go back. *)
Fixpoint rising (t : Z) (l : list env) : Prop :=
  match l with [] => True | e :: r => match k_time e with Some u => t <= u /\ rising u r | None => False end end.
