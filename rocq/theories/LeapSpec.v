(** Specification vocabulary for leap seconds (C38). *)
Require Import ZArith QArith List Bool.
Import ListNotations.
From Verif Require Import Base SrvSpec.
Open Scope Z_scope.

(** A leap second inserts a second (61) or deletes one (59). *)
Inductive ltype := Leap61 | Leap59.

(** Phases: nothing planned, planned, guard interval before, guard interval after, test. *)
Inductive phase := Idle | Scheduled | ActivePre | ActivePost | Test.

(** How the outside world answers while one request is handled. *)
Record lenv := mkLenv {
  gettime : option Z;         (* UTC seconds, [None]: the call fails *)
  timer_ok : bool;            (* arming the timer succeeds *)
  guard_ok : nat -> bool;     (* the guard flag message reaches this instance *)
  proc_ok : nat -> bool }.    (* the timestamp-processing message reaches this instance *)
Inductive lop :=
  | Schedule (t : ltype) (guard : Q) (v : lenv)     (* guard interval in seconds *)
  | Cancel (v : lenv)
  | TestLeap (t : option ltype) (v : lenv)          (* test request; [None] cancels *)
  | TestLocalCancel                                 (* test request "local leap second cancel" *)
  | Timer (now : Z) (v : lenv)                      (* timer polled at this UTC time in ns *)
  | Sync.                                           (* time to run the slave servos *)

(** What can be seen from outside. *)
Inductive lout :=
  | Kernel (t : option ltype)   (* system clock told to insert/delete at midnight or not to *)
  | StepNow (t : ltype)         (* every other clock stepped by one second *)
  | Tell (t : option ltype)     (* sync modules told of the pending leap second *)
  | TestUtc (delta : Z)         (* test: UTC offset changed in all instances *)
  | Servos.                     (* slave servos run *)

Record leap := mkLeap {
  l_phase : phase;
  l_type : option ltype;
  l_time : Z;                   (* UTC second of the leap *)
  l_guard : Z;                  (* guard interval, 2^-32 ns *)
  l_timer : option Z;           (* armed for this UTC time in ns *)
  l_kernel : option ltype;      (* what the system clock will do at midnight *)
  l_proc : list bool;           (* timestamp processing enabled, by instance *)
  l_flag : list bool }.         (* leap-second guard flag, by instance *)

(** Midnight at the end of the UTC day containing the second [now], for times since 1970. *)
Definition is_midnight_after (now m : Z) : Prop := m mod 86400 = 0 /\ now < m <= now + 86400.
(** The second at which the leap happens. *)
Definition leap_at (t : ltype) (midnight : Z) : Z :=
  match t with Leap61 => midnight | Leap59 => midnight - 1 end.

(** Nothing fails. *)
Definition works (v : lenv) : Prop :=
  timer_ok v = true /\ (forall i, guard_ok v i = true) /\ (forall i, proc_ok v i = true).
Definition op_works (o : lop) : Prop :=
  match o with
  | Schedule _ _ v | Cancel v | TestLeap _ v | Timer _ v => works v
  | TestLocalCancel | Sync => True
  end.

(** In the guard interval around a leap second. *)
Definition around (p : phase) : Prop := p = ActivePre \/ p = ActivePost.

(** Leap second steps in an output, schedule requests in a history. *)
Definition is_step (o : lout) : bool := match o with StepNow _ => true | _ => false end.
Definition is_schedule (o : lop) : bool := match o with Schedule _ _ _ => true | _ => false end.
Definition is_cancel (o : lop) : bool := match o with Cancel _ => true | _ => false end.
Definition count {A} (f : A -> bool) (l : list A) : nat := length (filter f l).
