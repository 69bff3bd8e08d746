(** Specification vocabulary for the engine's choice of synchronisation instance
    (C36, C37) and its table of slave servos (C50). *)
Require Import ZArith List Bool.
Import ListNotations.
From Verif Require Import Base BicSpec.
Open Scope Z_scope.

(** ** Configuration *)
Inductive strategy := Automatic | ManualChoice | ManualStartup.
Record config := mkCf {
  cf_policy : list rule;
  cf_strategy : strategy;
  cf_holdoff : Z;                       (* seconds; 0 disables the hold-off *)
  cf_rd : fl -> fl;                     (* rounding to double, see BicSpec *)
  cf_sort : (nat -> nat -> bool) -> list nat -> list nat (* qsort_r *) }.
(** The hold-off as a length of monotonic time in nanoseconds. *)
Definition holdoff_ns (cf : config) : Z := cf_holdoff cf * 1000000000.

(** ** What happens to the engine *)
(** A status report: what the best-instance rules look at (the manual-selection mark in it
    is ignored) and the instance's local reference clock, if it names one. *)
Record report := mkRep { r_inst : inst; r_clock : option nat }.

(** How the outside world answers while one event is handled: do the instances accept
    being deselected and selected, do the timer calls succeed, and which clocks exist (with
    their "may be disciplined" mark). *)
Record env := mkEnv { deselect_ok : bool; select_ok : bool; stop_ok : bool; start_ok : bool;
                      clocks : list (nat * bool) }.
Inductive action :=
  | Report (i : nat) (r : report)       (* instance [i] reports a change of status *)
  | HoldoffExpiry                       (* the hold-off timer is polled *)
  | UserSelect (i : option nat)         (* the user selects by name; [None]: no such name *)
  | Hotplug.                            (* interfaces and their clocks came or went *)
Record event := mkEv { ev_time : Z; ev_act : action; ev_env : env }.

(** ** Engine state *)
Record eng := mkEng {
  e_recs : list inst;                   (* last reported status of each instance *)
  e_clks : list (option nat);           (* last reported local reference clock of each *)
  e_ranks : list Z;
  e_flags : list bool;                  (* which instances have been told they are selected *)
  e_sel : option nat;                   (* the instance the engine regards as selected *)
  e_cand : option nat;                  (* pending candidate *)
  e_timer : option Z;                   (* hold-off timer: time at which it expires *)
  e_lrc : option nat;                   (* local reference clock *)
  e_servos : list (option (nat * nat)); (* (master, slave) of every servo *)
  e_active : nat }.                     (* number of servos in use *)

(** A history: each event with the state after it. *)
Definition trace : Type := list (event * eng).
Definition last_state (e : eng) (tr : trace) : eng := last (map snd tr) e.

(** Every control message and every timer call succeeds. *)
Definition controls_ok (ev : event) : Prop :=
  deselect_ok (ev_env ev) = true /\ select_ok (ev_env ev) = true.
Definition timers_ok (ev : event) : Prop := start_ok (ev_env ev) = true.

(** Servos in use, as (master, slave) pairs. *)
Definition running (e : eng) : list (option (nat * nat)) := firstn (e_active e) (e_servos e).

(** The servo table does its job for the clock table [tbl] and the reference [m]: the servos
    in use are exactly one per disciplined clock other than the reference, all slaved to the
    reference. *)
Definition servos_serve (e : eng) (m : nat) (tbl : list (nat * bool)) : Prop :=
  NoDup (running e) /\
  forall p, In p (running e) <-> exists c, p = Some (m, c) /\ In (c, true) tbl /\ c <> m.
