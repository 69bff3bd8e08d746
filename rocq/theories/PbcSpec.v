(** Specification vocabulary for changes of links under a running PTP interface. *)
Require Import ZArith List Bool.
Require Import Verif.Base Verif.PtiSpec.
Import ListNotations.
Open Scope Z_scope.

(** What is done: sockets closed, opened on an interface, all ports of the interface made faulty, the servo of a
    port (its place in the list) told the clock it is to steer, that servo reset, hardware timestamps switched
    on and off on an interface. *)
Inductive eff := Down | Open (i : nat) | Faulty | Steer (k : nat) (clock : nat) | Reset (k : nat) | On (i : nat) | Off (i : nat).

(** A port: interface and its clock, interface on which the last Sync came, kind of timestamps asked for, alarm
    that there is no interface. *)
Record port := mkPt { pt_phys : option nat; pt_clock : nat; pt_last : Z; pt_pref : pref; pt_alarm : bool }.

(** Is timestamping on, having been on according to [s], after what was done? *)
Fixpoint stamping (s : nat -> bool) (l : list eff) : nat -> bool :=
  match l with
  | [] => s
  | On i :: r => stamping (fun j => if (j =? i)%nat then true else s j) r
  | Off i :: r => stamping (fun j => if (j =? i)%nat then false else s j) r
  | _ :: r => stamping s r
  end.
(** The interfaces of a set. *)
Definition has (l : list phys) (i : nat) : Prop := exists p, In p l /\ p_intf p = Some i.
