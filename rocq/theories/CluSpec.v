(** Specification vocabulary for the clustering score (C39). *)
Require Import ZArith QArith.
From Verif Require Import Base TimeSpec FltSpec.
Open Scope Z_scope.

(** A clock as it is when it is compared: [k_cmp] is what comparing a hardware clock with the
    system clock gives, hardware minus system, or what is left in the result if that fails. *)
Record clk := mkClk {
  k_deleted : bool; k_system : bool; k_phc : bool; k_cmp_ok : bool; k_cmp : ts }.

(** The clustering configuration. *)
Record ccfg := mkCcfg {
  c_discriminator : bool;          (* clustering mode is "by discriminator" *)
  c_threshold : Q;                 (* ns *)
  c_default : Z;                   (* score without discriminator *)
  c_guard : bool; c_guard_threshold : Z }.

(** The reference instance: its name and the last input received from it. *)
Record reference := mkRef { r_name : nat; r_valid : bool; r_offset : Q; r_clk : clk }.

(** How far a working clock is ahead of the system clock, in ns. *)
Definition ahead (k : clk) : Q := if k_system k then 0%Q else ns_of (k_cmp k).
(** A clock that can be compared. *)
Definition usable (k : clk) : Prop :=
  k_deleted k = false /\ (k_system k = true \/ (k_phc k = true /\ k_cmp_ok k = true)) /\ normal (k_cmp k).

(** The time of the instance's master and of the reference's master, as offsets from the
    system clock: a clock is ahead of its master by the offset from master. *)
Definition master (k : clk) (offset : Q) : Q := (ahead k - offset)%Q.

(** The resolution of timestamps, ns. *)
Definition eps : Q := (1 / inject_Z (2^32))%Q.
