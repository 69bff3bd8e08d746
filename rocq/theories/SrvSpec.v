(** Vocabulary for the local clock servo (src/sfptpd_servo.c) and the clock
    operations it uses (src/sfptpd_clock.c). *)
Require Import ZArith QArith Qabs List Bool.
From Verif Require Import Base TimeSpec.
Import ListNotations.
Open Scope Z_scope.

(** enum sfptpd_clock_ctrl, include/sfptpd_general_config.h:86-93. *)
Inductive ctrl := SLEW_AND_STEP | STEP_AT_STARTUP | NO_STEP | NO_ADJUST | STEP_FORWARD | STEP_ON_FIRST_LOCK.
(** enum sfptpd_epoch_guard_config, include/sfptpd_general_config.h:96-100. *)
Inductive guard := ALARM_ONLY | PREVENT_SYNC | CORRECT_CLOCK.

(** What the kernel is asked to do to a clock. *)
Inductive kev :=
| KStep (c : nat) (offset : Z)             (** ADJ_SETOFFSET, in 2^-32 ns *)
| KFreq (c : nat) (tick : option Z) (freq : Z)
                                           (** ADJ_TICK (microseconds per tick),
                                               ADJ_FREQUENCY (2^-16 ppm) *)
| EpochAlarm (c : nat).                    (** statistics: near-epoch alarm recorded *)

(** The frequency change, in parts per billion, such a request amounts to on a
    clock whose kernel tick rate is [hz] ([None]: not the system clock). *)
Definition realised (hz : option Q) (tick : option Z) (freq : Z) : Q :=
  (match hz, tick with
   | Some h, Some t => (inject_Z t - inject_Z 1000000 / h) * (h * inject_Z 1000)
   | _, _ => 0
   end + inject_Z freq * (inject_Z 1000 / inject_Z 65536))%Q.

(** half of the resolution of the frequency field: 1000/65536/2 ppb *)
Definition half_unit : Q := inject_Z 1000 / inject_Z 131072.

(** nearest value within [-m, m] *)
Definition clamp (m x : Q) : Q :=
  if Qle_bool x (- m) then (- m)%Q else if Qle_bool m x then m else x.

(** A time (in ns since the epoch) outside the range in which a running clock
    can be: before 1e16 ns (about 115 days) or after 2^32 s less 3 days. *)
Definition near_epoch (ns : Q) : Prop :=
  (ns < inject_Z 10000000000000000 \/ inject_Z (4294705152 * 1000000000) < ns)%Q.

Definition ns_of (t : ts) : Q := inject_Z (instant t) / inject_Z (2^32).

(** Sustained failure, independently of the code: given the outcomes (result
    code and time in ns) of all synchronisations so far, oldest first, the
    failures since the last success. *)
Fixpoint trailing_failures (l : list (Z * Z)) (acc : list Z) : list Z :=
  match l with
  | [] => acc
  | (rc, t) :: l' => trailing_failures l' (if rc =? 0 then [] else acc ++ [t])
  end.
(** they have lasted [period]: a failure was seen at least [period] after the
    first of them *)
Definition sustained (period : Z) (f : list Z) : bool :=
  match f with
  | [] => false
  | t0 :: rest => existsb (fun t => period <=? t - t0) rest
  end.
