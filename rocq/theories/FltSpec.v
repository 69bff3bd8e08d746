(** Specification vocabulary for conversions between floating point times and timestamps (C55). *)
Require Import ZArith QArith Qround.
From Verif Require Import Base TimeSpec.
Open Scope Z_scope.

(** Nanoseconds in units of 2^-32 ns, rounded down. *)
Definition units_floor (ns : Q) : Z := Qfloor (ns * inject_Z (2^32))%Q.
(** A timestamp in nanoseconds. *)
Definition ns_of (t : ts) : Q := (inject_Z (instant t) / inject_Z (2^32))%Q.

(** The library call floor() takes a double: [rd] is the conversion to double.  All that is
    used of a rounding function: it is monotone and leaves whole numbers alone (doubles
    represent every whole number up to 2^53, which is more seconds than are ever met). *)
Definition rounding (rd : Q -> Q) : Prop :=
  (forall x y, (x <= y)%Q -> (rd x <= rd y)%Q) /\
  (forall z, - 2^53 <= z <= 2^53 -> (rd (inject_Z z) == inject_Z z)%Q).
(** The rounding does not reach the next whole second. *)
Definition no_carry (rd : Q -> Q) (ns : Q) : Prop :=
  Qfloor (rd (ns / inject_Z 1000000000)%Q) = Qfloor (ns / inject_Z 1000000000)%Q.
