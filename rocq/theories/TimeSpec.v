(** Specification vocabulary for timestamps: what instant a triple denotes.
    Independent of the model of the arithmetic. *)
Require Import ZArith.
Open Scope Z_scope.

(** A timestamp as the user sees it: struct sfptpd_timespec,
    src/include/sfptpd_time.h:30-34. *)
Record ts := mkTs { sec : Z; nsec : Z; frac : Z }.

(** The C field types: int64_t, uint32_t, uint32_t. *)
Definition in_type (t : ts) : Prop :=
  - 2^63 <= sec t < 2^63 /\ 0 <= nsec t < 2^32 /\ 0 <= frac t < 2^32.

(** A well-formed (normalised) timestamp: nanoseconds in [0, 1e9). *)
Definition normal (t : ts) : Prop :=
  - 2^63 <= sec t < 2^63 /\ 0 <= nsec t < 1000000000 /\ 0 <= frac t < 2^32.

(** The instant denoted by a timestamp, exactly, in units of 2^-32 ns. *)
Definition instant (t : ts) : Z := (sec t * 1000000000 + nsec t) * 2^32 + frac t.

(** One nanosecond and one second in those units. *)
Definition ns_unit : Z := 2^32.
Definition s_unit : Z := 1000000000 * 2^32.

(** Instants that a normalised timestamp can denote. *)
Definition representable (x : Z) : Prop := - 2^63 * s_unit <= x < 2^63 * s_unit.

(** struct timespec. *)
Record timespec := mkTimespec { tv_sec : Z; tv_nsec : Z }.
Definition std_normal (t : timespec) : Prop :=
  - 2^63 <= tv_sec t < 2^63 /\ 0 <= tv_nsec t < 1000000000.
Definition std_instant (t : timespec) : Z :=
  (tv_sec t * 1000000000 + tv_nsec t) * 2^32.

(** Memory holding timestamps at addresses, for statements about pointers. *)
Definition mem := Z -> ts.

(** [r] is the memory after an operation that was to store [v] at [p] in [m]:
    it does so and changes no other timestamp; undefined exactly if [v] is. *)
Definition writes (m : mem) (r : option mem) (p : Z) (v : option ts) : Prop :=
  match r, v with
  | Some m', Some t => m' p = t /\ forall q, q <> p -> m' q = m q
  | None, None => True
  | _, _ => False
  end.

