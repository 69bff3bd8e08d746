(** Machine arithmetic and small shared vocabulary.

    C integer types are modelled by [Z] with explicit wrap-around.  Every
    conversion in the modelled code that can lose bits goes through one of the
    functions below; signed overflow is undefined behaviour in C and is made
    a distinct outcome ([None]) by the models that use [chk_s64]/[chk_s32]. *)
Require Import ZArith Lia Bool List.
Require Import ZifyBool.
Open Scope Z_scope.

(** Conversion to uint8_t, uint16_t, uint32_t, uint64_t (C11 6.3.1.3p2). *)
Definition u8  (x : Z) : Z := x mod 2^8.
Definition u16 (x : Z) : Z := x mod 2^16.
Definition u32 (x : Z) : Z := x mod 2^32.
Definition u64 (x : Z) : Z := x mod 2^64.

(** Conversion to intN_t: two's complement reinterpretation, as done by gcc
    (implementation-defined in C11 6.3.1.3p3). *)
Definition s8  (x : Z) : Z := (x + 2^7) mod 2^8 - 2^7.
Definition s16 (x : Z) : Z := (x + 2^15) mod 2^16 - 2^15.
Definition s32 (x : Z) : Z := (x + 2^31) mod 2^32 - 2^31.
Definition s64 (x : Z) : Z := (x + 2^63) mod 2^64 - 2^63.

Definition fits_s32 (x : Z) : bool := (- 2^31 <=? x) && (x <? 2^31).
Definition fits_s64 (x : Z) : bool := (- 2^63 <=? x) && (x <? 2^63).

(** Result of signed arithmetic: [None] is undefined behaviour (overflow). *)
Definition chk_s32 (x : Z) : option Z := if fits_s32 x then Some x else None.
Definition chk_s64 (x : Z) : option Z := if fits_s64 x then Some x else None.

Definition bind {A B} (o : option A) (f : A -> option B) : option B :=
  match o with Some a => f a | None => None end.

Notation "'do' x <- m ; k" := (bind m (fun x => k))
  (at level 200, x binder, m at level 100, k at level 200, right associativity).

(** Shared arithmetic tactic: linear arithmetic with div/mod by constants. *)
Ltac Zify.zify_post_hook ::= Z.div_mod_to_equations.
