(** Model of the floating point conversions in src/include/sfptpd_time.h.  long double
    arithmetic is taken to be exact: sec * 1.0e9, computed in double, is (1.0e9 is
    2^9 * 1953125) for less than 146 years, and the subtraction and the multiplication by
    2^32 are.  The argument of floor(), a double, is not: it goes through [rd]. *)
Require Import ZArith QArith Qround Qabs List Bool.
From Verif Require Import Base TimeSpec TimeModel.
Open Scope Z_scope.

(** Conversion of a floating point number to an integer: towards zero. *)
Definition Qtrunc (x : Q) : Z := if Qlt_le_dec x 0 then - Qfloor (- x) else Qfloor x.

(** sfptpd_time_float_ns_to_timespec, src/include/sfptpd_time.h:104-113.  Undefined if the
    seconds do not fit time_t or the fraction, converted to uint32_t, does not fit. *)
Definition of_float_ns (rd : Q -> Q) (ns : Q) : option ts :=
  do s <- chk_s64 (Qfloor (rd (ns / inject_Z 1000000000)%Q));
  let nsecf := (ns - inject_Z s * inject_Z 1000000000)%Q in
  let n := u32 (Qtrunc nsecf) in
  let f := Qtrunc (inject_Z (2^32) * (nsecf - inject_Z n))%Q in
  if (0 <=? f) && (f <? 2^32) then normalise (mkTs s n f) else None.

(** sfptpd_time_float_s_to_timespec, src/include/sfptpd_time.h:89-98. *)
Definition of_float_s (rd : Q -> Q) (x : Q) : option ts :=
  do s <- chk_s64 (Qfloor (rd x));
  let nsecf := (x * inject_Z 1000000000 - inject_Z s * inject_Z 1000000000)%Q in
  let n := u32 (Qtrunc nsecf) in
  let f := Qtrunc (inject_Z (2^32) * (nsecf - inject_Z n))%Q in
  if (0 <=? f) && (f <? 2^32) then normalise (mkTs s n f) else None.

(** sfptpd_time_timespec_to_float_ns, src/include/sfptpd_time.h:130-136. *)
Definition to_float_ns (t : ts) : Q :=
  (inject_Z (sec t) * inject_Z 1000000000 + inject_Z (nsec t) + inject_Z (frac t) / inject_Z (2^32))%Q.
(** sfptpd_time_timespec_to_float_s, src/include/sfptpd_time.h:119-125. *)
Definition to_float_s (t : ts) : Q :=
  (inject_Z (sec t) + inject_Z (nsec t) / inject_Z 1000000000
   + inject_Z (frac t) / inject_Z (1000000000 * 2^32))%Q.

(** sfptpd_time_scaled_ns_to_float_ns, sfptpd_time_float_ns_to_scaled_ns, lines 142-163. *)
Definition scaled_to_float (t : Z) : Q := (inject_Z t / inject_Z 65536)%Q.
Definition float_to_scaled (x : Q) : Z :=
  let t := (x * inject_Z 65536)%Q in
  if Qlt_le_dec (inject_Z (2^63 - 1)) t then 2^63 - 1 else
  if Qlt_le_dec t (inject_Z (- 2^63)) then - 2^63 else Qtrunc t.

(** Rounding to the nearest IEEE double, ties to even, for normal numbers. *)
Definition half_even (n d : Z) : Z :=
  let q := n / d in
  let r := n - q * d in
  if 2 * r <? d then q else if d <? 2 * r then q + 1 else if Z.even q then q else q + 1.
Definition rd_double (x : Q) : Q :=
  let n := Z.abs (Qnum x) in
  let d := Zpos (Qden x) in
  if n =? 0 then 0%Q else
  let e0 := Z.log2 n - Z.log2 d in
  let lt := if 0 <=? e0 then n <? d * 2^e0 else n * 2^(- e0) <? d in
  let e := (if lt then e0 - 1 else e0) - 52 in
  let m := if 0 <=? e then half_even n (d * 2^e) else half_even (n * 2^(- e)) d in
  let v := if 0 <=? e then inject_Z (m * 2^e) else (inject_Z m / inject_Z (2^(- e)))%Q in
  if Qnum x <? 0 then (- v)%Q else v.
