(** Model of src/sfptpd_time.c and the integer parts of src/include/sfptpd_time.h.
    [None] is undefined behaviour (signed overflow or failed assertion). *)
Require Import ZArith List Bool.
Require Import Verif.Base Verif.TimeSpec.
Open Scope Z_scope.

(** sfptpd_time_normalise, src/sfptpd_time.c:48-61.  The nanosecond field is
    reinterpreted as int32_t by the cast to struct sfptpd_signed_timespec;
    C division truncates towards zero ([Z.quot]). *)
Definition normalise (t : ts) : option ts :=
  let n := s32 (nsec t) in
  let q := Z.quot n 1000000000 in
  do s <- chk_s64 (sec t + q);
  let n' := n - q * 1000000000 in
  if n' <? 0 then
    do s' <- chk_s64 (s - 1);
    Some (mkTs s' (u32 (n' + 1000000000)) (frac t))
  else Some (mkTs s (u32 n') (frac t)).

(** sfptpd_time_add, src/sfptpd_time.c:63-84, as a function of the values of the
    operands (see [add_mem] for the pointer version). *)
Definition add (a b : ts) : option ts :=
  let fp32 := u64 (u64 (u64 (u64 (nsec a * 2^32) + u64 (nsec b * 2^32)) + frac a) + frac b) in
  do s <- chk_s64 (sec a + sec b);
  normalise (mkTs s (u32 (fp32 / 2^32)) (u32 fp32)).

(** sfptpd_time_subtract, src/sfptpd_time.c:86-99.  The right shift of the negative
    int64_t is gcc's arithmetic shift (floor division). *)
Definition subtract (a b : ts) : option ts :=
  let afp := s64 (Z.lor (u64 (nsec a * 2^32)) (frac a)) in
  let bfp := s64 (Z.lor (u64 (nsec b * 2^32)) (frac b)) in
  do c <- chk_s64 (afp - bfp);
  do s <- chk_s64 (sec a - sec b);
  normalise (mkTs s (u32 (c / 2^32)) (u32 c)).

(** sfptpd_time_cmp, src/sfptpd_time.c:101-117. *)
Definition cmp (a b : ts) : Z :=
  if sec a <? sec b then -1
  else if sec b <? sec a then 1
  else if nsec a <? nsec b then -1
  else if nsec b <? nsec a then 1
  else if frac a <? frac b then -1
  else if frac b <? frac a then 1
  else 0.

(** SFPTPD_NULL_TIME, src/sfptpd_time.c:37-41. *)
Definition null_time : ts := mkTs 0 0 0.

(** sfptpd_time_negate, src/sfptpd_time.c:119-122. *)
Definition negate (b : ts) : option ts := subtract null_time b.

(** sfptpd_time_is_greater_or_equal, src/sfptpd_time.c:124-132. *)
Definition is_ge (a b : ts) : option bool :=
  do c <- subtract a b; Some (0 <=? sec c).

(** sfptpd_time_from_ns, src/include/sfptpd_time.h:184-197.  [-ns] overflows for
    INT64_MIN. *)
Definition from_ns (ns : Z) : option ts :=
  let neg := ns <? 0 in
  do a <- (if neg then chk_s64 (- ns) else Some ns);
  let t := mkTs 0 (u32 a) 0 in
  do t1 <- (if 1000000000 <=? ns then normalise t else Some t);
  if neg then negate t1 else Some t1.

(** sfptpd_time_from_ns16, src/include/sfptpd_time.h:204-220. *)
Definition from_ns16 (x : Z) : option ts :=
  let neg := x <? 0 in
  do a <- (if neg then chk_s64 (- x) else Some x);
  let n := u64 a / 2^16 in
  let f := u32 (u64 (u64 a * 2^16)) in
  let t := if 1000000000 <=? n
           then mkTs (n / 1000000000) (u32 (n - n / 1000000000 * 1000000000)) f
           else mkTs 0 (u32 n) f in
  if neg then negate t else Some t.

(** sfptpd_time_to_ns16, src/include/sfptpd_time.h:222-239.  The comparison is
    unsigned (the constant is unsigned long long), the saturation limit is
    0x1000000000000 / 1000000000 = 281474. *)
Definition to_ns16 (t0 : ts) : option Z :=
  let neg := sec t0 <? 0 in
  do t <- (if neg then negate t0 else Some t0);
  if 281474 <=? u64 (sec t) then Some (if neg then - 2^63 else 2^63 - 1)
  else
    let v := u64 (frac t / 2^16 +
                  u64 (u64 (u64 (sec t) * 1000000000 + nsec t) * 2^16)) in
    Some (s64 (if neg then u64 (- v) else v)).

(** sfptpd_time_from_s, src/include/sfptpd_time.h:258-263. *)
Definition from_s (s : Z) : ts := mkTs s 0 0.

(** sfptpd_time_to_std_nearest, src/include/sfptpd_time.h:269-275. *)
Definition to_std_nearest (t : ts) : timespec :=
  mkTimespec (sec t) (nsec t + if Z.testbit (frac t) 31 then 1 else 0).

(** sfptpd_time_from_std_nearest, src/include/sfptpd_time.h:281-286. *)
Definition from_std_nearest (t : timespec) : ts :=
  mkTs (tv_sec t) (u32 (tv_nsec t)) 2147483647.

(** sfptpd_time_to_std_floor, src/include/sfptpd_time.h:292-296. *)
Definition to_std_floor (t : ts) : timespec := mkTimespec (sec t) (nsec t).

(** sfptpd_time_from_std_floor, src/include/sfptpd_time.h:302-307. *)
Definition from_std_floor (t : timespec) : ts :=
  mkTs (tv_sec t) (u32 (tv_nsec t)) 0.

(** sfptpd_time_is_zero, src/include/sfptpd_time.h:334-337. *)
Definition is_zero (t : ts) : bool :=
  (sec t =? 0) && (nsec t =? 0) && (frac t =? 0).

(** sfptpd_time_max, src/include/sfptpd_time.h:350-355. *)
Definition time_max : ts := mkTs (2^63 - 1) 999999999 (2^32 - 1).

(** ** Pointer versions: destination may be one of the operands.
    Memory maps addresses to timestamps; the C statements are executed one
    field write at a time, re-reading the operands through their pointers
    exactly where the C does. *)
Definition upd (m : mem) (p : Z) (t : ts) : mem :=
  fun q => if q =? p then t else m q.

Definition normalise_mem (m : mem) (p : Z) : option mem :=
  do t <- normalise (m p); Some (upd m p t).

(** src/sfptpd_time.c:63-84, statement by statement. *)
Definition add_mem (m : mem) (c a b : Z) : option mem :=
  let fp32 := u64 (u64 (u64 (u64 (nsec (m a) * 2^32) + u64 (nsec (m b) * 2^32))
                        + frac (m a)) + frac (m b)) in
  let m1 := upd m c (mkTs (sec (m c)) (nsec (m c)) (u32 fp32)) in
  let m2 := upd m1 c (mkTs (sec (m1 c)) (u32 (fp32 / 2^32)) (frac (m1 c))) in
  do s <- chk_s64 (sec (m2 a) + sec (m2 b));
  let m3 := upd m2 c (mkTs s (nsec (m2 c)) (frac (m2 c))) in
  normalise_mem m3 c.

(** src/sfptpd_time.c:86-99, statement by statement. *)
Definition subtract_mem (m : mem) (c a b : Z) : option mem :=
  let afp := s64 (Z.lor (u64 (nsec (m a) * 2^32)) (frac (m a))) in
  let bfp := s64 (Z.lor (u64 (nsec (m b) * 2^32)) (frac (m b))) in
  do d <- chk_s64 (afp - bfp);
  do s <- chk_s64 (sec (m a) - sec (m b));
  let m1 := upd m c (mkTs s (nsec (m c)) (frac (m c))) in
  let m2 := upd m1 c (mkTs (sec (m1 c)) (u32 (d / 2^32)) (frac (m1 c))) in
  let m3 := upd m2 c (mkTs (sec (m2 c)) (nsec (m2 c)) (u32 d)) in
  normalise_mem m3 c.
