(** C01, C02, C03: timestamp arithmetic, ordering and conversions.
    [None] in the model is undefined behaviour in C. *)
Require Import ZArith Lia.
Require Import Verif.TimeSpec Verif.TimeModel Verif.TimeProof.
Open Scope Z_scope.

(** C01: addition is exact and normalised whenever it returns. *)
Theorem C01_add_exact : forall a b c, normal a -> normal b -> add a b = Some c ->
  normal c /\ instant c = instant a + instant b.
Proof. exact add_exact. Qed.
Print Assumptions C01_add_exact.

(** ... and it returns exactly when the sum is representable, bar one corner:
    the intermediate sum of the seconds fields must not underflow. *)
Theorem C01_add_defined : forall a b, normal a -> normal b ->
  (exists c, add a b = Some c) <->
  (- 2^63 <= sec a + sec b /\ representable (instant a + instant b)).
Proof. exact add_defined. Qed.
Print Assumptions C01_add_defined.

Theorem C01_subtract_exact : forall a b c, normal a -> normal b -> subtract a b = Some c ->
  normal c /\ instant c = instant a - instant b.
Proof. exact subtract_exact. Qed.
Print Assumptions C01_subtract_exact.

Theorem C01_subtract_defined : forall a b, normal a -> normal b ->
  (exists c, subtract a b = Some c) <->
  (sec a - sec b < 2^63 /\ representable (instant a - instant b)).
Proof. exact subtract_defined. Qed.
Print Assumptions C01_subtract_defined.

(** The corner excluded above is real: the sum is representable, yet the C overflows. *)
Theorem C01_add_corner_refuted : exists a b, normal a /\ normal b /\
  representable (instant a + instant b) /\ add a b = None.
Proof.
  exists (mkTs (-2^63) 999999999 0), (mkTs (-1) 999999999 0).
  split; [vm_compute; intuition discriminate|].
  split; [vm_compute; intuition discriminate|].
  split; [vm_compute; intuition discriminate|reflexivity].
Qed.
Print Assumptions C01_add_corner_refuted.

Theorem C01_add_then_subtract : forall a b c, normal a -> normal b -> add a b = Some c ->
  sec c - sec b < 2^63 -> subtract c b = Some a.
Proof. exact add_subtract_cancel. Qed.
Print Assumptions C01_add_then_subtract.

Theorem C01_negate : forall a, normal a -> - 2^63 < sec a ->
  exists c, negate a = Some c /\ normal c /\ instant c = - instant a.
Proof. exact negate_exact. Qed.
Print Assumptions C01_negate.

(** The destination pointer may equal one or both operands (all pointer triples,
    all memories): the destination receives the sum of the original operands and
    nothing else changes. *)
Theorem C01_add_aliasing : forall m c a b, writes m (add_mem m c a b) c (add (m a) (m b)).
Proof. exact add_mem_aliasing. Qed.
Print Assumptions C01_add_aliasing.

Theorem C01_subtract_aliasing : forall m c a b,
  writes m (subtract_mem m c a b) c (subtract (m a) (m b)).
Proof. exact subtract_mem_aliasing. Qed.
Print Assumptions C01_subtract_aliasing.

(** Non-trivial instances: double carry, double borrow. *)
Example C01_carry_ex :
  normal (mkTs 5 999999999 4294967295) /\ normal (mkTs (-7) 0 1) /\
  add (mkTs 5 999999999 4294967295) (mkTs (-7) 0 1) = Some (mkTs (-1) 0 0).
Proof. repeat split; vm_compute; intuition discriminate. Qed.
Example C01_borrow_ex :
  normal (mkTs 0 0 0) /\ normal (mkTs 0 0 1) /\
  subtract (mkTs 0 0 0) (mkTs 0 0 1) = Some (mkTs (-1) 999999999 4294967295).
Proof. repeat split; vm_compute; intuition discriminate. Qed.
Example C01_alias_ex :
  let m := fun p => if p =? 1 then mkTs 5 999999999 4294967295 else mkTs 3 1 2 in
  match add_mem m 1 1 1 with Some m' => m' 1 = mkTs 11 999999999 4294967294 | None => False end.
Proof. vm_compute. reflexivity. Qed.

(** C02: comparison agrees with the order of instants. *)
Theorem C02_cmp : forall a b, normal a -> normal b ->
  cmp a b = match instant a ?= instant b with Lt => -1 | Eq => 0 | Gt => 1 end.
Proof. exact cmp_spec. Qed.
Print Assumptions C02_cmp.

Theorem C02_equal_instants_equal_fields : forall a b, normal a -> normal b ->
  (cmp a b = 0 <-> a = b).
Proof.
  intros a b Ha Hb. rewrite C02_cmp by assumption.
  destruct (Z.compare_spec (instant a) (instant b)); split; intros; subst;
    try lia; try discriminate; auto using instant_inj.
Qed.
Print Assumptions C02_equal_instants_equal_fields.

Theorem C02_is_ge : forall a b r, normal a -> normal b -> is_ge a b = Some r ->
  (r = true <-> instant b <= instant a).
Proof. exact is_ge_spec. Qed.
Print Assumptions C02_is_ge.

Theorem C02_is_ge_defined : forall a b, normal a -> normal b ->
  - 2^62 < sec a < 2^62 -> - 2^62 < sec b < 2^62 -> exists r, is_ge a b = Some r.
Proof. exact is_ge_defined. Qed.
Print Assumptions C02_is_ge_defined.

Example C02_ex : normal (mkTs 1 2 3) /\ normal (mkTs 1 2 4) /\
  cmp (mkTs 1 2 3) (mkTs 1 2 4) = -1 /\ is_ge (mkTs 1 2 3) (mkTs 1 2 4) = Some false.
Proof. repeat split; vm_compute; intuition discriminate. Qed.

(** C03: conversions.  Full statement for from_ns:
      forall ns, - 2^63 < ns < 2^63 -> exists t, from_ns ns = Some t /\ normal t /\
                                           instant t = ns * ns_unit
    It is false (next theorem); what holds is the range |ns| < 2^31. *)
Theorem C03_from_ns_partial : forall ns, - 2^31 < ns < 2^31 ->
  exists t, from_ns ns = Some t /\ normal t /\ instant t = ns * ns_unit.
Proof. exact from_ns_exact. Qed.
Print Assumptions C03_from_ns_partial.

(** Three seconds expressed in ns becomes about minus 1.3 s, and -2^31 ns is UB. *)
Theorem C03_from_ns_refuted :
  (exists t, from_ns 3000000000 = Some t /\ instant t = - 1294967296 * ns_unit) /\
  from_ns (- 2^31) = None.
Proof. split; [eexists; split; [vm_compute; reflexivity|reflexivity]|vm_compute; reflexivity]. Qed.
Print Assumptions C03_from_ns_refuted.

Theorem C03_from_ns16 : forall x, - 2^63 < x < 2^63 ->
  exists t, from_ns16 x = Some t /\ normal t /\ instant t = x * 2^16.
Proof. exact from_ns16_exact. Qed.
Print Assumptions C03_from_ns16.

(** to_ns16 truncates towards zero, for every instant whose scaled value fits in int64. *)
Theorem C03_to_ns16 : forall t, normal t -> - 2^79 < instant t < 2^79 ->
  to_ns16 t = Some (Z.quot (instant t) (2^16)).
Proof. exact to_ns16_exact. Qed.
Print Assumptions C03_to_ns16.

Theorem C03_ns16_round_trip : forall x, - 2^63 < x < 2^63 ->
  exists t, from_ns16 x = Some t /\ to_ns16 t = Some x.
Proof. exact ns16_round_trip. Qed.
Print Assumptions C03_ns16_round_trip.

(** Saturation happens, but only from twice the representable limit on ... *)
Theorem C03_to_ns16_saturates_partial : forall t, normal t -> - 2^63 < sec t ->
  (281474 <= sec t -> to_ns16 t = Some (2^63 - 1)) /\
  (sec t < - 281474 -> to_ns16 t = Some (- 2^63)).
Proof. exact to_ns16_saturates. Qed.
Print Assumptions C03_to_ns16_saturates_partial.

(** ... so a time of +150000 s converts to a negative number. *)
Theorem C03_to_ns16_refuted : exists t v, normal t /\ 0 < instant t /\
  to_ns16 t = Some v /\ v < 0.
Proof.
  exists (mkTs 150000 0 0). eexists.
  split; [vm_compute; intuition discriminate|].
  split; [vm_compute; reflexivity|]. split; vm_compute; reflexivity.
Qed.
Print Assumptions C03_to_ns16_refuted.

(** struct timespec: floor conversion, nearest conversion, round trips. *)
Theorem C03_to_std_floor : forall t, normal t ->
  std_normal (to_std_floor t) /\
  std_instant (to_std_floor t) <= instant t < std_instant (to_std_floor t) + ns_unit.
Proof. exact to_std_floor_exact. Qed.
Print Assumptions C03_to_std_floor.

(** Nearest: within half a nanosecond; well-formed except when rounding up out of
    the last nanosecond of a second, where tv_nsec becomes 1000000000. *)
Theorem C03_to_std_nearest : forall t, normal t ->
  - 2^31 <= std_instant (to_std_nearest t) - instant t <= 2^31 /\
  (std_normal (to_std_nearest t) <-> ~ (nsec t = 999999999 /\ 2^31 <= frac t)).
Proof. exact to_std_nearest_exact. Qed.
Print Assumptions C03_to_std_nearest.

Theorem C03_std_round_trips : forall t, std_normal t ->
  normal (from_std_nearest t) /\ normal (from_std_floor t) /\
  to_std_floor (from_std_nearest t) = t /\ to_std_nearest (from_std_nearest t) = t /\
  to_std_floor (from_std_floor t) = t /\ to_std_nearest (from_std_floor t) = t /\
  instant (from_std_floor t) = std_instant t /\
  instant (from_std_nearest t) = std_instant t + 2^31 - 1.
Proof. exact std_round_trips. Qed.
Print Assumptions C03_std_round_trips.

Example C03_ex : from_ns (-1500000000) = Some (mkTs (-2) 500000000 0) /\
  from_ns16 (-98304) = Some (mkTs (-1) 999999998 2147483648) /\
  to_ns16 (mkTs (-1) 999999998 2147483648) = Some (-98304) /\
  std_normal (mkTimespec 7 999999999).
Proof. repeat split; vm_compute; intuition discriminate. Qed.
