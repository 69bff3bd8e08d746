(** Specification vocabulary for the comparison of a hardware clock with the system clock (C73). *)
Require Import ZArith QArith List String.
From Verif Require Import TimeSpec.
Import ListNotations.
Open Scope Z_scope.

(** The comparison methods a user can list, enum sfptpd_phc_diff_method,
    src/include/sfptpd_phc.h:24-32; [MMAX] ends a list. *)
Inductive method := PRECISE | EFX | MPPS | EXT | SYS | READ | MMAX.

(** A bracketed reading: the system clock before, the hardware clock, the system clock after. *)
Record tri := mkTri { t_before : ts; t_dev : ts; t_after : ts }.
(** The width of the bracket, and twice the offset of the hardware clock from its middle, in
    units of 2^-32 ns. *)
Definition width (x : tri) : Z := instant (t_after x) - instant (t_before x).
Definition twice_offset (x : tri) : Z :=
  2 * instant (t_dev x) - instant (t_before x) - instant (t_after x).
(** The reading at position [i] is the first among the tightest brackets of positive width. *)
Definition tightest (l : list tri) (i : nat) (x : tri) : Prop :=
  nth_error l i = Some x /\ 0 < width x /\
  (forall j y, nth_error l j = Some y -> 0 < width y -> width x <= width y) /\
  (forall j y, (j < i)%nat -> nth_error l j = Some y -> 0 < width y -> width x < width y).

(** What a comparison by readings [l] may return into a place that holds [d0]: EAGAIN, and
    nothing, if no bracket has positive width; else success and the offset from the middle of
    the tightest. *)
Definition measured (l : list tri) (d0 : ts) (rc : Z) (d : ts) : Prop :=
  (rc = 11 /\ d = d0 /\ forall x, In x l -> width x <= 0) \/
  (rc = 0 /\ normal d /\ exists i x, tightest l i x /\ 2 * instant d = twice_offset x).

(** Times as clocks report them: whole nanoseconds, well-formed, within 2^40 s of the epoch. *)
Definition clock_time (t : ts) : Prop :=
  - 2^40 < sec t < 2^40 /\ 0 <= nsec t < 1000000000 /\ frac t = 0.
(** A reading by clocks, over a bracket of less than 2^20 s (twelve days). *)
Definition reading (x : tri) : Prop :=
  clock_time (t_before x) /\ clock_time (t_dev x) /\ clock_time (t_after x) /\
  - 2^20 < sec (t_after x) - sec (t_before x) < 2^20.

(** Conversion to double, used by floor(): monotone, and exact for the multiples of 2^-31 up to
    2^21 (52 bits). *)
Definition double_like (rd : Q -> Q) : Prop :=
  (forall x y, (x <= y)%Q -> (rd x <= rd y)%Q) /\
  (forall k, - 2^52 <= k <= 2^52 -> (rd (inject_Z k / inject_Z (2^31)) == inject_Z k / inject_Z (2^31))%Q).

(** A list of methods as configuration leaves it: the methods listed, each once, then the
    end mark.  What follows is never a use of the PPS method. *)
Definition is_order (order : list method) (l : list method) : Prop :=
  NoDup l /\ ~ In MMAX l /\
  exists tail, order = l ++ MMAX :: tail /\ ~ In MPPS tail /\ (List.length order = 7)%nat.

(** Scanning [l] the first element that satisfies [ok], with what precedes it. *)
Definition first_of {A} (ok : A -> Prop) (l : list A) (x : A) : Prop :=
  exists l1 l2, l = l1 ++ x :: l2 /\ ok x /\ forall y, In y l1 -> ~ ok y.

(** Errors named in statements. *)
Definition EAGAIN := 11.
Definition ENOENT := 2.
Definition EFAULT := 14.
Definition EOPNOTSUPP := 95.
Definition ERANGE := 34.
Definition EINVAL := 22.

(** The outside world. *)
(** One entry of /sys/class/pps: its name, and the first token of its file "name" ([None]:
    the file cannot be opened, [Some None]: no token). *)
Record entry := mkEntry { en_dev : string; en_name : option (option string) }.

(** What phc_configure_pps meets: fts_open and fts_read fail with this errno; the listing, or
    NULL with this errno; opening a device: a descriptor or minus an errno; enabling. *)
Record pps_env := mkPpsEnv {
  v_open : option Z; v_read : option Z; v_list : Z + list entry; v_dev : string -> Z; v_enable : Z }.

(** What the outside world returns to the calls made at one level of
    sfptpd_phc_compare_to_sys_clk.  [inl] is an errno.  [e_now] and [e_mono] are CLOCK_MONOTONIC;
    [e_read i] the i-th reading from user space; [e_ext i], [e_sys i] what the kernel returns;
    the fields [w_...] are the probes made when a method is chosen. *)
Record env := mkEnv {
  e_now : ts; e_mono : ts; e_fetch : Z + (Z * Z);
  e_read : nat -> Z + tri; e_precise : Z + (ts * ts); e_ext : Z + (nat -> tri);
  e_sys : Z + (nat -> ts); e_efx : Z + ts;
  w_ext : Z; w_sys : Z; w_efx : Z; w_pps : pps_env; w_name : string }.


(** The names of the PPS devices fit the buffer they are read into. *)
Definition names_fit (v : pps_env) : Prop :=
  match v_list v with
  | inr l => forall en t, In en l -> en_name en = Some (Some t) -> (String.length t < 16)%nat
  | inl _ => True
  end.
(** The PPS output of the clock can be used: the first device with the name of the clock opens
    and is enabled. *)
Definition pps_ready (v : pps_env) (name : string) : Prop :=
  v_open v = None /\ v_read v = None /\
  exists l l1 en l2, v_list v = inr l /\ l = l1 ++ en :: l2 /\ en_name en = Some (Some name) /\
    (forall x, In x l1 -> en_name x <> Some (Some name)) /\ 0 <= v_dev v (en_dev en) /\ v_enable v = 0.
(** Failing calls set errno. *)
Definition errnos (v : pps_env) : Prop :=
  (forall e, v_open v = Some e -> e <> 0) /\ (forall e, v_read v = Some e -> e <> 0) /\
  (forall e, v_list v = inl e -> e <> 0).

(** A method works for a clock with cross timestamping, a PPS output, the EFX call. *)
Definition available (e : env) (cross pps has_efx : bool) (m : method) : Prop :=
  match m with
  | PRECISE => cross = true
  | EFX => has_efx = true /\ w_efx e = 0
  | MPPS => pps = true /\ pps_ready (w_pps e) (w_name e)
  | EXT => w_ext e = 0
  | SYS => w_sys e = EFAULT
  | READ => True
  | MMAX => False
  end.

(** The world returns what clocks can return. *)
Definition world_ok (e : env) : Prop :=
  clock_time (e_now e) /\ clock_time (e_mono e) /\
  (forall s n, e_fetch e = inr (s, n) -> 0 <= n < 1000000000) /\
  (forall i x, e_read e i = inr x -> reading x) /\
  (forall d s, e_precise e = inr (d, s) -> clock_time d /\ clock_time s) /\
  (forall f i, e_ext e = inr f -> reading (f i)) /\
  (forall f i, e_sys e = inr f -> reading (mkTri (f (2 * i)%nat) (f (2 * i + 1)%nat) (f (2 * i + 2)%nat))) /\
  names_fit (w_pps e).
