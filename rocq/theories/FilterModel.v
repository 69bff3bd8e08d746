(** Model of src/sfptpd_filter.c and the standard deviation measure of
    src/sfptpd_statistics.c.  long double is modelled by exact rationals (rounding
    not modelled).  [None] is a failed assertion, an out-of-bounds access or a signed
    overflow. *)
Require Import ZArith QArith List Bool Arith.
Require Import Verif.Base Verif.TimeSpec Verif.TimeModel Verif.QLib Verif.ListLib Verif.FilterSpec.
Import ListNotations.
Open Scope Q_scope.

Definition Qlt_bool (x y : Q) : bool := negb (Qle_bool y x).

(** ** FIR filter: struct sfptpd_fir_filter, src/include/sfptpd_filter.h:26-31. *)
Record fir := mkFir { f_stiff : nat; f_num : nat; f_widx : nat; f_delta : list Q }.
Definition FIR_MAX : nat := 128.

(** sfptpd_fir_filter_reset, src/sfptpd_filter.c:92-98. *)
Definition fir_reset (f : fir) : fir := mkFir (f_stiff f) 0 0 (f_delta f).

(** sfptpd_fir_filter_init, lines 80-89, on a structure whose array holds anything. *)
Definition fir_init (junk : list Q) (stiffness : nat) : option fir :=
  if (stiffness <=? FIR_MAX)%nat then Some (fir_reset (mkFir stiffness 0 0 junk)) else None.

(** sfptpd_fir_filter_update, lines 101-122.  Writing beyond the 128 slots, or
    dividing by zero samples, is [None]. *)
Definition fir_update (f : fir) (x : Q) : option (fir * Q) :=
  if (f_widx f <? length (f_delta f))%nat then
    let d := set_nth (f_widx f) x (f_delta f) in
    let w := if (S (f_widx f) =? f_stiff f)%nat then O else S (f_widx f) in
    let n := if (f_num f <? f_stiff f)%nat then S (f_num f) else f_num f in
    if (n =? 0)%nat then None else
    Some (mkFir (f_stiff f) n w d,
          fold_left Qplus (firstn n d) 0 / inject_Z (Z.of_nat n))
  else None.

(** Feed a history of samples and resets. *)
Fixpoint fir_run (f : fir) (ops : list (rop Q)) : option fir :=
  match ops with
  | [] => Some f
  | Push x :: r => do a <- fir_update f x; fir_run (fst a) r
  | Reset :: r => fir_run (fir_reset f) r
  end.

(** ** PID filter: struct sfptpd_pid_filter, src/include/sfptpd_filter.h:49-76. *)
Record pid := mkPid {
  k_p : Q; k_i : Q; k_d : Q; conf_interval : Q; avg_interval : Q; last_update : ts;
  i_max : Q; p_term : Q; i_term : Q; d_term : Q; freq_adjust : Q }.

(** sfptpd_pid_filter_reset, src/sfptpd_filter.c:163-174. *)
Definition pid_reset (f : pid) : pid :=
  mkPid (k_p f) (k_i f) (k_d f) (conf_interval f) (conf_interval f) null_time
        (i_max f) 0 0 0 0.

(** sfptpd_pid_filter_init, lines 129-142. *)
Definition pid_init (kp ki kd interval : Q) : pid :=
  pid_reset (mkPid kp ki kd interval 0 null_time 0 0 0 0 0).

(** sfptpd_pid_filter_set_i_term_max, lines 145-151 (asserts i_max >= 0). *)
Definition pid_set_i_max (f : pid) (m : Q) : option pid :=
  if Qle_bool 0 m then
    Some (mkPid (k_p f) (k_i f) (k_d f) (conf_interval f) (avg_interval f) (last_update f)
                m (p_term f) (i_term f) (d_term f) (freq_adjust f))
  else None.

(** sfptpd_pid_filter_set_interval, lines 154-160 (asserts interval > 0). *)
Definition pid_set_interval (f : pid) (t : Q) : option pid :=
  if Qlt_bool 0 t then
    Some (mkPid (k_p f) (k_i f) (k_d f) t (avg_interval f) (last_update f)
                (i_max f) (p_term f) (i_term f) (d_term f) (freq_adjust f))
  else None.

(** sfptpd_pid_filter_adjust, lines 177-193; [None] stands for NaN. *)
Definition pid_adjust (f : pid) (kp ki kd : option Q) (reset : bool) : pid :=
  let pick o v := match o with Some x => x | None => v end in
  let f1 := mkPid (pick kp (k_p f)) (pick ki (k_i f)) (pick kd (k_d f)) (conf_interval f)
                  (avg_interval f) (last_update f) (i_max f) (p_term f) (i_term f)
                  (d_term f) (freq_adjust f) in
  if reset then pid_reset f1 else f1.

(** sfptpd_time_timespec_to_float_s, src/include/sfptpd_time.h:119-125. *)
Definition to_float_s (t : ts) : Q :=
  inject_Z (sec t) + inject_Z (nsec t) / inject_Z 1000000000
  + inject_Z (frac t) / (inject_Z 1000000000 * inject_Z (2^32)).

(** The clamping of the measured interval, lines 210-215. *)
Definition clamp_interval (avg t : Q) : Q :=
  if Qlt_bool t ((1#2) * avg) then (1#2) * avg
  else if Qlt_bool (2 * avg) t then 2 * avg else t.

(** The saturation of the integral term, lines 241-246. *)
Definition saturate (m i : Q) : Q :=
  if Qlt_bool 0 m then
    if Qlt_bool m i then m else if Qlt_bool i (- m) then - m else i
  else i.

(** Interval selection and averaging, lines 204-225: returns the interval used, the
    new average and the new last update time. *)
Definition pid_interval (f : pid) (time : option ts) : option (Q * Q * ts) :=
  match time with
  | None => Some (conf_interval f, avg_interval f, last_update f)
  | Some now =>
      if is_zero (last_update f) then Some (conf_interval f, avg_interval f, now)
      else
        do d <- subtract now (last_update f);
        let t := clamp_interval (avg_interval f) (to_float_s d) in
        Some (t, ((16 - 1) * avg_interval f + t) / 16, now)
  end.

(** sfptpd_pid_filter_update, lines 196-249. *)
Definition pid_update (f : pid) (delta : Q) (time : option ts) : option pid :=
  do r <- pid_interval f time;
  let '(t, avg, last) := r in
  let p := k_p f * delta in
  let fa := 0 - p - i_term f - d_term f in
  let i := saturate (i_max f) (i_term f + k_i f * t * delta) in
  Some (mkPid (k_p f) (k_i f) (k_d f) (conf_interval f) avg last (i_max f) p i (d_term f) fa).

Inductive pop :=
| PUpdate (delta : Q) (time : option ts)
| PReset
| PAdjust (kp ki kd : option Q) (reset : bool)
| PSetInterval (t : Q).

Definition pid_step (f : pid) (o : pop) : option pid :=
  match o with
  | PUpdate d t => pid_update f d t
  | PReset => Some (pid_reset f)
  | PAdjust a b c r => Some (pid_adjust f a b c r)
  | PSetInterval t => pid_set_interval f t
  end.

Fixpoint pid_run (f : pid) (ops : list pop) : option pid :=
  match ops with
  | [] => Some f
  | o :: r => do f' <- pid_step f o; pid_run f' r
  end.

(** ** Notch filter, src/sfptpd_filter.c:277-297: [true] is 0 (accepted), [false] is
    ERANGE. *)
Record notch := mkNotch { n_min : Q; n_max : Q }.
Definition notch_init (mid width : Q) : option notch :=
  if Qlt_bool 0 width then Some (mkNotch (mid - width) (mid + width)) else None.
Definition notch_update (n : notch) (x : Q) : bool :=
  Qle_bool (n_min n) x && Qle_bool x (n_max n).

(** ** Standard deviation measure, src/sfptpd_statistics.c:189-236. *)
Record sdev := mkSdev { sd_n : Z; sd_sum : Q; sd_sumsq : Q }.
Definition sd_init : sdev := mkSdev 0 0 0.
Definition sd_add (s : sdev) (x : Q) : sdev :=
  mkSdev (sd_n s + 1) (sd_sum s + x) (sd_sumsq s + x * x).
(** Asserts num_samples > 0. *)
Definition sd_remove (s : sdev) (x : Q) : option sdev :=
  if (0 <? sd_n s)%Z then Some (mkSdev (sd_n s - 1) (sd_sum s - x) (sd_sumsq s - x * x))
  else None.
(** Returns the mean and the argument of the final sqrtl. *)
Definition sd_get (s : sdev) : option (Q * Q) :=
  if (0 <? sd_n s)%Z then
    let m := sd_sum s / inject_Z (sd_n s) in
    Some (m, sd_sumsq s / inject_Z (sd_n s) - m * m)
  else None.
Definition sd_step (s : sdev) (o : sdop) : option sdev :=
  match o with SdAdd x => Some (sd_add s x) | SdRemove x => sd_remove s x end.
Fixpoint sd_run (s : sdev) (ops : list sdop) : option sdev :=
  match ops with [] => Some s | o :: r => do s' <- sd_step s o; sd_run s' r end.

(** ** Peirce filter.  peirce_criterion_table, src/sfptpd_filter.c:59-73. *)
Definition peirce_table : list Q :=
  [0#1000000; 1000000#1000000; 1216262#1000000; 1382943#1000000; 1509276#1000000; 1609828#1000000;
   1692841#1000000; 1763236#1000000; 1824156#1000000; 1877719#1000000; 1925417#1000000; 1968339#1000000;
   2007300#1000000; 2042929#1000000; 2075718#1000000; 2106060#1000000; 2134273#1000000; 2160620#1000000;
   2185316#1000000; 2208544#1000000; 2230458#1000000; 2251190#1000000; 2270853#1000000; 2289546#1000000;
   2307353#1000000; 2324351#1000000; 2340604#1000000; 2356171#1000000; 2371105#1000000; 2385452#1000000;
   2399253#1000000; 2412545#1000000; 2425364#1000000; 2437739#1000000; 2449698#1000000; 2461267#1000000;
   2472468#1000000; 2483323#1000000; 2493852#1000000; 2504072#1000000; 2514000#1000000; 2523651#1000000;
   2533039#1000000; 2542178#1000000; 2551079#1000000; 2559753#1000000; 2568212#1000000; 2576465#1000000;
   2584522#1000000; 2592390#1000000; 2600079#1000000; 2607595#1000000; 2614946#1000000; 2622138#1000000;
   2629178#1000000; 2636072#1000000; 2642825#1000000; 2649442#1000000; 2655929#1000000; 2662291#1000000].
Definition PEIRCE_MIN : nat := 5.
Definition PEIRCE_MAX : nat := 60.

(** peirce_filter_get_criterion, lines 304-310; the index is num_samples - 1 in
    unsigned arithmetic, so 0 samples fails the assertion. *)
Definition peirce_criterion (n : nat) : option Q :=
  match n with O => None | S i => nth_error peirce_table i end.

(** struct sfptpd_peirce_filter, src/include/sfptpd_filter.h:89-107. *)
Record peirce := mkPeirce {
  pe_max : nat; pe_weight : Q; pe_sd : sdev; pe_num : nat; pe_widx : nat; pe_data : list Q }.

(** sfptpd_peirce_filter_create and reset, lines 313-352; calloc zeroes the data. *)
Definition peirce_create (max : nat) (weight : Q) : option peirce :=
  if ((0 <? max) && (max <=? PEIRCE_MAX))%nat && Qle_bool 0 weight && Qle_bool weight 1 then
    Some (mkPeirce max weight sd_init 0 0 (repeat 0 max))
  else None.

(** The outlier decision, lines 364-391: returns the verdict and the (possibly
    weighted) sample.  fabsl(dev) > criterion * sqrtl(var) is evaluated as
    dev^2 > criterion^2 * var. *)
Definition peirce_judge (f : peirce) (x : Q) : option (bool * Q) :=
  if (PEIRCE_MIN <=? pe_num f)%nat then
    do mv <- sd_get (pe_sd f);
    let '(mean, var) := mv in
    do c <- peirce_criterion (pe_num f);
    let dev := x - mean in
    if Qlt_bool (c * c * var) (dev * dev)
    then Some (true, mean + dev * pe_weight f)
    else Some (false, x)
  else Some (false, x).

(** sfptpd_peirce_filter_update, lines 355-416.  [true] is ERANGE. *)
Definition peirce_update (f : peirce) (x : Q) : option (bool * peirce) :=
  do r <- peirce_judge f x;
  let '(out, y) := r in
  do sd1 <- (if (pe_max f <=? pe_num f)%nat then
               do old <- nth_error (pe_data f) (pe_widx f); sd_remove (pe_sd f) old
             else Some (pe_sd f));
  if (pe_widx f <? length (pe_data f))%nat then
    let w := if (pe_max f <=? S (pe_widx f))%nat then O else S (pe_widx f) in
    let n := if (pe_num f <? pe_max f)%nat then S (pe_num f) else pe_num f in
    Some (out, mkPeirce (pe_max f) (pe_weight f) (sd_add sd1 y) n w
                        (set_nth (pe_widx f) y (pe_data f)))
  else None.

(** Feed a list of samples; collects the verdicts. *)
Fixpoint peirce_run (f : peirce) (xs : list Q) : option (list bool * peirce) :=
  match xs with
  | [] => Some ([], f)
  | x :: r => do a <- peirce_update f x;
              do b <- peirce_run (snd a) r;
              Some (fst a :: fst b, snd b)
  end.

(** ** Smallest filter.  struct sfptpd_smallest_filter, src/sfptpd_filter.c:32-50.
    Only the monotonic time and the path delay of the data sets are kept. *)
Record smallest := mkSmallest {
  sm_max : nat; sm_ageing : Q; sm_num : nat; sm_widx : nat; sm_timeout : ts;
  sm_data : list sample }.

(** sfptpd_smallest_filter_create, lines 423-448. *)
Definition smallest_create (max : nat) (ageing : Q) (timeout : Z) : option smallest :=
  if (0 <? max)%nat && (0 <? timeout)%Z then
    Some (mkSmallest max ageing 0 0 (from_s timeout) (repeat (mkSample null_time 0) max))
  else None.

(** sfptpd_smallest_filter_reset, lines 466-471. *)
Definition smallest_reset (f : smallest) : smallest :=
  mkSmallest (sm_max f) (sm_ageing f) 0 0 (sm_timeout f) (sm_data f).

(** The search loop, lines 497-519, over the live slots; the accumulator is
    (best_sample, best_path_delay). *)
Fixpoint smallest_search (ageing : Q) (timeout now : ts) (l : list sample)
         (best : option (sample * Q)) : option (option (sample * Q)) :=
  match l with
  | [] => Some best
  | s :: r =>
      do a <- subtract now (s_mono s);
      if (sec a <? 0)%Z then None else
      let aged := s_delay s + ageing * to_float_s a in
      do ge <- is_ge timeout a;
      let better := match best with None => true | Some (_, b) => Qlt_bool aged b end in
      smallest_search ageing timeout now r
        (if ge && Qle_bool 0 (s_delay s) && better then Some (s, aged) else best)
  end.

(** sfptpd_smallest_filter_update, lines 474-527. *)
Definition smallest_update (f : smallest) (s : sample) : option (smallest * sample) :=
  if (sm_widx f <? length (sm_data f))%nat then
    let d := set_nth (sm_widx f) s (sm_data f) in
    let w := if (sm_max f <=? S (sm_widx f))%nat then O else S (sm_widx f) in
    let n := if (sm_num f <? sm_max f)%nat then S (sm_num f) else sm_num f in
    do best <- smallest_search (sm_ageing f) (sm_timeout f) (s_mono s) (firstn n d) None;
    Some (mkSmallest (sm_max f) (sm_ageing f) n w (sm_timeout f) d,
          match best with Some (b, _) => b | None => s end)
  else None.

(** Feed a history of samples and resets. *)
Fixpoint smallest_run (f : smallest) (ops : list (rop sample)) : option smallest :=
  match ops with
  | [] => Some f
  | Push s :: r => do a <- smallest_update f s; smallest_run (fst a) r
  | Reset :: r => smallest_run (smallest_reset f) r
  end.
