(** Model of src/pps/sfptpd_pps_module.c: the servo, the signal state machine, the
    polling of pulses and of the time of day, and the messages that change an
    instance.  [None] is a failed assertion, an out-of-bounds access or a signed
    overflow.  sfptpd_time_t (long double) is modelled by exact rationals.  Statistics
    (pps_stats_update, rt stats formatting), logging and the bogus-event test mode are
    not modelled. *)
Require Import ZArith QArith List Bool Arith.
Require Import Verif.Base Verif.TimeSpec Verif.TimeModel Verif.QLib Verif.ListLib Verif.SrvSpec
  Verif.FilterModel Verif.StatsModel Verif.PpsSpec.
Require Verif.FltModel Verif.PsvModel.
Import ListNotations.
Open Scope Z_scope.

(** struct sfptpd_pps_instance, sfptpd_pps_module.c:101-196 (the parts used).  The two
    control flags TIMESTAMP_PROCESSING and CLOCK_CTRL are booleans; alarms are one
    boolean per alarm; the notch filter is the constant [the_notch]. *)
Record inst := mkInst {
  a_ts : bool; a_cc : bool;                      (** ctrl_flags *)
  a_state : st; a_prev : st;                     (** state, prev_state *)
  a_al : alarms; a_pal : alarms;                 (** alarms, prev_alarms *)
  a_good : Z;                                    (** consecutive_good_periods *)
  a_step : bool;                                 (** step_occurred *)
  a_time : ts; a_last : ts; a_seq : Z; a_period : Q;
                                                 (** pps_timestamp, last_pps_time, pps_seq_num, pps_period_ns *)
  a_peirce : option peirce; a_fir : fir; a_pid : pid;
  a_offset : Q; a_base : Q; a_freq : Q; a_active : bool;
                                                 (** offset_from_master_ns, freq_adjust_base, freq_adjust_ppb, servo_active *)
  a_sync : bool; a_conv : conv;                  (** synchronized, convergence *)
  a_score : Z; a_pscore : Z;                     (** clustering_score, prev_clustering_score *)
  a_started : option ts; a_expired : bool }.     (** instance_has_started and instance_started_time,
                                                     pps_pulse_check_timer_expired *)

(** Setters, one per group of assignments. *)
Definition set_flags (a : inst) (t c : bool) : inst :=
  mkInst t c (a_state a) (a_prev a) (a_al a) (a_pal a) (a_good a) (a_step a) (a_time a) (a_last a)
    (a_seq a) (a_period a) (a_peirce a) (a_fir a) (a_pid a) (a_offset a) (a_base a) (a_freq a)
    (a_active a) (a_sync a) (a_conv a) (a_score a) (a_pscore a) (a_started a) (a_expired a).
Definition set_state (a : inst) (s : st) : inst :=
  mkInst (a_ts a) (a_cc a) s (a_prev a) (a_al a) (a_pal a) (a_good a) (a_step a) (a_time a) (a_last a)
    (a_seq a) (a_period a) (a_peirce a) (a_fir a) (a_pid a) (a_offset a) (a_base a) (a_freq a)
    (a_active a) (a_sync a) (a_conv a) (a_score a) (a_pscore a) (a_started a) (a_expired a).
Definition set_al (a : inst) (l : alarms) : inst :=
  mkInst (a_ts a) (a_cc a) (a_state a) (a_prev a) l (a_pal a) (a_good a) (a_step a) (a_time a) (a_last a)
    (a_seq a) (a_period a) (a_peirce a) (a_fir a) (a_pid a) (a_offset a) (a_base a) (a_freq a)
    (a_active a) (a_sync a) (a_conv a) (a_score a) (a_pscore a) (a_started a) (a_expired a).
Definition set_good (a : inst) (n : Z) : inst :=
  mkInst (a_ts a) (a_cc a) (a_state a) (a_prev a) (a_al a) (a_pal a) n (a_step a) (a_time a) (a_last a)
    (a_seq a) (a_period a) (a_peirce a) (a_fir a) (a_pid a) (a_offset a) (a_base a) (a_freq a)
    (a_active a) (a_sync a) (a_conv a) (a_score a) (a_pscore a) (a_started a) (a_expired a).
Definition set_step (a : inst) (b : bool) : inst :=
  mkInst (a_ts a) (a_cc a) (a_state a) (a_prev a) (a_al a) (a_pal a) (a_good a) b (a_time a) (a_last a)
    (a_seq a) (a_period a) (a_peirce a) (a_fir a) (a_pid a) (a_offset a) (a_base a) (a_freq a)
    (a_active a) (a_sync a) (a_conv a) (a_score a) (a_pscore a) (a_started a) (a_expired a).
Definition set_time (a : inst) (t : ts) : inst :=
  mkInst (a_ts a) (a_cc a) (a_state a) (a_prev a) (a_al a) (a_pal a) (a_good a) (a_step a) t (a_last a)
    (a_seq a) (a_period a) (a_peirce a) (a_fir a) (a_pid a) (a_offset a) (a_base a) (a_freq a)
    (a_active a) (a_sync a) (a_conv a) (a_score a) (a_pscore a) (a_started a) (a_expired a).
Definition set_seq (a : inst) (seq : Z) (now : ts) : inst :=
  mkInst (a_ts a) (a_cc a) (a_state a) (a_prev a) (a_al a) (a_pal a) (a_good a) (a_step a) (a_time a) now
    seq (a_period a) (a_peirce a) (a_fir a) (a_pid a) (a_offset a) (a_base a) (a_freq a)
    (a_active a) (a_sync a) (a_conv a) (a_score a) (a_pscore a) (a_started a) (a_expired a).
Definition set_period (a : inst) (x : Q) : inst :=
  mkInst (a_ts a) (a_cc a) (a_state a) (a_prev a) (a_al a) (a_pal a) (a_good a) (a_step a) (a_time a) (a_last a)
    (a_seq a) x (a_peirce a) (a_fir a) (a_pid a) (a_offset a) (a_base a) (a_freq a)
    (a_active a) (a_sync a) (a_conv a) (a_score a) (a_pscore a) (a_started a) (a_expired a).
Definition set_peirce (a : inst) (f : option peirce) : inst :=
  mkInst (a_ts a) (a_cc a) (a_state a) (a_prev a) (a_al a) (a_pal a) (a_good a) (a_step a) (a_time a) (a_last a)
    (a_seq a) (a_period a) f (a_fir a) (a_pid a) (a_offset a) (a_base a) (a_freq a)
    (a_active a) (a_sync a) (a_conv a) (a_score a) (a_pscore a) (a_started a) (a_expired a).
Definition set_pid (a : inst) (f : pid) : inst :=
  mkInst (a_ts a) (a_cc a) (a_state a) (a_prev a) (a_al a) (a_pal a) (a_good a) (a_step a) (a_time a) (a_last a)
    (a_seq a) (a_period a) (a_peirce a) (a_fir a) f (a_offset a) (a_base a) (a_freq a)
    (a_active a) (a_sync a) (a_conv a) (a_score a) (a_pscore a) (a_started a) (a_expired a).
Definition set_fir (a : inst) (f : fir) (offset freq : Q) : inst :=
  mkInst (a_ts a) (a_cc a) (a_state a) (a_prev a) (a_al a) (a_pal a) (a_good a) (a_step a) (a_time a) (a_last a)
    (a_seq a) (a_period a) (a_peirce a) f (a_pid a) offset (a_base a) freq
    (a_active a) (a_sync a) (a_conv a) (a_score a) (a_pscore a) (a_started a) (a_expired a).
Definition set_freq (a : inst) (freq : Q) : inst :=
  mkInst (a_ts a) (a_cc a) (a_state a) (a_prev a) (a_al a) (a_pal a) (a_good a) (a_step a) (a_time a) (a_last a)
    (a_seq a) (a_period a) (a_peirce a) (a_fir a) (a_pid a) (a_offset a) (a_base a) freq
    (a_active a) (a_sync a) (a_conv a) (a_score a) (a_pscore a) (a_started a) (a_expired a).
Definition set_active (a : inst) : inst :=
  mkInst (a_ts a) (a_cc a) (a_state a) (a_prev a) (a_al a) (a_pal a) (a_good a) (a_step a) (a_time a) (a_last a)
    (a_seq a) (a_period a) (a_peirce a) (a_fir a) (a_pid a) (a_offset a) (a_base a) (a_freq a)
    true (a_sync a) (a_conv a) (a_score a) (a_pscore a) (a_started a) (a_expired a).
Definition set_sync (a : inst) (b : bool) (c : conv) : inst :=
  mkInst (a_ts a) (a_cc a) (a_state a) (a_prev a) (a_al a) (a_pal a) (a_good a) (a_step a) (a_time a) (a_last a)
    (a_seq a) (a_period a) (a_peirce a) (a_fir a) (a_pid a) (a_offset a) (a_base a) (a_freq a)
    (a_active a) b c (a_score a) (a_pscore a) (a_started a) (a_expired a).
Definition set_score (a : inst) (n : Z) : inst :=
  mkInst (a_ts a) (a_cc a) (a_state a) (a_prev a) (a_al a) (a_pal a) (a_good a) (a_step a) (a_time a) (a_last a)
    (a_seq a) (a_period a) (a_peirce a) (a_fir a) (a_pid a) (a_offset a) (a_base a) (a_freq a)
    (a_active a) (a_sync a) (a_conv a) n (a_pscore a) (a_started a) (a_expired a).
Definition set_started (a : inst) (s : option ts) (e : bool) : inst :=
  mkInst (a_ts a) (a_cc a) (a_state a) (a_prev a) (a_al a) (a_pal a) (a_good a) (a_step a) (a_time a) (a_last a)
    (a_seq a) (a_period a) (a_peirce a) (a_fir a) (a_pid a) (a_offset a) (a_base a) (a_freq a)
    (a_active a) (a_sync a) (a_conv a) (a_score a) (a_pscore a) s e.
(** Lines 1747-1749. *)
Definition snapshot (a : inst) : inst :=
  mkInst (a_ts a) (a_cc a) (a_state a) (a_state a) (a_al a) (a_al a) (a_good a) (a_step a) (a_time a) (a_last a)
    (a_seq a) (a_period a) (a_peirce a) (a_fir a) (a_pid a) (a_offset a) (a_base a) (a_freq a)
    (a_active a) (a_sync a) (a_conv a) (a_score a) (a_score a) (a_started a) (a_expired a).

(** ** Servo *)

(** pps_servo_reset, lines 722-742, when the saved correction is [corr].  It also zeroes
    the time of day offset of the module, see [poll_module]. *)
Definition servo_reset (a : inst) (corr : Q) : inst :=
  mkInst (a_ts a) (a_cc a) (a_state a) (a_prev a) (a_al a) (a_pal a) (a_good a) (a_step a) null_time (a_last a)
    (a_seq a) 0 (a_peirce a) (fir_reset (a_fir a)) (pid_reset (a_pid a)) 0 corr corr
    (a_active a) (a_sync a) (a_conv a) (a_score a) (a_pscore a) (a_started a) (a_expired a).

(** pps_servo_step_clock, lines 745-785.  Failures of the clock calls are only logged. *)
Definition step_clock (a : inst) (off : ts) (corr : Q) : option (inst * list out) :=
  do neg <- subtract null_time off;
  Some (set_step (servo_reset a corr) true, [Step neg; Freq corr; TellDay]).

(** Lines 808-819: the seconds from the time of day, the rest from the pulse. *)
Definition combine (day t : ts) : option ts :=
  do s1 <- (if 500000000 <=? nsec day then chk_s64 (sec day + 1) else Some (sec day));
  do s2 <- (if 500000000 <=? nsec t then chk_s64 (s1 - 1) else Some s1);
  Some (mkTs s2 (nsec t) 0).

(** Lines 834-836. *)
Definition permits (p : ctrl) (active : bool) (d : Q) : bool :=
  match p with
  | SLEW_AND_STEP => true
  | STEP_AT_STARTUP => negb active
  | STEP_FORWARD => Qlt_bool d 0
  | _ => false
  end.

(** Lines 866-869. *)
Definition clamp (m f : Q) : Q := if Qlt_bool m f then m else if Qlt_bool f (- m) then (- m)%Q else f.

(** pps_servo_update, lines 788-881. *)
Definition servo_update (g : conf) (a : inst) (t day : ts) (corr : Q) : option (inst * list out) :=
  do diff <- combine day t;
  let d := (FltModel.to_float_ns diff - g_delay g)%Q in
  if permits (g_ctrl g) (a_active a) d &&
     (Qle_bool d (- inject_Z 500000000) || Qle_bool (inject_Z 500000000) d) then
    if a_cc a then
      do r <- step_clock a diff corr;
      Some (set_active (fst r), snd r)
    else Some (a, [])
  else
    do r <- fir_update (a_fir a) d;
    let a1 := set_fir a (fst r) (snd r) (a_base a) in
    if a_cc a then
      do p <- pid_update (a_pid a1) (snd r) None;
      let f := clamp (g_max g) (a_freq a1 + freq_adjust p) in
      Some (set_active (set_freq (set_pid a1 p) f), [Freq f])
    else Some (a1, []).

(** ** Signal state machine *)

(** pps_state_machine_reset, lines 1314-1330. *)
Definition sm_reset (a : inst) : inst :=
  mkInst (a_ts a) (a_cc a) LISTENING LISTENING no_alarm no_alarm 0 (a_step a) null_time (a_last a)
    0 0 (match a_peirce a with Some f => Some (PsvModel.peirce_clear f) | None => None end)
    (a_fir a) (a_pid a) (a_offset a) (a_base a) (a_freq a)
    (a_active a) (a_sync a) (a_conv a) (a_score a) (a_pscore a) (a_started a) (a_expired a).

(** Lines 239-241. *)
Definition timeout_interval : ts := mkTs 60 0 0.
Definition pulse_timeout_interval : ts := mkTs 8 0 0.
Definition alarm_interval : ts := mkTs 1 100000000 0.

Definition al_set_sig (l : alarms) (b : bool) : alarms := mkAl b (al_seq l) (al_day l) (al_bad l).
Definition al_set_seq (l : alarms) (b : bool) : alarms := mkAl (al_sig l) b (al_day l) (al_bad l).
Definition al_set_day (l : alarms) (b : bool) : alarms := mkAl (al_sig l) (al_seq l) b (al_bad l).
Definition al_set_bad (l : alarms) (b : bool) : alarms := mkAl (al_sig l) (al_seq l) (al_day l) b.

(** pps_on_no_pps_event, lines 1333-1376, at monotonic time [now]. *)
Definition on_nothing (a : inst) (now : ts) : option inst :=
  match a_state a with
  | LISTENING => Some a
  | SLAVE =>
      do iv <- subtract now (a_last a);
      do t1 <- is_ge iv timeout_interval;
      if t1 then Some (sm_reset a)
      else
        do t2 <- is_ge iv alarm_interval;
        if t2 && negb (al_sig (a_al a)) then Some (set_al a (al_set_sig (a_al a) true)) else Some a
  | FAULTY => Some (sm_reset a)
  end.

(** pps_on_pps_error, lines 1379-1404. *)
Definition on_error (a : inst) : inst :=
  match a_state a with
  | LISTENING | SLAVE => set_state (sm_reset a) FAULTY
  | FAULTY => a
  end.

(** The notch filter: PPS_NOTCH_FILTER_MID_POINT, PPS_NOTCH_FILTER_WIDTH, lines 46-47
    and 2195-2197. *)
Definition the_notch : option notch := notch_init (inject_Z 1000000000) (inject_Z 100000000).
(** PPS_REQUIRED_GOOD_PERIODS, line 49. *)
Definition REQUIRED : Z := 3.
(** consecutive_good_periods is an int. *)
Definition chk_s32 (x : Z) : option Z := if (- 2^31 <=? x) && (x <? 2^31) then Some x else None.

(** Lines 1504-1526: the period and the notch filter. *)
Definition on_period (a : inst) (t : ts) : option inst :=
  if sec (a_time a) =? 0 then Some a
  else
    do p <- subtract t (a_time a);
    let x := FltModel.to_float_ns p in
    do n <- the_notch;
    let a1 := set_period a x in
    if notch_update n x then
      do k <- chk_s32 (a_good a + 1);
      Some (set_good a1 k)
    else Some (set_good (set_al a1 (al_set_bad (a_al a1) true)) 0).

(** Lines 1528-1571: the servo is executed if the signal is trusted and the period is
    not an outlier.  The report stands for the clustering input and rt stats. *)
Definition on_trust (g : conf) (a : inst) (t day : ts) (corr : Q) (score : Z) : option (inst * list out) :=
  if REQUIRED <=? a_good a then
    let a1 := set_al a (al_set_bad (a_al a) false) in
    do r <- match a_peirce a1 with
            | Some f => do x <- peirce_update f (a_period a1); Some (fst x, set_peirce a1 (Some (snd x)))
            | None => Some (false, a1)
            end;
    if fst r then Some (snd r, [])
    else
      do s <- servo_update g (snd r) t day corr;
      Some (set_score (fst s) score, snd s ++ [Report (a_offset (fst s))])
  else Some (a, []).

(** Lines 1463-1571. *)
Definition on_slave (g : conf) (a : inst) (seq : Z) (t day : ts) (corr : Q) (score : Z) : option (inst * list out) :=
  let l := al_set_sig (a_al a) false in
  let l := if negb (seq =? 2^32 - 1) && negb (seq =? u32 (a_seq a + 1)) then al_set_seq l true
           else al_set_seq l false in
  let a1 := set_al a l in
  if negb (a_ts a1) then Some (a1, [])
  else if a_step a1 then Some (set_time (set_step a1 false) null_time, [])
  else
    do a2 <- on_period a1 t;
    on_trust g a2 t day corr score.

(** pps_on_pps_event, lines 1453-1582. *)
Definition on_pulse (g : conf) (a : inst) (seq : Z) (t now day : ts) (corr : Q) (score : Z) : option (inst * list out) :=
  do r <- match a_state a with
          | FAULTY | LISTENING => Some (set_period (set_state a SLAVE) 0, [])
          | SLAVE => on_slave g a seq t day corr score
          end;
  let a1 := set_seq (fst r) seq now in
  Some (if a_ts a1 then set_time a1 t else a1, snd r).

(** The three outcomes, lines 1710-1716 of pps_do_poll. *)
Definition on_got (g : conf) (a : inst) (p : pin) : option (inst * list out) :=
  match i_got p with
  | Nothing => do a1 <- on_nothing a (i_now p); Some (a1, [])
  | Failed => Some (on_error a, [])
  | Pulse seq t => on_pulse g a seq t (i_now p) (i_day p) (i_corr p) (i_score p)
  end.

(** pps_convergence_update, lines 1200-1231. *)
Definition converge (a : inst) (now : option ts) : option inst :=
  match now, a_state a with
  | Some t, SLAVE =>
      if negb (quiet (a_al a)) || negb (a_ts a) then Some a
      else do r <- conv_update (a_conv a) (sec t) (a_offset a);
           Some (set_sync a (snd r) (fst r))
  | _, _ => Some (set_sync a false (conv_reset (a_conv a)))
  end.

(** The rest of pps_do_poll, lines 1718-1796: the time of day alarm (lines 1673-1681), the
    convergence and the message to the engine. *)
Definition rest (a : inst) (avail : option bool) (now : option ts) : option (inst * list out) :=
  let a1 := match avail with
            | Some ok => set_al a (al_set_day (a_al a) (negb ok))
            | None => a
            end in
  do a2 <- converge a1 now;
  let changed := negb (st_eqb (a_state a2) (a_prev a2)) ||
                 (st_eqb (a_state a2) SLAVE && negb (Bool.eqb (quiet (a_al a2)) (quiet (a_pal a2)))) ||
                 negb (a_score a2 =? a_pscore a2) in
  let a3 := snapshot a2 in
  Some (a3, if changed then
              [Told (a_state a3) (a_al a3)
                    (if st_eqb (a_state a3) SLAVE then Some (a_offset a3) else None) (a_score a3)]
            else []).

(** pps_do_poll, lines 1691-1797, for one instance. *)
Definition poll (g : conf) (a : inst) (p : pin) : option (inst * list out) :=
  do r <- on_got g a p;
  do s <- rest (fst r) (i_avail p) (i_conv p);
  Some (fst s, snd r ++ snd s).

(** The pulse check of pps_on_timer, lines 1811-1830. *)
Definition check (a : inst) (now : ts) : option inst :=
  match a_started a with
  | None => Some (set_started a (Some now) (a_expired a))
  | Some s =>
      if a_expired a then Some a
      else
        do iv <- subtract now s;
        do ge <- is_ge iv pulse_timeout_interval;
        if ge then
          let a1 := set_started a (Some s) true in
          Some (if a_good a <? REQUIRED then set_al a1 (al_set_sig (a_al a1) true) else a1)
        else Some a
  end.

(** pps_on_control, lines 1919-1955, the new flags being given. *)
Definition on_control (a : inst) (tsproc cc : bool) : inst :=
  let a1 := if a_cc a && negb cc then set_pid a (pid_reset (a_pid a)) else a in
  let a2 := if a_ts a1 && negb tsproc then set_time a1 null_time else a1 in
  set_flags a2 tsproc cc.

(** One thing happening to an instance.  [Timer] is lines 1836-1842: an instance with a
    descriptor. *)
Definition istep (g : conf) (a : inst) (o : iop) : option (inst * list out) :=
  match o with
  | Poll p => poll g a p
  | Timer now => do a1 <- on_nothing a now; Some (a1, [])
  | Check now => do a1 <- check a now; Some (a1, [])
  | Control t c => Some (on_control a t c, [])
  | StepBy off corr => step_clock a off corr
  | Gains kp ki kd reset => Some (set_pid a (pid_adjust (a_pid a) kp ki kd reset), [])
  end.
Fixpoint irun (g : conf) (a : inst) (l : list iop) : option (inst * list (list out)) :=
  match l with
  | [] => Some (a, [])
  | o :: r => do x <- istep g a o;
              do y <- irun g (fst x) r;
              Some (fst y, snd x :: snd y)
  end.

(** ** Start *)

(** What pps_start_instance meets: whether the stats and (if configured) the outlier
    filter could be allocated, what pps_configure_clock returns, the clock's correction and limit. *)
Record boot := mkBoot {
  b_stats : Z; b_alloc : bool; b_clock : Z; b_corr : Q; b_kp : Q; b_ki : Q;
  b_conv_min : Z; b_conv_max : Q; b_junk : list Q }.

(** pps_start_instance, lines 2169-2235, on a zeroed instance (calloc): the result code
    and the instance, which has a clock only if it is [Some]. *)
Definition start (g : conf) (b : boot) : option (Z * option inst) :=
  do cv <- conv_init (b_conv_min b) (b_conv_max b);
  if negb (b_stats b =? 0) then Some (b_stats b, None)
  else
    do n <- the_notch;
    do f <- fir_init (b_junk b) (g_fir g);
    let p := pid_init (b_kp b) (b_ki b) 0 1 in
    let pc := match g_out g with
              | Some (size, w) => if b_alloc b then do x <- peirce_create size w; Some (Some (Some x))
                                  else Some None
              | None => Some (Some None)
              end in
    do pc' <- pc;
    match pc' with
    | None => Some (0, None)
    | Some pf =>
        if negb (b_clock b =? 0) then Some (b_clock b, None)
        else
          do p1 <- pid_set_i_max p (g_max g);
          let a := mkInst true false LISTENING LISTENING no_alarm no_alarm 0 false null_time null_time 0 0
                     pf f p1 0 0 0 false false cv 0 0 None false in
          Some (0, Some (servo_reset (sm_reset a) (b_corr b)))
    end.

(** A run of an instance from its start. *)
Definition live (g : conf) (b : boot) (l : list iop) : option (inst * list (list out)) :=
  do r <- start g b;
  match r with
  | (0, Some a) => irun g a l
  | _ => None
  end.

(** ** Time of day, shared by the instances of the module *)

(** pps->time_of_day, lines 213-222; [d_slave] is whether the source is in the slave or
    selection state. *)
Record day := mkDay { d_next : ts; d_src : bool; d_slave : bool; d_off : ts }.

(** pps_time_of_day_poll, lines 1617-1688, with pps_time_of_day_init, lines 1585-1614: the
    new state and, if it was time to poll, whether a time of day is available. *)
Definition day_poll (d : day) (e : din) : option (day * option bool) :=
  do lft <- subtract (d_next d) (e_now e);
  if 0 <=? sec lft then Some (d, None)
  else
    do s <- chk_s64 (sec (d_next d) + 1);
    let d1 := mkDay (mkTs s (nsec (d_next d)) (frac (d_next d))) (d_src d) (d_slave d) (d_off d) in
    let d2 := if d_src d1 then d1
              else if e_found e then mkDay (e_now e) true false null_time else d1 in
    do d3 <- (if d_src d2 then
                match e_status e with
                | Some (sl, off) =>
                    do o <- (if is_zero off then Some off
                             else match e_cmp e with Some c => add off c | None => Some off end);
                    Some (mkDay (d_next d2) true sl o)
                | None => Some d2
                end
              else Some d2);
    Some (d3, Some (d_slave d3)).

(** A step of instance [a] in the module zeroes the shared offset (line 738). *)
Definition zero_day (d : day) (outs : list out) : day :=
  if existsb is_step outs then mkDay (d_next d) (d_src d) (d_slave d) null_time else d.

(** One thing happening to one instance of the module. *)
Definition mstep1 (g : conf) (d : day) (a : inst) (o : mop) : option (day * inst * list out) :=
  match o with
  | MPoll x =>
      let p := mkPin (x_got x) (x_now x) (d_off d) (x_corr x) (x_score x) None (x_conv x) in
      do r <- on_got g a p;
      let d1 := zero_day d (snd r) in
      do e <- day_poll d1 (x_day x);
      do s <- rest (fst r) (snd e) (x_conv x);
      Some (fst e, fst s, snd r ++ snd s)
  | MOther (Poll _) => None
  | MOther o => do r <- istep g a o; Some (zero_day d (snd r), fst r, snd r)
  end.

(** The module: the shared time of day and its instances with their configurations. *)
Definition mstep (m : day * list (conf * inst)) (i : nat) (o : mop) : option (day * list (conf * inst) * list out) :=
  do ga <- nth_error (snd m) i;
  do r <- mstep1 (fst ga) (fst m) (snd ga) o;
  let '(d, a, outs) := r in
  Some (d, set_nth i (fst ga, a) (snd m), outs).
Fixpoint mrun (m : day * list (conf * inst)) (l : list (nat * mop)) : option (day * list (conf * inst) * list (list out)) :=
  match l with
  | [] => Some (m, [])
  | (i, o) :: r =>
      do x <- mstep m i o;
      do y <- mrun (fst x) r;
      Some (fst y, snd x :: snd y)
  end.
