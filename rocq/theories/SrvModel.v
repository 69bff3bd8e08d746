(** Transcription of src/sfptpd_servo.c and of the operations of
    src/sfptpd_clock.c it uses.

    Simplifications: long double is exact rational arithmetic; the two clock
    feed subscriptions (FeedModel.v) appear as the result of the comparison;
    logging, real-time statistics and offset statistics are left out; names
    are left out; CLOCK_MONOTONIC readings used for the failure period are
    integers in ns.  [None] is a failed assertion or signed overflow. *)
Require Import ZArith QArith Qround List Bool.
From Verif Require Import Base ListLib QLib TimeSpec TimeModel FilterSpec FilterModel StatsSpec StatsModel SrvSpec.
Import ListNotations.
Open Scope Z_scope.

(** ** Clocks *)

(** The fields of struct sfptpd_clock used here, sfptpd_clock.c:110-220. *)
Record kclk := mkClk {
  k_sys : option (Q * Q);       (** system clock: tick_freq_hz, u.system.max_freq_adj *)
  k_phc : bool;                 (** u.nic.phc != NULL *)
  k_ro : bool;                  (** read_only *)
  k_blocked : Z;                (** blocked_count *)
  k_max : Q;                    (** max_freq_adj_ppb *)
  k_corr : Q;                   (** freq_correction_ppb *)
  k_locked : bool;              (** lrc_been_locked *)
  k_persist : bool              (** use_clock_correction *)
}.
Definition set_corr (k : kclk) (x : Q) : kclk :=
  mkClk (k_sys k) (k_phc k) (k_ro k) (k_blocked k) (k_max k) x (k_locked k) (k_persist k).

(** the combined limit of the system clock, sfptpd_clock.c:622-639. *)
Definition system_max (hz maxf : Q) : Q :=
  (inject_Z 100000 / hz * (hz * inject_Z 1000) + maxf)%Q.

(** clock_determine_max_freq_adj, sfptpd_clock.c:679-717: [dev] is what the
    device reports, [limit] the configured limit. *)
Definition nic_max (dev : Z) (limit : Q) : Q :=
  if Qlt_bool limit (inject_Z dev) then limit else inject_Z dev.

(** roundl: nearest, halves away from zero. *)
Definition roundl (x : Q) : Z :=
  if Qle_bool 0 x then Qfloor (x + (1#2)) else - Qfloor (- x + (1#2)).

(** The four-line saturation of sfptpd_clock.c:1855-1858 (and 1885-1888). *)
Definition sat (m x : Q) : Q :=
  let x := if Qlt_bool m x then m else x in
  if Qlt_bool x (- m) then (- m)%Q else x.

(** sfptpd_clock_adjust_frequency, sfptpd_clock.c:1863-1904: tick length and
    frequency field requested for a frequency of [f] ppb. *)
Definition kernel_values (k : kclk) (f0 : Q) : option Z * Z :=
  let f := sat (k_max k) f0 in
  match k_sys k with
  | None => (None, roundl (f * (inject_Z 65536 / inject_Z 1000)))
  | Some (hz, maxf) =>
    let res := (hz * inject_Z 1000)%Q in
    let max_tick := (inject_Z 100000 / hz)%Q in
    let tick :=
      if Qlt_bool maxf f then
        let t := inject_Z (roundl ((f - maxf) / res)) in
        if Qlt_bool max_tick t then max_tick else t
      else if Qlt_bool f (- maxf) then
        let t := (- inject_Z (roundl ((- f - maxf) / res)))%Q in
        if Qlt_bool t (- max_tick) then (- max_tick)%Q else t
      else 0%Q in
    let fr := if Qlt_bool maxf f || Qlt_bool f (- maxf) then (f - tick * res)%Q else f in
    let fr := if Qlt_bool maxf fr then maxf else if Qlt_bool fr (- maxf) then (- maxf)%Q else fr in
    (Some (roundl (tick + inject_Z 1000000 / hz)), roundl (fr * (inject_Z 65536 / inject_Z 1000)))
  end.

Definition ENODEV : Z := 19.
Definition EAGAIN : Z := 11.
Definition ERANGE : Z := 34.
Definition ENODATA : Z := 61.

(** May the clock be written to, and if not, what is returned:
    sfptpd_clock.c:1762-1780 and 1826-1844. *)
Definition refused (k : kclk) : option Z :=
  match k_sys k with
  | None => if k_phc k then if k_ro k then Some 0 else if 0 <? k_blocked k then Some 0 else None
            else Some ENODEV
  | Some _ => if k_ro k then Some 0 else if 0 <? k_blocked k then Some 0 else None
  end.

(** sfptpd_clock_adjust_time, sfptpd_clock.c:1751-1812; [os] is 0 or the errno
    of clock_adjtime.  (RTC status bits left out.) *)
Definition adjust_time (k : kclk) (c : nat) (off : ts) (os : Z) : list kev * Z :=
  match refused k with
  | Some rc => ([], rc)
  | None => ([KStep c (instant off)], os)
  end.

(** sfptpd_clock_adjust_frequency, sfptpd_clock.c:1815-1920. *)
Definition adjust_frequency (k : kclk) (c : nat) (f : Q) (os : Z) : list kev * Z :=
  match refused k with
  | Some rc => ([], rc)
  | None => let '(t, x) := kernel_values k f in ([KFreq c t x], os)
  end.

(** sfptpd_clock_load_freq_correction, sfptpd_clock.c:1425-1476: [file] is
    what the correction file held, if it could be read. *)
Definition load_corr (k : kclk) (c : nat) (file : option Q) (os : Z) : kclk * list kev * Z :=
  let '(x, rc) := if k_persist k
                  then match file with Some x => (x, 0) | None => (0%Q, ENODATA) end
                  else (0%Q, 0) in
  let '(x, rc) := if Qlt_bool (k_max k) x || Qlt_bool x (- k_max k) then (0%Q, ENODATA) else (x, rc) in
  (set_corr k x, fst (adjust_frequency k c x os), rc).

(** sfptpd_clock_save_freq_correction, sfptpd_clock.c:1479-1511: [os] is the
    result of writing the file. *)
Definition save_corr (k : kclk) (x : Q) (os : Z) : kclk * Z :=
  if Qlt_bool (k_max k) x || Qlt_bool x (- k_max k) then (k, ERANGE)
  else (set_corr k x, os).

(** sfptpd_clock_set_time without a threshold, not as the initial correction,
    sfptpd_clock.c:2149-2183: [cmp] is the result of comparing the clocks. *)
Definition set_time (k : kclk) (c from : nat) (cmp : Z + ts) (os : Z) : list kev * Z :=
  if Nat.eqb c from then ([], 0)
  else match cmp with
       | inl rc => ([], rc)
       | inr diff => adjust_time k c diff os
       end.

(** ** Servo *)
Inductive fstate := S_OK | S_FAILED | S_ALARMED.

Record scfg := mkCfg { g_ctrl : ctrl; g_guard : guard; g_thr : Q }.
Record flt := mkFlt { l_fir : fir; l_pid : pid; l_corr : Q; l_adj : Q; l_max : Q; l_ofm : Q }.
Record alarms := mkAl { a_near : bool; a_ctrl : bool; a_sust : bool }.

(** struct sfptpd_servo, sfptpd_servo.c:50-128. *)
Record servo := mkServo {
  v_cfg : scfg;
  v_clocks : option (nat * nat);        (** master, slave *)
  v_flt : flt;
  v_active : bool;
  v_stepped : bool;                     (** stepped_after_lrc_locked *)
  v_sync : bool;                        (** synchronized *)
  v_state : fstate; v_begin : Z;        (** failure tracking *)
  v_al : alarms;
  v_conv : conv
}.

Definition with_flt (v : servo) (l : flt) : servo :=
  mkServo (v_cfg v) (v_clocks v) l (v_active v) (v_stepped v) (v_sync v) (v_state v) (v_begin v) (v_al v) (v_conv v).
Definition with_al (v : servo) (a : alarms) : servo :=
  mkServo (v_cfg v) (v_clocks v) (v_flt v) (v_active v) (v_stepped v) (v_sync v) (v_state v) (v_begin v) a (v_conv v).
Definition with_clocks (v : servo) (c : option (nat * nat)) : servo :=
  mkServo (v_cfg v) c (v_flt v) (v_active v) (v_stepped v) (v_sync v) (v_state v) (v_begin v) (v_al v) (v_conv v).
Definition with_active (v : servo) (a : bool) : servo :=
  mkServo (v_cfg v) (v_clocks v) (v_flt v) a (v_stepped v) (v_sync v) (v_state v) (v_begin v) (v_al v) (v_conv v).
Definition with_stepped (v : servo) (a : bool) : servo :=
  mkServo (v_cfg v) (v_clocks v) (v_flt v) (v_active v) a (v_sync v) (v_state v) (v_begin v) (v_al v) (v_conv v).
Definition with_conv (v : servo) (c : conv) (s : bool) : servo :=
  mkServo (v_cfg v) (v_clocks v) (v_flt v) (v_active v) (v_stepped v) s (v_state v) (v_begin v) (v_al v) c.
Definition with_track (v : servo) (s : fstate) (b : Z) : servo :=
  mkServo (v_cfg v) (v_clocks v) (v_flt v) (v_active v) (v_stepped v) (v_sync v) s b (v_al v) (v_conv v).
Definition set_near (v : servo) (b : bool) : servo :=
  with_al v (mkAl b (a_ctrl (v_al v)) (a_sust (v_al v))).
Definition set_ctrlf (v : servo) (b : bool) : servo :=
  with_al v (mkAl (a_near (v_al v)) b (a_sust (v_al v))).
Definition set_sust (v : servo) (b : bool) : servo :=
  with_al v (mkAl (a_near (v_al v)) (a_ctrl (v_al v)) b).
Definition set_ofm (v : servo) (x : Q) : servo :=
  let l := v_flt v in with_flt v (mkFlt (l_fir l) (l_pid l) (l_corr l) (l_adj l) (l_max l) x).

(** sfptpd_servo_reset, sfptpd_servo.c:244-255. *)
Definition flt_reset (l : flt) : flt :=
  mkFlt (fir_reset (l_fir l)) (pid_reset (l_pid l)) (l_corr l) (l_corr l) (l_max l) 0.
Definition servo_reset (v : servo) : servo := with_flt v (flt_reset (v_flt v)).

(** The FIR stiffness, sfptpd_servo.c:178-182, for a sync interval of
    2^interval seconds (interval above -32: config range -8..8). *)
Definition stiffness (interval : Z) : Z :=
  let s := if 0 <? interval then 0 else 2 ^ (- interval) in
  if s <? 1 then 1 else if 16 <? s then 16 else s.
(** 2^interval as a rational *)
Definition pow2 (interval : Z) : Q :=
  if interval <? 0 then (1 / inject_Z (2 ^ (- interval)))%Q else inject_Z (2 ^ interval).

(** sfptpd_servo_create, sfptpd_servo.c:148-227 (allocation succeeded; calloc
    zeroes the FIR array and freq_adjust_max; stats_convergence_init sets the
    60 s default). *)
Definition servo_create (g : scfg) (interval : Z) (kp ki : Q) (conv_thr : Q) : option servo :=
  do f <- fir_init (repeat 0%Q FIR_MAX) (Z.to_nat (stiffness interval));
  do c <- conv_init 60 (if Qeq_bool conv_thr 0 then inject_Z 1000 else conv_thr);
  Some (servo_reset
    (mkServo g None (mkFlt f (pid_init kp ki 0 (pow2 interval)) 0 0 0 0)
             false false false S_OK 0 (mkAl false false false) c)).

(** sfptpd_servo_set_clocks, sfptpd_servo.c:284-342.  [w] is the state of the
    clocks. *)
Definition set_clocks (w : nat -> kclk) (v : servo) (m s : nat) (os : Z) : option (servo * list kev) :=
  if match v_clocks v with Some (m0, s0) => Nat.eqb m0 m && Nat.eqb s0 s | None => false end
  then Some (v, [])
  else
    let k := w s in
    let l := v_flt v in
    do p <- pid_set_i_max (l_pid l) (k_max k);
    let '(ev, rc) := adjust_frequency k s (k_corr k) os in
    let v := with_clocks v (Some (m, s)) in
    let v := with_flt v (mkFlt (l_fir l) p (k_corr k) (l_adj l) (k_max k) (l_ofm l)) in
    let v := set_ctrlf v (negb (rc =? 0)) in
    Some (servo_reset v, ev).

(** sfptpd_servo_step_clock, sfptpd_servo.c:345-384. *)
Definition step_clock (w : nat -> kclk) (v : servo) (offset : ts) (os1 os2 : Z)
  : option (servo * list kev * Z) :=
  do ms <- v_clocks v;
  let s := snd ms in
  do neg <- negate offset;
  let '(ev1, rc1) := adjust_time (w s) s neg os1 in
  let v := set_ctrlf v (negb (rc1 =? 0)) in
  let l := v_flt v in
  let v := with_flt v (mkFlt (l_fir l) (l_pid l) (k_corr (w s)) (l_adj l) (l_max l) (l_ofm l)) in
  let '(ev2, rc2) := adjust_frequency (w s) s (k_corr (w s)) os2 in
  let v := if rc2 =? 0 then v else set_ctrlf v true in
  Some (servo_reset v, ev1 ++ ev2, rc2).

(** sfptpd_time_timespec_to_float_ns, include/sfptpd_time.h. *)
Definition to_float_ns (t : ts) : Q :=
  (inject_Z (sec t) * inject_Z 1000000000 + inject_Z (nsec t)
   + inject_Z (frac t) / inject_Z (2^32))%Q.

(** the near-epoch test, sfptpd_servo.c:416 and 459. *)
Definition near (t : Q) : bool :=
  Qlt_bool t (inject_Z 10000000000000000) || Qlt_bool (inject_Z (4294705152 * 1000000000)) t.

Definition guard_eqb (a b : guard) : bool :=
  match a, b with
  | ALARM_ONLY, ALARM_ONLY | PREVENT_SYNC, PREVENT_SYNC | CORRECT_CLOCK, CORRECT_CLOCK => true
  | _, _ => false
  end.

(** What one call of sfptpd_servo_synchronize gets from outside. *)
Record sin := mkIn {
  i_w : nat -> kclk;                    (** the clocks *)
  i_cmp : Z + (ts * ts * ts);           (** sfptpd_clockfeed_compare: error, or
                                            difference (slave - master), slave
                                            and master times *)
  i_time : ts;                          (** mono_time argument *)
  i_now : Z;                            (** CLOCK_MONOTONIC for failure tracking *)
  i_setcmp : Z + ts;                    (** comparison inside sfptpd_clock_set_time *)
  i_os1 : Z; i_os2 : Z                  (** results of the clock_adjtime calls *)
}.

(** may the slave be stepped, sfptpd_servo.c:514-520. *)
Definition may_step (v : servo) (locked : bool) (d : Q) : bool :=
  match g_ctrl (v_cfg v) with
  | SLEW_AND_STEP => true
  | STEP_AT_STARTUP => negb (v_active v)
  | STEP_ON_FIRST_LOCK => negb (v_active v) || (negb (v_stepped v) && locked)
  | STEP_FORWARD => Qlt_bool d 0
  | NO_STEP | NO_ADJUST => false
  end.

(** The near-epoch handling of one clock.  Master: sfptpd_servo.c:413-453;
    slave: 457-487.  Returns the servo, events, and whether to return EAGAIN. *)
Definition epoch_master (sys : nat) (v : servo) (m s : nat) (i : sin) (d : Q) (t : Q)
  : servo * list kev * bool :=
  if near t then
    let first := negb (a_near (v_al v)) in
    let v1 := set_near v true in
    let v1 := if first && negb (guard_eqb (g_guard (v_cfg v)) CORRECT_CLOCK) then set_ofm v1 d else v1 in
    let ev := if first then [EpochAlarm s] else [] in
    let v1 := with_active v1 true in
    match g_guard (v_cfg v) with
    | ALARM_ONLY => (v1, ev, false)
    | PREVENT_SYNC => (set_ofm v1 d, ev, true)
    | CORRECT_CLOCK => (v1, ev ++ fst (set_time (i_w i m) m sys (i_setcmp i) (i_os1 i)), true)
    end
  else (set_near v false, [], false).

Definition epoch_slave (sys : nat) (v : servo) (s : nat) (i : sin) (t : Q)
  : servo * list kev * bool :=
  if near t then
    let first := negb (a_near (v_al v)) in
    let v1 := with_active (set_near v true) true in
    let ev := if first then [EpochAlarm s] else [] in
    match g_guard (v_cfg v) with
    | CORRECT_CLOCK => (v1, ev ++ fst (set_time (i_w i s) s sys (i_setcmp i) (i_os1 i)), true)
    | _ => (v1, ev, false)
    end
  else (set_near v false, [], false).

(** the slewing part, sfptpd_servo.c:538-591. *)
Definition slew (v : servo) (m s : nat) (i : sin) (d : Q) : option (servo * list kev * Z) :=
  let l := v_flt v in
  do fm <- fir_update (l_fir l) d;
  let '(f, mean) := fm in
  do p <- pid_update (l_pid l) mean (Some (i_time i));
  let a := (l_corr l + freq_adjust p)%Q in
  let a := if Qlt_bool (l_max l) a then l_max l
           else if Qlt_bool a (- l_max l) then (- l_max l)%Q else a in
  let v := with_flt v (mkFlt f p (l_corr l) a (l_max l) mean) in
  let '(ev, rc) := adjust_frequency (i_w i s) s a (i_os1 i) in
  let v := set_ctrlf v (negb (rc =? 0)) in
  do cb <- conv_update (v_conv v) (sec (i_time i)) mean;
  let v := with_conv v (fst cb) (snd cb) in
  let v := with_active v true in
  let v := if k_locked (i_w i m) then with_stepped v true else v in
  Some (v, ev, rc).

(** do_servo_synchronize, sfptpd_servo.c:387-602.  [sys] is the system clock. *)
Definition do_sync (sys : nat) (v : servo) (i : sin) : option (servo * list kev * Z) :=
  do ms <- v_clocks v;
  let '(m, s) := ms in
  match i_cmp i with
  | inl rc => Some (v, [], rc)
  | inr (diff, st, mt) =>
    let d := to_float_ns diff in
    let '(v, ev1, stop) := epoch_master sys v m s i d (to_float_ns mt) in
    if stop then Some (v, ev1, EAGAIN) else
    let '(v, ev2, stop) := epoch_slave sys v s i (to_float_ns st) in
    if stop then Some (v, ev1 ++ ev2, EAGAIN) else
    if may_step v (k_locked (i_w i m)) d &&
       (Qle_bool d (- g_thr (v_cfg v)) || Qle_bool (g_thr (v_cfg v)) d) then
      do r <- step_clock (i_w i) v diff (i_os1 i) (i_os2 i);
      let '(v, ev3, rc) := r in
      let v := with_active v true in
      let v := if k_locked (i_w i m) then with_stepped v true else v in
      Some (v, ev1 ++ ev2 ++ ev3, rc)
    else
      do r <- slew v m s i d;
      let '(v, ev3, rc) := r in
      Some (v, ev1 ++ ev2 ++ ev3, rc)
  end.

(** SFPTPD_SUSTAINED_SYNC_FAILURE_PERIOD, sfptpd_constants.h:124, in ns. *)
Definition FAILURE_PERIOD : Z := 30 * 1000000000.

(** failure tracking of sfptpd_servo_synchronize, sfptpd_servo.c:614-651. *)
Definition track (v : servo) (rc now : Z) : servo :=
  match v_state v with
  | S_OK => if rc =? 0 then v else with_track v S_FAILED now
  | S_FAILED =>
    if rc =? 0 then with_track v S_OK (v_begin v)
    else if FAILURE_PERIOD <=? now - v_begin v then
      with_conv (set_sust (with_track v S_ALARMED (v_begin v)) true) (v_conv v) false
    else v
  | S_ALARMED =>
    if rc =? 0 then set_sust (with_track v S_OK (v_begin v)) false else v
  end.

(** sfptpd_servo_synchronize, sfptpd_servo.c:605-654. *)
Definition synchronize (sys : nat) (v : servo) (i : sin) : option (servo * list kev * Z) :=
  do r <- do_sync sys v i;
  let '(v, ev, rc) := r in
  Some (track v rc (i_now i), ev, rc).

(** sfptpd_servo_save_state, sfptpd_servo.c:679-724, as far as the clock [k] (the
    slave) is concerned; the state file's contents are left out. *)
Definition save_state (v : servo) (k : kclk) (os : Z) : kclk * Z :=
  if v_sync v then save_corr k (l_adj (v_flt v)) os else (k, 0).

(** ** Histories *)
Inductive sop :=
| SetClocks (w : nat -> kclk) (m s : nat) (os : Z)
| StepUser (w : nat -> kclk) (offset : ts) (os1 os2 : Z)
| PidAdjust (kp ki kd : option Q) (reset : bool)     (** sfptpd_servo.c:258-270 *)
| Sync (i : sin).

(** one operation: new state, kernel requests, result code (0 if none) *)
Definition sstep (sys : nat) (v : servo) (o : sop) : option (servo * list kev * Z) :=
  match o with
  | SetClocks w m s os => do r <- set_clocks w v m s os; Some (fst r, snd r, 0)
  | StepUser w off os1 os2 => step_clock w v off os1 os2
  | PidAdjust kp ki kd r =>
    let l := v_flt v in
    Some (with_flt v (mkFlt (l_fir l) (pid_adjust (l_pid l) kp ki kd r) (l_corr l) (l_adj l) (l_max l) (l_ofm l)),
          [], 0)
  | Sync i => synchronize sys v i
  end.

(** the state reached, and for each operation what it did *)
Fixpoint srun (sys : nat) (v : servo) (l : list sop) : option (servo * list (list kev * Z)) :=
  match l with
  | [] => Some (v, [])
  | o :: l' =>
    do r <- sstep sys v o;
    let '(v', ev, rc) := r in
    do rest <- srun sys v' l';
    Some (fst rest, (ev, rc) :: snd rest)
  end.
