(** Transcription of the PTP slave servo, src/ptp/ptpd2/dep/servo.c, on top of
    the models of the timestamp data set (TsdModel), the filters (FilterModel) and
    the clocks (SrvModel).

    Simplifications: long double is exact rational arithmetic; the logging, the
    operator warnings (warn_operator functions) and the critical statistics are left out;
    the clustering evaluator is its verdict [u_out]; failure to allocate memory is
    left out; [rd] is the conversion to double in front of floor() (FltModel).
    [None] is a failed assertion, signed overflow, an out-of-range conversion, or a
    gain that is not a number. *)
Require Import ZArith QArith Qabs Qround List Bool.
From Verif Require Import Base ListLib QLib TimeSpec TimeModel FilterSpec FilterModel SrvSpec SrvModel FltModel PsvSpec.
From Verif Require TsdSpec TsdModel.
Import ListNotations.
Open Scope Z_scope.

(** The path delay filter on whole data sets: struct sfptpd_smallest_filter,
    src/sfptpd_filter.c:32-50 (FilterModel.smallest keeps only two fields of each). *)
Record small := mkSmall {
  q_max : nat; q_ageing : Q; q_num : nat; q_widx : nat; q_timeout : ts; q_data : list TsdModel.tsd }.

(** sfptpd_smallest_filter_create, src/sfptpd_filter.c:423-448. *)
Definition small_create (max : nat) (ageing : Q) (timeout : Z) : option small :=
  if (0 <? max)%nat && (0 <? timeout) then
    Some (mkSmall max ageing 0 0 (from_s timeout) (repeat TsdModel.tsd_init max))
  else None.
(** sfptpd_smallest_filter_reset, lines 466-471. *)
Definition small_reset (f : small) : small :=
  mkSmall (q_max f) (q_ageing f) 0 0 (q_timeout f) (q_data f).
(** The search loop, lines 497-519. *)
Fixpoint small_search (ageing : Q) (timeout now : ts) (l : list TsdModel.tsd)
         (best : option (TsdModel.tsd * Q)) : option (option (TsdModel.tsd * Q)) :=
  match l with
  | [] => Some best
  | s :: r =>
      do a <- subtract now (TsdModel.time_monotonic s);
      if sec a <? 0 then None else
      let aged := (TsdModel.path_delay s + ageing * FilterModel.to_float_s a)%Q in
      do ge <- is_ge timeout a;
      let better := match best with None => true | Some (_, b) => Qlt_bool aged b end in
      small_search ageing timeout now r
        (if ge && Qle_bool 0 (TsdModel.path_delay s) && better then Some (s, aged) else best)
  end.
(** sfptpd_smallest_filter_update, lines 474-527. *)
Definition small_update (f : small) (s : TsdModel.tsd) : option (small * TsdModel.tsd) :=
  if (q_widx f <? length (q_data f))%nat then
    let d := set_nth (q_widx f) s (q_data f) in
    let w := if (q_max f <=? S (q_widx f))%nat then O else S (q_widx f) in
    let n := if (q_num f <? q_max f)%nat then S (q_num f) else q_num f in
    do best <- small_search (q_ageing f) (q_timeout f) (TsdModel.time_monotonic s) (firstn n d) None;
    Some (mkSmall (q_max f) (q_ageing f) n w (q_timeout f) d,
          match best with Some (b, _) => b | None => s end)
  else None.

(** sfptpd_peirce_filter_reset, src/sfptpd_filter.c:347-353.*)
Definition peirce_clear (f : peirce) : peirce :=
  mkPeirce (pe_max f) (pe_weight f) sd_init 0 0 (pe_data f).

(** The options read by servo_init. *)
Record ropts := mkRopts {
  o_ctrl : ctrl; o_thr : Q; o_smax : nat; o_ageing : Q; o_si : Z;
  o_pmax : nat; o_weight : Q; o_fir : nat }.

(** The part of ptp_servo_t concerned with measuring and the one concerned with
    the clock, src/ptp/ptpd2/datatypes.h:311-361. *)
Record mpart := mkM {
  m_tsd : TsdModel.tsd; m_small : small; m_peirce : peirce; m_fir : fir;
  m_ofm : Q; m_mpd : Q; m_samples : Z; m_outliers : Z }.
Record cpart := mkC {
  q_pid : pid; q_corr : Q; q_adj : Q; q_first : bool; q_actrl : bool; q_aclus : bool; q_steps : Z }.
Record psv := mkPsv {
  p_opts : ropts; p_gain : option Q * option Q * option Q;   (** rtOpts->servoKP, KI, KD *)
  p_clock : nat; p_ts : bool; p_cc : bool; p_m : mpart; p_c : cpart }.

Definition with_m (s : psv) (m : mpart) : psv :=
  mkPsv (p_opts s) (p_gain s) (p_clock s) (p_ts s) (p_cc s) m (p_c s).
Definition with_c (s : psv) (c : cpart) : psv :=
  mkPsv (p_opts s) (p_gain s) (p_clock s) (p_ts s) (p_cc s) (p_m s) c.
Definition set_tsd (m : mpart) (t : TsdModel.tsd) : mpart :=
  mkM t (m_small m) (m_peirce m) (m_fir m) (m_ofm m) (m_mpd m) (m_samples m) (m_outliers m).
Definition set_pid (c : cpart) (f : pid) : cpart :=
  mkC f (q_corr c) (q_adj c) (q_first c) (q_actrl c) (q_aclus c) (q_steps c).

(** servo_reset_filters, servo.c:200-215. *)
Definition reset_filters (s : psv) : psv :=
  let m := p_m s in
  with_c (with_m s (mkM (m_tsd m) (small_reset (m_small m)) (peirce_clear (m_peirce m))
                        (fir_reset (m_fir m)) 0 0 (m_samples m) (m_outliers m)))
         (set_pid (p_c s) (pid_reset (q_pid (p_c s)))).

(** servo_adjust_frequency, servo.c:591-600. *)
Definition servo_adjust_frequency (s : psv) (k : kclk) (f : Q) (os : Z) : psv * list kev :=
  let '(ev, rc) := adjust_frequency k (p_clock s) f os in
  let c := p_c s in
  (with_c s (mkC (q_pid c) (q_corr c) (q_adj c) (q_first c) (negb (rc =? 0)) (q_aclus c) (q_steps c)), ev).

(** servo_reset_freq_adjustment, servo.c:237-248. *)
Definition reset_freq (s : psv) (k : kclk) (os : Z) : psv * list kev :=
  let c := p_c s in
  let s1 := with_c s (mkC (pid_reset (q_pid c)) (k_corr k) (q_adj c) (q_first c) (q_actrl c)
                          (q_aclus c) (q_steps c)) in
  let '(s2, ev) := servo_adjust_frequency s1 k (k_corr k) os in
  let c2 := p_c s2 in
  (with_c s2 (mkC (q_pid c2) (q_corr c2) (k_corr k) (q_first c2) (q_actrl c2) (q_aclus c2) (q_steps c2)), ev).

(** servo_reset, servo.c:178-187. *)
Definition servo_reset (s : psv) (k : kclk) (os : Z) : psv * list kev :=
  let s1 := reset_filters (with_m s (set_tsd (p_m s) TsdModel.tsd_init)) in
  let '(s2, ev) := reset_freq s1 k os in
  let c := p_c s2 in
  (with_c s2 (mkC (q_pid c) (q_corr c) (q_adj c) (q_first c) false false (q_steps c)), ev).

(** servo_set_slave_clock, servo.c:251-266. *)
Definition set_slave_clock (s : psv) (c : nat) (k : kclk) (os : Z) : option (psv * list kev) :=
  let s1 := mkPsv (p_opts s) (p_gain s) c (p_ts s) (p_cc s) (p_m s) (p_c s) in
  let '(s2, ev) := reset_freq s1 k os in
  do f <- pid_set_i_max (q_pid (p_c s2)) (k_max k);
  Some (with_c s2 (set_pid (p_c s2) f), ev).

(** The filter timeout, servo.c:102-109. *)
Definition filter_timeout (size : nat) (si : Z) : Z :=
  let t := Qtrunc (inject_Z (Z.of_nat size) * Qpower (inject_Z 2) si)%Q in
  if t <? 10 then 10 else if 20 <? t then 20 else t.

(** servo_init, servo.c:71-152. *)
Definition servo_init (o : ropts) (gain : option Q * option Q * option Q) (c : nat) (k : kclk)
           (os1 os2 : Z) : option (psv * list kev) :=
  let '(gp, gi, gd) := gain in
  do sm <- small_create (o_smax o) (o_ageing o) (filter_timeout (o_smax o) (o_si o));
  do pe <- peirce_create (o_pmax o) (o_weight o);
  do fi <- fir_init (repeat 0%Q FIR_MAX) (o_fir o);
  do kp <- gp; do ki <- gi; do kd <- gd;
  let f := pid_init kp ki kd (Qpower (inject_Z 2) (o_si o)) in
  let s := mkPsv o gain c true false (mkM TsdModel.tsd_init sm pe fi 0 0 0 0)
                 (mkC f 0 0 false false false 0) in
  do r <- set_slave_clock s c k os1;
  let '(s1, ev1) := r in
  let '(s2, ev2) := servo_reset s1 k os2 in
  Some (s2, ev1 ++ ev2).

(** servo_update, servo.c:345-382. *)
Definition servo_update (m : mpart) : option (mpart * bool) :=
  if TsdModel.complete (m_tsd m) then
    do r <- small_update (m_small m) (m_tsd m);
    let '(sm, pick) := r in
    do x <- TsdModel.get_offset pick;
    do v <- peirce_update (m_peirce m) x;
    let '(out, pe) := v in
    if out then
      Some (mkM (m_tsd m) sm pe (m_fir m) (m_ofm m) (m_mpd m) (u32 (m_samples m + 1))
                (u32 (m_outliers m + 1)), false)
    else
      do y <- fir_update (m_fir m) x;
      let '(fi, mean) := y in
      do pd <- TsdModel.get_path_delay pick;
      Some (mkM (m_tsd m) sm pe fi mean pd (u32 (m_samples m + 1)) (m_outliers m), true)
  else None.

(** servo_missing_x2y_ts and servo_provide_x2y_ts, servo.c:385-482: the boolean is the
    result (false for the missing ones, which have none). *)
Definition provide (m : mpart) (tsproc : bool) (o : TsdSpec.op) : option (mpart * bool) :=
  match o with
  | TsdSpec.ClearM2S | TsdSpec.ClearS2M | TsdSpec.ClearP2P =>
      do t <- TsdModel.step (m_tsd m) o; Some (set_tsd m t, false)
  | TsdSpec.SetM2S _ _ | TsdSpec.SetS2M _ _ | TsdSpec.SetP2P _ _ _ _ _ _ =>
      if tsproc then
        do t <- TsdModel.step (m_tsd m) o;
        if TsdModel.complete t then servo_update (set_tsd m t) else Some (set_tsd m t, false)
      else
        do t <- TsdModel.step (m_tsd m) (missing o); Some (set_tsd m t, false)
  end.

(** servo_control, servo.c:485-510 (the other flags are not looked at). *)
Definition servo_control (s : psv) (tsproc cc : bool) (k : kclk) : psv :=
  let c := p_c s in
  let c1 := if p_cc s && negb cc
            then mkC (pid_reset (q_pid c)) (k_corr k) (q_adj c) (q_first c) (q_actrl c) (q_aclus c) (q_steps c)
            else c in
  let m1 := if p_ts s && negb tsproc then set_tsd (p_m s) TsdModel.tsd_init else p_m s in
  mkPsv (p_opts s) (p_gain s) (p_clock s) tsproc cc m1 c1.

(** servo_step_clock, servo.c:513-548: the boolean says that it was not blocked. *)
Definition servo_step_clock (s : psv) (k : kclk) (off : ts) (os1 os2 : Z) : option (psv * list kev * bool) :=
  match o_ctrl (p_opts s) with
  | NO_ADJUST => Some (s, [], false)
  | _ =>
      do neg <- negate off;
      let '(ev1, rc) := adjust_time k (p_clock s) neg os1 in
      let c := p_c s in
      let s1 := with_c s (mkC (q_pid c) (q_corr c) (q_adj c) (q_first c) (negb (rc =? 0)) (q_aclus c)
                              (u32 (q_steps c + 1))) in
      let s2 := reset_filters (with_m s1 (set_tsd (p_m s1) TsdModel.tsd_init)) in
      let '(s3, ev2) := reset_freq s2 k os2 in
      Some (s3, ev1 ++ ev2, true)
  end.

Definition set_clus (s : psv) (b : bool) : psv :=
  let c := p_c s in
  with_c s (mkC (q_pid c) (q_corr c) (q_adj c) (q_first c) (q_actrl c) b (q_steps c)).
Definition set_adj (s : psv) (x : Q) : psv :=
  let c := p_c s in
  with_c s (mkC (q_pid c) (q_corr c) x (q_first c) (q_actrl c) (q_aclus c) (q_steps c)).
Definition set_first (s : psv) : psv :=
  let c := p_c s in
  with_c s (mkC (q_pid c) (q_corr c) (q_adj c) true (q_actrl c) (q_aclus c) (q_steps c)).

(** The decision to step, servo.c:655-658. *)
Definition may_step (p : ctrl) (first_updated : bool) (ofm : Q) : bool :=
  match p with
  | SLEW_AND_STEP => true
  | STEP_AT_STARTUP | STEP_ON_FIRST_LOCK => negb first_updated
  | STEP_FORWARD => Qlt_bool ofm 0
  | NO_STEP | NO_ADJUST => false
  end.

(** servo_update_clock, servo.c:603-727: state, requests, whether the clock was
    stepped, whether it was marked as having been in lock. *)
Definition servo_update_clock (rd : Q -> Q) (s0 : psv) (u : upd) : option (psv * list kev * bool * bool) :=
  let k := u_w u (p_clock s0) in
  let ofm := m_ofm (p_m s0) in
  if u_out u then Some (set_clus s0 true, [], false, false) else
  let s := set_clus s0 false in
  if Qle_bool (o_thr (p_opts s)) (Qabs ofm) then
    if negb (p_cc s) then Some (s, [], false, false) else
    if may_step (o_ctrl (p_opts s)) (q_first (p_c s)) ofm then
      do st <- of_float_ns rd ofm;
      do r <- servo_step_clock s k st (u_os1 u) (u_os2 u);
      let '(s1, ev, b) := r in
      Some (set_first s1, ev, b, true)
    else match o_ctrl (p_opts s) with
         | NO_ADJUST => Some (set_first s, [], false, true)
         | _ =>
             let a := if Qlt_bool ofm 0 then k_max k else (- k_max k)%Q in
             let '(s1, ev) := servo_adjust_frequency (set_adj s a) k a (u_os1 u) in
             Some (set_first s1, ev, false, true)
         end
  else
    let s1 := set_adj s (q_corr (p_c s)) in
    if p_cc s then
      do f <- pid_update (q_pid (p_c s1)) ofm (Some (u_now u));
      let a0 := (q_corr (p_c s) + freq_adjust f)%Q in
      let a := if Qlt_bool (k_max k) a0 then k_max k
               else if Qlt_bool a0 (- k_max k) then (- k_max k)%Q else a0 in
      let s2 := set_adj (with_c s1 (set_pid (p_c s1) f)) a in
      let '(s3, ev) := servo_adjust_frequency s2 k a (u_os1 u) in
      Some (set_first s3, ev, false, true)
    else Some (s1, [], false, false).

Definition quiet : entry := mkEntry [] false false false.

(** One call.  servo_update_clock is called only where servo_provide_m2s_ts returned
    true: protocol.c:1999-2003 and 2244-2248. *)
Definition call (rd : Q -> Q) (s : psv) (o : sop) : option (psv * entry) :=
  match o with
  | Give m u =>
      do r <- provide (p_m s) (p_ts s) m;
      let '(m1, acc) := r in
      let s1 := with_m s m1 in
      if from_master m && acc then
        do r <- servo_update_clock rd s1 u;
        let '(s2, ev, stepped, locked) := r in
        Some (s2, mkEntry ev acc stepped locked)
      else Some (s1, mkEntry [] acc false false)
  | Control t c w => Some (servo_control s t c (w (p_clock s)), quiet)
  | StepUser off w os1 os2 =>                                  (** ptpd_lib.c:569-578 *)
      do r <- servo_step_clock s (w (p_clock s)) off os1 os2;
      let '(s1, ev, b) := r in
      Some (s1, mkEntry ev false b false)
  | ResetServo w os =>                                         (** bmc.c:163-166, ptpd_lib.c:652-655 *)
      let '(s1, ev) := servo_reset s (w (p_clock s)) os in
      Some (s1, mkEntry ev false false false)
  | SetClock c w os =>                                         (** ptpd_lib.c:647-650 *)
      do r <- set_slave_clock s c (w c) os;
      Some (fst r, mkEntry (snd r) false false false)
  | SetInterval t =>                                           (** servo.c:269-273 *)
      do f <- pid_set_interval (q_pid (p_c s)) t;
      Some (with_c s (set_pid (p_c s) f), quiet)
  | PidAdjust kp ki kd r =>                                    (** ptpd_lib.c:581-587, servo.c:218-234 *)
      let f := pid_adjust (q_pid (p_c s)) kp ki kd r in
      let f := if r then pid_reset f else f in
      Some (mkPsv (p_opts s) (kp, ki, kd) (p_clock s) (p_ts s) (p_cc s) (p_m s) (set_pid (p_c s) f), quiet)
  | ResetCounters =>                                           (** servo.c:330-334 *)
      let m := p_m s in
      let c := p_c s in
      Some (with_c (with_m s (mkM (m_tsd m) (m_small m) (m_peirce m) (m_fir m) (m_ofm m) (m_mpd m) 0 0))
                   (mkC (q_pid c) (q_corr c) (q_adj c) (q_first c) (q_actrl c) (q_aclus c) 0), quiet)
  | Restart w os1 os2 =>                                       (** protocol.c:543 *)
      do r <- servo_init (p_opts s) (p_gain s) (p_clock s) (w (p_clock s)) os1 os2;
      Some (fst r, mkEntry (snd r) false false false)
  end.

Fixpoint calls (rd : Q -> Q) (s : psv) (l : list sop) : option (psv * list entry) :=
  match l with
  | [] => Some (s, [])
  | o :: l' =>
      do r <- call rd s o;
      do r' <- calls rd (fst r) l';
      Some (fst r', snd r :: snd r')
  end.

(** The options, and what is known of a servo just initialised, in the terms of
    the specification. *)
Definition conf_of (o : ropts) : conf :=
  mkConf (o_ctrl o) (o_thr o) (o_smax o) (o_ageing o) (filter_timeout (o_smax o) (o_si o))
         (o_pmax o) (o_weight o) peirce_table PEIRCE_MIN (o_fir o).
Definition view0 (c : nat) (corr kp ki lim : Q) : view :=
  mkView true false c [] [] false corr kp ki lim 0 0 0.

(** A servo's life: initialised on clock [c], then used. *)
Record life := mkLife {
  f_opts : ropts; f_kp : Q; f_ki : Q; f_kd : Q; f_c : nat; f_w : nat -> kclk; f_os1 : Z; f_os2 : Z }.
Definition live (rd : Q -> Q) (f : life) (l : list sop) : option (psv * list kev * list entry) :=
  do r <- servo_init (f_opts f) (Some (f_kp f), Some (f_ki f), Some (f_kd f)) (f_c f)
                     (f_w f (f_c f)) (f_os1 f) (f_os2 f);
  do r' <- calls rd (fst r) l;
  Some (fst r', snd r, snd r').
Definition known (f : life) (l : list sop) (log : list entry) : view :=
  view_of (conf_of (f_opts f)) (view0 (f_c f) (k_corr (f_w f (f_c f))) (f_kp f) (f_ki f) (k_max (f_w f (f_c f)))) l log.

(** Options the filters accept; an averaging filter of length 0 passes its assertion
    but divides by zero. *)
Definition opts_ok (o : ropts) : Prop :=
  (0 < o_smax o)%nat /\ (0 < o_pmax o <= PEIRCE_MAX)%nat /\ (0 <= o_weight o <= 1)%Q /\
  (0 < o_fir o <= FIR_MAX)%nat.
Definition life_ok (f : life) : Prop := (0 < o_fir (f_opts f))%nat /\ forall c, clock_ok (f_w f c).
