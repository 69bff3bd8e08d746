(** Vocabulary for the PTP slave servo (src/ptp/ptpd2/dep/servo.c): the calls
    made on it, the measurements that count, what it may report and what it may
    do to the clock.  (C61) *)
Require Import ZArith QArith Qabs List Bool.
From Verif Require Import Base ListLib QLib TimeSpec FilterSpec SrvSpec SrvModel.
From Verif Require TsdSpec FltSpec.
Import ListNotations.
Open Scope Z_scope.

(** ** What is done to the servo.  [w] describes the clocks at that moment (the
    record [kclk] lists their properties), [os] are results of the operating
    system's clock_adjtime. *)

(** What surrounds a measurement: the clocks, whether the clustering guard says
    that the clock is out of threshold, the monotonic time. *)
Record upd := mkUpd { u_w : nat -> kclk; u_out : bool; u_now : ts; u_os1 : Z; u_os2 : Z }.

Inductive sop :=
| Give (m : TsdSpec.op) (u : upd)     (** a measurement, or the news that one is missing *)
| Control (tsproc cc : bool) (w : nat -> kclk)
                                      (** timestamp processing and clock control on or off *)
| StepUser (off : ts) (w : nat -> kclk) (os1 os2 : Z)
                                      (** step the clock by minus [off] *)
| ResetServo (w : nat -> kclk) (os : Z)
| SetClock (c : nat) (w : nat -> kclk) (os : Z)
| SetInterval (t : Q)
| PidAdjust (kp ki kd : option Q) (reset : bool)   (** [None]: not a number *)
| ResetCounters
| Restart (w : nat -> kclk) (os1 os2 : Z).         (** the port is initialised again *)

(** What was seen of one call. *)
Record entry := mkEntry {
  e_ev : list kev;        (** requests made to the kernel *)
  e_acc : bool;           (** the measurement led to a new offset *)
  e_stepped : bool;       (** the servo decided to step the clock *)
  e_locked : bool }.      (** the clock was marked as having been in lock *)

(** Configuration: clock control policy, step threshold (ns), length, ageing
    coefficient (per second) and timeout (s) of the path delay filter, length and
    weight of the outlier filter, length of the averaging filter. *)
Record conf := mkConf {
  c_ctrl : ctrl; c_thr : Q;
  c_smax : nat; c_ageing : Q; c_timeout : Z;
  c_pmax : nat; c_weight : Q; c_table : list Q; c_pmin : nat;
  c_fir : nat }.

(** ** Measurements *)

(** A complete data set: when it was completed, path delay and offset in ns. *)
Record dset := mkDset { d_mono : ts; d_delay : Q; d_off : Q }.

Definition dset_of (now : ts) (out : TsdSpec.meas) (rt : Z) : dset :=
  mkDset now (TsdSpec.ns_of rt / inject_Z 2)
         (TsdSpec.ns_of (TsdSpec.transit out) - TsdSpec.ns_of rt / inject_Z 2).

(** The data set made up of the current measurements: half of the round trip is
    the path delay, what is left of the transit from the master the offset. *)
Definition dataset (h : list TsdSpec.op) (now : ts) : option dset :=
  match TsdSpec.latest_m2s h with
  | None => None
  | Some m =>
      match TsdSpec.latest_s2m h, TsdSpec.latest_p2p h with
      | Some s, _ => Some (dset_of now m (TsdSpec.transit s + TsdSpec.transit m))
      | None, Some (a, b) => Some (dset_of now m (TsdSpec.transit a + TsdSpec.transit b))
      | None, None => None
      end
  end.

(** A measurement given while timestamp processing is off counts as missing. *)
Definition missing (m : TsdSpec.op) : TsdSpec.op :=
  match m with
  | TsdSpec.SetM2S _ _ => TsdSpec.ClearM2S
  | TsdSpec.SetS2M _ _ => TsdSpec.ClearS2M
  | TsdSpec.SetP2P _ _ _ _ _ _ => TsdSpec.ClearP2P
  | m => m
  end.
Definition given_at (m : TsdSpec.op) : option ts :=
  match m with
  | TsdSpec.SetM2S _ n | TsdSpec.SetS2M _ n | TsdSpec.SetP2P _ _ _ _ _ n => Some n
  | _ => None
  end.
Definition from_master (m : TsdSpec.op) : bool :=
  match m with TsdSpec.SetM2S _ _ => true | _ => false end.

(** The data set, if any, completed by [m] after the measurements [h]. *)
Definition completes (on : bool) (h : list TsdSpec.op) (m : TsdSpec.op) : option dset :=
  if on then match given_at m with Some now => dataset (m :: h) now | None => None end
  else None.

(** ** What a user knows of the servo from its history *)
Record view := mkView {
  w_ts : bool; w_cc : bool;          (** timestamp processing, clock control *)
  w_clock : nat;
  w_ops : list TsdSpec.op;           (** measurements that can still be combined, latest first *)
  w_sets : list dset;                (** data sets completed since the last reset, oldest first *)
  w_moved : bool;                    (** the servo has acted on the clock since it was (re)started *)
  w_corr : Q;                        (** frequency correction in force *)
  w_kp : Q; w_ki : Q; w_max : Q;     (** gains and limit of the integral term in force *)
  w_steps : Z; w_samples : Z; w_rejected : Z }.

Definition clean (v : view) (corr : Q) : view :=
  mkView (w_ts v) (w_cc v) (w_clock v) [] [] (w_moved v) corr (w_kp v) (w_ki v) (w_max v)
         (w_steps v) (w_samples v) (w_rejected v).

Definition b2z (b : bool) : Z := if b then 1 else 0.

(** the measurement [m] is taken in: *)
Definition taken (v : view) (m : TsdSpec.op) (u : upd) (e : entry) : view :=
  let h := (if w_ts v then m else missing m) :: w_ops v in
  let d := completes (w_ts v) (w_ops v) m in
  let moved := w_moved v || (from_master m && e_acc e && w_cc v && negb (u_out u)) in
  let v1 := mkView (w_ts v) (w_cc v) (w_clock v) h
                   (match d with Some d => w_sets v ++ [d] | None => w_sets v end)
                   moved (w_corr v) (w_kp v) (w_ki v) (w_max v) (w_steps v + b2z (e_stepped e))
                   (w_samples v + match d with Some _ => 1 | None => 0 end)
                   (w_rejected v + match d with Some _ => b2z (negb (e_acc e)) | None => 0 end) in
  if e_stepped e then clean v1 (k_corr (u_w u (w_clock v))) else v1.

Definition view_step (g : conf) (v : view) (o : sop) (e : entry) : view :=
  match o with
  | Give m u => taken v m u e
  | Control t c w =>
      mkView t c (w_clock v) (if w_ts v && negb t then [] else w_ops v) (w_sets v) (w_moved v)
             (if w_cc v && negb c then k_corr (w (w_clock v)) else w_corr v) (w_kp v) (w_ki v) (w_max v)
             (w_steps v) (w_samples v) (w_rejected v)
  | StepUser _ w _ _ =>
      match c_ctrl g with
      | NO_ADJUST => v
      | _ => let v1 := clean v (k_corr (w (w_clock v))) in
             mkView (w_ts v1) (w_cc v1) (w_clock v1) [] [] (w_moved v1) (w_corr v1) (w_kp v1) (w_ki v1) (w_max v1)
                    (w_steps v + 1) (w_samples v1) (w_rejected v1)
      end
  | ResetServo w _ => clean v (k_corr (w (w_clock v)))
  | SetClock c w _ =>
      mkView (w_ts v) (w_cc v) c (w_ops v) (w_sets v) (w_moved v) (k_corr (w c)) (w_kp v) (w_ki v) (k_max (w c))
             (w_steps v) (w_samples v) (w_rejected v)
  | SetInterval _ => v
  | PidAdjust kp ki _ _ =>
      mkView (w_ts v) (w_cc v) (w_clock v) (w_ops v) (w_sets v) (w_moved v) (w_corr v)
             (match kp with Some x => x | None => w_kp v end) (match ki with Some x => x | None => w_ki v end)
             (w_max v)
             (w_steps v) (w_samples v) (w_rejected v)
  | ResetCounters =>
      mkView (w_ts v) (w_cc v) (w_clock v) (w_ops v) (w_sets v) (w_moved v) (w_corr v) (w_kp v)
             (w_ki v) (w_max v) 0 0 0
  | Restart w _ _ =>
      mkView true false (w_clock v) [] [] false (k_corr (w (w_clock v))) (w_kp v) (w_ki v)
             (k_max (w (w_clock v))) 0 0 0
  end.

Fixpoint view_of (g : conf) (v : view) (l : list sop) (log : list entry) : view :=
  match l, log with
  | o :: l', e :: log' => view_of g (view_step g v o e) l' log'
  | _, _ => v
  end.

(** ** What may be reported *)

Definition samp (d : dset) : sample := mkSample (d_mono d) (d_delay d).

(** [c] is what the path delay filter must pick when [d] is added after [h]. *)
Definition chosen (g : conf) (h : list dset) (d c : dset) : Prop :=
  let w := lastn (c_smax g) (h ++ [d]) in
  (In c w /\ eligible (c_timeout g) (d_mono d) (samp c) /\
   forall x, In x w -> eligible (c_timeout g) (d_mono d) (samp x) ->
     (aged_delay (c_ageing g) (d_mono d) (samp c) <= aged_delay (c_ageing g) (d_mono d) (samp x))%Q) \/
  (c = d /\ forall x, In x w -> ~ eligible (c_timeout g) (d_mono d) (samp x)).

(** The outlier filter's verdict on an offset after it stored [ys]. *)
Definition judged (g : conf) (ys : list Q) (x : Q) (out : bool) (y : Q) : Prop :=
  verdict_ok (c_table g) (c_pmin g) (c_pmax g) (c_weight g) ys x out y.

(** [chain g sets ys acc]: from the data sets [sets], [acc] are the ones picked
    and accepted, and [ys] is what the outlier filter has stored. *)
Inductive chain (g : conf) : list dset -> list Q -> list dset -> Prop :=
| chain_nil : chain g [] [] []
| chain_snoc : forall sets ys acc d c out y,
    chain g sets ys acc -> chosen g sets d c -> judged g ys (d_off c) out y ->
    chain g (sets ++ [d]) (ys ++ [y]) (if out then acc else acc ++ [c]).

(** The offset reported is the mean of the last few accepted offsets and the path
    delay that of the last accepted data set; zero if there is none. *)
Definition reported (g : conf) (acc : list dset) (ofm mpd : Q) : Prop :=
  match acc with
  | [] => (ofm == 0 /\ mpd == 0)%Q
  | d0 :: _ => (ofm == Qmean (lastn (c_fir g) (map d_off acc)) /\ mpd == d_delay (last acc d0))%Q
  end.

(** ** What may be done to the clock *)

(** The clock accepts requests. *)
Definition writable (k : kclk) : Prop :=
  k_ro k = false /\ k_blocked k <= 0 /\ (k_sys k = None -> k_phc k = true).
(** A frequency of [f] ppb is requested of clock [c], as well as the kernel
    interface can express it (C-series on the local servo), within the clock's
    limits; nothing is requested of a clock that cannot be written to. *)
Definition freq_request (k : kclk) (c : nat) (f : Q) (ev : list kev) : Prop :=
  (writable k -> exists t x, ev = [KFreq c t x] /\
     (Qabs (realised (option_map fst (k_sys k)) t x - clamp (k_max k) f) <=
        match k_sys k with
        | Some (hz, maxf) => if Qle_bool (Qabs f) maxf then 0 else inject_Z 500 * hz
        | None => 0 end + half_unit)%Q) /\
  (~ writable k -> ev = []).
(** A step by [amount] ns is requested, to within 2^-32 ns, then a frequency. *)
Definition step_request (k : kclk) (c : nat) (amount f : Q) (ev : list kev) : Prop :=
  (writable k -> exists (off : Z) (ev2 : list kev), ev = KStep c off :: ev2 /\
     (Qabs (TsdSpec.ns_of off - amount) <= 1 # 4294967296)%Q /\ freq_request k c f ev2) /\
  (~ writable k -> ev = []).

(** The policy permits the servo to step by itself for offset [ofm]. *)
Definition permitted (p : ctrl) (moved : bool) (ofm : Q) : Prop :=
  match p with
  | SLEW_AND_STEP => True
  | STEP_AT_STARTUP | STEP_ON_FIRST_LOCK => moved = false
  | STEP_FORWARD => (ofm < 0)%Q
  | NO_STEP | NO_ADJUST => False
  end.

Definition nothing (e : entry) : Prop := e_ev e = [] /\ e_stepped e = false /\ e_locked e = false.

(** A limit of zero means none. *)
Definition limited (m x : Q) : Q := if Qle_bool m 0 then x else clamp m x.

(** What must happen when an accepted measurement from the master leads to the
    offset [ofm]: [i] is the integral term so far, [i'] the one afterwards, [adj]
    the frequency adjustment reported afterwards. *)
Definition steers (g : conf) (v : view) (u : upd) (ofm i : Q) (e : entry) (adj i' : Q) : Prop :=
  let c := w_clock v in
  let k := u_w u c in
  let law := (w_corr v - w_kp v * ofm - i)%Q in
  if u_out u then nothing e /\ i' = i                (** guard: leave the clock alone *)
  else if negb (w_cc v) then nothing e /\ i' = i /\ ((Qabs ofm < c_thr g)%Q -> (adj == w_corr v)%Q)
  else e_locked e = true /\
    ((c_thr g <= Qabs ofm)%Q ->
       (permitted (c_ctrl g) (w_moved v) ofm ->
          e_stepped e = true /\ i' = 0%Q /\
          ((Qabs ofm < inject_Z (2^52 * 1000000000))%Q ->    (** 140 million years *)
             step_request k c (- ofm) (k_corr k) (e_ev e))) /\
       (~ permitted (c_ctrl g) (w_moved v) ofm ->
          e_stepped e = false /\ i' = i /\
          (c_ctrl g = NO_ADJUST -> e_ev e = []) /\
          (c_ctrl g <> NO_ADJUST -> (ofm < 0)%Q -> freq_request k c (k_max k) (e_ev e) /\ adj = k_max k) /\
          (c_ctrl g <> NO_ADJUST -> (0 <= ofm)%Q -> freq_request k c (- k_max k) (e_ev e) /\ adj = (- k_max k)%Q))) /\
    ((Qabs ofm < c_thr g)%Q ->
       e_stepped e = false /\ freq_request k c law (e_ev e) /\ (adj == clamp (k_max k) law)%Q /\
       exists T, (0 < T)%Q /\ (i' == limited (w_max v) (i + w_ki v * T * ofm))%Q).

(** What a call must do, given what is known of the servo before it: [i] and [i']
    are the integral term before and after, [adj] the frequency adjustment and
    [clus] the clustering alarm reported afterwards. *)
Definition acts (g : conf) (v : view) (o : sop) (e : entry) (i i' adj : Q) (clus : bool) : Prop :=
  match o with
  | Give m u =>
      match completes (w_ts v) (w_ops v) m with
      | None => e_acc e = false /\ nothing e /\ i' = i
      | Some d =>
          exists ys acc c y, chain g (w_sets v) ys acc /\ chosen g (w_sets v) d c /\
            judged g ys (d_off c) (negb (e_acc e)) y /\
            (e_acc e && from_master m = false -> nothing e /\ i' = i) /\
            (e_acc e && from_master m = true ->
               clus = u_out u /\
               exists ofm mpd, reported g (acc ++ [c]) ofm mpd /\ steers g v u ofm i e adj i')
      end
  | Control _ cc _ => nothing e /\ i' = (if w_cc v && negb cc then 0%Q else i)
  | SetInterval _ | ResetCounters => nothing e /\ i' = i
  | PidAdjust _ _ _ r => nothing e /\ i' = (if r then 0%Q else i)
  | StepUser off w _ _ =>
      (c_ctrl g = NO_ADJUST -> nothing e /\ i' = i) /\
      (c_ctrl g <> NO_ADJUST -> e_stepped e = true /\ e_locked e = false /\ i' = 0%Q /\
         step_request (w (w_clock v)) (w_clock v) (- TsdSpec.ns_of (instant off))
                      (k_corr (w (w_clock v))) (e_ev e))
  | ResetServo w _ =>
      e_stepped e = false /\ e_locked e = false /\ i' = 0%Q /\
      freq_request (w (w_clock v)) (w_clock v) (k_corr (w (w_clock v))) (e_ev e)
  | SetClock c w _ =>
      e_stepped e = false /\ e_locked e = false /\ i' = 0%Q /\
      freq_request (w c) c (k_corr (w c)) (e_ev e)
  | Restart w _ _ =>
      e_stepped e = false /\ e_locked e = false /\ i' = 0%Q /\
      exists ev1 ev2, e_ev e = ev1 ++ ev2 /\
        freq_request (w (w_clock v)) (w_clock v) (k_corr (w (w_clock v))) ev1 /\
        freq_request (w (w_clock v)) (w_clock v) (k_corr (w (w_clock v))) ev2
  end.

(** ** Reasonable histories *)

(** a clock as sfptpd creates it: a limit that is not negative; the system clock's
    tick rate divides 100000 and its limit is the combined one *)
Definition clock_ok (k : kclk) : Prop :=
  (0 <= k_max k)%Q /\
  match k_sys k with
  | None => True
  | Some (hz, maxf) =>
      exists h : Z, hz = inject_Z h /\ 0 < h /\ (h | 100000) /\ (0 <= maxf)%Q /\
                    (k_max k == inject_Z 100000000 + maxf)%Q
  end.
Definition op_ok (o : sop) : Prop :=
  match o with
  | Give m u => TsdSpec.sane_op m /\ TsdSpec.sane (u_now u) /\ forall c, clock_ok (u_w u c)
  | StepUser off w _ _ => TsdSpec.sane off /\ forall c, clock_ok (w c)
  | Control _ _ w | ResetServo w _ | SetClock _ w _ | Restart w _ _ => forall c, clock_ok (w c)
  | _ => True
  end.
Definition moments (l : list sop) : list sample :=
  flat_map (fun o => match o with
                     | Give m _ => match given_at m with Some n => [mkSample n 0%Q] | None => [] end
                     | _ => [] end) l.
(** times are representable and the monotonic clock does not go backwards *)
Definition hist_ok (l : list sop) : Prop := Forall op_ok l /\ nondecreasing (moments l).

(** all the times measured are within [B] units of 2^-32 ns of the epoch *)
Definition meas_within (B : Z) (m : TsdSpec.meas) : Prop :=
  Z.abs (instant (TsdSpec.m_tx m)) <= B /\ Z.abs (instant (TsdSpec.m_rx m)) <= B /\
  Z.abs (instant (TsdSpec.m_corr m)) <= B.
Definition op_within (B : Z) (m : TsdSpec.op) : Prop :=
  match m with
  | TsdSpec.SetM2S x _ | TsdSpec.SetS2M x _ => meas_within B x
  | TsdSpec.SetP2P a b c d k _ =>
      Z.abs (instant a) <= B /\ Z.abs (instant b) <= B /\ Z.abs (instant c) <= B /\
      Z.abs (instant d) <= B /\ Z.abs (instant k) <= B
  | _ => True
  end.
Definition within (B : Z) (l : list sop) : Prop :=
  Forall (fun o => match o with Give m _ => op_within B m | _ => True end) l.

(** the clocks as described to a call *)
Definition clocks_of (o : sop) : option (nat -> kclk) :=
  match o with
  | Give _ u => Some (u_w u)
  | Control _ _ w | StepUser _ w _ _ | ResetServo w _ | SetClock _ w _ | Restart w _ _ => Some w
  | _ => None
  end.
Definition is_give (o : sop) : bool := match o with Give _ _ => true | _ => false end.
Definition is_restart (o : sop) : bool := match o with Restart _ _ _ => true | _ => false end.

(** the clock jumped, or was to *)
Definition jumped (e : entry) : Prop := e_stepped e = true \/ exists c off, In (KStep c off) (e_ev e).
(** how far from zero a frequency request may be *)
Definition limit (k : kclk) : Q :=
  (k_max k + match k_sys k with Some (hz, _) => inject_Z 500 * hz | None => 0 end + half_unit)%Q.
(** what a call must meet: a positive interval, gains that are numbers *)
Definition call_pre (o : sop) : Prop :=
  match o with
  | SetInterval t => (0 < t)%Q
  | PidAdjust kp ki kd _ => kp <> None /\ ki <> None /\ kd <> None
  | _ => True
  end.
