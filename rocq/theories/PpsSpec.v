(** Specification vocabulary for the PPS synchronisation module: what one PPS
    instance is told, what it does, and what an observer who only sees those two
    knows about the signal. *)
Require Import ZArith QArith Qminmax List Bool.
Require Import Verif.Base Verif.TimeSpec Verif.QLib Verif.ListLib Verif.FilterSpec Verif.SrvSpec.
Import ListNotations.
Open Scope Z_scope.

(** ** What happens to an instance *)

(** The states of a PPS instance. *)
Inductive st := LISTENING | SLAVE | FAULTY.
Definition st_eqb (a b : st) : bool :=
  match a, b with LISTENING, LISTENING | SLAVE, SLAVE | FAULTY, FAULTY => true | _, _ => false end.
(** The alarms of a PPS instance. *)
Record alarms := mkAl { al_sig : bool; al_seq : bool; al_day : bool; al_bad : bool }.
Definition quiet (a : alarms) : bool := negb (al_sig a || al_seq a || al_day a || al_bad a).
Definition no_alarm : alarms := mkAl false false false false.

(** The outcome of asking the clock for the next pulse. *)
Inductive got := Pulse (seq : Z) (t : ts) | Nothing | Failed.

(** What one poll of an instance sees: the outcome, the monotonic time, the time of
    day offset in force, the saved frequency correction of the clock, the clustering
    score, the outcome of polling the time of day (if it was polled: is it available),
    and the monotonic time read for the convergence measure (if it could be read). *)
Record pin := mkPin {
  i_got : got; i_now : ts; i_day : ts; i_corr : Q; i_score : Z;
  i_avail : option bool; i_conv : option ts }.

Inductive iop :=
| Poll (p : pin)                         (** ask for the next pulse *)
| Timer (now : ts)                       (** the periodic timer of an instance with a descriptor *)
| Check (now : ts)                       (** the check that pulses were seen after start *)
| Control (tsproc cc : bool)             (** new control flags *)
| StepBy (off : ts) (corr : Q)           (** the engine asks for a step *)
| Gains (kp ki kd : option Q) (reset : bool).

(** What an instance does: steps or adjusts its clock, tells the time of day source
    that a step happened, reports the offset, or tells the
    engine its state (and whether alarmed, and the offset). *)
Inductive out :=
| Step (by_ : ts)
| Freq (ppb : Q)
| TellDay
| Report (offset : Q)
| Told (s : st) (a : alarms) (offset : option Q) (score : Z).

Definition is_step (o : out) : bool := match o with Step _ => true | _ => false end.
Definition is_report (o : out) : bool := match o with Report _ => true | _ => false end.
Definition is_act (o : out) : bool := match o with Step _ | Freq _ => true | _ => false end.
Definition is_told (o : out) : bool := match o with Told _ _ _ _ => true | _ => false end.
(** The last thing the engine was told. *)
Definition told_of (d : st * bool) (l : list out) : st * bool :=
  fold_left (fun acc o => match o with Told s a _ _ => (s, negb (quiet a)) | _ => acc end) l d.

(** ** Configuration *)
Record conf := mkConf {
  g_ctrl : ctrl;               (** clock-control policy *)
  g_delay : Q;                 (** propagation delay, ns *)
  g_max : Q;                   (** largest frequency adjustment of the clock *)
  g_fir : nat;                 (** length of the averaging filter *)
  g_out : option (nat * Q) }.  (** outlier filter: size and adaption *)

(** ** One measurement *)
Definition second : Z := 1000000000.
(** The threshold for stepping, ns. *)
Definition step_threshold : Q := inject_Z 500000000.

(** The offset measured by a pulse at clock time [t] when the time of day source says
    the clock is ahead by [day]: the sub-second part of [t] (in whole ns, taken
    between -0.5 s and 0.5 s) next to the nearest second of [day]. *)
Definition subsec (t : ts) : Z := if nsec t <? 500000000 then nsec t else nsec t - second.
Definition nearest_second (day : ts) : Z := (instant day + 2^32 * 500000000) / (2^32 * second).
Definition measured_ns (day t : ts) : Z := nearest_second day * second + subsec t.
(** Less the propagation delay. *)
Definition measure (g : conf) (day t : ts) : Q := (inject_Z (measured_ns day t) - g_delay g)%Q.

(** Does the policy allow a step of [d] if the servo has ([acted]) already acted. *)
Definition may_step (p : ctrl) (acted : bool) (d : Q) : Prop :=
  match p with
  | SLEW_AND_STEP => True
  | STEP_AT_STARTUP => acted = false
  | STEP_FORWARD => (d < 0)%Q
  | _ => False
  end.
Definition large (d : Q) : Prop := (d <= - step_threshold \/ step_threshold <= d)%Q.

(** ** What an observer knows of the signal *)

(** A pulse whose time was looked at; since it, was the clock stepped or was timestamp
    processing turned off. *)
Record pulse := mkPulse { u_time : ts; u_step : bool; u_gap : bool }.

(** The time between two pulses, ns. *)
Definition period (a b : pulse) : Q := (inject_Z (instant (u_time b) - instant (u_time a)) / inject_Z (2^32))%Q.
(** Is the time from pulse [a] to the next one meaningful.  (Times before 1 s on the
    clock's own scale stand for no time.) *)
Definition comparable (a : pulse) : bool := negb (u_step a) && negb (u_gap a) && negb (sec (u_time a) =? 0).
(** The periods measured by pulses (latest first). *)
Fixpoint periods (ps : list pulse) : list Q :=
  match ps with
  | b :: ((a :: _) as r) => if comparable a then period a b :: periods r else periods r
  | _ => []
  end.
(** One second, give or take a tenth. *)
Definition good (p : Q) : Prop := (inject_Z 900000000 <= p <= inject_Z 1100000000)%Q.
Definition goodb (p : Q) : bool := Qle_bool (inject_Z 900000000) p && Qle_bool p (inject_Z 1100000000).
(** The signal is trusted: the last three periods measured were good. *)
Definition trusted (ps : list pulse) : Prop :=
  exists a b c r, periods ps = a :: b :: c :: r /\ good a /\ good b /\ good c.
(** A bad period was seen and the signal is not trusted again yet. *)
Definition distrusted (ps : list pulse) : Prop := Exists (fun p => ~ good p) (periods ps) /\ ~ trusted ps.
(** Computable form of [trusted]. *)
Definition trustb (l : list Q) : bool :=
  match l with a :: b :: c :: _ => goodb a && goodb b && goodb c | _ => false end.

Record view := mkView {
  v_ts : bool; v_cc : bool; v_state : st;
  v_pulses : list pulse;          (** since the signal appeared, latest first *)
  v_pend : bool;                  (** no pulse yet, but the clock was stepped *)
  v_last : ts; v_seq : Z;         (** time and number of the last pulse *)
  v_period : Q;                   (** the last period measured since a step *)
  v_xs : list (Q * bool);         (** periods judged, and if found outlying *)
  v_diffs : list Q;               (** measurements used since the last step *)
  v_acted : bool;                 (** the servo has acted on the clock *)
  v_base : Q; v_kp : Q; v_ki : Q; (** the frequency steered from, and the gains *)
  v_int : Q }.                    (** the integral term *)

(** The clock was stepped since the last pulse that was looked at. *)
Definition stepped (v : view) : bool :=
  match v_pulses v with p :: _ => u_step p | [] => v_pend v end.
Definition step_head (ps : list pulse) : list pulse :=
  match ps with p :: r => mkPulse (u_time p) true (u_gap p) :: r | [] => [] end.
Definition gap_head (ps : list pulse) : list pulse :=
  match ps with p :: r => mkPulse (u_time p) (u_step p) true :: r | [] => [] end.

(** The signal is forgotten. *)
Definition forget (v : view) (s : st) : view :=
  mkView (v_ts v) (v_cc v) s [] (stepped v) (v_last v) 0 0 [] (v_diffs v) (v_acted v)
         (v_base v) (v_kp v) (v_ki v) (v_int v).

(** At the start, when the clock's saved correction is [corr]. *)
Definition view0 (corr kp ki : Q) : view :=
  mkView true false LISTENING [] false (mkTs 0 0 0) 0 0 [] [] false corr kp ki 0.

(** Silence, at [now]. *)
Definition silent (v : view) (now : ts) : view :=
  match v_state v with
  | LISTENING => v
  | SLAVE => if instant now - instant (v_last v) <? 60 * second * 2^32 then v else forget v LISTENING
  | FAULTY => forget v LISTENING
  end.

(** The last period, when [t] is looked at. *)
Definition next_period (v : view) (t : ts) : Q :=
  match v_pulses v with
  | a :: _ => if comparable a then period a (mkPulse t false false) else v_period v
  | [] => v_period v
  end.
(** The measurements in use, after [d] was measured (and, if [st_], led to a step). *)
Definition next_diffs (g : conf) (v : view) (d : Q) (st_ : bool) : list Q :=
  if st_ then []
  else if match g_ctrl g with
          | SLEW_AND_STEP => true
          | STEP_AT_STARTUP => negb (v_acted v)
          | STEP_FORWARD => negb (Qle_bool 0 d)
          | _ => false
          end && (Qle_bool d (- step_threshold) || Qle_bool step_threshold d)
       then v_diffs v
       else v_diffs v ++ [d].

(** The mean of the measurements in use. *)
Definition mean (g : conf) (ds : list Q) : Q :=
  match ds with [] => 0%Q | _ => Qmean (lastn (g_fir g) ds) end.
(** The value in [-m, m] nearest to [x]. *)
Definition limit (m x : Q) : Q := Qmax (- m) (Qmin m x).

(** A pulse. *)
Definition pulsed (g : conf) (v : view) (p : pin) (seq : Z) (t : ts) (outs : list out) : view :=
  let used := existsb is_report outs in
  let st_ := existsb is_step outs in
  let acted := v_acted v || existsb is_act outs in
  match v_state v with
  | SLAVE =>
      if v_ts v then
        let x := if stepped v then v_period v else next_period v t in
        let ps := mkPulse t st_ false :: v_pulses v in
        let judge := negb (stepped v) && trustb (periods ps) in
        let ds := if used then next_diffs g v (measure g (i_day p) t) st_ else v_diffs v in
        mkView true (v_cc v) SLAVE ps false (i_now p) seq
               (if st_ then 0%Q else x)
               (if judge then v_xs v ++ [(x, negb used)] else v_xs v)
               ds acted
               (if st_ then i_corr p else v_base v) (v_kp v) (v_ki v)
               (if st_ then 0%Q
                else if existsb is_act outs then limit (g_max g) (v_int v + v_ki v * mean g ds) else v_int v)
      else mkView false (v_cc v) SLAVE (v_pulses v) (v_pend v) (i_now p) seq (v_period v) (v_xs v)
                  (v_diffs v) acted (v_base v) (v_kp v) (v_ki v) (v_int v)
  | _ =>
      mkView (v_ts v) (v_cc v) SLAVE (if v_ts v then [mkPulse t (stepped v) false] else [])
             (if v_ts v then false else stepped v) (i_now p) seq 0 (v_xs v) (v_diffs v) acted
             (v_base v) (v_kp v) (v_ki v) (v_int v)
  end.

Definition view_step (g : conf) (v : view) (o : iop) (outs : list out) : view :=
  match o with
  | Poll p => match i_got p with
              | Pulse seq t => pulsed g v p seq t outs
              | Nothing => silent v (i_now p)
              | Failed => match v_state v with FAULTY => v | _ => forget v FAULTY end
              end
  | Timer now => silent v now
  | Check _ => v
  | Control tsproc cc =>
      mkView tsproc cc (v_state v) (if v_ts v && negb tsproc then gap_head (v_pulses v) else v_pulses v)
             (v_pend v) (v_last v) (v_seq v) (v_period v) (v_xs v) (v_diffs v) (v_acted v)
             (v_base v) (v_kp v) (v_ki v) (if v_cc v && negb cc then 0%Q else v_int v)
  | StepBy _ corr =>
      mkView (v_ts v) (v_cc v) (v_state v) (step_head (v_pulses v))
             (match v_pulses v with [] => true | _ => v_pend v end)
             (v_last v) (v_seq v) 0 (v_xs v) [] (v_acted v) corr (v_kp v) (v_ki v) 0
  | Gains kp ki _ reset =>
      mkView (v_ts v) (v_cc v) (v_state v) (v_pulses v) (v_pend v) (v_last v) (v_seq v) (v_period v)
             (v_xs v) (v_diffs v) (v_acted v) (v_base v)
             (match kp with Some x => x | None => v_kp v end) (match ki with Some x => x | None => v_ki v end)
             (if reset then 0%Q else v_int v)
  end.
Fixpoint view_of (g : conf) (v : view) (l : list iop) (log : list (list out)) : view :=
  match l, log with
  | o :: l', e :: log' => view_of g (view_step g v o e) l' log'
  | _, _ => v
  end.

(** The outlier filter of size [n] and adaption [w] judged [xs] and stored [ys]. *)
Inductive judged (table : list Q) (min n : nat) (w : Q) : list (Q * bool) -> list Q -> Prop :=
| judged_nil : judged table min n w [] []
| judged_snoc : forall xs ys x b y,
    judged table min n w xs ys -> verdict_ok table min n w ys x b y ->
    judged table min n w (xs ++ [(x, b)]) (ys ++ [y]).

(** What the servo may do with a measurement: step the clock back by the whole offset
    and restore its saved frequency, or steer it; nothing if not in control. *)
Definition acts_ok (g : conf) (v : view) (ns : Z) (corr : Q) (acts : list out) : Prop :=
  let d := (inject_Z ns - g_delay g)%Q in
  if v_cc v then
    (may_step (g_ctrl g) (v_acted v) d /\ large d /\
     exists b, acts = [Step b; Freq corr; TellDay] /\ instant b = - (ns * 2^32)) \/
    (~ (may_step (g_ctrl g) (v_acted v) d /\ large d) /\
     exists f, acts = [Freq f] /\
       (f == limit (g_max g) (v_base v - v_kp v * mean g (v_diffs v ++ [d]) - v_int v))%Q)
  else acts = [].

(** A usable configuration. *)
Definition conf_ok (g : conf) : Prop := (0 < g_max g)%Q /\ (0 < g_fir g)%nat.

(** Sane inputs: times the clocks of a working system give. *)
Definition sane (t : ts) : Prop := normal t /\ - 2^61 < sec t < 2^61.
Definition op_ok (o : iop) : Prop :=
  match o with
  | Poll p => match i_got p with Pulse seq t => normal t /\ 0 <= seq < 2^32 | _ => True end /\
              normal (i_now p) /\ normal (i_day p)
  | Timer now | Check now => normal now
  | Control _ _ | Gains _ _ _ _ => True
  | StepBy off _ => normal off
  end.

(** The servo is to be executed for a pulse at [t], unless it is an outlier. *)
Definition relied (v : view) (t : ts) : Prop :=
  v_state v = SLAVE /\ v_ts v = true /\ stepped v = false /\ trusted (mkPulse t false false :: v_pulses v).

(** What comes of a pulse at [t]. *)
Definition heard (table : list Q) (min : nat) (g : conf) (v : view) (p : pin) (t : ts) (outs : list out) : Prop :=
  (relied v t ->
   exists outlying,
     match g_out g with
     | None => outlying = false
     | Some (n, w) => exists ys y, judged table min n w (v_xs v) ys /\
                        verdict_ok table min n w ys (next_period v t) outlying y
     end /\
     (if outlying then outs = []
      else exists acts off, outs = acts ++ [Report off] /\
             acts_ok g v (measured_ns (i_day p) t) (i_corr p) acts /\
             (off == mean g (next_diffs g v (measure g (i_day p) t) (existsb is_step acts)))%Q)) /\
  (~ relied v t -> outs = []).

(** Only messages to the engine. *)
Definition tolds (l : list out) : Prop := Forall (fun o => is_told o = true) l.

(** Inputs with which no arithmetic overflows. *)
Definition op_sane (o : iop) : Prop :=
  match o with
  | Poll p => match i_got p with Pulse seq t => sane t /\ 0 <= seq < 2^32 | _ => True end /\
              sane (i_now p) /\ sane (i_day p) /\ match i_conv p with Some t => sane t | None => True end
  | Timer now | Check now => sane now
  | Control _ _ | Gains _ _ _ _ => True
  | StepBy off _ => sane off
  end.

(** ** The module: instances and one time of day *)
(** What polling the time of day sees: monotonic time, whether the source exists if
    looked for, what it answers (if it does), and the system to NIC difference (if the
    comparison works). *)
Record din := mkDin { e_now : ts; e_found : bool; e_status : option (bool * ts); e_cmp : option ts }.

(** What a poll of an instance sees, in the module. *)
Record mpin := mkMpin { x_got : got; x_now : ts; x_corr : Q; x_score : Z; x_day : din; x_conv : option ts }.
Inductive mop :=
| MPoll (x : mpin)
| MOther (o : iop).   (** anything but a poll *)

Definition mop_ok (o : mop) : Prop :=
  match o with
  | MPoll x => match e_status (x_day x) with Some (_, o) => normal o | None => True end /\
               match e_cmp (x_day x) with Some c => normal c | None => True end
  | MOther _ => True
  end.
(** [off] is the offset the poll was given: that of the source, plus the difference of the
    clocks if there is an offset and they could be compared. *)
Definition given (x : mpin) (off : ts) : Prop :=
  exists slave o, e_status (x_day x) = Some (slave, o) /\
    ((instant o = 0 /\ instant off = 0) \/
     (instant o <> 0 /\ instant off = instant o + match e_cmp (x_day x) with Some c => instant c | None => 0 end)).
Definition no_step (l : list out) : Prop := existsb is_step l = false.

(** The alarms after a pulse numbered [seq]. *)
Definition pulse_al (v : view) (al : alarms) (seq : Z) (bad : bool) : alarms :=
  match v_state v with
  | SLAVE => mkAl false (negb (seq =? 2^32 - 1) && negb (seq =? (v_seq v + 1) mod 2^32)) (al_day al) bad
  | _ => mkAl (al_sig al) (al_seq al) (al_day al) bad
  end.
(** Time since the last pulse. *)
Definition elapsed (v : view) (now : ts) : Z := instant now - instant (v_last v).
(** The alarms after silence until [now]. *)
Definition silent_al (v : view) (al : alarms) (now : ts) : alarms :=
  match v_state v with
  | LISTENING => al
  | FAULTY => no_alarm
  | SLAVE => if elapsed v now <? 60 * second * 2^32 then
               mkAl (al_sig al || (11 * 100000000 * 2^32 <=? elapsed v now)) (al_seq al) (al_day al) (al_bad al)
             else no_alarm
  end.
(** The time of day alarm, if the time of day was polled. *)
Definition day_al (av : option bool) (al : alarms) : alarms :=
  match av with Some ok => mkAl (al_sig al) (al_seq al) (negb ok) (al_bad al) | None => al end.
