(** Model of the leap second handling in src/sfptpd_engine.c. *)
Require Import ZArith QArith Qround List Bool.
Import ListNotations.
From Verif Require Import Base SrvSpec LeapSpec.
Open Scope Z_scope.

(** change_sync_instance_flags, src/sfptpd_engine.c:366-387, for one flag: an instance the
    message does not reach keeps its flag; the error is only logged. *)
Definition change_flags (value : bool) (ok : nat -> bool) (flags : list bool) : list bool :=
  map (fun p => if ok (fst p) then value else snd p) (combine (seq 0 (length flags)) flags).

(** on_cancel_leap_second, src/sfptpd_engine.c:1128-1163.  Stopping the timer is taken to
    succeed (disarming a timerfd). *)
Definition on_cancel (l : leap) (v : lenv) : leap * list lout :=
  match l_phase l with
  | ActivePre => (l, [])
  | p =>
    let unsched := match p with Scheduled | ActivePost => true | _ => false end in
    let kernel := if unsched then None else l_kernel l in
    let out := if unsched then [Kernel None] else [] in
    match p with
    | Idle => (mkLeap p (l_type l) (l_time l) (l_guard l) (l_timer l) kernel (l_proc l) (l_flag l), out)
    | _ => (mkLeap Idle (l_type l) (l_time l) (l_guard l) None kernel
                   (change_flags true (proc_ok v) (l_proc l))
                   (change_flags false (guard_ok v) (l_flag l)), out ++ [Tell None])
    end
  end.

(** The guard interval: limited to 2..10 s (include/sfptpd_constants.h:73-74) and converted
    to a timespec (sfptpd_time_float_s_to_timespec, include/sfptpd_time.h:89-98, exact down to
    2^-32 ns). *)
Definition guard_units (g : Q) : Z :=
  let g := if Qlt_le_dec g 2 then 2%Q else g in
  let g := if Qlt_le_dec 10 g then 10%Q else g in
  Qfloor (g * inject_Z (1000000000 * 2^32)).

(** A timer armed for an absolute time given in 2^-32 ns expires at the whole nanosecond
    below (timer_start, src/sfptpd_thread.c:884-913). *)
Definition arm (units : Z) : Z := units / 2^32.
Definition units_of_s (s : Z) : Z := s * (1000000000 * 2^32).

(** Lines 1206-1211 and 1306-1313: end of the current day. C remainder. *)
Definition leap_time (t : ltype) (now : Z) : Z :=
  let m := now - Z.rem now 86400 + 86400 in
  match t with Leap61 => m | Leap59 => m - 1 end.

Definition is61 (t : option ltype) : bool := match t with Some Leap61 => true | _ => false end.
Definition is59 (t : option ltype) : bool := match t with Some Leap59 => true | _ => false end.

(** on_schedule_leap_second, src/sfptpd_engine.c:1166-1250; [ctl] is the configured clock
    control.  [None]: the assertion that the guard interval is positive. *)
Definition on_schedule (ctl : ctrl) (l : leap) (t : ltype) (g : Q) (v : lenv) : option (leap * list lout) :=
  if Qlt_le_dec 0 g then
  match l_phase l with
  | ActivePre | ActivePost => Some (l, [])
  | p =>
    let '(l, out0) := match p with Scheduled | Test => on_cancel l v | _ => (l, []) end in
    match gettime v with
    | None => Some (l, out0)
    | Some now =>
      let time := leap_time t now in
      let guard := guard_units g in
      if timer_ok v then
        let tmr := Some (arm (units_of_s time - guard)) in
        let sched := match ctl with SLEW_AND_STEP => true | STEP_FORWARD => is61 (Some t) | _ => false end in
        Some (mkLeap Scheduled (Some t) time guard tmr (if sched then Some t else l_kernel l) (l_proc l) (l_flag l),
              out0 ++ (if sched then [Kernel (Some t)] else []) ++ [Tell (Some t)])
      else Some (mkLeap (l_phase l) (Some t) time guard (l_timer l) (l_kernel l) (l_proc l) (l_flag l), out0)
    end
  end else None.

(** on_test_leap_second, src/sfptpd_engine.c:1273-1343, with test mode enabled. *)
Definition on_test (l : leap) (t : option ltype) (v : lenv) : leap * list lout :=
  match l_phase l with
  | Scheduled | ActivePre | ActivePost => (l, [])
  | p =>
    let '(l, out0) := match p with Test => on_cancel l v | _ => (l, []) end in
    match t, gettime v with
    | Some t, Some now =>
      let time := leap_time t now in
      if timer_ok v then
        (mkLeap Test (Some t) time (l_guard l) (Some (arm (units_of_s time))) (l_kernel l) (l_proc l) (l_flag l),
         out0 ++ [Tell (Some t)])
      else (mkLeap (l_phase l) (Some t) time (l_guard l) (l_timer l) (l_kernel l) (l_proc l) (l_flag l), out0)
    | _, _ => (l, out0)
    end
  end.

(** on_leap_second_timer, src/sfptpd_engine.c:1346-1440; the one-shot timer has just expired. *)
Definition on_timer (ctl : ctrl) (l : leap) (v : lenv) : leap * list lout :=
  match l_phase l with
  | Scheduled =>
      if timer_ok v then
        (mkLeap ActivePre (l_type l) (l_time l) (l_guard l) (Some (arm (units_of_s (l_time l)))) (l_kernel l)
                (change_flags false (proc_ok v) (l_proc l)) (change_flags true (guard_ok v) (l_flag l)), [])
      else (mkLeap Idle (l_type l) (l_time l) (l_guard l) (l_timer l) (l_kernel l) (l_proc l) (l_flag l), [])
  | ActivePre =>
      let step := match ctl with SLEW_AND_STEP => true | STEP_FORWARD => is59 (l_type l) | _ => false end in
      (* sfptpd_clock_leap_second_now, src/sfptpd_clock.c:1978-2006 *)
      let out1 := if step then match l_type l with Some t => [StepNow t] | None => [] end else [] in
      let out := out1 ++ [Tell None] in
      if timer_ok v then
        (mkLeap ActivePost None (l_time l) (l_guard l) (Some (arm (units_of_s (l_time l) + l_guard l))) (l_kernel l)
                (l_proc l) (l_flag l), out)
      else (mkLeap Idle None (l_time l) (l_guard l) (l_timer l) (l_kernel l) (l_proc l) (l_flag l), out)
  | ActivePost => on_cancel l v
  | Test =>
      let '(l', out) := on_cancel l v in
      (l', TestUtc (if is61 (l_type l) then 1 else -1) :: out)
  | Idle => (l, [])
  end.

Definition disarm (l : leap) : leap :=
  mkLeap (l_phase l) (l_type l) (l_time l) (l_guard l) None (l_kernel l) (l_proc l) (l_flag l).

(** One request.  [Sync] is on_synchronize, src/sfptpd_engine.c:1653-1672.  [TestLocalCancel]
    is line 2105: it calls sfptpd_engine_schedule_leap_second with type NONE, whose assertion
    (line 2952) fails. *)
Definition lstep (ctl : ctrl) (l : leap) (o : lop) : option (leap * list lout) :=
  match o with
  | Schedule t g v => on_schedule ctl l t g v
  | Cancel v => Some (on_cancel l v)
  | TestLeap t v => Some (on_test l t v)
  | TestLocalCancel => None
  | Timer now v => match l_timer l with
                   | Some d => if d <=? now then Some (on_timer ctl (disarm l) v) else Some (l, [])
                   | None => Some (l, [])
                   end
  | Sync => Some (l, match l_phase l with ActivePre | ActivePost => [] | _ => [Servos] end)
  end.

(** The state after some requests and everything seen from outside, in order. *)
Fixpoint lrun (ctl : ctrl) (l : leap) (ops : list lop) : option (leap * list lout) :=
  match ops with
  | [] => Some (l, [])
  | o :: rest => do r <- lstep ctl l o; do s <- lrun ctl (fst r) rest; Some (fst s, snd r ++ snd s)
  end.

(** The engine at start-up with [n] instances (SYNC_MODULE_CTRL_FLAGS_DEFAULT). *)
Definition linit (n : nat) : leap := mkLeap Idle None 0 0 None None (repeat true n) (repeat false n).
