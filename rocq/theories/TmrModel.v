(** Model of src/ptp/ptpd2/dep/timer.c. *)
Require Import ZArith QArith List Bool.
Import ListNotations.
From Verif Require Import Base ListLib TmrSpec.
Open Scope Z_scope.

(** IntervalTimer and TIMER_ARRAY_SIZE, src/ptp/ptpd2/constants.h:214-226. *)
Record timer := mkTimer { interval : Z; left : Z; expire : bool }.
Definition size : nat := 12.
Definition timers := list timer.
(** The structures containing the timers are allocated cleared. *)
Definition init : timers := repeat (mkTimer 0 0 false) size.

(** The conversion of a floating point number of ticks to int: undefined out of range.  The
    product and quotient of long doubles are taken as exact. *)
Definition to_ticks (q : Q) : option Z :=
  let t := Z.quot (Qnum q * 1000000) (Z.pos (Qden q) * 62500) in
  chk_s32 t.

(** timerTick, src/ptp/ptpd2/dep/timer.c:86-108, for one timer. *)
Definition tick1 (t : timer) : timer :=
  if 0 <? interval t then
    let l := left t - 1 in
    if l <=? 0 then mkTimer (interval t) (interval t) true else mkTimer (interval t) l (expire t)
  else t.

(** timerStart, lines 121-153. *)
Definition start (i : nat) (q : Q) (ts : timers) : option timers :=
  if (i <? size)%nat then
    do l <- to_ticks q;
    let l := if l =? 0 then 1 else l in
    Some (set_nth i (mkTimer l l false) ts)
  else Some ts.

(** timerStop, lines 111-118. *)
Definition stop (i : nat) (ts : timers) : timers :=
  match nth_error ts i with
  | Some t => set_nth i (mkTimer 0 (left t) (expire t)) ts
  | None => ts
  end.

(** timerExpired, lines 178-193. *)
Definition poll (i : nat) (ts : timers) : bool * timers :=
  match nth_error ts i with
  | Some t => if expire t then (true, set_nth i (mkTimer (interval t) (left t) false) ts) else (false, ts)
  | None => (false, ts)
  end.

(** timerStopped and timerRunning, lines 196-221. *)
Definition stopped (i : nat) (ts : timers) : bool :=
  match nth_error ts i with Some t => interval t =? 0 | None => false end.
Definition running (i : nat) (ts : timers) : bool :=
  match nth_error ts i with Some t => negb (interval t =? 0) && negb (expire t) | None => false end.

(** One operation; timerStart_random, lines 167-175. *)
Definition tstep (ts : timers) (o : top) : option timers :=
  match o with
  | Start i q => start i q ts
  | StartRandom i r q => start i (r * q * 2) ts
  | Stop i => Some (stop i ts)
  | Tick => Some (map tick1 ts)
  | Poll i => Some (snd (poll i ts))
  end.
Fixpoint trun (ts : timers) (h : list top) : option timers :=
  match h with [] => Some ts | o :: h' => do ts' <- tstep ts o; trun ts' h' end.
