(** Model of the control socket: src/sfptpd_control.c, main_on_signal and
    on_control_socket_fd (src/sfptpd_main.c:638-768), and of what the engine and the modules
    do with the messages. *)
Require Import ZArith List Bool String QArith.
Require Import Verif.Base Verif.ListLib Verif.TimeSpec Verif.TimeModel Verif.CevSpec Verif.CevModel Verif.CtlSpec.
Import ListNotations.
Open Scope Z_scope.

Definition streq (a b : list Z) : bool := if list_eq_dec Z.eq_dec a b then true else false.

(** The string at the start of a buffer in which a zero is written after what was read. *)
Fixpoint upto (l : list Z) : list Z :=
  match l with [] => [] | c :: r => if c =? 0 then [] else c :: upto r end.

(** One call of strsep(3): the token, and what opts points to afterwards ([None]: NULL). *)
Fixpoint strsep (delim : Z) (s : list Z) : list Z * option (list Z) :=
  match s with
  | [] => ([], None)
  | c :: r => if c =? delim then ([], Some r) else let (t, o) := strsep delim r in (c :: t, o)
  end.

(** All the tokens that successive calls of strsep(3) with one delimiter give. *)
Fixpoint split (delim : Z) (s : list Z) : list (list Z) :=
  match s with
  | [] => [[]]
  | c :: r => if c =? delim then [] :: split delim r
              else match split delim r with t :: ts => (c :: t) :: ts | [] => [[c]] end
  end.
Definition tokens (delim : Z) (opts : option (list Z)) : list (list Z) :=
  match opts with None => [] | Some s => split delim s end.

(** strtol(3) with base 0, C locale, 64 bits: the value, and whether errno is set. *)
Definition dig (base c : Z) : option Z :=
  let d := if (48 <=? c) && (c <=? 57) then c - 48
           else if (97 <=? c) && (c <=? 122) then c - 87
           else if (65 <=? c) && (c <=? 90) then c - 55 else base in
  if d <? base then Some d else None.
Fixpoint digits_of (base : Z) (l : list Z) : list Z * list Z :=
  match l with
  | [] => ([], [])
  | c :: r => match dig base c with
              | Some d => let (ds, r') := digits_of base r in (d :: ds, r')
              | None => ([], l)
              end
  end.
Definition take_sign (l : list Z) : Z * list Z :=
  match l with
  | c :: r => if c =? 45 then (-1, r) else if c =? 43 then (1, r) else (1, l)
  | [] => (1, [])
  end.
(* glibc takes 0x for a prefix only if a digit follows *)
Definition base_of (l : list Z) : Z * list Z :=
  match l with
  | z :: r0 =>
      if z =? 48 then
        match r0 with
        | x :: c :: r =>
            if ((x =? 120) || (x =? 88)) && (match dig 16 c with Some _ => true | None => false end) then (16, c :: r) else (8, l)
        | _ => (8, l)
        end
      else (10, l)
  | [] => (10, l)
  end.
Definition value_of (base : Z) (ds : list Z) : Z := fold_left (fun a d => a * base + d) ds 0.
Definition LONG_MAX : Z := 2 ^ 63 - 1.
Definition LONG_MIN : Z := - 2 ^ 63.
Definition strtol (t : list Z) : Z * bool :=
  let (s, r) := take_sign (skip_space t) in
  let (base, r') := base_of r in
  let v := s * value_of base (fst (digits_of base r')) in
  if LONG_MAX <? v then (LONG_MAX, true) else if v <? LONG_MIN then (LONG_MIN, true) else (v, false).
(** The conversion of long to int. *)
Definition to_int (z : Z) : Z := (z + 2 ^ 31) mod 2 ^ 32 - 2 ^ 31.

(** strtod(3), C locale.  The value is exact: rounding and overflow are left out. *)
Definition scale (m base e : Z) : Q :=
  if 0 <=? e then inject_Z (m * base ^ e) else Qmake m (Z.to_pos (base ^ (- e))).
Definition lower (c : Z) : Z := if (65 <=? c) && (c <=? 90) then c + 32 else c.
Definition starts_ci (w l : list Z) : bool := streq (map lower (firstn (List.length w) l)) w.
Definition mantissa (base : Z) (l : list Z) : list Z * list Z * list Z :=
  let (ip, r) := digits_of base l in
  match r with
  | c :: r1 => if c =? 46 then let (fp, r2) := digits_of base r1 in (ip, fp, r2) else (ip, [], r)
  | [] => (ip, [], r)
  end.
Definition exponent_of (lo up : Z) (l : list Z) : Z :=
  match l with
  | x :: r =>
      if (x =? lo) || (x =? up) then
        let (s, r') := take_sign r in s * value_of 10 (fst (digits_of 10 r'))
      else 0
  | [] => 0
  end.
Definition hex_prefix (l : list Z) : option (list Z) :=
  match l with
  | z :: x :: r =>
      if (z =? 48) && ((x =? 120) || (x =? 88)) then
        let '(ip, fp, _) := mantissa 16 r in match ip ++ fp with [] => None | _ => Some r end
      else None
  | _ => None
  end.
Definition strtod (t : list Z) : dbl :=
  let (s, r) := take_sign (skip_space t) in
  if starts_ci (txt "inf") r then Inf (s =? -1)
  else if starts_ci (txt "nan") r then NaN
  else match hex_prefix r with
       | Some h => let '(ip, fp, r') := mantissa 16 h in
                   Fin (scale (s * value_of 16 (ip ++ fp)) 2 (exponent_of 112 80 r' - 4 * Z.of_nat (List.length fp)))
       | None => let '(ip, fp, r') := mantissa 10 r in
                 match ip ++ fp with
                 | [] => Fin 0
                 | _ => Fin (scale (s * value_of 10 (ip ++ fp)) 10 (exponent_of 101 69 r' - Z.of_nat (List.length fp)))
                 end
       end.

(** enum sfptpd_control_action and the union of parameters, include/sfptpd_control.h:22-49;
    [Unset] is a union in which nothing has been stored. *)
Inductive action := CONTROL_NOP | CONTROL_ERROR | CONTROL_EXIT | CONTROL_LOGROTATE | CONTROL_STEPCLOCKS
| CONTROL_SELECTINSTANCE | CONTROL_TESTMODE | CONTROL_DUMPTABLES | CONTROL_PID_ADJUST.
Inductive params :=
| Unset
| Selected (name : list Z)
| Test (id : Z) (ps : list Z)
| Pid (kp ki kd : dbl) (mask : Z) (reset : bool).

(** SFPTPD_TESTS_ARRAY, include/sfptpd_test.h:90-109: searched in order. *)
Definition test_modes : list (list Z) :=
  [txt "leap_second_61"; txt "leap_second_59"; txt "leap_second_cancel";
   txt "local_leap_second_61"; txt "local_leap_second_59"; txt "local_leap_second_cancel";
   txt "utc_offset"; txt "timestamp_jitter"; txt "transparent_clock"; txt "boundary_clock_change";
   txt "grandmaster_clock_change"; txt "no_sync_pkts"; txt "no_follow_ups"; txt "no_delay_resps";
   txt "bogus_pps_events"; txt "adjust_frequency"; txt "no_announce_pkts"].
Fixpoint find_mode (t : list Z) (l : list (list Z)) (i : Z) : option Z :=
  match l with [] => None | m :: r => if streq t m then Some i else find_mode t r (i + 1) end.

(** Lines 204-216: the parameters stored, [None] if one is out of the range of long. *)
Fixpoint test_params (n : nat) (ts : list (list Z)) : option (list Z) :=
  match n with
  | O => Some []
  | S n' =>
      match ts with
      | [] => Some (repeat 0 n)
      | t :: ts' => let (v, e) := strtol t in
                    if e then None else do r <- test_params n' ts'; Some (to_int v :: r)
      end
  end.

(** sfptpd_servo_get_type_flag, sfptpd_servo.c:784-793. *)
Definition type_flag (t : list Z) : Z :=
  if streq t (txt "local") then 1 else if streq t (txt "ptp") then 2 else if streq t (txt "pps") then 4 else 0.

(** Lines 239-248: the mask and reset, [None] at an unexpected token. *)
Fixpoint keywords (ts : list (list Z)) (mask : Z) (reset : bool) : option (Z * bool) :=
  match ts with
  | [] => Some (mask, reset)
  | t :: r =>
      if negb (type_flag t =? 0) then keywords r (Z.lor mask (type_flag t)) reset
      else if streq t (txt "reset") then keywords r mask true
      else None
  end.

Definition gain_of (t : option (list Z)) : dbl :=
  match t with Some (c :: r) => strtod (c :: r) | _ => NaN end.

(** sfptpd_control_socket_get_action, lines 134-260; [m]: what read(2) gives, [None] if it
    fails. *)
Definition get_action (m : option (list Z)) : action * params :=
  match m with
  | None => (CONTROL_ERROR, Unset)
  | Some m =>
      let '(command, opts) := strsep 61 (upto (firstn 127 m)) in
      if streq command (txt "exit") then (CONTROL_EXIT, Unset)
      else if streq command (txt "logrotate") then (CONTROL_LOGROTATE, Unset)
      else if streq command (txt "stepclocks") then (CONTROL_STEPCLOCKS, Unset)
      else if streq command (txt "dumptables") then (CONTROL_DUMPTABLES, Unset)
      else if streq command (txt "selectinstance") then
        match opts with
        | None => (CONTROL_ERROR, Unset)
        | Some o => (CONTROL_SELECTINSTANCE, Selected (firstn 63 (fst (strsep 61 o))))
        end
      else if streq command (txt "testmode") then
        match tokens 44 opts with
        | [] => (CONTROL_ERROR, Unset)
        | t :: ts =>
            match find_mode t test_modes 0 with
            | None => (CONTROL_ERROR, Unset)
            | Some id =>
                match test_params 3 ts with
                | None => (CONTROL_ERROR, Unset)
                | Some ps => (CONTROL_TESTMODE, Test id ps)
                end
            end
        end
      else if streq command (txt "pid_adjust") then
        let ts := tokens 44 opts in
        match keywords (skipn 3 ts) 0 false with
        | None => (CONTROL_ERROR, Unset)
        | Some (mask, reset) =>
            (CONTROL_PID_ADJUST,
             Pid (gain_of (nth_error ts 0)) (gain_of (nth_error ts 1)) (gain_of (nth_error ts 2))
                 (if mask =? 0 then 7 else mask) reset)
        end
      else (CONTROL_NOP, Unset)
  end.

(** on_control_socket_fd, sfptpd_main.c:694-768: [None] is a read of parameters that have not
    been stored. *)
Definition on_control_socket_fd (m : option (list Z)) : option (list effect) :=
  let (a, p) := get_action m in
  match a with
  | CONTROL_NOP | CONTROL_ERROR => Some []
  | CONTROL_EXIT => Some [Exit]
  | CONTROL_LOGROTATE => Some [LogRotate]
  | CONTROL_STEPCLOCKS => Some [StepClocks]
  | CONTROL_SELECTINSTANCE => match p with Selected n => Some [SelectInstance n] | _ => None end
  | CONTROL_TESTMODE => match p with Test id [a; b; c] => Some [TestMode id a b c] | _ => None end
  | CONTROL_DUMPTABLES => Some [DumpTables]
  | CONTROL_PID_ADJUST => match p with Pid kp ki kd mask r => Some [PidAdjust kp ki kd mask r] | _ => None end
  end.

(** main_on_signal, sfptpd_main.c:638-672; [rtmin] is SIGRTMIN. *)
Definition on_signal (rtmin n : Z) : list effect :=
  if (n =? 2) || (n =? 15) then [Exit]
  else if n =? 1 then [LogRotate]
  else if n =? 10 then [StepClocks]
  else if n - rtmin <? 17 then [TestMode (n - rtmin) 0 0 0] else [].

(** ** In the engine *)

(** What a test mode asks for. *)
Inductive treq :=
| LeapTest (kind : Z)            (* on_test_leap_second: 0 none, 1 61 s, 2 59 s *)
| Schedule (kind : Z)
| AdjustFrequency (ppb : Z)
| ToInstance (i : nat) (id p0 p1 p2 : Z).

(** sfptpd_engine_schedule_leap_second, sfptpd_engine.c:2932-2952: [None] is the assertion of
    line 2939. *)
Definition schedule_leap_second (kind : Z) : option (list treq) :=
  if (kind =? 1) || (kind =? 2) then Some [Schedule kind] else None.

(** on_configure_test_mode, lines 2081-2128.  [enabled]: test_mode in the configuration;
    [instances]: num_sync_instances.  An instance is selected. *)
Definition configure_test_mode (enabled : bool) (instances : nat) (id p0 p1 p2 : Z) : option (list treq) :=
  if negb enabled then Some []
  else if id =? 2 then Some [LeapTest 0]
  else if id =? 0 then Some [LeapTest 1]
  else if id =? 1 then Some [LeapTest 2]
  else if id =? 5 then schedule_leap_second 0
  else if id =? 3 then schedule_leap_second 1
  else if id =? 4 then schedule_leap_second 2
  else if id =? 15 then Some [AdjustFrequency p0]
  else Some (map (fun i => ToInstance i id p0 p1 p2) (seq 0 instances)).

(** sfptpd_engine_select_instance, lines 2778-2793 (strncpy of at most 63 bytes into a message
    that is not cleared), get_sync_instance_record_by_name, lines 349-363, and
    on_select_instance, lines 2056-2078: the instance selected.  [stale]: what is in the
    message from byte 63 of the name up to a zero byte. *)
Fixpoint find_name (n : list Z) (l : list (list Z)) (i : nat) : option nat :=
  match l with [] => None | x :: r => if streq n x then Some i else find_name n r (S i) end.
Definition select_instance (manual : bool) (instances : list (list Z)) (stale n : list Z) : option nat :=
  let n' := firstn 63 n in
  let seen := if (List.length n' =? 63)%nat then n' ++ stale else n' in
  if manual then find_name seen instances 0 else None.

(** on_step_clocks, lines 1854-1920.  [sel]: the selected instance, if any, and its offset if
    its status could be read; [servos]: for each active servo, whether its master is near the
    epoch, and its offset.  [None] is an overflow. *)
Inductive sreq := StepInstance (offset : ts) | StepServo (i : nat) (offset : ts) | TellNtp.
Fixpoint step_servos (off : ts) (i : nat) (l : list (bool * ts)) : option (list sreq) :=
  match l with
  | [] => Some []
  | (near_epoch, o) :: r =>
      if near_epoch then step_servos off (S i) r
      else do x <- add o off; do y <- step_servos off (S i) r; Some (StepServo i x :: y)
  end.
Definition on_step_clocks (no_adjust : bool) (sel : option (option ts)) (servos : list (bool * ts)) : option (list sreq) :=
  if no_adjust then Some []
  else match sel with
       | None | Some None => Some []
       | Some (Some off) => do l <- step_servos off 0 servos; Some (StepInstance off :: l ++ [TellNtp; TellNtp])
       end.

(** on_servo_pid_adjust of the engine (sfptpd_engine.c:2203-2221 and 2660-2663), of the PTP
    module (ptp/sfptpd_ptp_module.c:3972-3993) and of the PPS module
    (pps/sfptpd_pps_module.c:2275-2298): the servos reached and the number of messages that
    are not freed. *)
Definition pid_fanout (mask : Z) : list servo * nat :=
  let l := if Z.land mask 1 =? 0 then [] else [LocalServos] in
  let '(p, lp) := if Z.land mask 2 =? 0 then ([], 1%nat) else ([PtpServos], 0%nat) in
  let '(q, lq) := if Z.land mask 4 =? 0 then ([], 1%nat) else ([PpsServos], 0%nat) in
  (l ++ p ++ q, (lp + lq)%nat).

(** The messages of the global pool ([free] of them), for a command whose effects have been
    dealt with before the next one comes; other users of the pool are left out.  The result:
    the messages that are free again, and whether the command was carried out; [None]: the
    main thread waits for ever for a message (sfptpd_multicast_send with wait, line 427 of
    sfptpd_multicast.c).  dumptables goes to the PTP module, which frees its message, and to
    the clock feed, which does not (sfptpd_clockfeed.c:443-450, 684-686). *)
Definition pool_step (free : nat) (e : effect) : option (nat * bool) :=
  match e with
  | Exit => Some (free, true)
  | LogRotate | StepClocks | SelectInstance _ | TestMode _ _ _ _ =>
      if (free <? 1)%nat then Some (free, false) else Some (free, true)
  | DumpTables => if (free <? 2)%nat then Some (free, false) else Some ((free - 1)%nat, true)
  | PidAdjust _ _ _ mask _ => if (free <? 3)%nat then None else Some ((free - snd (pid_fanout mask))%nat, true)
  end.
Fixpoint pool_run (free : nat) (l : list effect) : option (nat * list bool) :=
  match l with
  | [] => Some (free, [])
  | e :: r => do s <- pool_step free e; do t <- pool_run (fst s) r; Some (fst t, snd s :: snd t)
  end.
(** SFPTPD_NUM_GLOBAL_MSGS, include/sfptpd_constants.h:87. *)
Definition POOL : nat := 256.

(** ** Opening and closing *)

Inductive ptr := Null | Points (s : list Z) | Dangling.
Record sock := mkSock { k_fd : bool; k_path : ptr; k_bound : option (list Z) }.
Definition unopened : sock := mkSock false Null None.

(** sfptpd_control_socket_open, lines 72-126: the state and the return value.  The test of
    line 86 is never true, sz being unsigned. *)
Definition socket_open (q : opening) (s : sock) : sock * Z :=
  if negb (q_memory q) then (mkSock (k_fd s) Null (k_bound s), q_errno q)
  else match q_path q with
       | None => (mkSock (k_fd s) Dangling (k_bound s), q_errno q)
       | Some p =>
           if (108 <=? List.length p)%nat then (mkSock (k_fd s) Dangling (k_bound s), ENAMETOOLONG)
           else if negb (q_socket q) then (mkSock false Dangling (k_bound s), q_errno q)
           else if negb (q_bind q) then (mkSock true Dangling (k_bound s), q_errno q)
           else (mkSock true (Points p) (Some p), 0)
       end.

(** sfptpd_control_socket_close, lines 263-273: [None] is unlink of, and a second free of,
    memory that has been freed. *)
Definition socket_close (s : sock) : option sock :=
  match k_path s with
  | Null => Some (mkSock false Null (k_bound s))
  | Points p => Some (mkSock false Dangling (match k_bound s with Some b => if streq b p then None else Some b | None => None end))
  | Dangling => None
  end.

(** main, sfptpd_main.c:892-894 and 961: the result of main's use of the socket. *)
Definition daemon (q : opening) : option (sock * Z) :=
  let (s, rc) := socket_open q unopened in do s' <- socket_close s; Some (s', rc).
