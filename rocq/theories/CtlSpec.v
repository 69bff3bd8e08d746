(** Specification vocabulary for the control socket and the signals (C64).  Text as in
    CevSpec.v: lists of byte values. *)
Require Import ZArith List Bool String QArith.
Require Import Verif.CevSpec.
Import ListNotations.
Open Scope Z_scope.

(** A gain: unchanged (not a number), a number, infinite. *)
Inductive dbl := NaN | Fin (q : Q) | Inf (negative : bool).

(** What a command makes the daemon do. *)
Inductive effect :=
| Exit | LogRotate | StepClocks | DumpTables
| SelectInstance (name : list Z)
| TestMode (id p0 p1 p2 : Z)
| PidAdjust (kp ki kd : dbl) (types : Z) (reset : bool).

(** The first word of the command that has an effect, sfptpdctl.c: usage(). *)
Definition word (e : effect) : list Z :=
  match e with
  | Exit => txt "exit" | LogRotate => txt "logrotate" | StepClocks => txt "stepclocks"
  | DumpTables => txt "dumptables" | SelectInstance _ => txt "selectinstance"
  | TestMode _ _ _ _ => txt "testmode" | PidAdjust _ _ _ _ _ => txt "pid_adjust"
  end.

(** The test modes, include/sfptpd_test.h, and their numbers. *)
Definition tests : list (list Z * Z) :=
  [(txt "leap_second_61", 0); (txt "leap_second_59", 1); (txt "leap_second_cancel", 2);
   (txt "local_leap_second_61", 3); (txt "local_leap_second_59", 4); (txt "local_leap_second_cancel", 5);
   (txt "utc_offset", 6); (txt "timestamp_jitter", 7); (txt "transparent_clock", 8);
   (txt "boundary_clock_change", 9); (txt "grandmaster_clock_change", 10); (txt "no_sync_pkts", 11);
   (txt "no_follow_ups", 12); (txt "no_delay_resps", 13); (txt "bogus_pps_events", 14);
   (txt "adjust_frequency", 15); (txt "no_announce_pkts", 16)].

Fixpoint join (c : Z) (l : list (list Z)) : list Z :=
  match l with [] => [] | [t] => t | t :: r => t ++ c :: join c r end.

(** Numerals: the characters of the digits [d], in a base. *)
Definition digit_char (c d : Z) : Prop :=
  (c = 48 + d /\ 0 <= d <= 9) \/ ((c = 87 + d \/ c = 55 + d) /\ 10 <= d <= 35).
Definition value (base : Z) (ds : list Z) : Z := fold_left (fun a d => a * base + d) ds 0.
Definition numeral (base : Z) (t ds : list Z) : Prop := Forall2 (fun c d => digit_char c d /\ d < base) t ds.

Definition sign (t : list Z) (s : Z) : Prop := (t = [] /\ s = 1) \/ (t = txt "+" /\ s = 1) \/ (t = txt "-" /\ s = -1).

(** Integers as in C: decimal, octal after 0, hexadecimal after 0x. *)
Definition integer (t : list Z) (z : Z) : Prop :=
  exists sg s body ds base, t = sg ++ body /\ sign sg s /\ z = s * value base ds /\
    ((base = 10 /\ numeral 10 body ds /\ body <> [] /\ hd 0 body <> 48) \/
     (base = 8 /\ exists b, body = 48 :: b /\ numeral 8 b ds) \/
     (base = 16 /\ exists x b, body = 48 :: x :: b /\ (x = 120 \/ x = 88) /\ b <> [] /\ numeral 16 b ds)).

Definition scaled (m base e : Z) : Q :=
  if 0 <=? e then inject_Z (m * base ^ e) else Qmake m (Z.to_pos (base ^ (- e))).

(** Decimal numbers: a sign, digits with at most one point among them, an exponent. *)
Definition exponent (t : list Z) (e : Z) : Prop :=
  (t = [] /\ e = 0) \/
  exists x sg s b ds, t = x :: sg ++ b /\ (x = 101 \/ x = 69) /\ sign sg s /\ b <> [] /\ numeral 10 b ds /\ e = s * value 10 ds.
Definition real (t : list Z) (q : Q) : Prop :=
  exists sg s ip fp ids fds ex e,
    (t = sg ++ ip ++ ex /\ fp = [] \/ t = sg ++ ip ++ 46 :: fp ++ ex) /\ ip ++ fp <> [] /\
    sign sg s /\ numeral 10 ip ids /\ numeral 10 fp fds /\ exponent ex e /\
    q = scaled (s * value 10 (ids ++ fds)) 10 (e - Z.of_nat (List.length fds)).

Definition gain (t : list Z) (v : dbl) : Prop := (t = [] /\ v = NaN) \/ (exists q, real t q /\ v = Fin q).

(** The types of servo named by the keywords: all of them if none is. *)
Definition LOCAL := txt "local". Definition PTP := txt "ptp". Definition PPS := txt "pps". Definition RESET := txt "reset".
Definition named (k : list Z) (ks : list (list Z)) : Prop :=
  In k ks \/ (~ In LOCAL ks /\ ~ In PTP ks /\ ~ In PPS ks).
Definition types_of (ks : list (list Z)) (types : Z) : Prop :=
  0 <= types < 8 /\
  (Z.testbit types 0 = true <-> named LOCAL ks) /\ (Z.testbit types 1 = true <-> named PTP ks) /\
  (Z.testbit types 2 = true <-> named PPS ks).

(** The documented commands. *)
Definition int_range (z : Z) : Prop := - 2 ^ 31 <= z < 2 ^ 31.
Inductive asks : list Z -> effect -> Prop :=
| asks_exit : asks (txt "exit") Exit
| asks_logrotate : asks (txt "logrotate") LogRotate
| asks_stepclocks : asks (txt "stepclocks") StepClocks
| asks_dumptables : asks (txt "dumptables") DumpTables
| asks_select n : (List.length n <= 63)%nat -> ~ In 61 n -> asks (txt "selectinstance=" ++ n) (SelectInstance n)
| asks_test name id ps zs : In (name, id) tests -> (List.length ps <= 3)%nat -> Forall2 integer ps zs ->
    (forall z, In z zs -> int_range z) ->
    asks (txt "testmode=" ++ join 44 (name :: ps)) (TestMode id (nth 0 zs 0) (nth 1 zs 0) (nth 2 zs 0))
| asks_pid gs vs ks types : gs <> [] -> (List.length gs <= 3)%nat -> (ks = [] \/ List.length gs = 3%nat) ->
    Forall2 gain gs vs -> (forall k, In k ks -> In k [LOCAL; PTP; PPS; RESET]) -> types_of ks types ->
    asks (txt "pid_adjust=" ++ join 44 (gs ++ ks))
      (PidAdjust (nth 0 vs NaN) (nth 1 vs NaN) (nth 2 vs NaN) types (existsb (fun k => if list_eq_dec Z.eq_dec k RESET then true else false) ks)).

(** The text of a datagram: what comes before a zero byte. *)
Definition text_of (m t : list Z) : Prop := ~ In 0 t /\ (m = t \/ exists r, m = t ++ 0 :: r).

(** The command word of a text. *)
Definition commanded (t w : list Z) : Prop := t = w \/ exists r, t = w ++ 61 :: r.

(** What an effect says about the text that asked for it: it names the instance or the test, and
    the numbers passed on are ints. *)
Definition fits (t : list Z) (e : effect) : Prop :=
  match e with
  | SelectInstance n => (List.length n <= 63)%nat /\ exists r, t = txt "selectinstance=" ++ n ++ r
  | TestMode id p0 p1 p2 => (exists n r, In (n, id) tests /\ (r = [] \/ hd 0 r = 44) /\ t = txt "testmode=" ++ n ++ r) /\
      int_range p0 /\ int_range p1 /\ int_range p2
  | PidAdjust _ _ _ types _ => 0 < types < 8
  | _ => True
  end.

(** The servos a message about gains is for. *)
Inductive servo := LocalServos | PtpServos | PpsServos.

(** The results of the calls made to open the socket. *)
Record opening := mkOpening { q_path : option (list Z);   (* sfptpd_format; [None] is an error *)
                              q_errno : Z;                 (* errno after whatever fails *)
                              q_memory : bool; q_socket : bool; q_bind : bool }.
Definition ENAMETOOLONG := 36.
Definition works (q : opening) : Prop :=
  q_memory q = true /\ q_socket q = true /\ q_bind q = true /\
  exists p, q_path q = Some p /\ (List.length p < 108)%nat.
