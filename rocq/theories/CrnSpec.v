(** Specification vocabulary for the chrony synchronisation module: what chronyd can be asked and
    answers, what is seen of its process, what the module does and tells the engine. *)
Require Import ZArith QArith List Bool.
Require Import Verif.Base Verif.TimeSpec.
Import ListNotations.
Open Scope Z_scope.

(** ** The states of the instance *)
Inductive st := LISTENING | SLAVE | DISABLED | FAULTY | SELECTION.
Definition st_eqb (a b : st) : bool :=
  match a, b with
  | LISTENING, LISTENING | SLAVE, SLAVE | DISABLED, DISABLED | FAULTY, FAULTY | SELECTION, SELECTION => true
  | _, _ => false
  end.

(** ** The octets of chronyd's protocol *)
Definition enc16 (x : Z) : list Z := [x / 256 mod 256; x mod 256].
Definition enc32 (x : Z) : list Z := enc16 (x / 65536 mod 65536) ++ enc16 (x mod 65536).
(** Numbers a peer only has to send back, in the order of the machine. *)
Definition le32 (x : Z) : list Z := [x mod 256; x / 256 mod 256; x / 65536 mod 256; x / 16777216 mod 256].
Definition octet (x : Z) : Prop := 0 <= x < 256.

(** Addresses: family 1 is IPv4 (4 octets), 2 is IPv6 (16 octets), 0 is none; 20 octets in all. *)
Inductive saddr := NoAddr | V4 (a : list Z) | V6 (a : list Z) | Unspec.
Definition enc_addr (a : saddr) : list Z :=
  match a with
  | V4 l => l ++ repeat 0 12 ++ enc16 1 ++ [0; 0]
  | V6 l => l ++ enc16 2 ++ [0; 0]
  | _ => repeat 0 20
  end.
Definition addr_ok (a : saddr) : Prop :=
  match a with
  | V4 l => List.length l = 4%nat /\ Forall octet l
  | V6 l => List.length l = 16%nat /\ Forall octet l
  | NoAddr => False
  | Unspec => True
  end.

(** A number with 25 bits of coefficient and 7 bits of exponent, both in two's complement. *)
Definition enc_float (coef exp : Z) : Z := (exp mod 2^7) * 2^25 + coef mod 2^25.
Definition float_val (coef exp : Z) : Q := (inject_Z coef * Qpower 2 (exp - 25))%Q.
Definition float_ok (coef exp : Z) : Prop := - 2^24 <= coef < 2^24 /\ - 2^6 <= exp < 2^6.

(** Commands and the type of the answer to each. *)
Definition NUM_SOURCES := 14. Definition SOURCE_DATA := 15. Definition TRACKING := 33. Definition SOURCE_STATS := 34. Definition NTP_DATA := 57.
Definition answer_type (cmd : Z) : Z :=
  if cmd =? NUM_SOURCES then 2 else if cmd =? SOURCE_DATA then 3 else if cmd =? TRACKING then 5 else if cmd =? SOURCE_STATS then 6 else 16.

(** A request: version 6, type 1, the command, an attempt number, a sequence number, and 500 octets of
    argument. *)
Definition enc_request (cmd seq : Z) (arg : list Z) : list Z :=
  [6; 1; 0; 0] ++ enc16 cmd ++ [0; 0] ++ le32 seq ++ repeat 0 8 ++ arg ++ repeat 0 (500 - List.length arg).
(** An answer: a header of 28 octets (the first four and twelve others do not matter), then data. *)
Record answer := mkAns { a_cmd : Z; a_type : Z; a_status : Z; a_seq : Z; a_data : list Z }.
Definition enc_answer (a : answer) : list Z :=
  [6; 2; 0; 0] ++ enc16 (a_cmd a) ++ enc16 (a_type a) ++ enc16 (a_status a) ++ repeat 0 6 ++ le32 (a_seq a) ++ repeat 0 8 ++ a_data a.

(** What chronyd tells of a source: address, state (0 selected, 4 acceptable), mode (2: a reference
    clock); estimated offset and its error in seconds; for an NTP source mode of the packets
    (4: from a server), stratum, root dispersion, offset, packets sent and received. *)
Record source := mkSrc {
  o_addr : saddr; o_state : Z; o_mode : Z;
  o_est : Z * Z; o_err : Z * Z;
  o_local : saddr; o_pmode : Z; o_stratum : Z; o_disp : Z * Z; o_off : Z * Z; o_sent : Z; o_received : Z }.
Definition enc_source (s : source) : list Z := enc_addr (o_addr s) ++ repeat 0 4 ++ enc16 (o_state s) ++ enc16 (o_mode s).
Definition efl (x : Z * Z) : list Z := enc32 (enc_float (fst x) (snd x)).
Definition enc_stats (s : source) : list Z := repeat 0 4 ++ enc_addr (o_addr s) ++ repeat 0 24 ++ efl (o_est s) ++ efl (o_err s).
Definition enc_ntpdata (s : source) : list Z :=
  enc_addr (o_addr s) ++ enc_addr (o_local s) ++ repeat 0 4 ++ [o_pmode s; o_stratum s] ++ repeat 0 6 ++
  efl (o_disp s) ++ repeat 0 4 ++ repeat 0 12 ++ efl (o_off s) ++ repeat 0 20 ++ enc32 (o_sent s) ++ enc32 (o_received s) ++ repeat 0 24.
Definition source_ok (s : source) : Prop :=
  addr_ok (o_addr s) /\ addr_ok (o_local s) /\ 0 <= o_state s < 2^16 /\ 0 <= o_mode s < 2^16 /\
  float_ok (fst (o_est s)) (snd (o_est s)) /\ float_ok (fst (o_err s)) (snd (o_err s)) /\
  float_ok (fst (o_disp s)) (snd (o_disp s)) /\ float_ok (fst (o_off s)) (snd (o_off s)) /\
  octet (o_pmode s) /\ octet (o_stratum s) /\ 0 <= o_sent s < 2^32 /\ 0 <= o_received s < 2^32.

(** ** What is seen of chronyd's process *)
(** Not there; its command line cannot be opened; its command line as octets (arguments ended by
    NUL) and whether reading it failed at the end. *)
Inductive proc := Absent | Hidden | Cmdline (text : list Z) (failed : bool).
Definition join_args (l : list (list Z)) : list Z := flat_map (fun a => a ++ [0]) l.
(** The arguments as given. *)
Definition arg_ok (a : list Z) : Prop := ~ In 0 a.
Definition dash_x (a : list Z) : bool := match a with 45 :: 120 :: _ => true | _ => false end.
(** What getopt makes of an argument: a group of options without values that contains x. *)
Definition flag_letters : list Z := [52; 54; 100; 104; 109; 110; 112; 113; 81; 114; 115; 118; 120].  (* 46dhmnpqQrsvx *)
Definition asks_x (a : list Z) : bool :=
  match a with
  | 45 :: r => forallb (fun c => existsb (Z.eqb c) flag_letters) r && existsb (Z.eqb 120) r
  | _ => false
  end.
(** The arguments in a command line: what stands between the NULs. *)
Fixpoint words (l : list Z) : list (list Z) :=
  match l with
  | [] => [[]]
  | c :: r => if c =? 0 then [] :: words r else match words r with w :: ws => (c :: w) :: ws | [] => [[c]] end
  end.
(** Seen running; seen running and not told with -x to leave the clock alone. *)
Definition seen (p : proc) : bool := match p with Cmdline _ false => true | _ => false end.
Definition controls (p : proc) : bool := match p with Cmdline t false => negb (existsb dash_x (words t)) | _ => false end.

(** ** What happens to the module *)
(** Operations on chronyd's clock control. *)
Inductive cop := NOP | ENABLE | DISABLE | SAVE | RESTORE | RESTORENORESTART.
Definition cop_eqb (a b : cop) : bool :=
  match a, b with
  | NOP, NOP | ENABLE, ENABLE | DISABLE, DISABLE | SAVE, SAVE | RESTORE, RESTORE | RESTORENORESTART, RESTORENORESTART => true
  | _, _ => false
  end.

(** The world during one event: the monotonic time, the raw monotonic time, the monotonic time for
    the convergence measure if it can be read, chronyd's process at each look, the outcome of
    connecting and of sending, the random number, the outcome of clock control operations, the
    clustering score of an offset. *)
Record env := mkEnv {
  e_now : ts; e_raw : ts; e_conv : option ts; e_proc : nat -> proc; e_connect : Z; e_send : Z; e_rand : Z;
  e_ctl : cop -> Z; e_score : Q -> Z }.

(** What recv(2) gives: octets, nothing to do, or an error that means the connection is lost. *)
Inductive received := Octets (l : list Z) | Nothing | Lost.

Inductive op :=
| Tick (e : env)                           (** the timer, twice a second *)
| Io (r : received) (e : env)              (** the socket is ready *)
| Control (mask flags : Z) (e : env)
| StepClock
| LogStats
| SaveState
| Topology
| GetStatus.

(** The status of an instance: state, constraints, offset, accuracy of the master (None: infinite), steps
    removed, whether there is a remote clock, clustering score. *)
Record status := mkStatus {
  s_state : st; s_must : bool; s_cannot : bool; s_offset : Q; s_acc : option Q; s_steps : Z; s_remote : bool; s_score : Z }.

Inductive out :=
| Connect (rc : Z) | Close                                (** the connection to chronyd *)
| Sent (octets : list Z)                                  (** a request *)
| Look (p : proc)                                         (** chronyd's process was looked at *)
| Did (o : cop) (rc : Z)                                  (** a clock control operation and its outcome *)
| Block (b : bool)                                        (** the system clock is blocked or released *)
| Told (s : status)                                       (** status message to the engine *)
| Reply (s : status)                                      (** reply to a request for the status *)
| Report (offset : Q) (disciplining synced : bool)        (** real time statistics *)
| Cluster (offset : Q) (valid : bool)                     (** input for clustering *)
| History (offset : option Q) (synced : bool)             (** long term statistics *)
| Saved (s : st) (must cannot : bool) (flags : Z) (detail : option (Q * bool * saddr * Z)) (num cand : nat)
| Drawn (s : st) (detail : option (saddr * Q))            (** topology *)
| Exit (rc : Z).                                          (** the module asks to end *)

(** Control flags. *)
Definition SELECTED := 0. Definition TIMESTAMPS := 1. Definition CLOCK_CTRL := 2. Definition DETERMINANT := 4.
Definition wants (flags : Z) : bool := Z.testbit flags CLOCK_CTRL.
Definition new_flags (old mask flags : Z) : Z := Z.lor (Z.ldiff old mask) (Z.land flags mask).

(** Configuration: may chronyd's clock control be changed; is a conflict to be ignored; may the
    system clock be adjusted; is timesyncd running; the poll interval; convergence. *)
Record conf := mkConf {
  g_ctl : bool; g_ignore : bool; g_writable : bool; g_timesyncd : bool; g_interval : Z; g_min : Z; g_max : Q }.

Definition EIO := 5. Definition EAGAIN := 11. Definition ENOSYS := 38. Definition ENOPROTOOPT := 92. Definition EPROTONOSUPPORT := 93.
Definition EOPNOTSUPP := 95. Definition EINPROGRESS := 115.

(** ** Views of a history *)
(** The connection: opened before it is used or closed, closed before it is opened again. *)
Fixpoint conn_run (opened : bool) (l : list out) : option bool :=
  match l with
  | [] => Some opened
  | Connect rc :: r => if opened then None else conn_run (rc =? 0) r
  | Close :: r => if opened then conn_run false r else None
  | Sent _ :: r => if opened then conn_run true r else None
  | _ :: r => conn_run opened r
  end.
(** The system clock: blocked and released in turn. *)
Fixpoint block_run (blocked : bool) (l : list out) : option bool :=
  match l with
  | [] => Some blocked
  | Block b :: r => if Bool.eqb blocked b then None else block_run b r
  | _ :: r => block_run blocked r
  end.
(** The state last told; what is replied, saved and drawn is that state. *)
Fixpoint told_run (s : st) (l : list out) : option st :=
  match l with
  | [] => Some s
  | Told x :: r => told_run (s_state x) r
  | Reply x :: r => if st_eqb (s_state x) s then told_run s r else None
  | Saved x _ _ _ _ _ _ :: r => if st_eqb x s then told_run s r else None
  | Drawn x _ :: r => if st_eqb x s then told_run s r else None
  | _ :: r => told_run s r
  end.
(** Clock control operations: the setting is saved once, before anything else; it is enabled only
    if the last look did not find chronyd controlling the clock and disabled only if it did.  [saw] is
    the last look. *)
Fixpoint cmd_run (saved : bool) (saw : option bool) (l : list out) : option bool :=
  match l with
  | [] => Some saved
  | Look p :: r => cmd_run saved (Some (controls p)) r
  | Did SAVE _ :: r => if saved then None else cmd_run true saw r
  | Did ENABLE _ :: r => if saved && match saw with Some false => true | _ => false end then cmd_run saved saw r else None
  | Did DISABLE _ :: r => if saved && match saw with Some true => true | _ => false end then cmd_run saved saw r else None
  | Did _ _ :: r => None
  | _ :: r => cmd_run saved saw r
  end.
(** Nothing that follows a source. *)
Definition unsynced (o : out) : Prop :=
  match o with
  | Told s | Reply s => s_state s <> SLAVE /\ s_remote s = false /\ s_offset s = 0%Q
  | Report _ _ _ => False
  | Cluster _ v => v = false
  | History x y => x = None /\ y = false
  | Saved s _ _ _ d _ _ => s <> SLAVE /\ d = None
  | Drawn s d => s <> SLAVE /\ d = None
  | _ => True
  end.
(** Constraints: chronyd's control cannot both be required and excluded; with the means to change
    it there is none. *)
Definition free (g : conf) (o : out) : Prop :=
  match o with
  | Told s | Reply s => (s_must s = true -> s_cannot s = false) /\ (g_ctl g = true -> s_must s = false /\ s_cannot s = false)
  | Saved _ a b _ _ _ _ => (a = true -> b = false) /\ (g_ctl g = true -> a = false /\ b = false)
  | _ => True
  end.
(** Requests: which commands with which arguments; the sequence number is the random number of the
    event. *)
Definition good_arg (cmd : Z) (arg : list Z) : Prop :=
  ((cmd = TRACKING \/ cmd = NUM_SOURCES) /\ arg = []) \/
  ((cmd = SOURCE_DATA \/ cmd = SOURCE_STATS) /\ exists i, 0 <= i < 32 /\ arg = enc32 i) \/
  (cmd = NTP_DATA /\ List.length arg = 20%nat).
Definition good_req (rand : Z) (x : list Z) : Prop := exists cmd arg, good_arg cmd arg /\ x = enc_request cmd rand arg.
Definition is_did (o : out) : bool := match o with Did _ _ => true | _ => false end.

(** A life: the outputs of the start, of the messages before the message to run, of that message, and
    of what follows. *)
Definition flat (log : list (op * list out)) : list out := concat (map snd log).
Definition message (o : op) : Prop := match o with Tick _ | Io _ _ => False | _ => True end.
Definition first_state (p : proc) : st := if seen p then LISTENING else DISABLED.
(** The random number of an event, its monotonic time. *)
Definition op_rand (o : op) : Z := match o with Tick e | Io _ e => e_rand e | _ => 0 end.
Definition op_now (o : op) : ts := match o with Tick e | Io _ e => e_now e | _ => mkTs 0 0 0 end.
(** A round of questions starts with a look at the process by the timer or with a TRACKING request
    that does not follow a new connection. *)
Definition tracking (x : list Z) : bool := match x with _ :: _ :: _ :: _ :: a :: b :: _ => (a =? 0) && (b =? 33) | _ => false end.
Definition starts (o : op) (l : list out) : bool :=
  match o, l with
  | Tick _, Look _ :: _ => true
  | (Tick _ | Io _ _), Sent x :: _ => tracking x
  | _, _ => false
  end.
Definition count_starts (log : list (op * list out)) : Z := Z.of_nat (List.length (filter (fun x => starts (fst x) (snd x)) log)).

(** ** An honest round *)
(** A source and the world at the three answers about it. *)
Record exch := mkX { x_src : source; x_a : env; x_b : env; x_c : env }.
Definition ans (cmd seq : Z) (d : list Z) (e : env) : op := Io (Octets (enc_answer (mkAns cmd (answer_type cmd) 0 seq d))) e.
(** The answers about the sources [l]; [seq] is the number of the request made last. *)
Fixpoint answers (seq : Z) (l : list exch) : list op :=
  match l with
  | [] => []
  | x :: r => ans SOURCE_DATA seq (enc_source (x_src x)) (x_a x) :: ans SOURCE_STATS (e_rand (x_a x)) (enc_stats (x_src x)) (x_b x)
              :: ans NTP_DATA (e_rand (x_b x)) (enc_ntpdata (x_src x)) (x_c x) :: answers (e_rand (x_c x)) r
  end.
(** The questions about the sources [l], the first of which is source [i] and already asked for;
    [fin] is what the end brings. *)
Fixpoint questions (i : Z) (l : list exch) (fin : list out) : list (list out) :=
  match l with
  | [] => []
  | x :: r => [Sent (enc_request SOURCE_STATS (e_rand (x_a x)) (enc32 i))] :: [Sent (enc_request NTP_DATA (e_rand (x_b x)) (enc_addr (o_addr (x_src x))))]
              :: (match r with [] => fin | _ => [Sent (enc_request SOURCE_DATA (e_rand (x_c x)) (enc32 (i + 1)))] end) :: questions (i + 1) r fin
  end.
(** Sending works, the times are representable. *)
Definition env_ok (e : env) : Prop := e_send e = 0 /\ normal (e_now e) /\ sec (e_now e) + 2 < 2^63 /\ 0 <= e_rand e < 2^32.
(** An NTP source with an address. *)
Definition ntp_source (s : source) : Prop := source_ok s /\ o_mode s <> 2 /\ o_addr s <> Unspec.
Definition exch_ok (x : exch) : Prop := ntp_source (x_src x) /\ env_ok (x_a x) /\ env_ok (x_b x) /\ env_ok (x_c x).
(** Packets from a server have come. *)
Definition server (s : source) : bool := o_pmode s =? 4.
(** The instance is not made the determinant of clustering. *)
Definition undetermined (o : op) : Prop := match o with Control mask flags _ => Z.testbit (Z.land flags mask) DETERMINANT = false | _ => True end.
(** The last request. *)
Fixpoint last_sent (x : option (list Z)) (l : list out) : option (list Z) :=
  match l with [] => x | Sent y :: r => last_sent (Some y) r | _ :: r => last_sent x r end.
(** Octets that answer a request with an answer of a type: command, type, status and sequence number. *)
Definition replies (req l : list Z) (ty : Z) : Prop :=
  firstn 2 (skipn 4 l) = firstn 2 (skipn 4 req) /\ firstn 2 (skipn 6 l) = enc16 ty /\ firstn 2 (skipn 8 l) = [0; 0] /\ firstn 4 (skipn 16 l) = firstn 4 (skipn 8 req).
(** Octets that do not answer the request [cmd]. *)
Definition stranger (cmd : Z) (req l : list Z) : Prop :=
  Forall octet l /\ (20 <= List.length l)%nat /\ ~ replies req l (answer_type cmd) /\ (cmd = SOURCE_DATA -> ~ replies req l (answer_type SOURCE_STATS)).
(** The last look among outputs; what chronyd was last found to do with the clock, by an event that polls. *)
Fixpoint saw_end (saw : option bool) (l : list out) : option bool := match l with [] => saw | Look p :: r => saw_end (Some (controls p)) r | _ :: r => saw_end saw r end.
Definition seen_cc (d : bool) (o : list out) : bool := match saw_end None o with Some b => b | None => d end.
Definition polled (d : bool) (x : op * list out) : bool := match fst x with Tick _ | Io _ _ => seen_cc d (snd x) | _ => d end.
(** Clock control operations that fit the wish. *)
Definition only (b : bool) (o : out) : bool := match o with Did ENABLE _ => b | Did DISABLE _ => negb b | Did SAVE _ => true | Did _ _ => false | _ => true end.
(** The wish that chronyd controls the clock: the last control message about it. *)
Definition wish (w : bool) (o : op) : bool := match o with Control mask flags _ => if Z.testbit mask CLOCK_CTRL then Z.testbit flags CLOCK_CTRL else w | _ => w end.
Definition wishes (w : bool) (l : list op) : bool := fold_left wish l w.
(** Only the timer, and sending works. *)
Definition quiet_tick (o : op) : Prop := match o with Tick e => e_send e = 0 | _ => False end.
Definition is_sent (o : out) : bool := match o with Sent _ => true | _ => false end.
