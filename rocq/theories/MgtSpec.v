(** Vocabulary for C60: management messages.

    A request is a datagram, a list of octets; its fields are where tables 54, 55 and following of IEEE 1588 put them. *)
Require Import ZArith List Bool.
Import ListNotations.
From Verif Require Import TimeSpec MsgSpec.
Open Scope Z_scope.

Definition octet (i : nat) (d : octets) : Z := nth i d 0.
(** The big-endian number of [n] octets at [off], and the same as a signed number. *)
Definition num (off n : nat) (d : octets) : Z := fold_left (fun a x => a * 256 + x) (part off n d) 0.
Definition snum (off n : nat) (d : octets) : Z := let m := 256 ^ Z.of_nat n in if num off n d <? m / 2 then num off n d else num off n d - m.
Definition bit_set (n : Z) (v : Z) : bool := Z.odd (v / 2 ^ n).

Definition q_unicast (d : octets) : bool := bit_set 2 (octet 6 d).
Definition q_source (d : octets) : port_id := mkPort (num 20 8 d) (num 28 2 d).
Definition q_seq (d : octets) : Z := num 30 2 d.
Definition q_target (d : octets) : port_id := mkPort (num 34 8 d) (num 42 2 d).
Definition q_start_hops (d : octets) : Z := octet 44 d.
Definition q_hops (d : octets) : Z := octet 45 d.
Definition q_action (d : octets) : Z := octet 46 d mod 16.
Definition q_has_tlv (d : octets) : bool := 48 <? claimed_length d.
Definition q_tlv_type (d : octets) : Z := num 48 2 d.
Definition q_id (d : octets) : Z := num 52 2 d.
Definition GET : Z := 0.  Definition SET : Z := 1.  Definition RESPONSE : Z := 2.  Definition COMMAND : Z := 3.  Definition ACKNOWLEDGE : Z := 4.

(** Management ids (table 59). *)
Definition ID_NULL := 0.               Definition ID_CLOCK_DESCRIPTION := 1.   Definition ID_USER_DESCRIPTION := 2.
Definition ID_INITIALIZE := 5.         Definition ID_DEFAULT_DS := 0x2000.     Definition ID_CURRENT_DS := 0x2001.
Definition ID_PARENT_DS := 0x2002.     Definition ID_TIME_PROPERTIES := 0x2003. Definition ID_PORT_DS := 0x2004.
Definition ID_PRIORITY1 := 0x2005.     Definition ID_PRIORITY2 := 0x2006.      Definition ID_DOMAIN := 0x2007.
Definition ID_SLAVE_ONLY := 0x2008.    Definition ID_LOG_ANNOUNCE := 0x2009.   Definition ID_TIMEOUT := 0x200A.
Definition ID_LOG_SYNC := 0x200B.      Definition ID_VERSION := 0x200C.        Definition ID_ENABLE_PORT := 0x200D.
Definition ID_DISABLE_PORT := 0x200E.  Definition ID_TIME := 0x200F.           Definition ID_ACCURACY := 0x2010.
Definition ID_UTC := 0x2011.           Definition ID_TRACEABILITY := 0x2012.   Definition ID_DELAY_MECHANISM := 0x6000.
Definition ID_LOG_PDELAY := 0x6001.

(** What management messages may change. *)
Record settings := mkS {
  s_slave_only : bool; s_prio1 : Z; s_prio2 : Z; s_domain : Z; s_log_announce : Z; s_timeout : Z; s_log_sync : Z; s_mechanism : Z; s_log_pdelay : Z;
  s_accuracy : Z; s_utc : Z; s_utcv : bool; s_li59 : bool; s_li61 : bool; s_ttra : bool; s_ftra : bool;
  s_state : Z;                 (* state of the port *)
  s_update : bool;             (* the record of the data sets is to be refreshed *)
  s_servo_interval : Z;        (* logarithm of the interval the servo was told *)
  s_desc : octets              (* the user's description: an array holding a terminated string *)
}.
(** What they may only report. *)
Record facts := mkF {
  f_id : port_id; f_minor : Z; f_clock : Z; f_ports : Z; f_class : Z; f_variance : Z; f_two_step : bool;
  f_steps : Z; f_offset : Z; f_delay : Z;                       (* scaled nanoseconds *)
  f_parent : port_id; f_pstats : bool; f_pvariance : Z; f_prate : Z; f_gm_prio1 : Z; f_gm_class : Z; f_gm_accuracy : Z; f_gm_variance : Z; f_gm_prio2 : Z; f_gm : Z;
  f_log_dreq : Z; f_ptpt : bool; f_source : Z;
  f_mac : octets; f_protocol : Z; f_address : octets; f_product : octets; f_revision : octets; f_profile : octets
}.
(** Options: management on, changes permitted, offset to be respected, tolerant of a missing interface; the address, if any, to which everything is sent; is there a multicast address. *)
Record options := mkO { o_enabled : bool; o_set : bool; o_respect : bool; o_tolerant : bool; o_unicast : option Z; o_multicast : bool }.

(** ** When a request is answered. *)
Definition port_eqb (a b : port_id) : bool := (pid_clock a =? pid_clock b) && (pid_port a =? pid_port b).
Definition addressed (me : port_id) (d : octets) : bool :=
  ((pid_clock (q_target d) =? pid_clock me) || (pid_clock (q_target d) =? 2 ^ 64 - 1)) && ((pid_port (q_target d) =? pid_port me) || (pid_port (q_target d) =? 65535)).
Definition answered (o : options) (me : port_id) (d : octets) : bool :=
  o_enabled o && q_has_tlv d && addressed me d && (q_tlv_type d =? 1) && negb (q_action d =? RESPONSE) && negb (q_action d =? ACKNOWLEDGE).

(** ** What it changes. *)
Inductive setting := SlaveOnly | Priority1 | Priority2 | Domain | LogAnnounce | Timeout | LogSync | Mechanism | LogPdelay | Accuracy | UtcOffset | UtcValid | Leap59 | Leap61
                   | TimeTraceable | FrequencyTraceable | State | Update | ServoInterval.
Definition b2z (b : bool) : Z := if b then 1 else 0.
Definition value (x : setting) (s : settings) : Z :=
  match x with
  | SlaveOnly => b2z (s_slave_only s) | Priority1 => s_prio1 s | Priority2 => s_prio2 s | Domain => s_domain s | LogAnnounce => s_log_announce s | Timeout => s_timeout s
  | LogSync => s_log_sync s | Mechanism => s_mechanism s | LogPdelay => s_log_pdelay s | Accuracy => s_accuracy s | UtcOffset => s_utc s | UtcValid => b2z (s_utcv s)
  | Leap59 => b2z (s_li59 s) | Leap61 => b2z (s_li61 s) | TimeTraceable => b2z (s_ttra s) | FrequencyTraceable => b2z (s_ftra s)
  | State => s_state s | Update => b2z (s_update s) | ServoInterval => s_servo_interval s
  end.
Definition INITIALIZING : Z := 1.  Definition FAULTY : Z := 2.  Definition DISABLED : Z := 3.  Definition LISTENING : Z := 4.  Definition MASTER : Z := 6.  Definition SLAVE : Z := 9.
(** A port that follows another's time does not let its own time properties be changed. *)
Definition follower (s : settings) : bool := s_slave_only s || (s_state s =? SLAVE).

(** The value a permitted request asks a setting to have, if it does. *)
Definition asks (s : settings) (d : octets) (x : setting) : option Z :=
  let when (c : bool) (v : Z) := if c then Some v else None in
  let set (id : Z) := (q_action d =? SET) && (q_id d =? id) in
  let own (id : Z) := set id && negb (follower s) in
  let flag (id : Z) (off : nat) (n : Z) := when (own id) (b2z (bit_set n (octet off d))) in
  match x with
  | SlaveOnly => when (set ID_SLAVE_ONLY) (b2z (negb (octet 54 d =? 0)))
  | Priority1 => when (set ID_PRIORITY1) (octet 54 d)
  | Priority2 => when (set ID_PRIORITY2) (octet 54 d)
  | Domain => when (set ID_DOMAIN) (octet 54 d)
  | LogAnnounce => when (set ID_LOG_ANNOUNCE) (snum 54 1 d)
  | Timeout => when (set ID_TIMEOUT) (octet 54 d)
  | LogSync | ServoInterval => when (set ID_LOG_SYNC) (snum 54 1 d)
  | Mechanism => when (set ID_DELAY_MECHANISM) (octet 54 d)
  | LogPdelay => when (set ID_LOG_PDELAY) (snum 54 1 d)
  | Accuracy => when (own ID_ACCURACY) (octet 54 d)
  | UtcOffset => when (own ID_UTC) (snum 54 2 d)
  | UtcValid => flag ID_UTC 56%nat 2
  | Leap59 => flag ID_UTC 56%nat 1
  | Leap61 => flag ID_UTC 56%nat 0
  | TimeTraceable => flag ID_TRACEABILITY 54%nat 4
  | FrequencyTraceable => flag ID_TRACEABILITY 54%nat 5
  | State =>
      if negb (q_action d =? COMMAND) then None
      else if q_id d =? ID_INITIALIZE then when (num 54 2 d =? 0) INITIALIZING
      else if q_id d =? ID_ENABLE_PORT then when (s_state s =? DISABLED) INITIALIZING
      else when (q_id d =? ID_DISABLE_PORT) DISABLED
  | Update =>
      when ((q_action d =? SET) &&
            (existsb (Z.eqb (q_id d)) [ID_SLAVE_ONLY; ID_PRIORITY1; ID_PRIORITY2; ID_DOMAIN; ID_LOG_ANNOUNCE; ID_TIMEOUT; ID_LOG_SYNC; ID_DELAY_MECHANISM; ID_LOG_PDELAY]
             || existsb (Z.eqb (q_id d)) [ID_ACCURACY; ID_UTC; ID_TRACEABILITY] && negb (follower s))) 1
  end.
(** The string in an array: up to the first NUL. *)
Fixpoint text (l : octets) : octets := match l with [] => [] | x :: l' => if x =? 0 then [] else x :: text l' end.
(** The text a request carries: a length and so many octets. *)
Definition q_text (d : octets) : octets := part 55 (Z.to_nat (octet 54 d)) d.
Definition asks_description (d : octets) : option octets :=
  if (q_action d =? SET) && (q_id d =? ID_USER_DESCRIPTION) && (octet 54 d <=? 128) then Some (q_text d) else None.

(** ** What is answered. *)
Definition readable : list Z := [ID_NULL; ID_CLOCK_DESCRIPTION; ID_USER_DESCRIPTION; ID_DEFAULT_DS; ID_CURRENT_DS; ID_PARENT_DS; ID_TIME_PROPERTIES; ID_PORT_DS; ID_PRIORITY1; ID_PRIORITY2;
  ID_DOMAIN; ID_SLAVE_ONLY; ID_LOG_ANNOUNCE; ID_TIMEOUT; ID_LOG_SYNC; ID_VERSION; ID_TIME; ID_ACCURACY; ID_UTC; ID_TRACEABILITY; ID_DELAY_MECHANISM; ID_LOG_PDELAY].
Definition writable : list Z := [ID_NULL; ID_USER_DESCRIPTION; ID_PRIORITY1; ID_PRIORITY2; ID_DOMAIN; ID_SLAVE_ONLY; ID_LOG_ANNOUNCE; ID_TIMEOUT; ID_LOG_SYNC; ID_TIME; ID_ACCURACY; ID_UTC;
  ID_TRACEABILITY; ID_DELAY_MECHANISM; ID_LOG_PDELAY].
Definition commandable : list Z := [ID_NULL; ID_INITIALIZE; ID_ENABLE_PORT; ID_DISABLE_PORT].
(** Ids of the standard that are not implemented. *)
Definition unimplemented : list Z := [3; 4; 6; 7; 0x2013; 0x2014; 0x2015; 0x2016; 0x2017; 0x2018; 0x2019; 0x201A; 0x201B; 0x201C; 0x201D; 0x201E; 0x201F; 0x2020; 0x2021; 0x4000; 0x4001; 0x4002].
Definition mem (x : Z) (l : list Z) : bool := existsb (Z.eqb x) l.
Definition NO_SUCH_ID : Z := 2.  Definition WRONG_LENGTH : Z := 3.  Definition NOT_SUPPORTED : Z := 6.
(** The error, 0 for none. *)
Definition verdict (o : options) (s : settings) (d : octets) : Z :=
  let a := q_action d in let id := q_id d in
  if negb (o_set o) && ((a =? SET) || (a =? COMMAND)) then NOT_SUPPORTED
  else if negb (mem id readable || mem id writable || mem id commandable || mem id unimplemented) then NO_SUCH_ID
  else if negb ((a =? GET) && mem id readable || (a =? SET) && mem id writable || (a =? COMMAND) && mem id commandable) then NOT_SUPPORTED
  else if (a =? SET) && mem id [ID_TIME; ID_ACCURACY; ID_UTC; ID_TRACEABILITY] && follower s then NOT_SUPPORTED
  else if (a =? SET) && (id =? ID_USER_DESCRIPTION) && (128 <? octet 54 d) then WRONG_LENGTH
  else 0.

Definition counted (t : octets) : octets := Z.of_nat (length t) :: t.
Definition even (t : octets) : octets := if Nat.even (length t) then t else t ++ [0].
Definition shown_time (o : options) (s : settings) (now : ts) : Z := if negb (s_state s =? MASTER) && (s_utcv s || o_respect o) then sec now - s_utc s else sec now.
Definition flags3 (s : settings) : Z := bit (s_li61 s) 0 + bit (s_li59 s) 1 + bit (s_utcv s) 2.
Definition flags2 (s : settings) : Z := bit (s_ttra s) 4 + bit (s_ftra s) 5.
(** The data a successful answer about [id] carries, for the settings of the moment. *)
Definition contents (o : options) (f : facts) (s : settings) (now : ts) (d : octets) : octets :=
  let id := q_id d in
  if id =? ID_CLOCK_DESCRIPTION then even ([0x80; 0] ++ counted [73; 69; 69; 69; 32; 56; 48; 50; 46; 51] ++ wire [2 @@ Z.of_nat (length (f_mac f))] ++ f_mac f
      ++ wire [2 @@ f_protocol f; 2 @@ Z.of_nat (length (f_address f))] ++ f_address f ++ [0x00; 0x0F; 0x53; 0] ++ counted (f_product f) ++ counted (f_revision f) ++ counted (text (s_desc s)) ++ f_profile f)
  else if id =? ID_USER_DESCRIPTION then even (counted (text (s_desc s)))
  else wire (
    if id =? ID_INITIALIZE then [2 @@ num 54 2 d]
    else if id =? ID_DEFAULT_DS then [1 @@ bit (s_slave_only s) 1 + bit (f_two_step f) 0; 1 @@ 0; 2 @@ f_ports f; 1 @@ s_prio1 s; 1 @@ f_class f; 1 @@ s_accuracy s; 2 @@ f_variance f; 1 @@ s_prio2 s;
                                      8 @@ f_clock f; 1 @@ s_domain s; 1 @@ 0]
    else if id =? ID_CURRENT_DS then [2 @@ f_steps f; 8 @@ f_offset f; 8 @@ f_delay f]
    else if id =? ID_PARENT_DS then port_fields (f_parent f) ++ [1 @@ b2z (f_pstats f); 1 @@ 0; 2 @@ f_pvariance f; 4 @@ f_prate f; 1 @@ f_gm_prio1 f; 1 @@ f_gm_class f; 1 @@ f_gm_accuracy f;
                                      2 @@ f_gm_variance f; 1 @@ f_gm_prio2 f; 8 @@ f_gm f]
    else if id =? ID_TIME_PROPERTIES then [2 @@ s_utc s; 1 @@ flags3 s + bit (f_ptpt f) 3 + flags2 s; 1 @@ f_source f]
    else if id =? ID_PORT_DS then port_fields (f_id f) ++ [1 @@ s_state s; 1 @@ f_log_dreq f; 8 @@ f_delay f; 1 @@ s_log_announce s; 1 @@ s_timeout s; 1 @@ s_log_sync s; 1 @@ s_mechanism s;
                                      1 @@ s_log_pdelay s; 1 @@ 2]
    else if id =? ID_PRIORITY1 then [1 @@ s_prio1 s; 1 @@ 0]
    else if id =? ID_PRIORITY2 then [1 @@ s_prio2 s; 1 @@ 0]
    else if id =? ID_DOMAIN then [1 @@ s_domain s; 1 @@ 0]
    else if id =? ID_SLAVE_ONLY then [1 @@ b2z (s_slave_only s); 1 @@ 0]
    else if id =? ID_LOG_ANNOUNCE then [1 @@ s_log_announce s; 1 @@ 0]
    else if id =? ID_TIMEOUT then [1 @@ s_timeout s; 1 @@ 0]
    else if id =? ID_LOG_SYNC then [1 @@ s_log_sync s; 1 @@ 0]
    else if id =? ID_VERSION then [1 @@ 2; 1 @@ 0]
    else if id =? ID_TIME then [6 @@ shown_time o s now; 4 @@ nsec now]
    else if id =? ID_ACCURACY then [1 @@ s_accuracy s; 1 @@ 0]
    else if id =? ID_UTC then [2 @@ s_utc s; 1 @@ flags3 s; 1 @@ 0]
    else if id =? ID_TRACEABILITY then [1 @@ flags2 s; 1 @@ 0]
    else if id =? ID_DELAY_MECHANISM then [1 @@ s_mechanism s; 1 @@ 0]
    else if id =? ID_LOG_PDELAY then [1 @@ s_log_pdelay s; 1 @@ 0]
    else []).
(** What an error says: the id concerned, four reserved octets, no text, padding. *)
Definition complaint (d : octets) : octets := wire [2 @@ q_id d; 4 @@ 0; 1 @@ 0; 1 @@ 0].

(** The answer's octets: own identity as source, the requester as target, the request's number; [dom] is the port's domain. *)
Definition answer (f : facts) (dom : Z) (unicast : bool) (d : octets) (action type id : Z) (data : octets) : octets :=
  let hops := (q_start_hops d - q_hops d) mod 256 in
  wire ([1 @@ 13; 1 @@ 16 * f_minor f + 2; 2 @@ 54 + Z.of_nat (length data); 1 @@ dom; 1 @@ 0; 1 @@ (if unicast then 4 else 0); 1 @@ 0; 8 @@ 0; 4 @@ 0] ++ port_fields (f_id f)
        ++ [2 @@ q_seq d; 1 @@ 4; 1 @@ 127] ++ port_fields (q_source d) ++ [1 @@ hops; 1 @@ hops; 1 @@ action; 1 @@ 0]
        ++ [2 @@ type; 2 @@ 2 + Z.of_nat (length data); 2 @@ id]) ++ data.
(** A request to read or write is answered by a response, a command by an acknowledgement. *)
Definition reply_action (d : octets) : Z := if (q_action d =? GET) || (q_action d =? SET) then RESPONSE else if q_action d =? COMMAND then ACKNOWLEDGE else 0.

Inductive destination := Address (a : Z) | Multicast.
(** To whom: a unicast request's sender, otherwise everyone.  If the port is configured to send everything to one address, there. *)
Definition destined (o : options) (from : Z) (d : octets) : option destination :=
  match o_unicast o with
  | Some a => Some (Address a)
  | None => if q_unicast d then Some (Address from) else if o_multicast o then Some Multicast else None
  end.
Definition is_unicast (x : destination) : bool := match x with Address _ => true | Multicast => false end.

(** Values that fit their fields. *)
Definition settings_fit (s : settings) : Prop :=
  in_u 8 (s_prio1 s) /\ in_u 8 (s_prio2 s) /\ in_u 8 (s_domain s) /\ in_s 8 (s_log_announce s) /\ in_u 8 (s_timeout s) /\ in_s 8 (s_log_sync s) /\ in_u 8 (s_mechanism s) /\
  in_s 8 (s_log_pdelay s) /\ in_u 8 (s_accuracy s) /\ in_s 16 (s_utc s) /\ in_u 8 (s_state s) /\ all_octets (s_desc s) /\ length (s_desc s) = 129%nat /\ In 0 (s_desc s).
Definition facts_fit (f : facts) : Prop :=
  port_fits (f_id f) /\ in_u 4 (f_minor f) /\ in_u 64 (f_clock f) /\ in_u 16 (f_ports f) /\ in_u 8 (f_class f) /\ in_u 16 (f_variance f) /\
  in_u 16 (f_steps f) /\ in_s 64 (f_offset f) /\ in_s 64 (f_delay f) /\ port_fits (f_parent f) /\ in_u 16 (f_pvariance f) /\ in_s 32 (f_prate f) /\
  in_u 8 (f_gm_prio1 f) /\ in_u 8 (f_gm_class f) /\ in_u 8 (f_gm_accuracy f) /\ in_u 16 (f_gm_variance f) /\ in_u 8 (f_gm_prio2 f) /\ in_u 64 (f_gm f) /\
  in_s 8 (f_log_dreq f) /\ in_u 8 (f_source f) /\
  length (f_mac f) = 6%nat /\ in_u 16 (f_protocol f) /\ (length (f_address f) = 4%nat \/ length (f_address f) = 16%nat) /\ (length (f_product f) <= 64)%nat /\ (length (f_revision f) <= 48)%nat /\
  length (f_profile f) = 6%nat.

(** ** Whole messages. *)
(** Octets of data that a request which is not a mere reading has to carry. *)
Definition needed (d : octets) : nat :=
  let id := q_id d in
  if id =? ID_USER_DESCRIPTION then 1 + Z.to_nat (octet 54 d)
  else if id =? ID_DEFAULT_DS then 20 else if id =? ID_CURRENT_DS then 18 else if id =? ID_PARENT_DS then 32 else if id =? ID_PORT_DS then 26
  else if id =? ID_TIME then 10
  else if mem id [ID_TIME_PROPERTIES; ID_UTC] then 4
  else if mem id [ID_INITIALIZE; ID_PRIORITY1; ID_PRIORITY2; ID_DOMAIN; ID_SLAVE_ONLY; ID_LOG_ANNOUNCE; ID_TIMEOUT; ID_LOG_SYNC; ID_VERSION; ID_ACCURACY; ID_TRACEABILITY; ID_DELAY_MECHANISM; ID_LOG_PDELAY]
  then 2 else 0.
(** Is the data of a request looked at? *)
Definition examined (o : options) (me : port_id) (d : octets) : bool :=
  answered o me d && negb (q_action d =? GET) && negb (negb (o_set o) && ((q_action d =? SET) || (q_action d =? COMMAND))).
(** A message has its fixed part, its TLV if it claims to have one, and the data that is looked at (except clock descriptions, which only exist to be read). *)
Definition whole (o : options) (me : port_id) (d : octets) : Prop :=
  (48 <= usable d)%nat /\ (q_has_tlv d = true -> (54 <= usable d)%nat) /\
  (examined o me d = true -> q_id d <> ID_CLOCK_DESCRIPTION /\ (54 + needed d <= usable d)%nat).
(** The octets that follow the one octet of a truth value, which the implementation reads along with it. *)
Definition clean (d stale : octets) : Prop := q_id d = ID_SLAVE_ONLY -> part 55 3 (d ++ stale) = [0; 0; 0].

(** The message that answers [d]; [s] and [s'] are the settings before and after. *)
Definition expected (o : options) (f : facts) (s s' : settings) (now : ts) (to : destination) (d : octets) : octets :=
  let e := verdict o s d in
  if e =? 0 then answer f (s_domain s) (is_unicast to) d (reply_action d) 1 (q_id d) (contents o f s' now d)
  else answer f (s_domain s) (is_unicast to) d (reply_action d) 2 e (complaint d).
(** What a setting has become after a request: as asked, if changes are permitted and the request is for this port; otherwise as before. *)
Definition becomes (o : options) (me : port_id) (s : settings) (d : octets) (x : setting) : Z :=
  match (if answered o me d && o_set o then asks s d x else None) with Some v => v | None => value x s end.
