(** Model of the handling of management messages: ptpd2/protocol.c (handleManagement), ptpd2/management.c and the parts of ptpd2/dep/msg.c and dep/net.c they use.

    The receive buffer holds the datagram followed by whatever an earlier, longer datagram left there ([stale]).  [None] is undefined behaviour: use of a freed or NULL pointer, a
    second free of the same memory, an uninitialised value, or an access beyond an array.  Memory allocation succeeds.  The *_display calls (debug output) are not modelled, nor
    are the side effects of toState (a failed send changes the state only). *)
Require Import ZArith List Bool.
Import ListNotations.
From Verif Require Import Base TimeSpec MsgSpec MsgModel MgtSpec.
Open Scope Z_scope.

(** The message buffers: PACKET_SIZE, dep/constants_dep.h:105. *)
Definition PACKET_SIZE : nat := 500.

(** acceptManagementMessage, protocol.c:2887-2900. *)
Definition acceptManagementMessage (this target : port_id) : bool :=
  ((pid_clock target =? pid_clock this) || (pid_clock target =? 18446744073709551615)) && ((pid_port target =? pid_port this) || (pid_port target =? 65535)).

(** What a handler leaves in the outgoing message: an array of fields (with its table), texts and addresses (written one after another and padded), or nothing. *)
Inductive odata := NoData | Table (fs : list field) (vs : list Z) | Pieces (l : list octets).
(** The result of a handler: the error (0 for none), the action of the outgoing message, its data, the settings. *)
Record hres := mkH { rc : Z; out_action : Z; out_data : odata; new : settings }.
Definition ok (a : Z) (x : odata) (s : settings) : option hres := Some (mkH 0 a x s).
(** An error leaves the default action (managementInitOutgoingMsg, management.c:146). *)
Definition err (e : Z) (s : settings) : option hres := Some (mkH e 0 NoData s).

(** Updates of single settings; all but the last three also set record_update. *)
Definition set_slave_only v s := mkS v (s_prio1 s) (s_prio2 s) (s_domain s) (s_log_announce s) (s_timeout s) (s_log_sync s) (s_mechanism s) (s_log_pdelay s) (s_accuracy s) (s_utc s) (s_utcv s) (s_li59 s) (s_li61 s) (s_ttra s) (s_ftra s) (s_state s) true (s_servo_interval s) (s_desc s).
Definition set_prio1 v s := mkS (s_slave_only s) v (s_prio2 s) (s_domain s) (s_log_announce s) (s_timeout s) (s_log_sync s) (s_mechanism s) (s_log_pdelay s) (s_accuracy s) (s_utc s) (s_utcv s) (s_li59 s) (s_li61 s) (s_ttra s) (s_ftra s) (s_state s) true (s_servo_interval s) (s_desc s).
Definition set_prio2 v s := mkS (s_slave_only s) (s_prio1 s) v (s_domain s) (s_log_announce s) (s_timeout s) (s_log_sync s) (s_mechanism s) (s_log_pdelay s) (s_accuracy s) (s_utc s) (s_utcv s) (s_li59 s) (s_li61 s) (s_ttra s) (s_ftra s) (s_state s) true (s_servo_interval s) (s_desc s).
Definition set_domain v s := mkS (s_slave_only s) (s_prio1 s) (s_prio2 s) v (s_log_announce s) (s_timeout s) (s_log_sync s) (s_mechanism s) (s_log_pdelay s) (s_accuracy s) (s_utc s) (s_utcv s) (s_li59 s) (s_li61 s) (s_ttra s) (s_ftra s) (s_state s) true (s_servo_interval s) (s_desc s).
Definition set_log_announce v s := mkS (s_slave_only s) (s_prio1 s) (s_prio2 s) (s_domain s) v (s_timeout s) (s_log_sync s) (s_mechanism s) (s_log_pdelay s) (s_accuracy s) (s_utc s) (s_utcv s) (s_li59 s) (s_li61 s) (s_ttra s) (s_ftra s) (s_state s) true (s_servo_interval s) (s_desc s).
Definition set_timeout v s := mkS (s_slave_only s) (s_prio1 s) (s_prio2 s) (s_domain s) (s_log_announce s) v (s_log_sync s) (s_mechanism s) (s_log_pdelay s) (s_accuracy s) (s_utc s) (s_utcv s) (s_li59 s) (s_li61 s) (s_ttra s) (s_ftra s) (s_state s) true (s_servo_interval s) (s_desc s).
(** With the servo's interval, management.c:796-799. *)
Definition set_log_sync v s := mkS (s_slave_only s) (s_prio1 s) (s_prio2 s) (s_domain s) (s_log_announce s) (s_timeout s) v (s_mechanism s) (s_log_pdelay s) (s_accuracy s) (s_utc s) (s_utcv s) (s_li59 s) (s_li61 s) (s_ttra s) (s_ftra s) (s_state s) true v (s_desc s).
Definition set_mechanism v s := mkS (s_slave_only s) (s_prio1 s) (s_prio2 s) (s_domain s) (s_log_announce s) (s_timeout s) (s_log_sync s) v (s_log_pdelay s) (s_accuracy s) (s_utc s) (s_utcv s) (s_li59 s) (s_li61 s) (s_ttra s) (s_ftra s) (s_state s) true (s_servo_interval s) (s_desc s).
Definition set_log_pdelay v s := mkS (s_slave_only s) (s_prio1 s) (s_prio2 s) (s_domain s) (s_log_announce s) (s_timeout s) (s_log_sync s) (s_mechanism s) v (s_accuracy s) (s_utc s) (s_utcv s) (s_li59 s) (s_li61 s) (s_ttra s) (s_ftra s) (s_state s) true (s_servo_interval s) (s_desc s).
Definition set_accuracy v s := mkS (s_slave_only s) (s_prio1 s) (s_prio2 s) (s_domain s) (s_log_announce s) (s_timeout s) (s_log_sync s) (s_mechanism s) (s_log_pdelay s) v (s_utc s) (s_utcv s) (s_li59 s) (s_li61 s) (s_ttra s) (s_ftra s) (s_state s) true (s_servo_interval s) (s_desc s).
Definition set_utc off v l59 l61 s := mkS (s_slave_only s) (s_prio1 s) (s_prio2 s) (s_domain s) (s_log_announce s) (s_timeout s) (s_log_sync s) (s_mechanism s) (s_log_pdelay s) (s_accuracy s) off v l59 l61 (s_ttra s) (s_ftra s) (s_state s) true (s_servo_interval s) (s_desc s).
Definition set_trace t fq s := mkS (s_slave_only s) (s_prio1 s) (s_prio2 s) (s_domain s) (s_log_announce s) (s_timeout s) (s_log_sync s) (s_mechanism s) (s_log_pdelay s) (s_accuracy s) (s_utc s) (s_utcv s) (s_li59 s) (s_li61 s) t fq (s_state s) true (s_servo_interval s) (s_desc s).
Definition set_state v s := mkS (s_slave_only s) (s_prio1 s) (s_prio2 s) (s_domain s) (s_log_announce s) (s_timeout s) (s_log_sync s) (s_mechanism s) (s_log_pdelay s) (s_accuracy s) (s_utc s) (s_utcv s) (s_li59 s) (s_li61 s) (s_ttra s) (s_ftra s) v (s_update s) (s_servo_interval s) (s_desc s).
Definition set_desc v s := mkS (s_slave_only s) (s_prio1 s) (s_prio2 s) (s_domain s) (s_log_announce s) (s_timeout s) (s_log_sync s) (s_mechanism s) (s_log_pdelay s) (s_accuracy s) (s_utc s) (s_utcv s) (s_li59 s) (s_li61 s) (s_ttra s) (s_ftra s) (s_state s) (s_update s) (s_servo_interval s) v.

(** strlen and memcpy: the string in an array, [None] if it is not terminated. *)
Fixpoint cstring (l : octets) : option octets := match l with [] => None | x :: l' => if x =? 0 then Some [] else do t <- cstring l'; Some (x :: t) end.
(** IS_SET, SET_FIELD, ptpd.h:84-88. *)
Definition IS_SET (v n : Z) : bool := Z.land v (Z.shiftl 1 n) =? Z.shiftl 1 n.
Definition SET_FIELD (b : bool) (n : Z) : Z := Z.shiftl (if b then 1 else 0) n.

(** packPTPText, msg.c:1354-1366: lengthField is a UInteger8 (management.c:219, 226, 233, 306). *)
Definition ptptext (t : octets) : octets := u8 (Z.of_nat (length t)) :: firstn (Z.to_nat (u8 (Z.of_nat (length t)))) t.

(** *** Handlers; [act] is the action, [vs] the fields unpacked from the request (none for GET). *)
(** handleMMNullManagement, management.c:156-184. *)
Definition handleMMNullManagement (act : Z) (s : settings) : option hres :=
  if (act =? 0) || (act =? 1) then ok 2 NoData s else if act =? 3 then ok 4 NoData s else err 6 s.
(** The handlers that know GET only. *)
Definition only_get (act : Z) (s : settings) (x : option odata) : option hres := if act =? 0 then do x <- x; ok 2 x s else err 6 s.
(** handleMMClockDescription, management.c:187-260; packMMClockDescription's order of fields. *)
Definition handleMMClockDescription (f : facts) (act : Z) (s : settings) : option hres :=
  only_get act s (do t <- cstring (s_desc s);
    Some (Pieces [[0x80]; [0]; ptptext [73; 69; 69; 69; 32; 56; 48; 50; 46; 51]; bytes 2 6 ++ f_mac f; bytes 2 (f_protocol f) ++ bytes 2 (Z.of_nat (length (f_address f))) ++ f_address f;
                  [0x00]; [0x0F]; [0x53]; [0]; ptptext (f_product f); ptptext (f_revision f); ptptext t; f_profile f])).
(** handleMMSlaveOnly, management.c:263-300. *)
Definition handleMMSlaveOnly (act : Z) (vs : list Z) (s : settings) : option hres :=
  let get s := ok 2 (Table d_slave_only [if s_slave_only s then 1 else 0; 0]) s in
  if act =? 1 then match vs with so :: _ => get (set_slave_only (negb (so =? 0)) s) | _ => None end
  else if act =? 0 then get s else err 6 s.
(** handleMMUserDescription, management.c:303-350: [text] is lengthField and the text, NULL ([None]) if it could not be unpacked. *)
Definition handleMMUserDescription (act : Z) (txt : Z * option octets) (s : settings) : option hres :=
  let get s := do t <- cstring (s_desc s); ok 2 (Pieces [ptptext t]) s in
  if act =? 1 then
    if fst txt <=? 128 then
      do t <- (if fst txt =? 0 then Some [] else snd txt);
      get (set_desc (firstn 129 (t ++ repeat 0 129)) s)
    else err 3 s
  else if act =? 0 then get s else err 6 s.
(** handleMMInitialize, management.c:353-389. *)
Definition handleMMInitialize (act : Z) (vs : list Z) (s : settings) : option hres :=
  if act =? 3 then match vs with [key] => ok 4 (Table d_initialize [key]) (if key =? 0 then set_state 1 s else s) | _ => None end
  else err 6 s.
(** handleMMDefaultDataSet, management.c:392-432: twoStepFlag, 0 or 1, is shifted right. *)
Definition handleMMDefaultDataSet (f : facts) (act : Z) (s : settings) : option hres :=
  only_get act s (Some (Table d_default_ds [Z.lor (if s_slave_only s then 2 else 0) (Z.shiftr (if f_two_step f then 1 else 0) 1); 0; f_ports f; s_prio1 s; f_class f; s_accuracy s; f_variance f;
                                            s_prio2 s; f_clock f; s_domain s; 0])).
(** handleMMCurrentDataSet, populateCurrentDataSet, management.c:434-472; the conversions from the servo's floating point values are not modelled. *)
Definition handleMMCurrentDataSet (f : facts) (act : Z) (s : settings) : option hres := only_get act s (Some (Table d_current_ds [f_steps f; f_offset f; f_delay f])).
(** handleMMParentDataSet, populateParentDataSet, management.c:474-523. *)
Definition handleMMParentDataSet (f : facts) (act : Z) (s : settings) : option hres :=
  only_get act s (Some (Table d_parent_ds [pid_clock (f_parent f); pid_port (f_parent f); (if f_pstats f then 1 else 0); 0; f_pvariance f; f_prate f; f_gm_prio1 f; f_gm_class f; f_gm_accuracy f;
                                           f_gm_variance f; f_gm_prio2 f; f_gm f])).
(** handleMMTimePropertiesDataSet, populateTimePropertiesDataSet, management.c:525-567. *)
Definition handleMMTimePropertiesDataSet (f : facts) (act : Z) (s : settings) : option hres :=
  only_get act s (Some (Table d_time_props [s_utc s;
    Z.lor (Z.lor (Z.lor (Z.lor (Z.lor (SET_FIELD (s_ftra s) 5) (SET_FIELD (s_ttra s) 4)) (SET_FIELD (f_ptpt f) 3)) (SET_FIELD (s_utcv s) 2)) (SET_FIELD (s_li59 s) 1)) (SET_FIELD (s_li61 s) 0); f_source f])).
(** handleMMPortDataSet, management.c:570-611. *)
Definition handleMMPortDataSet (f : facts) (act : Z) (s : settings) : option hres :=
  only_get act s (Some (Table d_port_ds [pid_clock (f_id f); pid_port (f_id f); s_state s; f_log_dreq f; f_delay f; s_log_announce s; s_timeout s; s_log_sync s; s_mechanism s; s_log_pdelay s; 0; 2])).
(** The handlers that store one field and answer with the current value. *)
Definition set_or_get (act : Z) (vs : list Z) (set : Z -> settings -> settings) (get : settings -> Z) (tbl : list field) (s : settings) : option hres :=
  if act =? 1 then match vs with v :: _ => let s := set v s in ok 2 (Table tbl [get s; 0]) s | _ => None end
  else if act =? 0 then ok 2 (Table tbl [get s; 0]) s else err 6 s.
(** handleMMPriority1, Priority2, Domain, LogAnnounceInterval, AnnounceReceiptTimeout, LogSyncInterval: management.c:614-814. *)
Definition handleMMPriority1 act vs s := set_or_get act vs set_prio1 s_prio1 d_octet_reserved s.
Definition handleMMPriority2 act vs s := set_or_get act vs set_prio2 s_prio2 d_octet_reserved s.
Definition handleMMDomain act vs s := set_or_get act vs set_domain s_domain d_octet_reserved s.
Definition handleMMLogAnnounceInterval act vs s := set_or_get act vs set_log_announce s_log_announce d_signed_reserved s.
Definition handleMMAnnounceReceiptTimeout act vs s := set_or_get act vs set_timeout s_timeout d_octet_reserved s.
Definition handleMMLogSyncInterval act vs s := set_or_get act vs set_log_sync s_log_sync d_signed_reserved s.
(** handleMMVersionNumber, management.c:817-846. *)
Definition handleMMVersionNumber (act : Z) (s : settings) : option hres := only_get act s (Some (Table d_version [0; 2; 0])).
(** handleMMEnablePort, management.c:849-873; handleMMDisablePort, 876-898. *)
Definition handleMMEnablePort (act : Z) (s : settings) : option hres := if act =? 3 then ok 4 NoData (if s_state s =? 3 then set_state 1 s else s) else err 6 s.
Definition handleMMDisablePort (act : Z) (s : settings) : option hres := if act =? 3 then ok 4 NoData (set_state 3 s) else err 6 s.
(** ptpClock->slaveOnly || ptpClock->portState == PTPD_SLAVE. *)
Definition is_follower (s : settings) : bool := s_slave_only s || (s_state s =? 9).
(** handleMMTime, management.c:901-949, with fromInternalTime, arith.c:65-89: negative seconds leave the timestamp uninitialised. *)
Definition handleMMTime (o : options) (now : ts) (act : Z) (s : settings) : option hres :=
  let get :=
    do t <- chk_s64 (if negb (s_state s =? 6) && (s_utcv s || o_respect o) then sec now - s_utc s else sec now);
    if t <? 0 then None else ok 2 (Table d_time [t; nsec now]) s in
  if act =? 1 then if is_follower s then err 6 s else get else if act =? 0 then get else err 6 s.
(** handleMMClockAccuracy, management.c:952-990. *)
Definition handleMMClockAccuracy (act : Z) (vs : list Z) (s : settings) : option hres :=
  if (act =? 1) && is_follower s then err 6 s else set_or_get act vs set_accuracy s_accuracy d_octet_reserved s.
(** handleMMUtcProperties, management.c:993-1040. *)
Definition handleMMUtcProperties (act : Z) (vs : list Z) (s : settings) : option hres :=
  let get s := ok 2 (Table d_utc_props [s_utc s; Z.lor (Z.lor (SET_FIELD (s_utcv s) 2) (SET_FIELD (s_li59 s) 1)) (SET_FIELD (s_li61 s) 0); 0]) s in
  if act =? 1 then
    if is_follower s then err 6 s
    else match vs with [off; fl; _] => get (set_utc off (IS_SET fl 2) (IS_SET fl 1) (IS_SET fl 0) s) | _ => None end
  else if act =? 0 then get s else err 6 s.
(** handleMMTraceabilityProperties, management.c:1043-1085. *)
Definition handleMMTraceabilityProperties (act : Z) (vs : list Z) (s : settings) : option hres :=
  let get s := ok 2 (Table d_octet_reserved [Z.lor (SET_FIELD (s_ftra s) 5) (SET_FIELD (s_ttra s) 4); 0]) s in
  if act =? 1 then
    if is_follower s then err 6 s
    else match vs with fl :: _ => get (set_trace (IS_SET fl 4) (IS_SET fl 5) s) | _ => None end
  else if act =? 0 then get s else err 6 s.
(** handleMMDelayMechanism, LogMinPdelayReqInterval: management.c:1088-1158. *)
Definition handleMMDelayMechanism act vs s := set_or_get act vs set_mechanism s_mechanism d_octet_reserved s.
Definition handleMMLogMinPdelayReqInterval act vs s := set_or_get act vs set_log_pdelay s_log_pdelay d_signed_reserved s.

(** *** Unpacking the request's data, from offset 54. *)
(** unpackMMSlaveOnly, msg.c:321-340: the Boolean is loaded as four octets of the buffer, of which one was checked. *)
Definition unpackMMSlaveOnly (b ibuf : octets) : result (list Z) :=
  check 54 1 b (do so <- ld_le 4 ibuf 54; check 55 1 b (do r <- ld 1 b 55; Some (Some [so; r]))).
(** unpackMMUserDescription, msg.c:402-420, and unpackPTPText, msg.c:1333-1351, whose failure is not noticed. *)
Definition unpackMMUserDescription (b : octets) : result (Z * option octets) :=
  check 54 1 b (do n <- ld 1 b 54; if Nat.ltb (length b - 54) (1 + Z.to_nat n) then Some (Some (n, None)) else do t <- slice (Z.to_nat n) b 55; Some (Some (n, Some t))).
(** unpackMMClockDescription, msg.c:357-376: whether all fields are there.  A piece has a length field of [w] octets preceded by [k] others. *)
Definition skip_piece (k w : nat) (b : octets) (off : nat) : result nat := check off (k + w) b (do n <- ld w b (off + k); Some (Some (off + k + w + Z.to_nat n)%nat)).
Definition unpackMMClockDescription (b : octets) : result unit :=
  check 54 1 b (check 55 1 b (
  rbind (skip_piece 0 1 b 56) (fun off => rbind (skip_piece 0 2 b off) (fun off => rbind (skip_piece 2 2 b off) (fun off => check off 4 b (
  rbind (skip_piece 0 1 b (off + 4)) (fun off => rbind (skip_piece 0 1 b off) (fun off => rbind (skip_piece 0 1 b off) (fun off => check off 6 b (Some (Some tt))))))))))).

(** The switch of handleManagement, protocol.c:2987-3260.  Data is unpacked unless the action is GET.  If that fails, the memory for it has been freed but its pointer is kept
    (e.g. msg.c:336), and freeManagementTLV (protocol.c:3292, msg.c:1497-1513) frees it again: undefined. *)
Definition with_data {A : Type} (act : Z) (dflt : A) (unpack : result A) (k : A -> option hres) : option hres :=
  if act =? 0 then k dflt else match unpack with Some (Some v) => k v | _ => None end.
Definition dispatch (o : options) (f : facts) (now : ts) (b ibuf : octets) (id act : Z) (s : settings) : option hres :=
  let table fs k := with_data act [] (unpack_fields fs b 54) k in
  if id =? 0 then handleMMNullManagement act s
  else if id =? 0x0001 then with_data act tt (unpackMMClockDescription b) (fun _ => handleMMClockDescription f act s)
  else if id =? 0x0002 then with_data act (0, None) (unpackMMUserDescription b) (fun t => handleMMUserDescription act t s)
  else if id =? 0x0005 then table d_initialize (fun vs => handleMMInitialize act vs s)
  else if id =? 0x2000 then table d_default_ds (fun _ => handleMMDefaultDataSet f act s)
  else if id =? 0x2001 then table d_current_ds (fun _ => handleMMCurrentDataSet f act s)
  else if id =? 0x2002 then table d_parent_ds (fun _ => handleMMParentDataSet f act s)
  else if id =? 0x2003 then table d_time_props (fun _ => handleMMTimePropertiesDataSet f act s)
  else if id =? 0x2004 then table d_port_ds (fun _ => handleMMPortDataSet f act s)
  else if id =? 0x2005 then table d_octet_reserved (fun vs => handleMMPriority1 act vs s)
  else if id =? 0x2006 then table d_octet_reserved (fun vs => handleMMPriority2 act vs s)
  else if id =? 0x2007 then table d_octet_reserved (fun vs => handleMMDomain act vs s)
  else if id =? 0x2008 then with_data act [] (unpackMMSlaveOnly b ibuf) (fun vs => handleMMSlaveOnly act vs s)
  else if id =? 0x2009 then table d_signed_reserved (fun vs => handleMMLogAnnounceInterval act vs s)
  else if id =? 0x200A then table d_octet_reserved (fun vs => handleMMAnnounceReceiptTimeout act vs s)
  else if id =? 0x200B then table d_signed_reserved (fun vs => handleMMLogSyncInterval act vs s)
  else if id =? 0x200C then table d_version (fun _ => handleMMVersionNumber act s)
  else if id =? 0x200D then handleMMEnablePort act s
  else if id =? 0x200E then handleMMDisablePort act s
  else if id =? 0x200F then table d_time (fun _ => handleMMTime o now act s)
  else if id =? 0x2010 then table d_octet_reserved (fun vs => handleMMClockAccuracy act vs s)
  else if id =? 0x2011 then table d_utc_props (fun vs => handleMMUtcProperties act vs s)
  else if id =? 0x2012 then table d_octet_reserved (fun vs => handleMMTraceabilityProperties act vs s)
  else if id =? 0x6000 then table d_octet_reserved (fun vs => handleMMDelayMechanism act vs s)
  else if id =? 0x6001 then table d_signed_reserved (fun vs => handleMMLogMinPdelayReqInterval act vs s)
  else if existsb (Z.eqb id) [0x0003; 0x0004; 0x0006; 0x0007; 0x2013; 0x2014; 0x2015; 0x2016; 0x2017; 0x2018; 0x2019; 0x201A; 0x201B; 0x201C; 0x201D; 0x201E; 0x201F; 0x2020; 0x2021; 0x4000;
                              0x4001; 0x4002] then err 6 s
  else err 2 s.

(** *** Sending. *)
(** STANDARD_PACKING_OPERATION for pieces, and PAD_TO_EVEN_LENGTH, msg.c:229-251 (packMMClockDescription, packMMUserDescription). *)
Fixpoint pack_pieces (l : list octets) (b : octets) (off : nat) : result (octets * nat) :=
  match l with
  | [] => if Nat.even off then Some (Some (b, off)) else check off 1 b (do b <- st off [0] b; Some (Some (b, off + 1)%nat))
  | x :: l => check off (length x) b (do b <- st off x b; pack_pieces l b (off + length x))
  end.
(** packMM*: the buffer and the length of the data. *)
Definition pack_data (x : odata) (b : octets) : option (octets * Z) :=
  match x with
  | NoData => Some (b, 0)
  | Table fs vs => match pack_fields fs vs b 54 with Some (Some b) => Some (b, Z.of_nat (list_sum (map fst fs))) | _ => None end
  | Pieces l => match pack_pieces l b 54 with Some (Some (b, off)) => Some (b, Z.of_nat off - 54) | _ => None end
  end.
(** The outgoing header and fixed part, managementInitOutgoingMsg, management.c:110-153; [m] are the fields of the request. *)
Record outgoing := mkOut { g_domain : Z; g_seq : Z; g_target : port_id; g_hops : Z }.
Definition managementInitOutgoingMsg (m : list Z) (s : settings) : outgoing :=
  mkOut (s_domain s) (nth 13 m 0) (mkPort (nth 11 m 0) (nth 12 m 0)) (u8 (nth 18 m 0 - nth 19 m 0)).
(** packMsgManagement, msg.c:1515-1529. *)
Definition packMsgManagement (f : facts) (g : outgoing) (len act : Z) (b : octets) : option octets :=
  match pack_fields d_management [0; 13; f_minor f; 2; len; g_domain g; 0; 0; 0; 0; 0; pid_clock (f_id f); pid_port (f_id f); g_seq g; 4; 127;
                                  pid_clock (g_target g); pid_port (g_target g); g_hops g; g_hops g; 0; act; 0] b 0 with
  | Some (Some b) => Some b | _ => None end.
(** issueManagementRespOrAck, issueManagementErrorStatus, protocol.c:3935-3987, msgPackManagementTLV, msgPackManagementErrorStatusTLV, msg.c:2076-2235: the octets to be sent. *)
Definition build (f : facts) (g : outgoing) (type id act : Z) (x : odata) (obuf : octets) : option octets :=
  do r <- pack_data x obuf;
  let '(b, n) := r in
  let lengthField := u16 (2 + n) in
  do b <- match pack_fields d_mgmt_tlv [type; lengthField; id] b 48 with Some (Some b) => Some b | _ => None end;
  let len := u16 (48 + 6 - 2 + lengthField) in
  do b <- packMsgManagement f g len act b;
  slice (Z.to_nat len) b 0.
(** netSendGeneral, dep/net.c:2438-2497: where to, and the unicast flag; [None] is EDESTADDRREQ. *)
Definition where_to (o : options) (alt : option Z) : option destination :=
  match o_unicast o, alt with
  | Some a, _ => Some (Address a)
  | None, Some a => Some (Address a)
  | None, None => if o_multicast o then Some Multicast else None
  end.
Definition flag_unicast (x : destination) (b : octets) : option octets := match x with Address _ => or_byte 6 true 4 b | Multicast => Some b end.
(** handleMMErrorStatus's data: handleErrorManagementMessage, management.c:1168-1200, and packMMErrorStatus, msg.c:1136-1149. *)
Definition complaint_data (id : Z) : odata := Pieces [bytes 2 id; bytes 4 0; [0]].

(** Counters (protocol.c:2922, 2929, 2937, 2948, 2951, 2958, 2965, 2970, 470, 3958). *)
Record counters := mkC { c_discarded : Z; c_format : Z; c_received : Z; c_sent : Z; c_send_errors : Z }.
Inductive count := Discarded | FormatError | Received | SentOne | SendError.
Definition bump (k : count) (c : counters) : counters :=
  match k with
  | Discarded => mkC (u64 (c_discarded c + 1)) (c_format c) (c_received c) (c_sent c) (c_send_errors c)
  | FormatError => mkC (c_discarded c) (u64 (c_format c + 1)) (c_received c) (c_sent c) (c_send_errors c)
  | Received => mkC (c_discarded c) (c_format c) (u64 (c_received c + 1)) (c_sent c) (c_send_errors c)
  | SentOne => mkC (c_discarded c) (c_format c) (c_received c) (u64 (c_sent c + 1)) (c_send_errors c)
  | SendError => mkC (c_discarded c) (c_format c) (c_received c) (c_sent c) (u64 (c_send_errors c + 1))
  end.

Record outcome := mkR { r_settings : settings; r_counters : counters; r_sent : list (destination * octets) }.

(** unpackMMErrorStatus, msg.c:1109-1131, as far as success goes: two numbers and a text's length. *)
Definition unpackMMErrorStatus (b : octets) : result unit :=
  check 54 2 b (check 56 4 b (check 60 1 b (Some (Some tt)))).

(** handleManagement, protocol.c:2902-3295.  [b] are the octets received and claimed, [ibuf] the whole buffer, [m] and [t] the message and its TLV as unpacked, [from] the sender's address,
    [obuf] what the send buffer holds, [sendable] whether the system takes the message. *)
Definition handleManagement (o : options) (f : facts) (now : ts) (from : Z) (obuf : octets) (sendable : bool)
    (b ibuf : octets) (m : list Z) (t : tlv_ptr) (s : settings) (c : counters) : option outcome :=
  if negb (o_enabled o) then match t with Freed => None | _ => Some (mkR s (bump Discarded c) []) end
  else match t with
  | NoTlv => Some (mkR s (bump FormatError c) [])
  | Freed => None
  | Tlv type _ id =>
      if negb (acceptManagementMessage (f_id f) (mkPort (nth 16 m 0) (nth 17 m 0))) then Some (mkR s (bump Discarded c) [])
      else if type =? 2 then
        match unpackMMErrorStatus b with
        | None => None | Some None => Some (mkR s (bump FormatError c) []) | Some (Some _) => Some (mkR s (bump Received c) [])
        end
      else if negb (type =? 1) then Some (mkR s (bump Discarded c) [])
      else
        let act := nth 21 m 0 in
        if (act =? 2) || (act =? 4) then Some (mkR s (bump Discarded c) [])
        else
          let c := bump Received c in
          let g := managementInitOutgoingMsg m s in
          do r <- (if negb (o_set o) && ((act =? 1) || (act =? 3)) then err 6 s else dispatch o f now b ibuf id act s);
          let alt := if Z.land (nth 7 m 0) 4 =? 4 then Some from else None in
          do msg <-
            (if rc r =? 0 then
               if (out_action r =? 2) || (out_action r =? 4) then build f g 1 id (out_action r) (out_data r) obuf else None
             else
               let a := if (act =? 0) || (act =? 1) then 2 else if act =? 3 then 4 else 0 in
               build f g 2 (u16 (rc r)) a (complaint_data id) obuf);
          match where_to o alt, sendable with
          | Some to, true => do msg <- flag_unicast to msg; Some (mkR (new r) (bump SentOne c) [(to, msg)])
          | _, _ => Some (mkR (set_state (if o_tolerant o then 4 else 2) (new r)) (bump SendError c) [])
          end
  end.

(** msgUnpackManagement and handleManagement on a datagram [d] of a management message, in a buffer whose further octets are [stale]; processPortMessage, protocol.c:1088-1186, as far as it
    concerns the octets used.  [Some None]: not a message (format error). *)
Definition receive (o : options) (f : facts) (now : ts) (from : Z) (obuf : octets) (sendable : bool) (d stale : octets) (s : settings) (c : counters) : result outcome :=
  let b := firstn (usable d) d in
  rbind (unpack_management b) (fun r =>
    do x <- handleManagement o f now from obuf sendable b (d ++ stale) (fst r) (snd r) s c; Some (Some x)).

(** A history of management messages: each with the time, the sender, the answer buffer's former contents, whether sending works, and the input buffer; processPortMessage is called for one after the other,
    protocol.c:1088-1186.  A message with a format error changes nothing here (its counter is not modelled). *)
Record request := mkQ { e_now : ts; e_from : Z; e_obuf : octets; e_sendable : bool; e_msg : octets; e_stale : octets }.
Fixpoint serve (o : options) (f : facts) (l : list request) (s : settings) (c : counters) : option (settings * counters) :=
  match l with
  | [] => Some (s, c)
  | q :: l => match receive o f (e_now q) (e_from q) (e_obuf q) (e_sendable q) (e_msg q) (e_stale q) s c with
              | Some (Some r) => serve o f l (r_settings r) (r_counters r)
              | Some None => serve o f l s c
              | None => None
              end
  end.
