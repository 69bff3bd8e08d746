(** Model of the packing and unpacking of PTP messages: ptpd2/dep/msg.c.

    A buffer is the list of its octets; [length] (for received messages) or [space] (for messages
    being built) is the length of the list, so a load or store beyond it is the outcome [None].
    The outcome [Some None] is UNPACK_ERROR or PACK_ERROR.  flip16/32/64 (dep/datatypes_dep.h) is
    the host's byte swap on the little-endian hosts the code supports: loading or storing through
    it is loading or storing big-endian.  The *_display calls (debug output) are not modelled. *)
Require Import ZArith List Bool.
Import ListNotations.
From Verif Require Import Base TimeSpec MsgSpec.
Open Scope Z_scope.

(** Big-endian and little-endian value of octets. *)
Definition be (l : octets) : Z := fold_left (fun a x => a * 256 + x) l 0.
Fixpoint le (l : octets) : Z := match l with [] => 0 | x :: l' => x + 256 * le l' end.

Definition slice (n : nat) (b : octets) (off : nat) : option octets :=
  if Nat.leb (off + n) (length b) then Some (firstn n (skipn off b)) else None.
Definition ld (n : nat) (b : octets) (off : nat) : option Z := do l <- slice n b off; Some (be l).
Definition ld_le (n : nat) (b : octets) (off : nat) : option Z := do l <- slice n b off; Some (le l).
Definition st (off : nat) (bs : octets) (b : octets) : option octets :=
  if Nat.leb (off + length bs) (length b)
  then Some (firstn off b ++ bs ++ skipn (off + length bs) b) else None.
Definition memset0 (off n : nat) (b : octets) : option octets := st off (repeat 0 n) b.

(** A result: [None] undefined, [Some None] error. *)
Definition result (A : Type) := option (option A).
Definition rbind {A B} (m : result A) (f : A -> result B) : result B :=
  match m with Some (Some a) => f a | Some None => Some None | None => None end.

(** CHECK_INPUT_LENGTH, CHECK_OUTPUT_LENGTH, msg.c:185-214: error if the field reaches beyond. *)
Definition check (off size : nat) (b : octets) {A} (k : result A) : result A :=
  if Nat.ltb (length b) (off + size) then Some None else k.

(** unpackUInteger48, msg.c:253-267. *)
Definition ld48 (b : octets) (off : nat) : option Z :=
  do msb <- ld 2 b off; do lsb <- ld 4 b (off + 2); Some (Z.lor (Z.shiftl msb 32) lsb).
(** packUInteger48, msg.c:269-284. *)
Definition st48 (off : nat) (v : Z) (b : octets) : option octets :=
  do b <- st off (bytes 2 (Z.shiftr v 32)) b; st (off + 2) (bytes 4 v) b.
(** unpackUInteger24, msg.c:287-302. *)
Definition ld24 (b : octets) (off : nat) : option Z :=
  do msb <- ld 1 b off; do lsb <- ld 2 b (off + 1); Some (Z.lor (Z.shiftl msb 16) lsb).

(** msgUnpackHeader, msg.c:1548-1576.  Flag octets are plain C chars; they are only tested bit by
    bit, so they are octets here. *)
Definition unpack_header (b : octets) : result header :=
  check 0 34 b (
    do b0 <- ld 1 b 0; do b1 <- ld 1 b 1;
    do len <- ld 2 b 2; do dom <- ld 1 b 4; do msdo <- ld 1 b 5;
    do f0 <- ld 1 b 6; do f1 <- ld 1 b 7;
    do corr <- ld 8 b 8;
    do mts <- ld_le 4 b 16;   (* msg.c:1565: no flip32 *)
    do clk <- ld 8 b 20; do prt <- ld 2 b 28; do seq <- ld 2 b 30;
    do ctl <- ld 1 b 32; do log <- ld 1 b 33;
    Some (Some (mkHeader (Z.shiftr b0 4) (Z.land b0 15) (Z.shiftr b1 4) (Z.land b1 15)
                         len dom msdo f0 f1 (s64 corr) mts clk prt seq ctl (s8 log)))).

(** msgPackHeader, msg.c:1579-1614. *)
Definition pack_header (p : port) (type : Z) (b : octets) : result octets :=
  check 0 34 b (
    do b <- st 0 [u8 (Z.lor 0 type)] b;
    do b <- st 1 [u8 (Z.lor (Z.shiftl (p_minor p) 4) 2)] b;
    do b <- st 2 [0] b; do b <- st 3 [0] b;
    do b <- st 4 [u8 (p_domain p)] b;
    do b <- st 5 [0] b;
    do b <- st 6 [if ((type =? 0) || (type =? 3)) && p_two_step p then 2 else 0] b;
    do b <- st 7 [0] b;
    do b <- memset0 8 12 b;
    do b <- st 20 (bytes 8 (pid_clock (p_id p))) b;
    do b <- st 28 (bytes 2 (pid_port (p_id p))) b;
    do b <- st 30 [0] b; do b <- st 31 [0] b;
    do b <- st 32 [0] b; do b <- st 33 [127] b;
    Some (Some b)).

(** The start of every msgPack* function: the header, then the check of the body's space, which
    asserts that packing the header succeeded (msg.c:207). *)
Definition pack_start (p : port) (type : Z) (body : nat) (b : octets)
  (k : octets -> result octets) : result octets :=
  match pack_header p type b with
  | Some (Some b) => check 34 body b (k b)
  | _ => None
  end.

(** The header changes common to the msgPack* functions: length, sequence number, control,
    interval. *)
Definition st_fixed (len seq ctl log : Z) (b : octets) : option octets :=
  do b <- st 2 (bytes 2 len) b;
  do b <- st 30 (bytes 2 seq) b;
  do b <- st 32 [ctl] b;
  st 33 [u8 log] b.

(** Zero timestamp at offset 34, msg.c:1652-1654. *)
Definition st_zero_stamp (b : octets) : option octets :=
  do b <- st 34 [0; 0] b; do b <- st 36 [0; 0; 0; 0] b; st 40 [0; 0; 0; 0] b.

(** msgPackSync, msg.c:1635-1658. *)
Definition pack_sync (p : port) (b : octets) : result octets :=
  pack_start p 0 10 b (fun b =>
    do b <- st_fixed 44 (p_seq_sync p) 0 (p_log_sync p) b;
    do b <- memset0 8 8 b;
    do b <- st_zero_stamp b; Some (Some b)).

(** msgPackDelayReq, msg.c:1851-1874. *)
Definition pack_delay_req (p : port) (b : octets) : result octets :=
  pack_start p 1 10 b (fun b =>
    do b <- st_fixed 44 (p_seq_dreq p) 1 127 b;
    do b <- memset0 8 8 b;
    do b <- st_zero_stamp b; Some (Some b)).

(** msgPackPDelayReq, msg.c:1821-1849: the check is for 10 octets of body, 20 are written. *)
Definition pack_pdelay_req (p : port) (b : octets) : result octets :=
  pack_start p 2 10 b (fun b =>
    do b <- st_fixed 54 (p_seq_pdreq p) 5 127 b;
    do b <- memset0 8 8 b;
    do b <- st_zero_stamp b;
    do b <- memset0 44 10 b; Some (Some b)).

(** Or-ing [v] into an octet. *)
Definition or_byte (off : nat) (c : bool) (v : Z) (b : octets) : option octets :=
  if c then do x <- ld 1 b off; st off [u8 (Z.lor x v)] b else Some b.

(** msgPackAnnounce, msg.c:1675-1720: octet 46 is not written. *)
Definition pack_announce (p : port) (b : octets) : result octets :=
  let a := p_announce p in
  pack_start p 11 30 b (fun b =>
    do b <- st_fixed 64 (p_seq_announce p) 5 (p_log_announce p) b;
    do b <- memset0 34 10 b;
    do b <- st 44 (bytes 2 (a_utc a)) b;
    do b <- st 47 [u8 (a_prio1 a)] b;
    do b <- st 48 [u8 (a_class a)] b;
    do b <- st 49 [u8 (a_accuracy a)] b;
    do b <- st 50 (bytes 2 (a_variance a)) b;
    do b <- st 52 [u8 (a_prio2 a)] b;
    do b <- st 53 (bytes 8 (a_gm a)) b;
    do b <- st 61 (bytes 2 (a_steps a)) b;
    do b <- st 63 [u8 (a_source a)] b;
    do b <- or_byte 7 (p_leap59 p) 2 b;
    do b <- or_byte 7 (p_leap61 p) 1 b;
    do b <- or_byte 7 (p_utc_valid p) 4 b;
    do b <- or_byte 7 (p_ptp_scale p) 8 b;
    do b <- or_byte 7 (p_time_trace p) 16 b;
    do b <- or_byte 7 (p_freq_trace p) 32 b;
    Some (Some b)).

(** fromInternalTime, arith.c:63-87, and msgSetPreciseTimestamp, msg.c:1748-1777.  With negative
    seconds the timestamp and the correction are left uninitialised and then used: [None]. *)
Definition set_precise (t : ts) (subtract : bool) (extra : Z) (b : octets) : result octets :=
  if Nat.ltb (length b) 44 then Some None
  else if sec t <? 0 then None
  else
    let secs := u64 (sec t) in
    let ns := u32 (nsec t) in
    let c := Z.shiftr (frac t) 16 in
    do c <- (if subtract then chk_s64 (- c) else Some c);
    do c <- chk_s64 (c + extra);
    do b <- st48 34 secs b;
    do b <- st 40 (bytes 4 ns) b;
    do b <- st 8 (bytes 8 c) b;
    Some (Some b).

(** msgPackFollowUp, msg.c:1781-1805. *)
Definition pack_follow_up (p : port) (t : ts) (seq : Z) (b : octets) : result octets :=
  pack_start p 8 10 b (fun b =>
    do b <- st_fixed 44 seq 2 (p_log_sync p) b;
    set_precise t false 0 b).

Definition st_port (off : nat) (q : port_id) (b : octets) : option octets :=
  do b <- st off (bytes 8 (pid_clock q)) b; st (off + 8) (bytes 2 (pid_port q)) b.
Definition source (h : header) : port_id := mkPort (clockId h) (portNo h).

(** msgPackDelayResp, msg.c:1877-1914; [h] is the request's header. *)
Definition pack_delay_resp (p : port) (h : header) (t : ts) (b : octets) : result octets :=
  pack_start p 9 20 b (fun b =>
    do b <- st 2 (bytes 2 54) b;
    do b <- st 4 [u8 (domain h)] b;
    do b <- memset0 8 8 b;
    do b <- st 30 (bytes 2 (seqId h)) b;
    do b <- st 32 [3] b;
    do b <- st 33 [u8 (p_log_dreq p)] b;
    rbind (set_precise t true (correction h) b) (fun b =>
    do b <- st_port 44 (source h) b; Some (Some b))).

(** msgPackPDelayResp, msg.c:1921-1956. *)
Definition pack_pdelay_resp (p : port) (h : header) (t : ts) (b : octets) : result octets :=
  pack_start p 3 20 b (fun b =>
    do b <- st 2 (bytes 2 54) b;
    do b <- st 4 [u8 (domain h)] b;
    do b <- memset0 8 8 b;
    do b <- st 30 (bytes 2 (seqId h)) b;
    do b <- st 32 [5] b;
    do b <- st 33 [127] b;
    rbind (set_precise t true 0 b) (fun b =>
    do b <- st_port 44 (source h) b; Some (Some b))).

(** msgPackPDelayRespFollowUp, msg.c:2022-2056. *)
Definition pack_pdelay_resp_follow_up (p : port) (h : header) (t : ts) (seq : Z) (b : octets)
  : result octets :=
  pack_start p 10 20 b (fun b =>
    do b <- st_fixed 54 seq 5 127 b;
    rbind (set_precise t false (correction h) b) (fun b =>
    do b <- st_port 44 (source h) b; Some (Some b))).

(** msgUpdateHeaderSequenceId, msg.c:1617-1621; msgUpdateHeaderFlags, msg.c:1625-1631. *)
Definition update_seq (seq : Z) (b : octets) : option octets := st 30 (bytes 2 seq) b.
Definition update_flags (mask value : Z) (b : octets) : option octets :=
  do x <- ld 1 b 6; st 6 [u8 (Z.lor (Z.land x mask) value)] b.

Definition ld_stamp (b : octets) (off : nat) : option stamp :=
  do s <- ld48 b off; do n <- ld 4 b (off + 6); Some (mkStamp s n).
Definition ld_port (b : octets) (off : nat) : option port_id :=
  do c <- ld 8 b off; do n <- ld 2 b (off + 8); Some (mkPort c n).

(** msgUnpackSync, DelayReq, PDelayReq, FollowUp: msg.c:1660-1670, 1959-1969, 1973-1983,
    1807-1817. *)
Definition unpack_stamp_body (b : octets) : result stamp :=
  check 34 10 b (do t <- ld_stamp b 34; Some (Some t)).
(** msgUnpackDelayResp, PDelayResp, PDelayRespFollowUp: msg.c:1987-2001, 2005-2019, 2059-2073. *)
Definition unpack_resp_body (b : octets) : result (stamp * port_id) :=
  check 34 20 b (do t <- ld_stamp b 34; do q <- ld_port b 44; Some (Some (t, q))).
(** msgUnpackAnnounce, msg.c:1723-1747. *)
Definition unpack_announce (b : octets) : result announce :=
  check 34 30 b (
    do t <- ld_stamp b 34; do utc <- ld 2 b 44; do p1 <- ld 1 b 47; do cls <- ld 1 b 48;
    do acc <- ld 1 b 49; do var <- ld 2 b 50; do p2 <- ld 1 b 52; do gm <- ld 8 b 53;
    do steps <- ld 2 b 61; do src <- ld 1 b 63;
    Some (Some (mkAnnounce t (s16 utc) p1 cls acc var p2 gm steps src))).

(** *** Messages described by field tables: the X-macros over def/*.def.

    A field has the size the table gives, used for the bounds check and to advance the offset,
    and a type whose pack/unpack function decides which octets are touched (PACK_SIMPLE,
    PACK_ENDIAN, PACK_LOWER_AND_UPPER, msg.c:84-133).  Compound types (PortIdentity, Timestamp,
    ClockQuality, MsgHeader; def/derivedData/*.def) are expanded in place: their own checks repeat
    the outer one. *)
Definition sgn (n : nat) (v : Z) : Z :=
  let m := 256 ^ Z.of_nat n in (v + m / 2) mod m - m / 2.

Definition ld_field (t : fty) (b : octets) (off : nat) : option Z :=
  match t with
  | U n => ld n b off
  | I n => do v <- ld n b off; Some (sgn n v)
  | Hi => do v <- ld 1 b off; Some (Z.land (Z.shiftr v 4) 15)
  | Lo => do v <- ld 1 b off; Some (Z.land v 15)
  | Bool4 => ld_le 4 b off
  end.

Definition st_field (t : fty) (v : Z) (b : octets) (off : nat) : option octets :=
  match t with
  | U n | I n => st off (bytes n v) b
  | Hi => do x <- ld 1 b off; st off [u8 (Z.lor (Z.land x 15) (Z.shiftl v 4))] b
  | Lo => do x <- ld 1 b off; st off [u8 (Z.lor (Z.land x 240) v)] b
  | Bool4 => st off (rev (bytes 4 v)) b
  end.

(** STANDARD_UNPACKING_OPERATION, msg.c:219-223. *)
Fixpoint unpack_fields (fs : list field) (b : octets) (off : nat) : result (list Z) :=
  match fs with
  | [] => Some (Some [])
  | (size, t) :: fs' =>
      check off size b (
        do v <- ld_field t b off;
        rbind (unpack_fields fs' b (off + size)) (fun vs => Some (Some (v :: vs))))
  end.

(** STANDARD_PACKING_OPERATION, msg.c:229-233. *)
Fixpoint pack_fields (fs : list field) (vs : list Z) (b : octets) (off : nat) : result octets :=
  match fs, vs with
  | [], _ => Some (Some b)
  | _, [] => None
  | (size, t) :: fs', v :: vs' =>
      check off size b (
        do b <- st_field t v b off;
        pack_fields fs' vs' b (off + size))
  end.

Definition f (n : nat) : field := (n, U n).
Definition g (n : nat) : field := (n, I n).
Definition f_port := [f 8; f 2].
Definition f_stamp := [f 6; f 4].
Definition f_quality := [f 1; f 1; f 2].

(** def/message/header.def:7-22 *)
Definition d_header : list field :=
  [(0%nat, Hi); (1%nat, Lo); (0%nat, Hi); (1%nat, Lo); f 2; f 1; f 1; f 1; f 1; g 8; f 4]
  ++ f_port ++ [f 2; f 1; g 1].
(** def/message/management.def, signaling.def *)
Definition d_management : list field :=
  d_header ++ f_port ++ [f 1; f 1; (0%nat, Hi); (1%nat, Lo); f 1].
Definition d_signaling : list field := d_header ++ f_port.
(** def/managementTLV/managementTLV.def (at offset 48) *)
Definition d_mgmt_tlv : list field := [f 2; f 2; f 2].
(** def/managementTLV/*.def (at offset 54), except those with texts *)
Definition d_initialize := [f 2].
Definition d_default_ds := [f 1; f 1; f 2; f 1] ++ f_quality ++ [f 1; f 8; f 1; f 1].
Definition d_current_ds := [f 2; g 8; g 8].
Definition d_parent_ds := f_port ++ [(1%nat, Bool4); f 1; f 2; g 4; f 1] ++ f_quality ++ [f 1; f 8].
Definition d_time_props := [g 2; f 1; f 1].
Definition d_port_ds := f_port ++ [f 1; g 1; g 8; g 1; f 1; g 1; f 1; g 1; (0%nat, Hi); (1%nat, Lo)].
Definition d_octet_reserved := [f 1; f 1].     (* priority1/2, domain, timeout, accuracy, ... *)
Definition d_signed_reserved := [g 1; f 1].    (* the logarithmic intervals *)
Definition d_slave_only := [(1%nat, Bool4); f 1].
Definition d_version := [(0%nat, Hi); (1%nat, Lo); f 1].
Definition d_time := f_stamp.
Definition d_utc_props := [g 2; f 1; f 1].
(** def/optional/*.def, def/sfc/slave_status.def *)
Definition d_port_caps := [(1%nat, Lo); (1%nat, Lo)].
Definition d_timing_pre := f_port.
Definition d_timing_el := [f 2] ++ f_stamp ++ [g 8; g 4] ++ f_stamp.
Definition d_computed_pre := f_port ++ [f 1; f 1].
Definition d_computed_el := [f 2; g 8; g 8; g 4].
Definition d_txts_pre := f_port ++ [(1%nat, Lo); (0%nat, Hi); f 1].
Definition d_txts_el := [f 2] ++ f_stamp.
Definition d_slave_status := [f 8] ++ f_stamp ++ [f 2; f 2; f 2; f 2; f 1].

(** unpackMsgHeader, msg.c:1428-1441 (used for management and signaling messages). *)
Definition unpack_msg_header (b : octets) : result (list Z) := unpack_fields d_header b 0.

(** unpackManagementTLV, msg.c:1464-1482, and msgUnpackManagement, msg.c:2294-2319: if the TLV
    cannot be unpacked it is freed, but the pointer is kept and the result is that of the fixed
    part.  Result: the fixed part's fields, the TLV. *)
Definition unpack_management (b : octets) : result (list Z * tlv_ptr) :=
  rbind (check 0 34 b (unpack_fields d_management b 0)) (fun m =>
    let len := nth 4 m 0 in
    if 48 <? len then
      match unpack_fields d_mgmt_tlv b 48 with
      | None => None
      | Some (Some [t; l; i]) => Some (Some (m, Tlv t l i))
      | Some (Some _) => None
      | Some None => Some (Some (m, Freed))
      end
    else Some (Some (m, NoTlv))).

(** msgUnpackSignaling, msg.c:2322-2327. *)
Definition unpack_signaling (b : octets) : result (list Z) :=
  check 0 34 b (unpack_fields d_signaling b 0).

(** unpackPortMessage, protocol.c:1186-1255: the decoded body and the number of octets after the
    header it took; unknown message types are errors. *)
Definition unpack_body (type : Z) (b : octets) : result body :=
  if type =? 11 then rbind (unpack_announce b) (fun a => Some (Some (BAnnounce a)))
  else if (type =? 0) || (type =? 8) || (type =? 1) || (type =? 2) then
    rbind (unpack_stamp_body b) (fun t => Some (Some (BStamp t)))
  else if (type =? 9) || (type =? 3) || (type =? 10) then
    rbind (unpack_resp_body b) (fun r => Some (Some (BResp (fst r) (snd r))))
  else if type =? 13 then
    rbind (unpack_management b) (fun r => Some (Some (BMgmt (fst r) (snd r))))
  else if type =? 12 then rbind (unpack_signaling b) (fun m => Some (Some (BSignaling m)))
  else Some None.

(** processMessage, protocol.c:965-985, and processPortMessage, protocol.c:1088-1125, as far as
    decoding goes: shorter than a header is an error; the body is decoded from the octets that
    were both received and claimed by the header. *)
Definition decode (datagram : octets) : result (header * body) :=
  if Nat.ltb (length datagram) 34 then Some None
  else
    rbind (unpack_header datagram) (fun h =>
    let safe := if mlength h <? Z.of_nat (length datagram) then Z.to_nat (mlength h)
                else length datagram in
    rbind (unpack_body (mtype h) (firstn safe datagram)) (fun m => Some (Some (h, m)))).
