(** Model of the processing of TLVs: processTLVs (ptpd2/protocol.c), the TLV handlers
    (protocol.c, monitor.c) and the packing and unpacking of TLVs (ptpd2/dep/msg.c).

    [datagram] is the octets received; octets of the input buffer beyond them are left from
    earlier messages, and a load from there is [None], as in MsgModel. *)
Require Import ZArith List Bool.
Import ListNotations.
From Verif Require Import Base MsgSpec MsgModel TlvSpec.
Open Scope Z_scope.

(** *** The handlers' table: protocol.c:142-208.  The name stands for the pair of functions. *)
Record handler := mkHandler {
  h_type : Z; h_org : Z; h_sub : Z; h_name : concern; h_kinds : Z; h_acl : Z }.
Definition acl_timing : Z := 2.       (* constants.h:511-513 *)
Definition acl_monitoring : Z := 4.
Definition tlv_handlers : list handler :=
  [mkHandler 8702 0 0 MonReq (Z.shiftl 1 1) (Z.lor acl_timing acl_monitoring);
   mkHandler 8704 0 0 MtieReq (Z.shiftl 1 1) (Z.lor acl_timing acl_monitoring);
   mkHandler 32776 0 0 Pad (-1) 0;
   mkHandler 32772 0 0 Timing (Z.shiftl 1 12) acl_monitoring;
   mkHandler 32773 0 0 Computed (Z.shiftl 1 12) acl_monitoring;
   mkHandler 32774 0 0 TxStamps (Z.shiftl 1 12) acl_monitoring;
   mkHandler 32768 3923 1 Status (Z.shiftl 1 12) acl_monitoring;
   mkHandler 32770 0 0 Caps (Z.shiftl 1 11) 0].

(** checkACLmask, protocol.c:936-963, over checkACL, 865-932: every list in the mask must pass.
    The lists' answers are in the context; the record of lists already checked (so that each is
    counted once) is not modelled.  The management list is in no handler's mask. *)
Definition check_acl_mask (x : ctx) (mask : Z) : bool :=
  (if Z.land mask acl_timing =? 0 then true else c_timing x) &&
  (if Z.land mask acl_monitoring =? 0 then true else c_monitoring x).

(** The search of the table, protocol.c:1334-1343. *)
Definition find_handler (type : Z) (org : option (Z * Z)) : option handler :=
  find (fun h => (h_type h =? type) &&
                 match org with
                 | None => true
                 | Some (oui, sub) => (oui =? h_org h) && (sub =? h_sub h)
                 end) tlv_handlers.

(** msgUnpackTLVHeader, msg.c:2331-2351, at offset [off]: the type, and the length if unpacking
    succeeds.  With fewer than two octets the type is not written: it is [junk]. *)
Definition unpack_tlv_header (junk : Z) (b : octets) (off : nat) : option (Z * option Z) :=
  if Nat.ltb (length b - off) 2 then Some (junk, None)
  else
    do t <- ld 2 b off;
    if (t =? 0) && Nat.ltb (length b - off) 4 then Some (t, None)
    else if Nat.ltb (length b - off) 4 then Some (t, None)
    else do l <- ld 2 b (off + 2); Some (t, Some l).

(** msgUnpackOrgTLVSubHeader, msg.c:2366-2378. *)
Definition unpack_org_header (b : octets) (off : nat) : result (Z * Z) :=
  if Nat.ltb (length b - off) 6 then Some None
  else do o <- ld24 b off; do s <- ld24 b (off + 3); Some (Some (o, s)).

(** struct tlv_dispatch_info, protocol.c: handler, offset, contents' offset and length. *)
Record dispatch := mkDisp { d_name : concern; d_at : nat; d_value : nat; d_len : Z }.

(** transient_packet_state. *)
Record transient := mkTrans { tr_mtie : bool; tr_caps : option (Z * Z) }.
Definition no_trans : transient := mkTrans false None.

(** The first-pass handlers: mtie_req_tlv_handler, protocol.c:3351-3363, and
    port_communication_capabilities_handler, 3365-3395.  [Some None] is PTPD_TLV_RESULT_ERROR. *)
Definition pass1 (x : ctx) (c : concern) (v : octets) (s : transient) : result transient :=
  match c with
  | MtieReq => Some (Some (mkTrans true (tr_caps s)))
  | Caps =>
      if c_minor x <? 1 then Some (Some s)
      else rbind (unpack_fields d_port_caps v 0) (fun f =>
             match f with
             | [a; b] => Some (Some (mkTrans (tr_mtie s) (Some (a, b))))
             | _ => None
             end)
  | _ => Some (Some s)
  end.

Definition max_tlvs : nat := 32.
Definition org_ext (t : Z) : bool := (t =? 3) || (t =? 16384) || (t =? 32768).

(** What the loop over the TLVs ends with: the TLVs to handle, or the message dropped. *)
Inductive scanned := Scanned (l : list dispatch) (s : transient) | Dropped.

(** The loop of processTLVs, protocol.c:1282-1430.  [b] is the part of the datagram that is
    believed (safe_length octets); [fuel] bounds the number of rounds. *)
Fixpoint scan (fuel : nat) (x : ctx) (type : Z) (junk : Z) (b : octets) (off : nat)
  (acc : list dispatch) (s : transient) {struct fuel} : option scanned :=
  match fuel with
  | O => None
  | S fuel =>
    if Nat.leb (length b) off then Some (Scanned acc s)
    else
      do hd <- unpack_tlv_header junk b off;
      match hd with
      | (t, None) => if t =? 0 then Some (Scanned acc s) else Some Dropped
      | (t, Some len) =>
        let start := off in
        let off := (off + 4)%nat in
        if Z.of_nat (length b - off) <? len then Some Dropped
        else
          do sub <- (if org_ext t then
                       do r <- unpack_org_header b off;
                       Some (match r with None => None | Some o => Some (Some o) end)
                     else Some (Some None));
          match sub with
          | None => Some Dropped
          | Some org =>
            let off := if org_ext t then (off + 6)%nat else off in
            let next := (off + Z.to_nat len)%nat in
            match find_handler t org with
            | None => scan fuel x type junk b next acc s
            | Some h =>
              if check_acl_mask x (h_acl h) && negb (Z.land (Z.shiftl 1 type) (h_kinds h) =? 0) then
                if Nat.eqb (length acc) max_tlvs then Some Dropped
                else
                  let d := mkDisp (h_name h) start off (if org_ext t then u16 (len - 6) else len) in
                  do r <- pass1 x (h_name h) (firstn (Z.to_nat len) (skipn off b)) s;
                  match r with
                  | None => Some Dropped
                  | Some s => scan fuel x type junk b next (acc ++ [d]) s
                  end
              else scan fuel x type junk b next acc s
            end
          end
      end
  end.

(** *** Second pass. *)
(** Unpacking fields from contents of which the TLV claims [len] octets.  When more are claimed
    than are left in the datagram, the length checks pass and the loads go beyond. *)
Definition unpack_within (len : Z) (fs : list field) (v : octets) : result (list Z) :=
  if len <=? Z.of_nat (length v) then unpack_fields fs (firstn (Z.to_nat len) v) 0
  else match unpack_fields fs v 0 with Some None => None | r => r end.

Definition sizes (fs : list field) : nat := fold_right (fun f a => (fst f + a)%nat) 0%nat fs.

(** The elements of a report, e.g. msg.c:2634-2646. *)
Fixpoint unpack_elements (n : nat) (fs : list field) (v : octets) (off : nat) : result (list (list Z)) :=
  match n with
  | O => Some (Some [])
  | S n =>
      rbind (unpack_fields fs (skipn off v) 0) (fun e =>
      rbind (unpack_elements n fs v (off + sizes fs)) (fun es => Some (Some (e :: es))))
  end.

(** unpackSlaveRxSyncTimingDataTLV, msg.c:2616-2647; unpackSlaveRxSyncComputedDataTLV, 2762-2792;
    unpackSlaveTxEventTimestampsTLV, 2880-2910: that the preamble fits is asserted.  As many
    elements as fit. *)
Definition unpack_report (pre el : list field) (v : octets) : result (list Z * list (list Z)) :=
  match unpack_fields pre v 0 with
  | Some (Some p) =>
      let n := ((length v - sizes pre) / sizes el)%nat in
      rbind (unpack_elements n el v (sizes pre)) (fun es => Some (Some (p, es)))
  | _ => None
  end.

Definition report_tables (c : concern) : option (list field * list field) :=
  match c with
  | Timing => Some (d_timing_pre, d_timing_el)
  | Computed => Some (d_computed_pre, d_computed_el)
  | TxStamps => Some (d_txts_pre, d_txts_el)
  | _ => None
  end.

(** The second-pass handlers: result CONTINUE ([true]) or DROP ([false]), and what they do.
    ptpmon_req_tlv_handler, protocol.c:3301-3350 (its length check cannot fail: a Delay_Req has
    at least 44 octets, and neither can unpacking the header again);
    slave_*_handler, monitor.c:64-245 (nor can theirs).  The collector's functions are set
    together (sfptpd_ptp_module.c), so one flag stands for the four. *)
Definition pass2 (x : ctx) (datagram : octets) (d : dispatch) : option (bool * list event) :=
  match d_name d with
  | MonReq =>
      if c_netsync x then Some (false, [if c_stamped x then Answer else NoStamp])
      else Some (true, [])
  | Status =>
      if c_collect x then
        match unpack_within (d_len d) d_slave_status (skipn (d_value d) datagram) with
        | None => None
        | Some None => Some (true, [])
        | Some (Some f) => Some (true, [Report Status f []])
        end
      else Some (true, [])
  | c =>
      match report_tables c with
      | Some (pre, el) =>
          if c_collect x then
            match unpack_report pre el (firstn (Z.to_nat (d_len d)) (skipn (d_value d) datagram)) with
            | None => None
            | Some None => Some (true, [])
            | Some (Some (p, es)) => Some (true, [Report c p es])
            end
          else Some (true, [])
      | None => Some (true, [])
      end
  end.

(** protocol.c:1437-1464. *)
Fixpoint second_pass (x : ctx) (datagram : octets) (l : list dispatch) : option (bool * list event) :=
  match l with
  | [] => Some (true, [])
  | d :: l =>
      do r <- pass2 x datagram d;
      do r' <- second_pass x datagram l;
      Some (fst r && fst r', snd r ++ snd r')
  end.

(** The size of the fixed part each unpack function reports (34 octets of header and
    UNPACK_GET_SIZE): protocol.c:1186-1255. *)
Definition fixed_size (type : Z) : nat :=
  if type =? 11 then 64
  else if (type =? 9) || (type =? 3) || (type =? 10) then 54
  else 44.

(** The outcome of processTLVs: whether the message is handled, what was found for it, events. *)
Record processed := mkDone { go_on : bool; found : transient; events : list event }.

(** processTLVs, protocol.c:1257-1468, for a decoded message of type [type] and [safe] believed
    octets. *)
Definition process_tlvs (x : ctx) (type : Z) (junk : Z) (safe : nat) (datagram : octets)
  : option processed :=
  let b := firstn safe datagram in
  if type =? 13 then Some (mkDone true no_trans [])
  else
    do r <- scan (S (length b)) x type junk b (fixed_size type) [] no_trans;
    match r with
    | Dropped => Some (mkDone false no_trans [])
    | Scanned l s =>
        do e <- second_pass x datagram l;
        Some (mkDone (fst e) s (snd e))
    end.

(** processMessage and processPortMessage up to the handling of the message: decoding, then the
    TLVs.  [Some None]: the message is not decoded. *)
Definition receive (x : ctx) (junk : Z) (datagram : octets) : result (header * body * processed) :=
  rbind (decode datagram) (fun hm =>
    let h := fst hm in
    let safe := if mlength h <? Z.of_nat (length datagram) then Z.to_nat (mlength h)
                else length datagram in
    do p <- process_tlvs x (mtype h) junk safe datagram;
    Some (Some (h, snd hm, p))).

(** *** Sending.  The buffer [b] holds a message whose length is in its header. *)
(** getHeaderLength, setHeaderLength, msg.c:1443-1449. *)
Definition get_length (b : octets) : option nat := do l <- ld 2 b 2; Some (Z.to_nat l).
Definition set_length (at_ : nat) (l : nat) (b : octets) : option octets :=
  st (at_ + 2) (bytes 2 (Z.of_nat l)) b.

(** TLV_BOUNDARY_CHECK, msg.c:231-235. *)
Definition boundary_check (off : nat) (b : octets) : option unit :=
  if Nat.ltb 4 (length b) && Nat.ltb off (length b) && Nat.even off && Nat.even (length b)
  then Some tt else None.

(** PAD_TO_EVEN_LENGTH, msg.c:238-250 (its assertion always holds where it is used here), then
    setting of the lengths.  When there is no room for the pad the error is overwritten. *)
Definition finish_tlv (start off : nat) (b : octets) : option octets :=
  do r <- (if Nat.even off then Some (off, b)
           else if Nat.ltb (length b) (off + 1) then Some (off, b)
           else do b <- st off [0] b; Some ((off + 1)%nat, b));
  do b <- set_length start (fst r - start - 4) (snd r);
  set_length 0 (fst r) b.

(** The elements, e.g. msg.c:2674-2678: an element that does not fit makes the offset step back by
    one (PACK_ERROR is -1); what was stored of it stays.  Modelled as undefined. *)
Fixpoint pack_elements (fs : list field) (els : list (list Z)) (off : nat) (b : octets) : option (nat * octets) :=
  match els with
  | [] => Some (off, b)
  | e :: els =>
      match pack_fields fs e b off with
      | Some (Some b) => pack_elements fs els (off + sizes fs) b
      | _ => None
      end
  end.

(** appendSlaveRxSyncTimingDataTLV, msg.c:2649-2692; appendSlaveRxSyncComputedDataTLV, 2794-2839;
    appendSlaveTxEventTimestampsTLV, 2925-2971.  (The last two report an error if the preamble
    does not fit; here undefined for all three.)  The length in the TLV header is first packed
    uninitialised: [junk]. *)
Definition append_report (type junk : Z) (pre el : list field) (p : list Z) (els : list (list Z))
  (b : octets) : option octets :=
  do start <- get_length b;
  do _ <- boundary_check start b;
  match pack_fields [f 2; f 2] [type; junk] b start with
  | Some (Some b) =>
      match pack_fields pre p b (start + 4) with
      | Some (Some b) =>
          do r <- pack_elements el els (start + 4 + sizes pre) b;
          finish_tlv start (fst r) (snd r)
      | _ => None
      end
  | _ => None
  end.

Definition append_timing (junk : Z) := append_report 32772 junk d_timing_pre d_timing_el.
Definition append_computed (junk : Z) := append_report 32773 junk d_computed_pre d_computed_el.
Definition append_tx (junk : Z) := append_report 32774 junk d_txts_pre d_txts_el.

(** appendSlaveStatusTLV, msg.c:3000-3030, with msgPackOrgTLVHeader, 2381-2400. *)
Definition append_status (f_ : list Z) (b : octets) : option octets :=
  do start <- get_length b;
  do _ <- boundary_check start b;
  match pack_fields [f 2; f 2; f 3; f 3] [32768; 6; 3923; 1] b start with
  | Some (Some b) =>
      match pack_fields d_slave_status f_ b (start + 10) with
      | Some (Some b) => finish_tlv start (start + 10 + sizes d_slave_status) b
      | _ => None
      end
  | _ => None
  end.

(** appendPortCommunicationCapabilitiesTLV, msg.c:2487-2521. *)
Definition append_caps (junk a c : Z) (b : octets) : option octets :=
  do start <- get_length b;
  do _ <- boundary_check start b;
  match pack_fields [f 2; f 2] [32770; junk] b start with
  | Some (Some b) =>
      match pack_fields d_port_caps [a; c] b (start + 4) with
      | Some (Some b) => finish_tlv start (start + 4 + sizes d_port_caps) b
      | _ => None
      end
  | _ => None
  end.
