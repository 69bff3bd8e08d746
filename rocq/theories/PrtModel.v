(** Transcription of the message handling of src/ptp/ptpd2/protocol.c: Sync, FollowUp, Delay_Resp and
    the peer delay messages, and the transmit timestamps they wait for.

    Simplifications, throughout: counters, alarms, statistics, interval updates and timers are left
    out (they do not decide what is given to the servo), the test modes are off, and whether the servo
    then updates its clock is its own business.  Times are those held after applyUtcOffset and the
    inbound latency have been applied. *)
Require Import ZArith List Bool.
Import ListNotations.
From Verif Require Import Base TimeSpec TimeModel PrtSpec.
Open Scope Z_scope.

(** Fixed settings of a port: own identity, rtOpts->delay_resp_ignore_port_id,
    rtOpts->outboundLatency, sizeof(MsgPayload), rtOpts->missingInterfaceTolerance. *)
Record cfg := mkCfg { own : ident; ignore_id : bool; latency : ts; room : Z; tolerant : bool }.

(** datatypes.h:987-988, 1000, 1002, 1020-1021.  A cached header with sequence number 0 means that
    there is none. *)
Record syn := mkSyn { waiting : bool; last_seq : Z; rx_time : ts; corr : ts; cached : option fu_msg }.
(** datatypes.h:989, 1005-1008, sentDelayReqSequenceId, delayreq_ticket, msg_cache.packet[DELAY_RESP],
    and the place in the interface's message buffer where a Delay_Resp has its requestingPortIdentity. *)
Record del := mkDel { d_seq : Z; tx_pending : bool; rx_pending : bool; d_tk : option ticket; d_send : ts;
                      stash : option dr_msg; buffer : ident }.
(** datatypes.h:981-984, 1001, 1003-1004, sentPDelayReqSequenceId, pdelayreq_ticket. *)
Record peer := mkPeer { p_seq : Z; p_tk : option ticket; want_resp : bool; want_follow : bool; p1 : ts; p2 : ts;
                        p4 : ts; p_corr : ts; resp_seq : Z }.
(** sentSyncSequenceId, sync_ticket, pdelayresp_ticket, PdelayReqHeader. *)
Record mast := mkMast { s_seq : Z; s_tk : option ticket; r_tk : option ticket; r_hdr : ident }.
Record port := mkPort { pst : pstate; parent : ident; mech : mechanism; syn_of : syn; del_of : del; peer_of : peer; mast_of : mast }.

Definition with_syn (p : port) (s : syn) : port := mkPort (pst p) (parent p) (mech p) s (del_of p) (peer_of p) (mast_of p).
Definition with_del (p : port) (d : del) : port := mkPort (pst p) (parent p) (mech p) (syn_of p) d (peer_of p) (mast_of p).
Definition with_peer (p : port) (q : peer) : port := mkPort (pst p) (parent p) (mech p) (syn_of p) (del_of p) q (mast_of p).
Definition with_mast (p : port) (m : mast) : port := mkPort (pst p) (parent p) (mech p) (syn_of p) (del_of p) (peer_of p) m.
Definition with_parent (p : port) (i : ident) : port := mkPort (pst p) i (mech p) (syn_of p) (del_of p) (peer_of p) (mast_of p).
Definition with_mech (p : port) (m : mechanism) : port := mkPort (pst p) (parent p) m (syn_of p) (del_of p) (peer_of p) (mast_of p).

(** toState, protocol.c:211-456: the states it knows; on entry to SLAVE the waiting flags are reset
    (378-380). *)
Definition to_state (s : pstate) (p : port) : port :=
  match s with
  | Uninitialized | PreMaster => p
  | Slave =>
      let y := syn_of p in let d := del_of p in
      mkPort Slave (parent p) (mech p)
             (mkSyn false (last_seq y) (rx_time y) (corr y) (cached y))
             (mkDel (d_seq d) false false (d_tk d) (d_send d) (stash d) (buffer d))
             (peer_of p) (mast_of p)
  | _ => mkPort s (parent p) (mech p) (syn_of p) (del_of p) (peer_of p) (mast_of p)
  end.

(** handleSendFailure, protocol.c:468-480. *)
Definition send_failure (c : cfg) (p : port) : port := to_state (if tolerant c then Listening else Faulty) p.

(** bmc.c:203-217, 322-325 (p1, s1) and m1: the parent is replaced; protocol.c:605-611: toState is only
    run when the recommended state differs. *)
Definition best_master (s : pstate) (i : ident) (p : port) : port :=
  let p' := with_parent p i in
  if pstate_eqb s (pst p) then p' else to_state s p'.

(** isFromCurrentParent, protocol.c:854-863. *)
Definition from_parent (p : port) (src : ident) : bool := same_ident (parent p) src.

Definition listens (p : port) : bool := match pst p with Uncalibrated | Slave => true | _ => false end.

(** handleFollowUp, protocol.c:2150-2265.  A message with sequence number 0 that is put in the cache
    cannot be found there again.  (When a cached message is put back in the cache, 2197-2202 from
    2053, its contents are spoilt, but handleSync then discards it.) *)
Definition handle_follow (c : cfg) (m : fu_msg) (deferred : bool) (p : port) : option (port * list out) :=
  if fu_len m <? 44 then Some (p, [])
  else if negb (listens p) then Some (p, [])
  else
    let y0 := syn_of p in
    let y := if from_parent p (fu_src m) && negb deferred
             then mkSyn (waiting y0) (last_seq y0) (rx_time y0) (corr y0) None else y0 in
    if negb (from_parent p (fu_src m)) then Some (with_syn p y, [])
    else if negb (waiting y) then
      Some (with_syn p (mkSyn (waiting y) (last_seq y) (rx_time y) (corr y) (if fu_seq m =? 0 then None else Some m)), [])
    else if negb (last_seq y =? fu_seq m) then Some (with_syn p y, [])
    else
      do k <- from_ns16 (fu_corr m);
      Some (with_syn p (mkSyn false (last_seq y) (rx_time y) k (cached y)),
            [GiveM2S (time_of (fu_origin m)) (rx_time y) k]).

(** handleSync, protocol.c:1859-2083. *)
Definition handle_sync (c : cfg) (m : sync_msg) (rx : option ts) (p : port) : option (port * list out) :=
  if sy_len m <? 44 then Some (p, [])
  else if negb (listens p) then Some (p, [])
  else if negb (from_parent p (sy_src m)) then Some (p, [])
  else
    match rx with
    | None => Some (p, [])
    | Some t =>
        let y := syn_of p in
        let missed := if waiting y then [MissM2S] else [] in
        do k <- from_ns16 (sy_corr m);
        let p1 := with_syn p (mkSyn (sy_two m) (sy_seq m) t k (cached y)) in
        let gives := if sy_two m then [] else [GiveM2S (time_of (sy_origin m)) t k] in
        match cached y with
        | Some f =>
            do r <- (if fu_seq f =? sy_seq m then handle_follow c (mkFu (fu_src f) (fu_seq f) (fu_origin f) (fu_corr f) 44) true p1
                     else Some (p1, []));
            let '(p2, late) := r in
            let y2 := syn_of p2 in
            Some (with_syn p2 (mkSyn (waiting y2) (last_seq y2) (rx_time y2) (corr y2) None), missed ++ gives ++ late)
        | None => Some (p1, missed ++ gives)
        end
    end.

(** handleDelayResp, protocol.c:2374-2534.  The requesting port identity is read from the interface's
    message buffer (2408-2413), also for a deferred message; stash_message, 2114-2147. *)
Definition handle_delay_resp (c : cfg) (m : dr_msg) (deferred : bool) (p : port) : option (port * list out) :=
  let d := del_of p in
  if dr_len m <? 54 then Some (p, [])
  else match mech p with
  | NoDelay | P2P => Some (p, [])
  | E2E =>
    match pst p with
    | Slave =>
      if same_ident (own c) (buffer d) && (from_parent p (dr_src m) || ignore_id c) then
        if negb deferred && rx_pending d && tx_pending d then
          let kept := if room c <? dr_len m - 34 then None else Some m in
          Some (with_del p (mkDel (d_seq d) (tx_pending d) false (d_tk d) (d_send d) kept (buffer d)), [])
        else if negb deferred && negb (rx_pending d) then Some (p, [])
        else if negb (d_seq d =? dr_seq m) then Some (p, [])
        else
          do k <- from_ns16 (dr_corr m);
          Some (with_del p (mkDel (d_seq d) (tx_pending d) false (d_tk d) (d_send d) (stash d) (buffer d)),
                [GiveS2M (d_send d) (time_of (dr_time m)) k])
      else Some (p, [])
    | _ => Some (p, [])
    end
  end.

(** The arrival of a Delay_Resp: it is unpacked into the message buffer first, protocol.c:1163-1170. *)
Definition recv_delay_resp (c : cfg) (m : dr_msg) (p : port) : option (port * list out) :=
  let d := del_of p in
  handle_delay_resp c m false (with_del p (mkDel (d_seq d) (tx_pending d) (rx_pending d) (d_tk d) (d_send d) (stash d) (dr_to m))).

(** issueDelayReq, protocol.c:3581-3650: [NotPossible] is the mismatch of capabilities (3605-3608).
    netExpectTimestamp always returns a valid ticket (C58). *)
Definition ask_delay (c : cfg) (s : sending) (p : port) : port :=
  let d := del_of p in
  let d' := mkDel (u16 (d_seq d + 1)) false false (d_tk d) (d_send d) (stash d) (buffer d) in
  match s with
  | NotPossible => with_del p d'
  | Failed => send_failure c (with_del p d')
  | Sent tk => with_del p (mkDel (d_seq d') true true (Some tk) (d_send d') (stash d') (buffer d'))
  end.

(** processDelayReqFromSelf, protocol.c:2338-2371. *)
Definition delay_req_sent (c : cfg) (t : ts) (p : port) : option (port * list out) :=
  let d := del_of p in
  do t1 <- add t (latency c);
  if negb (tx_pending d) then Some (with_del p (mkDel (d_seq d) (tx_pending d) (rx_pending d) (d_tk d) t1 (stash d) (buffer d)), [])
  else
    match rx_pending d, stash d with
    | false, Some m =>
        handle_delay_resp c m true (with_del p (mkDel (d_seq d) false (rx_pending d) (d_tk d) t1 None (buffer d)))
    | _, _ => Some (with_del p (mkDel (d_seq d) false (rx_pending d) (d_tk d) t1 (stash d) (buffer d)), [])
    end.

(** issuePDelayReq, protocol.c:3652-3703. *)
Definition ask_peer (c : cfg) (s : sending) (p : port) : port :=
  let q := peer_of p in
  let q' := mkPeer (u16 (p_seq q + 1)) (p_tk q) false false (p1 q) (p2 q) (p4 q) (p_corr q) (resp_seq q) in
  match s with
  | Sent tk => with_peer p (mkPeer (p_seq q') (Some tk) false false (p1 q) (p2 q) (p4 q) (p_corr q) (resp_seq q))
  | _ => send_failure c (with_peer p q')
  end.

(** processPDelayReqFromSelf, protocol.c:2601-2618. *)
Definition peer_req_sent (c : cfg) (t : ts) (p : port) : option (port * list out) :=
  let q := peer_of p in
  do t1 <- add t (latency c);
  Some (with_peer p (mkPeer (p_seq q) (p_tk q) true false t1 (p2 q) (p4 q) (p_corr q) (resp_seq q)), []).

Definition peers (p : port) : bool := match pst p with Listening | Slave | Master => true | _ => false end.

(** handlePDelayResp, protocol.c:2620-2756. *)
Definition handle_peer_resp (c : cfg) (m : pr_msg) (rx : option ts) (p : port) : option (port * list out) :=
  let q := peer_of p in
  if pr_len m <? 54 then Some (p, [])
  else match mech p with
  | NoDelay | E2E => Some (p, [])
  | P2P =>
    if negb (peers p) then Some (p, [])
    else if negb (same_ident (own c) (pr_to m)) then Some (p, [])
    else match rx with
    | None => Some (p, [])
    | Some t =>
      if negb (want_resp q) then Some (p, [])
      else if negb (p_seq q =? pr_seq m) then Some (p, [])
      else
        do k <- from_ns16 (pr_corr m);
        let t2 := time_of (pr_time m) in
        Some (with_peer p (mkPeer (p_seq q) (p_tk q) false (if pr_two m then true else want_follow q) (p1 q) t2 t k (pr_seq m)),
              if pr_two m then [] else [GiveP2P (p1 q) t2 t2 t k])
    end
  end.

(** handlePDelayRespFollowUp, protocol.c:2784-2885. *)
Definition handle_peer_follow (c : cfg) (m : pf_msg) (p : port) : option (port * list out) :=
  let q := peer_of p in
  if pf_len m <? 54 then Some (p, [])
  else match mech p with
  | NoDelay | E2E => Some (p, [])
  | P2P =>
    if negb (peers p) then Some (p, [])
    else if negb (same_ident (own c) (pf_to m)) then Some (p, [])
    else if negb (want_follow q) then Some (p, [])
    else if negb (pf_seq m =? p_seq q) || negb (pf_seq m =? resp_seq q) then Some (p, [])
    else
      do k <- from_ns16 (pf_corr m);
      Some (with_peer p (mkPeer (p_seq q) (p_tk q) (want_resp q) false (p1 q) (p2 q) (p4 q) k (resp_seq q)),
            [GiveP2P (p1 q) (p2 q) (time_of (pf_time m)) (p4 q) k])
  end.

(** handlePDelayReq, protocol.c:2536-2598, and issuePDelayResp, 3705-3770. *)
Definition handle_peer_req (c : cfg) (m : pq_msg) (rx : option ts) (s : sending) (p : port) : option (port * list out) :=
  let a := mast_of p in
  if pq_len m <? 54 then Some (p, [])
  else match mech p with
  | NoDelay | E2E => Some (p, [])
  | P2P =>
    match pst p with
    | Listening | Slave | Master | Passive =>
      match rx with
      | None => Some (p, [])
      | Some _ =>
        let a' := mkMast (s_seq a) (s_tk a) (r_tk a) (pq_src m) in
        Some (match s with
              | Sent tk => with_mast p (mkMast (s_seq a) (s_tk a) (Some tk) (pq_src m))
              | _ => send_failure c (with_mast p a')
              end, [])
      end
    | _ => Some (p, [])
    end
  end.

(** issueSync, protocol.c:3432-3485: [NotPossible] is not an outcome here. *)
Definition send_sync (c : cfg) (s : sending) (p : port) : port :=
  let a := mast_of p in
  match s with
  | Sent tk => with_mast p (mkMast (u16 (s_seq a + 1)) (Some tk) (r_tk a) (r_hdr a))
  | _ => send_failure c (with_mast p (mkMast (u16 (s_seq a + 1)) (s_tk a) (r_tk a) (r_hdr a)))
  end.

Definition ticket_is (o : option ticket) (tk : ticket) : bool :=
  match o with Some k => (fst k =? fst tk) && (snd k =? snd tk) | None => false end.

(** processTxTimestamp, protocol.c:1539-1637.  A null ticket matches no other.  The tickets are
    cleared after the timestamp has been used. *)
Definition tx_timestamp (c : cfg) (k : txkind) (tk : ticket) (seq : Z) (t : ts) (sent : bool) (p : port) : option (port * list out) :=
  match k with
  | TxSync =>
      if ticket_is (s_tk (mast_of p)) tk && (seq =? s_seq (mast_of p)) then
        do t1 <- add t (latency c);
        let p' := if sent then p else send_failure c p in
        let a := mast_of p' in
        Some (with_mast p' (mkMast (s_seq a) None (r_tk a) (r_hdr a)), [SendFollow seq t1])
      else Some (p, [])
  | TxDelayReq =>
      if ticket_is (d_tk (del_of p)) tk && (seq =? d_seq (del_of p)) then
        do r <- delay_req_sent c t p;
        let '(p', o) := r in
        let d := del_of p' in
        Some (with_del p' (mkDel (d_seq d) (tx_pending d) (rx_pending d) None (d_send d) (stash d) (buffer d)), o)
      else Some (p, [])
  | TxPDelayReq =>
      if ticket_is (p_tk (peer_of p)) tk && (seq =? p_seq (peer_of p)) then
        do r <- peer_req_sent c t p;
        let '(p', o) := r in
        let q := peer_of p' in
        Some (with_peer p' (mkPeer (p_seq q) None (want_resp q) (want_follow q) (p1 q) (p2 q) (p4 q) (p_corr q) (resp_seq q)), o)
      else Some (p, [])
  | TxPDelayResp =>
      if ticket_is (r_tk (mast_of p)) tk then
        do t1 <- add t (latency c);
        let o := [SendPFollow (r_hdr (mast_of p)) seq t1] in
        let p' := if sent then p else send_failure c p in
        let a := mast_of p' in
        Some (with_mast p' (mkMast (s_seq a) (s_tk a) None (r_hdr a)), o)
      else Some (p, [])
  end.

Definition step (c : cfg) (o : op) (p : port) : option (port * list out) :=
  match o with
  | OSync m rx => handle_sync c m rx p
  | OFollow m => handle_follow c m false p
  | ODelayResp m => recv_delay_resp c m p
  | OPResp m rx => handle_peer_resp c m rx p
  | OPFollow m => handle_peer_follow c m p
  | OPReq m rx s => handle_peer_req c m rx s p
  | OOther i => let d := del_of p in
                Some (with_del p (mkDel (d_seq d) (tx_pending d) (rx_pending d) (d_tk d) (d_send d) (stash d) i), [])
  | OAskDelay s => Some (ask_delay c s p, [])
  | OAskPeer s => Some (ask_peer c s p, [])
  | OSendSync s => Some (send_sync c s p, [])
  | OTx k tk seq t sent => tx_timestamp c k tk seq t sent p
  | OBest s i => Some (best_master s i p, [])
  | OState s => Some (to_state s p, [])
  | OMech m => Some (with_mech p m, [])
  end.

Fixpoint run (c : cfg) (h : list op) (p : port) : option port :=
  match h with
  | [] => Some p
  | o :: h' => do r <- step c o p; run c h' (fst r)
  end.
