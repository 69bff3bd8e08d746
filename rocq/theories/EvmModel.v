(** Transcription of src/ptp/ptpd2/evtmon.c.
    Simplified: sending is not modelled, only what is sent (handleSendFailure counts); [tlv_enable] is always set together with [logging_enable] (ptp/sfptpd_ptp_config.c:1183-1241);
    the records' contents are given by the events (times before 1970 leave parts of a record unset, arith.c:80). *)
Require Import ZArith List Bool.
Import ListNotations.
From Verif Require Import Base EvmSpec.
Open Scope Z_scope.

(** ptp/ptpd2/ptpd_lib.c:116 and constants.h:97. *)
Definition events_per_tlv : Z := 8.
Definition MAX_EVENTS_PER_TLV : Z := 10.

(** SlaveEventMonitoringState, datatypes.h:468-472. *)
Record mst := mkM { skip_count : Z; num_events : Z; source_port : identity }.
(** datatypes.h:1090-1101: the records of the two kinds about Syncs; those about messages sent are declared [10][3] and used as rows of 10 beginning at [type][0]:
    row [t] begins at [3 t] of 30. *)
Record state := mkSt { m_timing : mst; m_computed : mst; m_tx : sent -> mst; r_timing : Z -> rec; r_computed : Z -> rec; r_tx : Z -> rec; sentSequenceId : Z }.
Definition zero : mst := mkM 0 0 0.
(** ptpd_lib.c:292: calloc. *)
Definition start : state := mkSt zero zero (fun _ => zero) (fun _ => []) (fun _ => []) (fun _ => []) 0.
Definition type_index (t : sent) : Z := match t with DelayReq => 0 | PDelayReq => 1 | PDelayResp => 2 end.

Definition set (f : Z -> rec) (i : Z) (r : rec) : Z -> rec := fun j => if j =? i then r else f j.
Definition read (f : Z -> rec) (base n : Z) : list rec := map (fun i => f (base + Z.of_nat i)) (seq 0 (Z.to_nat n)).

(** The common part of rxSyncTimingDataMonitor (188-240), rxSyncComputedDataMonitor (243-290) and egressEventMonitor (342-405), which is written out three times:
    the new state, the new records, and the groups flushed (with the source port of the moment). *)
Definition monitor (skip : Z) (base size : Z) (m : mst) (f : Z -> rec) (parent : identity) (r : rec) : option (mst * (Z -> rec) * list (identity * list rec)) :=
  do res <-
    (if skip_count m =? 0 then
       let record := base + num_events m in
       if (record <? 0) || (size <=? record) then None
       else
         do a <-
           (if parent =? source_port m then Some (m, [])
            else if negb (num_events m =? 0) then
              if num_events m <=? events_per_tlv then Some (mkM (skip_count m) 0 parent, [(source_port m, read f base (num_events m))]) else None
            else Some (mkM (skip_count m) (num_events m) parent, []));
         let '(m, flushed) := a in
         let f := set f record r in
         let n := num_events m + 1 in
         if n =? events_per_tlv then Some (mkM (skip_count m) 0 (source_port m), f, flushed ++ [(source_port m, read f base n)])
         else Some (mkM (skip_count m) n (source_port m), f, flushed)
     else Some (m, f, []));
  let '(m, f, flushed) := res in
  if skip_count m =? skip then Some (mkM 0 (num_events m) (source_port m), f, flushed)
  else if 2147483647 <=? skip_count m then None
  else Some (mkM (skip_count m + 1) (num_events m) (source_port m), f, flushed).

(** sendMonitoringMessage, 93-114. *)
Definition send_one (c : config) (k : kind) (source : identity) (rs : list rec) (id : Z) : list out * Z :=
  (map (fun d => Report d id k source rs) (seq 0 (match named c with O => 1%nat | n => n end)), u16 (id + 1)).
Fixpoint send (c : config) (k : kind) (groups : list (identity * list rec)) (id : Z) : list out * Z :=
  match groups with
  | [] => ([], id)
  | g :: gs => let '(o, id) := send_one c k (fst g) (snd g) id in let '(os, id) := send c k gs id in (o ++ os, id)
  end.

Definition timing_monitor (c : config) (s : state) (p : identity) (r : rec) : option (state * list out) :=
  if on_timing c then
    do x <- monitor (skip_timing c) 0 MAX_EVENTS_PER_TLV (m_timing s) (r_timing s) p r;
    let '(m, f, gs) := x in
    let '(os, id) := send c Timing gs (sentSequenceId s) in
    Some (mkSt m (m_computed s) (m_tx s) f (r_computed s) (r_tx s) id, os)
  else Some (s, []).
Definition computed_monitor (c : config) (s : state) (p : identity) (r : rec) : option (state * list out) :=
  if on_computed c then
    do x <- monitor (skip_computed c) 0 MAX_EVENTS_PER_TLV (m_computed s) (r_computed s) p r;
    let '(m, f, gs) := x in
    let '(os, id) := send c Computed gs (sentSequenceId s) in
    Some (mkSt (m_timing s) m (m_tx s) (r_timing s) f (r_tx s) id, os)
  else Some (s, []).
(** The source is the port's own identity (330). *)
Definition egress_monitor (c : config) (s : state) (t : sent) (p : identity) (r : rec) : option (state * list out) :=
  if on_tx c then
    do x <- monitor (skip_tx c) (3 * type_index t) (3 * MAX_EVENTS_PER_TLV) (m_tx s t) (r_tx s) p r;
    let '(m, f, gs) := x in
    let '(os, id) := send c (Tx t) (map (fun g => (own c, snd g)) gs) (sentSequenceId s) in
    Some (mkSt (m_timing s) (m_computed s) (fun t' => if sent_eqb t t' then m else m_tx s t') (r_timing s) (r_computed s) f id, os)
  else Some (s, []).
(** slaveStatusMonitor, 409-450. *)
Definition status_monitor (c : config) (s : state) (r : rec) : option (state * list out) :=
  if on_status c then
    let '(os, id) := send_one c Status (own c) [r] (sentSequenceId s) in
    Some (mkSt (m_timing s) (m_computed s) (m_tx s) (r_timing s) (r_computed s) (r_tx s) id, os)
  else Some (s, []).

(** ingressEventMonitor, 294-299; the calls at protocol.c:1996, 2241, 2345, 2611 and 2770; ptpd_lib.c:966. *)
Definition step (c : config) (s : state) (e : event) : option (state * list out) :=
  match e with
  | SyncDone p a b =>
      do x <- timing_monitor c s p a;
      do y <- computed_monitor c (fst x) p b;
      Some (fst y, snd x ++ snd y)
  | MsgSent t p r => egress_monitor c s t p r
  | StatusDue r => status_monitor c s r
  end.
Fixpoint run_from (c : config) (s : state) (es : list event) : option (state * list out) :=
  match es with
  | [] => Some (s, [])
  | e :: es => do x <- step c s e; do y <- run_from c (fst x) es; Some (fst y, snd x ++ snd y)
  end.
Definition run (c : config) (es : list event) : option (state * list out) := run_from c start es.

(** ptp/sfptpd_ptp_config.c:1196-1200, 1217-1221 and 1235-1239: an int put into an Integer16 (datatypes.h:461). *)
Definition skip_option (n : Z) : Z := (n + 32768) mod 65536 - 32768.
