(** C40, C41: PTP messages on the wire.

    C40: what a port sends is the message the standard describes, and what it receives is decoded
    to the values that were sent; timestamps lose nothing above 2^-16 ns.
    C41: decoding any datagram whatever is defined: it reads only octets that were received and
    that the message's own length covers, and rejects what is too short or unknown. *)
Require Import ZArith List Bool Lia.
Import ListNotations.
From Verif Require Import Base TimeSpec MsgSpec MsgModel MsgProof MsgProof2.
Open Scope Z_scope.

(** A port and a time for the examples. *)
Definition ex_id : port_id := mkPort 9223372036854775809 1.
Definition ex_ann : announce := mkAnnounce zero_stamp 37 128 248 254 65535 128 9223372036854775809 0 160.
Definition ex_port : port :=
  mkPortCfg 1 5 true ex_id 7 8 9 10 (-3) 1 0 true false true true false true ex_ann.
Lemma ex_port_ok : port_ok ex_port.
Proof. unfold port_ok, port_fits, announce_fits, stamp_fits, in_u, in_s; cbn; lia. Qed.
Definition ex_time : ts := mkTs 1700000000 123456789 3000000000.
Lemma ex_time_ok : normal ex_time /\ 0 <= sec ex_time < 2^48.
Proof. unfold normal; cbn; lia. Qed.
Definition old64 : octets := repeat 170 70.
Definition ex_request : header := mkHeader 0 1 0 2 44 3 0 0 0 (-4) 0 77 2 500 1 127.

Lemma some_inj2 : forall A (x y : A), Some (Some x) = Some (Some y) -> y = x.
Proof. intros. injection H. auto. Qed.

(** *** C40: messages sent.  The rest of the buffer is untouched. *)
Theorem C40_sync_sent : forall p b, port_ok p -> (44 <= length b)%nat ->
  pack_sync p b = Some (Some (
    header_wire (sent_header p 0 44 (p_domain p) (two_step_flag p) 0 0 (p_seq_sync p) 0 (p_log_sync p))
    ++ stamp_wire zero_stamp ++ skipn 44 b)).
Proof. exact pack_sync_wire. Qed.
Example C40_sync_sent_ex : port_ok ex_port /\
  option_map (option_map (firstn 8)) (pack_sync ex_port old64) = Some (Some [0; 18; 0; 44; 5; 0; 2; 0]).
Proof. split; [exact ex_port_ok|vm_compute; reflexivity]. Qed.

Theorem C40_delay_req_sent : forall p b, port_ok p -> (44 <= length b)%nat ->
  pack_delay_req p b = Some (Some (
    header_wire (sent_header p 1 44 (p_domain p) 0 0 0 (p_seq_dreq p) 1 undefined_interval)
    ++ stamp_wire zero_stamp ++ skipn 44 b)).
Proof. exact pack_delay_req_wire. Qed.
Example C40_delay_req_sent_ex :
  option_map (option_map (fun m => (length m, skipn 28 (firstn 44 m)))) (pack_delay_req ex_port old64)
  = Some (Some (70%nat, [0; 1; 0; 9; 1; 127; 0; 0; 0; 0; 0; 0; 0; 0; 0; 0])).
Proof. vm_compute; reflexivity. Qed.

Theorem C40_pdelay_req_sent : forall p b, port_ok p -> (54 <= length b)%nat ->
  pack_pdelay_req p b = Some (Some (
    header_wire (sent_header p 2 54 (p_domain p) 0 0 0 (p_seq_pdreq p) 5 undefined_interval)
    ++ stamp_wire zero_stamp ++ repeat 0 10 ++ skipn 54 b)).
Proof. exact pack_pdelay_req_wire. Qed.
Example C40_pdelay_req_sent_ex :
  option_map (option_map (firstn 4)) (pack_pdelay_req ex_port old64) = Some (Some [2; 18; 0; 54]).
Proof. vm_compute; reflexivity. Qed.

(** The Announce's reserved octet (offset 46) is whatever the buffer held there. *)
Theorem C40_announce_sent_partial : forall p b, port_ok p -> all_octets b -> (64 <= length b)%nat ->
  pack_announce p b = Some (Some (
    header_wire (sent_header p 11 64 (p_domain p) 0 (time_flags p) 0 (p_seq_announce p) 5 (p_log_announce p))
    ++ announce_wire (nth 46 b 0) (announced p) ++ skipn 64 b)).
Proof. exact pack_announce_wire. Qed.
Example C40_announce_sent_ex : all_octets old64 /\
  option_map (option_map (fun m => (nth 7 m 0, skipn 44 (firstn 64 m)))) (pack_announce ex_port old64)
  = Some (Some (46, [0; 37; 170; 128; 248; 254; 255; 255; 128; 128; 0; 0; 0; 0; 0; 0; 1; 0; 0; 160])).
Proof. split; [repeat (apply Forall_cons; [unfold is_octet; lia|]); apply Forall_nil|vm_compute; reflexivity]. Qed.

(** The full statement, that the octets of an Announce depend only on the port's data (a reserved
    octet is sent as zero), is false. *)
Theorem C40_announce_reserved_refuted :
  ~ (forall p b b', port_ok p -> all_octets b -> all_octets b' -> length b = length b' ->
       (64 <= length b)%nat -> forall m m', pack_announce p b = Some (Some m) ->
       pack_announce p b' = Some (Some m') -> firstn 64 m = firstn 64 m').
Proof.
  intros H. specialize (H ex_port (repeat 0 64) (repeat 170 64) ex_port_ok).
  assert (A1 : all_octets (repeat 0 64)) by (repeat (apply Forall_cons; [unfold is_octet; lia|]); apply Forall_nil).
  assert (A2 : all_octets (repeat 170 64)) by (repeat (apply Forall_cons; [unfold is_octet; lia|]); apply Forall_nil).
  specialize (H A1 A2 eq_refl (le_n _)).
  specialize (H _ _ (C40_announce_sent_partial _ _ ex_port_ok A1 (le_n _)) (C40_announce_sent_partial _ _ ex_port_ok A2 (le_n _))).
  vm_compute in H. discriminate H.
Qed.

(** Messages carrying a time: the timestamp carries the whole nanoseconds, the correction field the
    rest, with the sign that makes the receiver's arithmetic exact. *)
Theorem C40_follow_up_sent : forall p t seq b, port_ok p -> normal t -> 0 <= sec t -> (44 <= length b)%nat ->
  pack_follow_up p t seq b = Some (Some (
    header_wire (sent_header p 8 44 (p_domain p) 0 0 (frac t / 2^16) seq 2 (p_log_sync p))
    ++ stamp_wire (mkStamp (sec t) (nsec t)) ++ skipn 44 b)).
Proof. intros. apply pack_follow_up_wire; [assumption|split; assumption|assumption]. Qed.
Example C40_follow_up_sent_ex : normal ex_time /\
  option_map (option_map (fun m => (firstn 8 (skipn 8 m), firstn 10 (skipn 34 m)))) (pack_follow_up ex_port ex_time 8 old64)
  = Some (Some ([0; 0; 0; 0; 0; 0; 178; 208], [0; 0; 101; 83; 241; 0; 7; 91; 205; 21])).
Proof. split; [apply ex_time_ok|vm_compute; reflexivity]. Qed.

Theorem C40_delay_resp_sent : forall p h t b, port_ok p -> normal t -> 0 <= sec t ->
  in_s 64 (correction h - frac t / 2^16) -> (54 <= length b)%nat ->
  pack_delay_resp p h t b = Some (Some (
    header_wire (sent_header p 9 54 (domain h) 0 0 (correction h - frac t / 2^16) (seqId h) 3 (p_log_dreq p))
    ++ resp_wire (mkStamp (sec t) (nsec t)) (mkPort (clockId h) (portNo h)) ++ skipn 54 b)).
Proof. intros. apply pack_delay_resp_wire; [assumption|split; assumption|assumption|assumption]. Qed.
Example C40_delay_resp_sent_ex : in_s 64 (correction ex_request - frac ex_time / 2^16) /\
  option_map (option_map (fun m => (firstn 4 (skipn 28 m), skipn 44 (firstn 54 m)))) (pack_delay_resp ex_port ex_request ex_time old64)
  = Some (Some ([0; 1; 1; 244], [0; 0; 0; 0; 0; 0; 0; 77; 0; 2])).
Proof. split; [unfold in_s; cbn; lia|vm_compute; reflexivity]. Qed.

Theorem C40_pdelay_resp_sent : forall p h t b, port_ok p -> normal t -> 0 <= sec t -> (54 <= length b)%nat ->
  pack_pdelay_resp p h t b = Some (Some (
    header_wire (sent_header p 3 54 (domain h) (two_step_flag p) 0 (- (frac t / 2^16)) (seqId h) 5 undefined_interval)
    ++ resp_wire (mkStamp (sec t) (nsec t)) (mkPort (clockId h) (portNo h)) ++ skipn 54 b)).
Proof. intros. apply pack_pdelay_resp_wire; [assumption|split; assumption|assumption]. Qed.
Example C40_pdelay_resp_sent_ex :
  option_map (option_map (fun m => (nth 6 m 0, skipn 44 (firstn 54 m)))) (pack_pdelay_resp ex_port ex_request ex_time old64)
  = Some (Some (2, [0; 0; 0; 0; 0; 0; 0; 77; 0; 2])).
Proof. vm_compute; reflexivity. Qed.

Theorem C40_pdelay_resp_follow_up_sent : forall p h t seq b, port_ok p -> normal t -> 0 <= sec t ->
  in_s 64 (correction h + frac t / 2^16) -> (54 <= length b)%nat ->
  pack_pdelay_resp_follow_up p h t seq b = Some (Some (
    header_wire (sent_header p 10 54 (p_domain p) 0 0 (correction h + frac t / 2^16) seq 5 undefined_interval)
    ++ resp_wire (mkStamp (sec t) (nsec t)) (mkPort (clockId h) (portNo h)) ++ skipn 54 b)).
Proof. intros. apply pack_pdelay_resp_follow_up_wire; [assumption|split; assumption|assumption|assumption]. Qed.
Example C40_pdelay_resp_follow_up_sent_ex :
  option_map (option_map (fun m => firstn 8 (skipn 8 m))) (pack_pdelay_resp_follow_up ex_port ex_request ex_time 3 old64)
  = Some (Some [0; 0; 0; 0; 0; 0; 178; 204]).
Proof. vm_compute; reflexivity. Qed.

(** The full statement, that a response can be packed for every request, is false: the received
    correction field is added to with a signed addition that can overflow. *)
Theorem C40_delay_resp_overflow_refuted :
  ~ (forall p h t b, port_ok p -> header_fits h -> normal t -> 0 <= sec t -> (54 <= length b)%nat ->
       pack_delay_resp p h t b <> None).
Proof.
  intros H.
  apply (H ex_port (mkHeader 0 1 0 2 44 3 0 0 0 (- 2^63) 0 77 2 500 1 127) ex_time old64 ex_port_ok).
  - unfold header_fits, in_u, in_s; cbn; lia.
  - apply ex_time_ok.
  - apply ex_time_ok.
  - cbn; lia.
  - vm_compute. reflexivity.
Qed.

(** Nor can times before the epoch of the timescale be sent. *)
Theorem C40_negative_time_refuted :
  ~ (forall p t seq b, port_ok p -> normal t -> (44 <= length b)%nat -> pack_follow_up p t seq b <> None).
Proof.
  intros H. apply (H ex_port (mkTs (-1) 0 0) 1 old64 ex_port_ok).
  - unfold normal; cbn; lia.
  - cbn; lia.
  - vm_compute. reflexivity.
Qed.

(** *** C40: messages received.  [rest] is what follows the message's own length. *)
(** The header's fields come out as they went in, except that the type specific field comes out with
    its octets reversed: it is right when it is zero, as it is in every message but internal use. *)
Theorem C40_header_received_partial : forall h rest, header_fits h -> typeSpecific h = 0 ->
  unpack_header (header_wire h ++ rest) = Some (Some h).
Proof. intros. rewrite unpack_header_wire by assumption. rewrite seen_zero by assumption. reflexivity. Qed.
Example C40_header_received_ex : header_fits ex_request /\ typeSpecific ex_request = 0.
Proof. split; [unfold header_fits, in_u, in_s; cbn; lia|reflexivity]. Qed.

Theorem C40_header_received_refuted :
  ~ (forall h rest, header_fits h -> unpack_header (header_wire h ++ rest) = Some (Some h)).
Proof.
  intros H. specialize (H (mkHeader 0 1 0 2 44 3 0 0 0 (-4) 1 77 2 500 1 127) []).
  assert (F : header_fits (mkHeader 0 1 0 2 44 3 0 0 0 (-4) 1 77 2 500 1 127)) by (unfold header_fits, in_u, in_s; cbn; lia).
  specialize (H F). vm_compute in H. discriminate H.
Qed.

(** A peer's Sync, Delay_Req, Follow_Up. *)
Theorem C40_timestamp_message_received : forall h t rest, header_fits h -> typeSpecific h = 0 ->
  stamp_fits t -> mlength h = 44 ->
  (mtype h = kind_code KSync \/ mtype h = kind_code KDelayReq \/ mtype h = kind_code KPDelayReq \/
   mtype h = kind_code KFollowUp) ->
  decode (header_wire h ++ stamp_wire t ++ rest) = Some (Some (h, BStamp t)).
Proof. intros h t rest F Z0 S0 M K. rewrite decode_stamp by assumption. rewrite seen_zero by assumption. reflexivity. Qed.
Example C40_timestamp_message_received_ex : header_fits ex_request /\ mlength ex_request = 44 /\
  mtype ex_request = kind_code KDelayReq /\ stamp_fits (mkStamp 1700000000 5).
Proof. repeat split; cbn; try lia; unfold header_fits, in_u, in_s; cbn; lia. Qed.

Theorem C40_pdelay_req_received : forall h t reserved rest, header_fits h -> typeSpecific h = 0 ->
  stamp_fits t -> mlength h = 54 -> mtype h = kind_code KPDelayReq -> length reserved = 10%nat ->
  decode (header_wire h ++ stamp_wire t ++ reserved ++ rest) = Some (Some (h, BStamp t)).
Proof. intros. rewrite decode_pdelay_req by assumption. rewrite seen_zero by assumption. reflexivity. Qed.
Example C40_pdelay_req_received_ex :
  let h := mkHeader 0 2 1 2 54 0 0 0 0 0 0 77 2 500 5 127 in
  header_fits h /\ decode (header_wire h ++ stamp_wire (mkStamp 3 4) ++ repeat 0 10 ++ [9; 9]) = Some (Some (h, BStamp (mkStamp 3 4))).
Proof. split; [unfold header_fits, in_u, in_s; cbn; lia|vm_compute; reflexivity]. Qed.

Theorem C40_response_received : forall h t q rest, header_fits h -> typeSpecific h = 0 ->
  stamp_fits t -> port_fits q -> mlength h = 54 ->
  (mtype h = kind_code KPDelayResp \/ mtype h = kind_code KDelayResp \/ mtype h = kind_code KPDelayRespFollowUp) ->
  decode (header_wire h ++ resp_wire t q ++ rest) = Some (Some (h, BResp t q)).
Proof. intros. rewrite decode_resp by assumption. rewrite seen_zero by assumption. reflexivity. Qed.
Example C40_response_received_ex :
  let h := mkHeader 0 9 1 2 54 0 0 0 0 (-7) 0 77 2 500 3 (-2) in
  header_fits h /\ decode (header_wire h ++ resp_wire (mkStamp (2^48 - 1) 4) ex_id) = Some (Some (h, BResp (mkStamp (2^48 - 1) 4) ex_id)).
Proof. split; [unfold header_fits, in_u, in_s; cbn; lia|vm_compute; reflexivity]. Qed.

Theorem C40_announce_received : forall h reserved a rest, header_fits h -> typeSpecific h = 0 ->
  announce_fits a -> mlength h = 64 -> mtype h = kind_code KAnnounce ->
  decode (header_wire h ++ announce_wire reserved a ++ rest) = Some (Some (h, BAnnounce a)).
Proof. intros. rewrite decode_announce by assumption. rewrite seen_zero by assumption. reflexivity. Qed.
Example C40_announce_received_ex :
  let h := mkHeader 0 11 1 2 64 0 0 0 60 0 0 77 2 500 5 1 in
  header_fits h /\ announce_fits ex_ann /\ decode (header_wire h ++ announce_wire 0 ex_ann) = Some (Some (h, BAnnounce ex_ann)).
Proof.
  split; [unfold header_fits, in_u, in_s; cbn; lia|]. split; [unfold announce_fits, stamp_fits, in_u, in_s; cbn; lia|vm_compute; reflexivity].
Qed.

(** Management, signaling and TLV tables: values fitting the table are written as the table
    describes, over exactly its octets, and read back unchanged. *)
Theorem C40_table_roundtrip : forall fs vs w, described fs vs w -> forall pre old rest,
  length old = length (wire w) ->
  pack_fields fs vs (pre ++ old ++ rest) (length pre) = Some (Some (pre ++ wire w ++ rest)) /\
  unpack_fields fs (pre ++ wire w ++ rest) (length pre) = Some (Some vs).
Proof. intros fs vs w D pre old rest L. split; [eapply pack_described; eassumption|eapply unpack_described; eassumption]. Qed.
(** A port data set at offset 54 of a management message. *)
Example C40_table_roundtrip_ex :
  described d_port_ds [77; 2; 9; -1; -65536; 1; 3; 0; 1; 0; 1; 2]
    [8 @@ 77; 2 @@ 2; 1 @@ 9; 1 @@ (-1); 8 @@ (-65536); 1 @@ 1; 1 @@ 3; 1 @@ 0; 1 @@ 1; 1 @@ 0; 1 @@ 16 * 1 + 2].
Proof.
  unfold d_port_ds, f_port, f, g. cbn [app].
  repeat first [apply d_nil | apply d_u; [unfold in_u; cbn; lia|] | apply d_i; [lia|unfold in_s; cbn; lia|]
               | apply d_half; [unfold in_u; cbn; lia|unfold in_u; cbn; lia|]].
Qed.

(** A time sent in a Follow_Up is recovered by the receiver as timestamp plus correction, exactly
    to 2^-16 ns. *)
Theorem C40_follow_up_time : forall p t seq b m, port_ok p -> normal t -> 0 <= sec t < 2^48 ->
  in_u 16 seq -> (44 <= length b)%nat -> pack_follow_up p t seq b = Some (Some m) ->
  exists h s, decode m = Some (Some (h, BStamp s)) /\ seqId h = seq /\
    clockId h = pid_clock (p_id p) /\ portNo h = pid_port (p_id p) /\
    stamp16 s + correction h = local16 t.
Proof.
  intros p t seq b m P N [S0 S1] Q L H. rewrite C40_follow_up_sent in H by assumption. apply some_inj2 in H. subst m.
  assert (FR : 0 <= frac t / 2^16 < 2^16).
  { destruct N as (_ & _ & N). change (2^32) with 4294967296 in N. change (2^16) with 65536. lia. }
  pose proof P as (_ & P1 & _ & _ & _ & _ & _ & P2 & _).
  rewrite C40_timestamp_message_received.
  - eexists _, _. split; [reflexivity|]. cbn [seqId clockId portNo correction sent_header].
    split; [reflexivity|]. split; [reflexivity|]. split; [reflexivity|].
    rewrite local16_split. unfold wire_stamp, fraction16. ring.
  - apply sent_fits; try assumption; unfold in_u, in_s; try lia.
  - reflexivity.
  - destruct N as (_ & N & _). split; unfold in_u; cbn [w_sec w_ns]; [lia|]. change (2^32) with 4294967296. lia.
  - reflexivity.
  - right. right. right. reflexivity.
Qed.
Example C40_follow_up_time_ex : local16 ex_time = (1700000000 * 1000000000 + 123456789) * 2^16 + 45776.
Proof. vm_compute. reflexivity. Qed.

(** The receive time in a Delay_Resp is recovered as timestamp minus what the responder added to
    the request's correction; request and requester are identified. *)
Theorem C40_delay_resp_time : forall p r t b m, port_ok p -> header_fits r -> normal t -> 0 <= sec t < 2^48 ->
  (54 <= length b)%nat -> pack_delay_resp p r t b = Some (Some m) ->
  exists h s, decode m = Some (Some (h, BResp s (mkPort (clockId r) (portNo r)))) /\
    seqId h = seqId r /\ domain h = domain r /\
    stamp16 s - (correction h - correction r) = local16 t.
Proof.
  intros p r t b m P R N [S0 S1] L H.
  destruct R as (R1 & R2 & R3 & R4 & R5 & R6 & R7 & R8 & R9 & R10 & R11 & R12 & R13 & R14 & R15 & R16).
  assert (FR : 0 <= frac t / 2^16 < 2^16).
  { destruct N as (_ & _ & N). change (2^32) with 4294967296 in N. change (2^16) with 65536. lia. }
  assert (C : in_s 64 (correction r - frac t / 2^16)).
  { destruct (Z_lt_dec (correction r - frac t / 2^16) (- 2^63)) as [O|O]; [|unfold in_s in *; change (2^(64-1)) with (2^63) in *; lia].
    exfalso. revert H. pose proof P as P'. clear - L N S0 O FR.
    expl b L. unfold pack_delay_resp. run.
    match goal with |- context [set_precise ?t ?s ?e ?b] => rewrite (set_precise_over t s e b) end.
    - discriminate.
    - cbn [length]; lia.
    - assumption.
    - assumption.
    - unfold fraction16, in_s. change (2^(64-1)) with (2^63). lia. }
  rewrite C40_delay_resp_sent in H by assumption. apply some_inj2 in H. subst m.
  pose proof P as (_ & _ & _ & _ & _ & _ & _ & _ & _ & P2 & _).
  rewrite C40_response_received.
  - eexists _, _. split; [reflexivity|]. cbn [seqId domain correction sent_header].
    split; [reflexivity|]. split; [reflexivity|].
    rewrite local16_split. unfold wire_stamp, fraction16. ring.
  - apply sent_fits; try assumption; unfold in_u, in_s; try lia.
  - reflexivity.
  - destruct N as (_ & N & _). split; unfold in_u; cbn [w_sec w_ns]; [lia|]. change (2^32) with 4294967296. lia.
  - split; assumption.
  - reflexivity.
  - right. left. reflexivity.
Qed.
Example C40_delay_resp_time_ex : exists m, pack_delay_resp ex_port ex_request ex_time old64 = Some (Some m).
Proof. eexists. vm_compute. reflexivity. Qed.

(** Seconds beyond 48 bits are truncated, so for them the same statement is false (the
    internal seconds count has 64 bits). *)
Theorem C40_follow_up_time_refuted :
  ~ (forall p t seq b m, port_ok p -> normal t -> 0 <= sec t -> in_u 16 seq -> (44 <= length b)%nat ->
       pack_follow_up p t seq b = Some (Some m) ->
       exists h s, decode m = Some (Some (h, BStamp s)) /\ stamp16 s + correction h = local16 t).
Proof.
  intros H. specialize (H ex_port (mkTs (2^48) 0 0) 1 (repeat 0 44)).
  edestruct H as (h & s & D & E).
  - exact ex_port_ok.
  - unfold normal; cbn; lia.
  - cbn; lia.
  - unfold in_u; lia.
  - cbn; lia.
  - vm_compute. reflexivity.
  - vm_compute in D. injection D as <- <-. vm_compute in E. discriminate E.
Qed.

(** *** C41: every datagram is decoded safely *)
(** The full statement: decoding never leaves the octets that were received.  False: a management
    message of which exactly 46 octets are usable is read one octet too far. *)
Theorem C41_decode_total_refuted :
  ~ (forall d, all_octets d -> decode d <> None).
Proof.
  intros H. apply (H ([13; 2; 0; 46] ++ repeat 0 42)).
  - repeat (apply Forall_cons; [unfold is_octet; lia|]); apply Forall_nil.
  - vm_compute. reflexivity.
Qed.

(** What holds: every other datagram is decoded or rejected. *)
Theorem C41_decode_total_partial : forall d, all_octets d ->
  ~ (claimed_code d = kind_code KManagement /\ usable d = 46%nat) -> decode d <> None.
Proof.
  intros d A N. destruct (decode_outcome d A) as (D1 & D2 & D3).
  destruct (Nat.ltb_spec (length d) 34) as [L|L]; [rewrite D1 by assumption; discriminate|].
  assert (K : (exists k, claimed_code d = kind_code k) \/ forall k, claimed_code d <> kind_code k).
  { destruct (in_dec Z.eq_dec (claimed_code d) (map kind_code [KSync; KDelayReq; KPDelayReq; KPDelayResp; KFollowUp; KDelayResp; KPDelayRespFollowUp; KAnnounce; KSignaling; KManagement])) as [I|I].
    - left. apply in_map_iff in I. destruct I as (k & E & _). exists k. auto.
    - right. intros k E. apply I. rewrite E. apply in_map. destruct k; cbn; tauto. }
  destruct K as [(k & K)|K]; [|rewrite D2 by assumption; discriminate].
  destruct (D3 k L K) as (E1 & _ & E3 & E4).
  destruct (Nat.ltb_spec (usable d) (kind_size k)) as [U1|U1].
  - rewrite E1; [discriminate|assumption|]. intros (-> & X). apply N. auto.
  - destruct k.
    10: { destruct (Nat.ltb_spec (usable d) 54) as [U2|U2]; destruct (Z.ltb_spec 48 (claimed_length d)) as [C|C].
          - destruct E3 as (h & m & ->); [reflexivity|cbn in U1; lia|assumption|discriminate].
          - destruct E4 as (h & m & -> & _); [assumption|lia|discriminate].
          - destruct E4 as (h & m & -> & _); [assumption|lia|discriminate].
          - destruct E4 as (h & m & -> & _); [assumption|lia|discriminate]. }
    all: destruct E4 as (h & m & -> & _); [assumption|intros (X & _); discriminate X|discriminate].
Qed.
Example C41_decode_total_ex : exists d, all_octets d /\ claimed_code d = kind_code KManagement /\
  usable d = 47%nat /\ decode d = Some None.
Proof.
  exists ([13; 2; 0; 47] ++ repeat 0 60). split; [repeat (apply Forall_cons; [unfold is_octet; lia|]); apply Forall_nil|].
  split; [reflexivity|]. split; [reflexivity|vm_compute; reflexivity].
Qed.

(** What is rejected: datagrams shorter than a header, unknown kinds, messages of which fewer
    octets are usable than their kind has. *)
Theorem C41_decode_rejects : forall d, all_octets d ->
  ((length d < 34)%nat -> decode d = Some None) /\
  ((34 <= length d)%nat -> (forall k, claimed_code d <> kind_code k) -> decode d = Some None) /\
  (forall k, (34 <= length d)%nat -> claimed_code d = kind_code k -> (usable d < kind_size k)%nat ->
     ~ (k = KManagement /\ usable d = 46%nat) -> decode d = Some None).
Proof.
  intros d A. destruct (decode_outcome d A) as (D1 & D2 & D3). split; [exact D1|]. split; [exact D2|].
  intros k L K U1 N. destruct (D3 k L K) as (E1 & _). auto.
Qed.
Example C41_decode_rejects_ex : all_octets ([9; 2; 0; 54] ++ repeat 0 49) /\
  claimed_code ([9; 2; 0; 54] ++ repeat 0 49) = kind_code KDelayResp /\
  usable ([9; 2; 0; 54] ++ repeat 0 49) = 53%nat.
Proof. split; [repeat (apply Forall_cons; [unfold is_octet; lia|]); apply Forall_nil|split; reflexivity]. Qed.

(** What is accepted stands for the octets received: the decoded header and body, written out
    again, are those octets.  [seen_header] reverses the type specific field (see C40).  The
    exception is a management message claiming a TLV of which fewer than 54 octets are usable. *)
Theorem C41_decode_faithful_partial : forall d k, all_octets d -> (34 <= length d)%nat ->
  claimed_code d = kind_code k -> (kind_size k <= usable d)%nat ->
  ~ (k = KManagement /\ (usable d < 54)%nat /\ 48 < claimed_length d) ->
  exists h m, decode d = Some (Some (h, m)) /\ header_fits h /\
    header_wire (seen_header h) = firstn 34 d /\ says k d m.
Proof. intros d k A L K U1 N. destruct (decode_outcome d A) as (_ & _ & D3). apply (D3 k L K); assumption. Qed.
Definition ex_mgmt : octets := [13; 2; 0; 54] ++ repeat 0 50.
Example C41_decode_faithful_ex : all_octets ex_mgmt /\ claimed_code ex_mgmt = kind_code KManagement /\
  (kind_size KManagement <= usable ex_mgmt)%nat /\ ~ (usable ex_mgmt < 54)%nat.
Proof. split; [repeat (apply Forall_cons; [unfold is_octet; lia|]); apply Forall_nil|]. split; [reflexivity|]. split; vm_compute; lia. Qed.

(** In that exception the message is accepted with a TLV that has been freed. *)
Theorem C41_management_tlv_refuted :
  ~ (forall d h m t, all_octets d -> decode d = Some (Some (h, BMgmt m t)) -> t <> Freed).
Proof.
  intros H.
  assert (A : all_octets ([13; 2; 0; 54] ++ repeat 0 46)) by (repeat (apply Forall_cons; [unfold is_octet; lia|]); apply Forall_nil).
  destruct (decode_outcome _ A) as (_ & _ & D).
  destruct (D KManagement) as (_ & _ & E & _); [cbn; lia|reflexivity|].
  destruct E as (h & m & E); [reflexivity|vm_compute; lia|reflexivity|].
  exact (H _ _ _ _ A E eq_refl).
Qed.

(** Octets beyond the claimed length (padding of short frames) have no influence. *)
Theorem C41_padding_ignored : forall d pad, all_octets d -> (34 <= length d)%nat ->
  claimed_length d <= Z.of_nat (length d) -> decode (d ++ pad) = decode d.
Proof. exact decode_padding. Qed.
Example C41_padding_ignored_ex : claimed_length ([0; 2; 0; 44] ++ repeat 1 40) = 44 /\
  decode ([0; 2; 0; 44] ++ repeat 1 40 ++ [7; 7; 7]) = decode ([0; 2; 0; 44] ++ repeat 1 40).
Proof. split; [reflexivity|vm_compute; reflexivity]. Qed.

(** Reading a table (of a data set or TLV) from offset [off]: exactly which lengths make it read
    beyond the buffer, and that otherwise it succeeds exactly when the table's octets are there. *)
Theorem C41_table_outcome : forall fs b off, (off <= length b)%nat ->
  let room := (length b - off)%nat in
  (In room (bad_lengths fs 0) -> unpack_fields fs b off = None) /\
  (~ In room (bad_lengths fs 0) -> (room < table_size fs)%nat -> unpack_fields fs b off = Some None) /\
  (~ In room (bad_lengths fs 0) -> (table_size fs <= room)%nat ->
     exists vs, unpack_fields fs b off = Some (Some vs) /\ length vs = length fs).
Proof.
  intros fs b off O room. unfold room. rewrite <- !overread_dec.
  destruct (unpack_fields_cases fs b off O) as [(P & E)|[(P & T & E)|(P & T & vs & E & L)]].
  - split; [auto|]. split; intros; contradiction.
  - split; [intros; contradiction|]. split; [auto|]. intros. lia.
  - split; [intros; contradiction|]. split; [intros; lia|]. eauto.
Qed.
(** The lengths concerned: none for the TLVs a monitor receives and for most data sets; for the
    others, these numbers of octets of data. *)
Example C41_table_outcome_ex :
  Forall (fun fs => bad_lengths fs 0 = [])
    [d_mgmt_tlv; d_initialize; d_default_ds; d_current_ds; d_time_props; d_octet_reserved; d_signed_reserved;
     d_time; d_utc_props; d_port_caps; d_timing_pre; d_timing_el; d_computed_pre; d_computed_el; d_txts_el;
     d_slave_status] /\
  bad_lengths d_port_ds 0 = [25%nat] /\ bad_lengths d_version 0 = [0%nat] /\
  bad_lengths d_slave_only 0 = [1%nat; 2%nat; 3%nat] /\
  bad_lengths d_parent_ds 0 = [11%nat; 12%nat; 13%nat] /\ bad_lengths d_txts_pre 0 = [11%nat].
Proof. repeat (split; [repeat (apply Forall_cons; [reflexivity|]); try apply Forall_nil; reflexivity|]). reflexivity. Qed.

(** A complete SLAVE_ONLY data field (a Boolean octet and a reserved octet) is read two octets
    beyond the message, ... *)
Theorem C41_slave_only_refuted :
  ~ (forall b, all_octets b -> length b = 56%nat -> unpack_fields d_slave_only b 54 <> None).
Proof.
  intros H. apply (H (repeat 1 56)); [repeat (apply Forall_cons; [unfold is_octet; lia|]); apply Forall_nil|reflexivity|].
  vm_compute. reflexivity.
Qed.
(** ... and the value obtained depends on the octets that follow, with one written out that way. *)
Theorem C40_boolean_refuted :
  ~ (forall pre v reserved rest, in_u 1 v -> in_u 8 reserved -> length pre = 54%nat ->
       unpack_fields d_slave_only (pre ++ [v; reserved] ++ rest) 54 = Some (Some [v; reserved])).
Proof.
  intros H. specialize (H (repeat 0 54) 1 0 [0; 1]). unfold in_u in H.
  specialize (H ltac:(cbn; lia) ltac:(cbn; lia) eq_refl). vm_compute in H. discriminate H.
Qed.

(** *** C41: messages being built stay within their buffer *)
(** With room for the header but not for the message the result is an error; with no room for the
    header the program aborts.  (Its callers use buffers of fixed, sufficient size.) *)
Theorem C41_pack_space_partial : forall p h t seq b,
  ((34 <= length b < 44)%nat -> pack_sync p b = Some None /\ pack_delay_req p b = Some None /\
     pack_pdelay_req p b = Some None /\ pack_follow_up p t seq b = Some None) /\
  ((34 <= length b < 54)%nat -> pack_delay_resp p h t b = Some None /\ pack_pdelay_resp p h t b = Some None /\
     pack_pdelay_resp_follow_up p h t seq b = Some None) /\
  ((34 <= length b < 64)%nat -> pack_announce p b = Some None).
Proof.
  intros p h t seq b. split; [|split]; intros L.
  - split; [apply pack_start_short; lia|]. split; [apply pack_start_short; lia|]. split; apply pack_start_short; lia.
  - split; [apply pack_start_short; lia|]. split; apply pack_start_short; lia.
  - apply pack_start_short; lia.
Qed.
Example C41_pack_space_ex : (34 <= length (repeat 0 43) < 44)%nat /\ pack_sync ex_port (repeat 0 43) = Some None.
Proof. split; [cbn; lia|vm_compute; reflexivity]. Qed.

(** The full statement, no message is written beyond its buffer, is false of Pdelay_Req: 54 octets
    are written where room for 44 was checked. *)
Theorem C41_pdelay_req_space_refuted :
  ~ (forall p b, port_ok p -> (34 <= length b)%nat -> pack_pdelay_req p b <> None).
Proof.
  intros H. apply (H ex_port (repeat 0 53) ex_port_ok); [cbn; lia|].
  apply pack_pdelay_req_overrun. cbn. lia.
Qed.

Print Assumptions C40_sync_sent.
Print Assumptions C40_delay_req_sent.
Print Assumptions C40_pdelay_req_sent.
Print Assumptions C40_announce_sent_partial.
Print Assumptions C40_announce_reserved_refuted.
Print Assumptions C40_follow_up_sent.
Print Assumptions C40_delay_resp_sent.
Print Assumptions C40_pdelay_resp_sent.
Print Assumptions C40_pdelay_resp_follow_up_sent.
Print Assumptions C40_delay_resp_overflow_refuted.
Print Assumptions C40_negative_time_refuted.
Print Assumptions C40_header_received_partial.
Print Assumptions C40_header_received_refuted.
Print Assumptions C40_timestamp_message_received.
Print Assumptions C40_pdelay_req_received.
Print Assumptions C40_response_received.
Print Assumptions C40_announce_received.
Print Assumptions C40_table_roundtrip.
Print Assumptions C40_follow_up_time.
Print Assumptions C40_delay_resp_time.
Print Assumptions C40_follow_up_time_refuted.
Print Assumptions C40_boolean_refuted.
Print Assumptions C41_decode_total_refuted.
Print Assumptions C41_decode_total_partial.
Print Assumptions C41_decode_rejects.
Print Assumptions C41_decode_faithful_partial.
Print Assumptions C41_management_tlv_refuted.
Print Assumptions C41_padding_ignored.
Print Assumptions C41_table_outcome.
Print Assumptions C41_slave_only_refuted.
Print Assumptions C41_pack_space_partial.
Print Assumptions C41_pdelay_req_space_refuted.
