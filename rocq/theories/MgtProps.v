(** C60: management messages are answered and obeyed as the standard and the configuration say, and only then. *)
Require Import ZArith List Bool Lia ZifyBool.
Import ListNotations.
From Verif Require Import Base TimeSpec MsgSpec MsgModel MgtSpec MgtModel MgtProof MgtProof2 MgtProof3.
Open Scope Z_scope.

(** *** Concrete requests for the examples: from port 1 of clock 77, number 5, to everyone. *)
Definition ask (flags action id : Z) (claimed : Z) (data : octets) : octets :=
  wire [1 @@ 13; 1 @@ 2; 2 @@ claimed; 1 @@ 0; 1 @@ 0; 1 @@ flags; 1 @@ 0; 8 @@ 0; 4 @@ 0; 8 @@ 77; 2 @@ 1; 2 @@ 5; 1 @@ 4; 1 @@ 127; 8 @@ -1; 2 @@ -1; 1 @@ 3; 1 @@ 1; 1 @@ action; 1 @@ 0;
        2 @@ 1; 2 @@ 2 + Z.of_nat (length data); 2 @@ id] ++ data.
Definition asked (action id : Z) (data : octets) : octets := ask 0 action id (54 + Z.of_nat (length data)) data.
Definition rest (d : octets) : octets := repeat 0 (500 - length d).
Definition s0 : settings := mkS false 128 129 7 1 6 0 1 0 33 37 true false false true false 9 false 0 ([72; 105] ++ repeat 0 127).
Definition s1 : settings := mkS false 128 129 7 1 6 0 1 0 33 37 true false false true false 6 false 0 ([72; 105] ++ repeat 0 127).
Definition f0 : facts := mkF (mkPort 99 1) 1 99 1 248 65535 false 0 0 0 (mkPort 77 1) false 65535 0 128 6 32 20000 128 77 0 true 160 [1; 2; 3; 4; 5; 6] 1 [10; 0; 0; 1] [83] [51] [0; 27; 25; 0; 1; 0].
Definition o_rw : options := mkO true true false false None true.
Definition o_ro : options := mkO true false false false None true.
Definition o_off : options := mkO false false false false None true.
Definition c0 : counters := mkC 0 0 0 0 0.
Definition noon : ts := mkTs 1000 500 0.
Definition ob : octets := repeat 170 500.
Lemma fits0 : settings_fit s0 /\ settings_fit s1 /\ facts_fit f0.
Proof.
  assert (D : all_octets ([72; 105] ++ repeat 0 127)) by (apply Forall_forall; intros x [<-|[<-|I]]; [split; reflexivity || discriminate|split; reflexivity || discriminate|apply repeat_spec in I; subst; split; reflexivity || discriminate]).
  split; [|split].
  - repeat (split; [first [exact D|split; (reflexivity || discriminate)|reflexivity]|]). right. right. left. reflexivity.
  - repeat (split; [first [exact D|split; (reflexivity || discriminate)|reflexivity]|]). right. right. left. reflexivity.
  - repeat (split; [first [reflexivity|split; (reflexivity || discriminate)|split; split; (reflexivity || discriminate)|left; reflexivity|cbn; lia]|]). reflexivity.
Qed.
Definition octets_b (l : octets) : bool := forallb (fun x => (0 <=? x) && (x <? 256)) l.
Lemma octets_ok : forall l, octets_b l = true -> all_octets l.
Proof. intros l H. unfold octets_b in H. rewrite forallb_forall in H. apply Forall_forall. intros x I. apply H in I. unfold is_octet. lia. Qed.

(** C60, silence.  A message that is not to be answered (management disabled; not a request with a management TLV; not addressed to this port) changes nothing and causes nothing to be sent. *)
Theorem C60_silent : forall o f now from obuf sendable d stale s c r, all_octets d -> answered o (f_id f) d = false ->
  receive o f now from obuf sendable d stale s c = Some (Some r) -> r_settings r = s /\ r_sent r = [].
Proof. exact silent. Qed.
Print Assumptions C60_silent.
(** A response (action 2) to somebody's request, and any request while management is disabled. *)
Example C60_silent_ex : let d := asked 2 ID_PRIORITY1 [5; 0] in let d' := asked 1 ID_PRIORITY1 [5; 0] in
  all_octets d /\ answered o_rw (f_id f0) d = false /\ answered o_off (f_id f0) d' = false /\ answered o_rw (f_id f0) d' = true /\
  exists r, receive o_rw f0 noon 7 ob true d (rest d) s0 c0 = Some (Some r) /\ receive o_off f0 noon 7 ob true d' (rest d') s0 c0 = Some (Some r).
Proof.
  cbv zeta. split; [apply octets_ok; vm_compute; reflexivity|]. split; [vm_compute; reflexivity|]. split; [vm_compute; reflexivity|]. split; [vm_compute; reflexivity|].
  eexists. split; vm_compute; reflexivity.
Qed.

(** C60, effect: after a request, every setting has the value the request asks for, if changes are permitted and the port is addressed, and its former value otherwise: nothing else is changed.
    (The port's state is the exception if the answer cannot be sent: it then becomes listening, or faulty.)
    Partial: a request to clear the slave-only setting must be followed by octets of zero (see C60_slave_only_refuted); of a description, what counts is the string up to the first NUL. *)
Theorem C60_effect_partial : forall o f now from obuf sendable d stale s c r, all_octets d -> clean d stale -> receive o f now from obuf sendable d stale s c = Some (Some r) ->
  (forall x, x <> State -> value x (r_settings r) = becomes o (f_id f) s d x) /\
  value State (r_settings r) =
    (if answered o (f_id f) d && negb (sendable && match destined o from d with Some _ => true | None => false end) then if o_tolerant o then LISTENING else FAULTY else becomes o (f_id f) s d State) /\
  text (s_desc (r_settings r)) = match (if answered o (f_id f) d && o_set o then asks_description d else None) with Some t => text t | None => text (s_desc s) end.
Proof. exact effect. Qed.
Print Assumptions C60_effect_partial.
(** Priority 1 is set to 5 by a master's request and is 5 afterwards; UTC properties are not changed on a slave, but on a master. *)
Example C60_effect_ex : let d := asked 1 ID_PRIORITY1 [5; 0] in let u := asked 1 ID_UTC [0; 36; 6; 0] in
  all_octets d /\ clean d (rest d) /\ all_octets u /\ clean u (rest u) /\ becomes o_rw (f_id f0) s0 d Priority1 = 5 /\ becomes o_ro (f_id f0) s0 d Priority1 = 128 /\
  becomes o_rw (f_id f0) s0 u UtcOffset = 37 /\ becomes o_rw (f_id f0) s1 u UtcOffset = 36 /\ becomes o_rw (f_id f0) s1 u Leap59 = 1 /\
  (exists r, receive o_rw f0 noon 7 ob true d (rest d) s0 c0 = Some (Some r) /\ s_prio1 (r_settings r) = 5) /\
  (exists r, receive o_rw f0 noon 7 ob false u (rest u) s1 c0 = Some (Some r) /\ s_utc (r_settings r) = 36 /\ s_state (r_settings r) = 2).
Proof.
  cbv zeta. split; [apply octets_ok; vm_compute; reflexivity|]. split; [intro E; vm_compute in E; discriminate E|]. split; [apply octets_ok; vm_compute; reflexivity|].
  split; [intro E; vm_compute in E; discriminate E|]. repeat (split; [vm_compute; reflexivity|]). split.
  - eexists. split; vm_compute; reflexivity.
  - eexists. split; [vm_compute; reflexivity|]. split; vm_compute; reflexivity.
Qed.

(** C60, the answer: a request that is to be answered gets exactly one answer: to the destination due, with the requester's identity as target and its sequence number, this port's identity and domain; an error status if
    the request is refused, and otherwise the management id and the data that describe the settings after the request.  It is counted as received, and the answer as sent.
    Partial: see [clean]; reading the default data set of a two-step port (see C60_two_step_refuted). *)
Theorem C60_reply_partial : forall o f now from obuf d stale s c r to, all_octets d -> length obuf = 500%nat -> settings_fit s -> facts_fit f -> clean d stale ->
  (q_id d = ID_DEFAULT_DS -> f_two_step f = false) ->
  answered o (f_id f) d = true -> destined o from d = Some to -> receive o f now from obuf true d stale s c = Some (Some r) ->
  r_sent r = [(to, expected o f s (r_settings r) now to d)] /\ c_received (r_counters r) = (c_received c + 1) mod 2 ^ 64 /\ c_sent (r_counters r) = (c_sent c + 1) mod 2 ^ 64.
Proof. exact replied. Qed.
Print Assumptions C60_reply_partial.
(** Three requests: priority 1 is written and answered with its new value; a unicast request for the time properties; a write refused because changes are not permitted. *)
Example C60_reply_ex : let d := asked 1 ID_PRIORITY1 [5; 0] in let t := ask 4 0 ID_TIME_PROPERTIES 54 [] in
  all_octets d /\ all_octets t /\ length ob = 500%nat /\ settings_fit s0 /\ facts_fit f0 /\ clean d (rest d) /\ clean t (rest t) /\ answered o_rw (f_id f0) d = true /\
  destined o_rw 7 d = Some Multicast /\ destined o_rw 7 t = Some (Address 7) /\
  (exists r, receive o_rw f0 noon 7 ob true d (rest d) s0 c0 = Some (Some r) /\
     r_sent r = [(Multicast, wire [1 @@ 13; 1 @@ 18; 2 @@ 56; 1 @@ 7; 1 @@ 0; 2 @@ 0; 8 @@ 0; 4 @@ 0; 8 @@ 99; 2 @@ 1; 2 @@ 5; 1 @@ 4; 1 @@ 127; 8 @@ 77; 2 @@ 1; 1 @@ 2; 1 @@ 2; 1 @@ 2; 1 @@ 0;
                                   2 @@ 1; 2 @@ 4; 2 @@ 0x2005; 1 @@ 5; 1 @@ 0])]) /\
  (exists r, receive o_rw f0 noon 7 ob true t (rest t) s0 c0 = Some (Some r) /\
     r_sent r = [(Address 7, wire [1 @@ 13; 1 @@ 18; 2 @@ 58; 1 @@ 7; 1 @@ 0; 2 @@ 0x400; 8 @@ 0; 4 @@ 0; 8 @@ 99; 2 @@ 1; 2 @@ 5; 1 @@ 4; 1 @@ 127; 8 @@ 77; 2 @@ 1; 1 @@ 2; 1 @@ 2; 1 @@ 2; 1 @@ 0;
                                   2 @@ 1; 2 @@ 6; 2 @@ 0x2003; 2 @@ 37; 1 @@ 28; 1 @@ 160])]) /\
  (exists r, receive o_ro f0 noon 7 ob true d (rest d) s0 c0 = Some (Some r) /\
     r_sent r = [(Multicast, wire [1 @@ 13; 1 @@ 18; 2 @@ 62; 1 @@ 7; 1 @@ 0; 2 @@ 0; 8 @@ 0; 4 @@ 0; 8 @@ 99; 2 @@ 1; 2 @@ 5; 1 @@ 4; 1 @@ 127; 8 @@ 77; 2 @@ 1; 1 @@ 2; 1 @@ 2; 1 @@ 2; 1 @@ 0;
                                   2 @@ 2; 2 @@ 10; 2 @@ 6; 2 @@ 0x2005; 6 @@ 0])]).
Proof.
  cbv zeta. split; [apply octets_ok; vm_compute; reflexivity|]. split; [apply octets_ok; vm_compute; reflexivity|]. split; [reflexivity|]. split; [apply fits0|]. split; [apply fits0|].
  split; [intro E; vm_compute in E; discriminate E|]. split; [intro E; vm_compute in E; discriminate E|]. repeat (split; [vm_compute; reflexivity|]).
  split; [|split]; eexists; (split; vm_compute; reflexivity).
Qed.

(** Nothing is sent if there is nowhere to send it or the system does not take it. *)
Theorem C60_unsent : forall o f now from obuf sendable d stale s c r, all_octets d -> sendable && match destined o from d with Some _ => true | None => false end = false ->
  receive o f now from obuf sendable d stale s c = Some (Some r) -> r_sent r = [].
Proof. exact unsent. Qed.
Print Assumptions C60_unsent.
(** A multicast request to a port that sends no multicast, and one whose answer the system refuses. *)
Example C60_unsent_ex : let d := asked 0 ID_PRIORITY1 [] in let o := mkO true true false false None false in
  all_octets d /\ destined o 7 d = None /\ (exists r, receive o f0 noon 7 ob true d (rest d) s0 c0 = Some (Some r)) /\ exists r, receive o_rw f0 noon 7 ob false d (rest d) s0 c0 = Some (Some r).
Proof. cbv zeta. split; [apply octets_ok; vm_compute; reflexivity|]. split; [vm_compute; reflexivity|]. split; eexists; vm_compute; reflexivity. Qed.

(** C60, ranges: requests keep every setting within its field, and the description a terminated string within its array. *)
Theorem C60_ranges : forall o f now from obuf sendable d stale s c r, all_octets d -> clean d stale -> settings_fit s ->
  receive o f now from obuf sendable d stale s c = Some (Some r) -> settings_fit (r_settings r).
Proof. exact fits. Qed.
Print Assumptions C60_ranges.
Example C60_ranges_ex : let d := asked 1 ID_LOG_SYNC [251; 0] in
  settings_fit s0 /\ all_octets d /\ clean d (rest d) /\ exists r, receive o_rw f0 noon 7 ob true d (rest d) s0 c0 = Some (Some r) /\ s_log_sync (r_settings r) = -5.
Proof. cbv zeta. split; [apply fits0|]. split; [apply octets_ok; vm_compute; reflexivity|]. split; [intro E; vm_compute in E; discriminate E|]. eexists. split; vm_compute; reflexivity. Qed.

(** C60, histories: whatever requests are received, in whatever order, a setting for which none of them asks keeps its value ... *)
Theorem C60_kept : forall o f x l s c s' c', x <> State ->
  Forall (fun q => all_octets (e_msg q) /\ clean (e_msg q) (e_stale q) /\ forall s, answered o (f_id f) (e_msg q) && o_set o = true -> asks s (e_msg q) x = None) l ->
  serve o f l s c = Some (s', c') -> value x s' = value x s.
Proof. exact serve_unasked. Qed.
Print Assumptions C60_kept.
(** ... and while changes are not permitted nothing is ever changed (apart from the port's state when an answer cannot be sent). *)
Theorem C60_read_only : forall o f l s c s' c', o_set o = false -> Forall (fun q => all_octets (e_msg q) /\ clean (e_msg q) (e_stale q)) l ->
  serve o f l s c = Some (s', c') ->
  (forall x, x <> State -> value x s' = value x s) /\ text (s_desc s') = text (s_desc s) /\
  (Forall (fun q => e_sendable q && match destined o (e_from q) (e_msg q) with Some _ => true | None => false end = true) l -> value State s' = value State s).
Proof. exact serve_read_only. Qed.
Print Assumptions C60_read_only.
Example C60_history_ex : let q d := mkQ noon 7 ob true d (rest d) in
  let l := [q (asked 1 ID_PRIORITY1 [5; 0]); q (asked 1 ID_USER_DESCRIPTION [2; 65; 66]); q (asked 3 ID_DISABLE_PORT []); q (asked 0 ID_CLOCK_DESCRIPTION [])] in
  Forall (fun q => all_octets (e_msg q) /\ clean (e_msg q) (e_stale q)) l /\ Forall (fun q => all_octets (e_msg q) /\ clean (e_msg q) (e_stale q) /\ forall s, answered o_rw (f_id f0) (e_msg q) && o_set o_rw = true -> asks s (e_msg q) Priority2 = None) l /\
  (exists s c, serve o_ro f0 l s0 c0 = Some (s, c) /\ s = s0 /\ c_sent c = 4) /\
  (exists s c, serve o_rw f0 l s0 c0 = Some (s, c) /\ s_prio1 s = 5 /\ s_prio2 s = 129 /\ s_state s = 3 /\ text (s_desc s) = [65; 66]).
Proof.
  cbv zeta. split; [|split].
  - repeat (constructor; [cbn [e_msg e_stale]; split; [apply octets_ok; vm_compute; reflexivity|intro E; vm_compute in E; discriminate E]|]). constructor.
  - repeat (constructor; [cbn [e_msg e_stale]; split; [apply octets_ok; vm_compute; reflexivity|]; split; [intro E; vm_compute in E; discriminate E|intros s _; vm_compute; reflexivity]|]). constructor.
  - split; eexists; eexists; (split; [vm_compute; reflexivity|]); repeat split; vm_compute; reflexivity.
Qed.

(** C60, written is read: if a request sets a setting and, after any number of other requests that do not ask for it, it is still that value, what is read is what was written; here for priority 1. *)
Theorem C60_set_then_get : forall o f now from obuf stale d s c r l s' c' now' from' obuf' stale' d' r' to,
  all_octets d -> clean d stale -> answered o (f_id f) d = true -> o_set o = true -> q_action d = SET -> q_id d = ID_PRIORITY1 -> settings_fit s -> facts_fit f ->
  receive o f now from obuf true d stale s c = Some (Some r) ->
  Forall (fun q => all_octets (e_msg q) /\ clean (e_msg q) (e_stale q) /\ forall s, answered o (f_id f) (e_msg q) && o_set o = true -> asks s (e_msg q) Priority1 = None) l ->
  serve o f l (r_settings r) (r_counters r) = Some (s', c') -> settings_fit s' ->
  all_octets d' -> clean d' stale' -> answered o (f_id f) d' = true -> q_action d' = GET -> q_id d' = ID_PRIORITY1 -> length obuf' = 500%nat -> destined o from' d' = Some to ->
  receive o f now' from' obuf' true d' stale' s' c' = Some (Some r') ->
  exists msg, r_sent r' = [(to, msg)] /\ octet 54 msg = octet 54 d.
Proof.
  intros o f now from obuf stale d s c r l s' c' now' from' obuf' stale' d' r' to A C AN SP AC ID FS FF R FA SV FS' A' C' AN' AC' ID' LO DT R'.
  destruct (effect _ _ _ _ _ _ _ _ _ _ _ A C R) as (E1 & _ & _). specialize (E1 Priority1 ltac:(discriminate)). unfold becomes in E1. rewrite AN, SP in E1. cbn [andb] in E1. unfold asks in E1. cbv zeta in E1.
  rewrite AC, ID in E1. cbn [Z.eqb Pos.eqb andb SET ID_PRIORITY1] in E1.
  pose proof (serve_unasked o f Priority1 l _ _ _ _ ltac:(discriminate) FA SV) as E2. cbn [value] in *.
  destruct (replied o f now' from' obuf' d' stale' s' c' r' to A' LO FS' FF C') as (E3 & _); [intros Q; rewrite ID' in Q; discriminate|assumption|assumption|assumption|].
  eexists. split; [exact E3|].
  destruct (effect _ _ _ _ _ _ _ _ _ _ _ A' C' R') as (E4 & _ & _). specialize (E4 Priority1 ltac:(discriminate)). unfold becomes, asks in E4. cbv zeta in E4. rewrite AC' in E4. cbn [value] in E4.
  assert (E5 : s_prio1 (r_settings r') = octet 54 d) by (rewrite <- E1, <- E2; destruct (answered o (f_id f) d' && o_set o); exact E4).
  assert (V0 : verdict o s' d' = 0) by (unfold verdict; cbv zeta; rewrite AC', ID'; change (GET =? SET) with false; change (GET =? COMMAND) with false; rewrite andb_false_r; reflexivity).
  unfold expected. cbv zeta. rewrite V0. cbn [Z.eqb].
  assert (CO : contents o f (r_settings r') now' d' = wire [1 @@ octet 54 d; 1 @@ 0]) by (unfold contents; cbv zeta; rewrite ID'; rewrite <- E5; reflexivity). rewrite CO.
  unfold answer. cbv zeta. unfold octet at 1. rewrite app_nth2 by (rewrite MsgProof.wire_length; cbn; lia).
  match goal with |- nth ?n _ _ = _ => replace n with 0%nat by (rewrite MsgProof.wire_length; reflexivity) end.
  cbn [wire flat_map fst snd app]. rewrite bytes1_octet by (apply (octet_u 54 d A)). reflexivity.
Qed.
Print Assumptions C60_set_then_get.
Example C60_set_then_get_ex : let d := asked 1 ID_PRIORITY1 [5; 0] in let d' := asked 0 ID_PRIORITY1 [] in let q d := mkQ noon 7 ob true d (rest d) in
  exists r s' c' r' msg, receive o_rw f0 noon 7 ob true d (rest d) s0 c0 = Some (Some r) /\ serve o_rw f0 [q (asked 1 ID_PRIORITY2 [6; 0])] (r_settings r) (r_counters r) = Some (s', c') /\
    receive o_rw f0 noon 7 ob true d' (rest d') s' c' = Some (Some r') /\ r_sent r' = [(Multicast, msg)] /\ octet 54 msg = 5 /\ s_prio2 s' = 6.
Proof.
  cbv zeta. eexists; eexists; eexists; eexists; eexists. split; [vm_compute; reflexivity|]. split; [vm_compute; reflexivity|]. split; [vm_compute; reflexivity|]. split; [vm_compute; reflexivity|]. split; vm_compute; reflexivity.
Qed.

(** C60, safety: a whole message is handled without undefined behaviour.
    The full claim, for every datagram, is refuted below: messages that end early, truth values.  Partial also: requests to write a clock description; times before 1970 (see MsgProps). *)
Theorem C60_defined_partial : forall o f now from obuf sendable d stale s c, all_octets d -> length (d ++ stale) = 500%nat -> length obuf = 500%nat -> settings_fit s -> facts_fit f -> clean d stale ->
  (q_id d = ID_DEFAULT_DS -> f_two_step f = false) ->
  (q_id d = ID_TIME -> 0 <= shown_time o s now < 2 ^ 63) -> whole o (f_id f) d -> exists r, receive o f now from obuf sendable d stale s c = Some (Some r).
Proof. exact defined. Qed.
Print Assumptions C60_defined_partial.
Example C60_defined_ex : let d := asked 1 ID_PRIORITY1 [5; 0] in length (d ++ rest d) = 500%nat /\ whole o_rw (f_id f0) d.
Proof.
  cbv zeta. split; [vm_compute; reflexivity|]. split; [vm_compute; lia|]. split; [intros _; vm_compute; lia|]. intros _. split; [vm_compute; discriminate|vm_compute; lia].
Qed.

(** C60, refuted: "no message leads to undefined behaviour".  The data of a request that ends early is freed twice; for actions that do not exist (here 5) even if changes are not permitted. *)
Theorem C60_truncated_refuted : exists d, all_octets d /\ length (d ++ rest d) = 500%nat /\ (48 <= usable d)%nat /\ (54 <= usable d)%nat /\ o_set o_ro = false /\
  forall now from sendable, receive o_ro f0 now from ob sendable d (rest d) s0 c0 = None.
Proof.
  exists (asked 5 ID_PRIORITY1 []). split; [apply octets_ok; vm_compute; reflexivity|]. split; [vm_compute; reflexivity|]. split; [vm_compute; lia|]. split; [vm_compute; lia|]. split; [reflexivity|].
  intros now from sendable. vm_compute. reflexivity.
Qed.
Print Assumptions C60_truncated_refuted.
(** A message that claims a TLV and ends within it is undefined (use of freed memory) even if management is disabled. *)
Theorem C60_disabled_refuted : exists d, all_octets d /\ length (d ++ rest d) = 500%nat /\ (48 <= usable d)%nat /\ o_enabled o_off = false /\
  forall now from sendable, receive o_off f0 now from ob sendable d (rest d) s0 c0 = None.
Proof.
  exists (firstn 50 (ask 0 0 ID_PRIORITY1 50 [])). split; [apply octets_ok; vm_compute; reflexivity|]. split; [vm_compute; reflexivity|]. split; [vm_compute; lia|]. split; [reflexivity|].
  intros now from sendable. vm_compute. reflexivity.
Qed.
Print Assumptions C60_disabled_refuted.
(** A description shorter than it claims is copied from a null pointer. *)
Theorem C60_text_refuted : exists d, all_octets d /\ length (d ++ rest d) = 500%nat /\ (54 < usable d)%nat /\ forall now from sendable, receive o_rw f0 now from ob sendable d (rest d) s0 c0 = None.
Proof.
  exists (asked 1 ID_USER_DESCRIPTION [9; 65]). split; [apply octets_ok; vm_compute; reflexivity|]. split; [vm_compute; reflexivity|]. split; [vm_compute; lia|].
  intros now from sendable. vm_compute. reflexivity.
Qed.
Print Assumptions C60_text_refuted.
(** C60, refuted: "a request to clear the slave-only setting clears it": the octets behind the truth value, here a nonzero reserved octet and an earlier message's, are taken as part of it. *)
Theorem C60_slave_only_refuted : exists d stale r, all_octets d /\ length (d ++ stale) = 500%nat /\ whole o_rw (f_id f0) d /\ answered o_rw (f_id f0) d = true /\
  asks s0 d SlaveOnly = Some 0 /\ receive o_rw f0 noon 7 ob true d stale s0 c0 = Some (Some r) /\ value SlaveOnly (r_settings r) = 1.
Proof.
  exists (asked 1 ID_SLAVE_ONLY [0; 0]), (1 :: repeat 0 443). eexists. split; [apply octets_ok; vm_compute; reflexivity|]. split; [vm_compute; reflexivity|].
  split; [split; [vm_compute; lia|]; split; [intros _; vm_compute; lia|]; intros _; split; [vm_compute; discriminate|vm_compute; lia]|].
  split; [vm_compute; reflexivity|]. split; [vm_compute; reflexivity|]. split; vm_compute; reflexivity.
Qed.
Print Assumptions C60_slave_only_refuted.
(** C60, refuted: "the default data set tells whether the port is two-step": it is always reported as one-step. *)
Theorem C60_two_step_refuted : exists f d r msg, facts_fit f /\ f_two_step f = true /\ all_octets d /\ receive o_rw f noon 7 ob true d (rest d) s0 c0 = Some (Some r) /\ r_sent r = [(Multicast, msg)] /\
  octet 54 msg mod 2 = 0 /\ msg <> expected o_rw f s0 s0 noon Multicast d.
Proof.
  exists (mkF (mkPort 99 1) 1 99 1 248 65535 true 0 0 0 (mkPort 77 1) false 65535 0 128 6 32 20000 128 77 0 true 160 [1; 2; 3; 4; 5; 6] 1 [10; 0; 0; 1] [83] [51] [0; 27; 25; 0; 1; 0]), (asked 0 ID_DEFAULT_DS []).
  eexists; eexists. split; [repeat (split; [first [reflexivity|split; (reflexivity || discriminate)|split; split; (reflexivity || discriminate)|left; reflexivity|cbn; lia]|]); reflexivity|].
  split; [reflexivity|]. split; [apply octets_ok; vm_compute; reflexivity|]. split; [vm_compute; reflexivity|]. split; [vm_compute; reflexivity|]. split; [vm_compute; reflexivity|].
  intro E. vm_compute in E. discriminate E.
Qed.
Print Assumptions C60_two_step_refuted.
(** C60, refuted: "a unicast request is answered to its sender": a port configured with a unicast address answers to that. *)
Theorem C60_destination_refuted : exists o d r msg, all_octets d /\ q_unicast d = true /\ receive o f0 noon 7 ob true d (rest d) s0 c0 = Some (Some r) /\ r_sent r = [(Address 9, msg)].
Proof.
  exists (mkO true false false false (Some 9) true), (ask 4 0 ID_PRIORITY1 54 []). eexists; eexists. split; [apply octets_ok; vm_compute; reflexivity|]. split; [vm_compute; reflexivity|].
  split; vm_compute; reflexivity.
Qed.
Print Assumptions C60_destination_refuted.
