(** Proofs about management messages, continued: whole requests. *)
Require Import ZArith List Bool Lia ZifyBool.
Import ListNotations.
From Verif Require Import Base TimeSpec MsgSpec MsgModel MsgProof MsgProof2 MgtSpec MgtModel MgtProof MgtProof2.
Open Scope Z_scope.

Lemma ex_table : forall a fs d k, (a = 0 \/ (54 + table_size fs <= usable d)%nat) -> forallb (fun n => Nat.ltb n (table_size fs)) (bad_lengths fs 0) = true -> (54 <= usable d)%nat ->
  (a = 0 -> exists h, k [] = Some h) -> (forall vs, a <> 0 -> length vs = length fs -> exists h, k vs = Some h) ->
  exists h : hres, with_data a [] (unpack_fields fs (firstn (usable d) d) 54) k = Some h.
Proof.
  intros a fs d k L B L54 K0 K. unfold with_data. destruct (Z.eqb_spec a 0) as [E|N]; [auto|]. destruct L as [L|L]; [contradiction|].
  destruct (unpack_fields_cases fs (firstn (usable d) d) 54 ltac:(rewrite lenb; lia)) as [[O _]|[(_ & S' & _)|(_ & _ & vs & -> & LV)]]; rewrite ?lenb in *.
  - apply overread_dec in O. rewrite forallb_forall in B. apply B in O. apply Nat.ltb_lt in O. lia.
  - lia.
  - auto.
Qed.
Lemma cstring_some : forall l, In 0 l -> exists t, cstring l = Some t.
Proof.
  induction l as [|x l IH]; intros I; [contradiction|]. cbn [cstring]. destruct (Z.eqb_spec x 0) as [|N]; [eexists; reflexivity|]. destruct I as [E|I]; [congruence|].
  destruct (IH I) as (t & ->). eexists. reflexivity.
Qed.
Ltac ex_done := repeat match goal with |- exists h, (if ?c then _ else _) = Some h => destruct c end; try (eexists; reflexivity).
Ltac ex_tab := apply ex_table; [idtac|reflexivity|assumption
  |intros AZ; unfold_goal; rewrite ?AZ; cbn [Z.eqb Pos.eqb andb]; ex_done
  |let vs := fresh "vs" in intros vs AN LV; unfold_goal; destruct vs as [|v0 [|v1 [|v2 [|]]]]; try discriminate LV; ex_done]
with unfold_goal := unfold handleMMInitialize, handleMMDefaultDataSet, handleMMCurrentDataSet, handleMMParentDataSet,
  handleMMTimePropertiesDataSet, handleMMPortDataSet, handleMMPriority1, handleMMPriority2, handleMMDomain, handleMMLogAnnounceInterval, handleMMAnnounceReceiptTimeout, handleMMLogSyncInterval,
  handleMMVersionNumber, handleMMClockAccuracy, handleMMUtcProperties, handleMMTraceabilityProperties, handleMMDelayMechanism,
  handleMMLogMinPdelayReqInterval, only_get, set_or_get, ok, err; cbv zeta; cbn [bind].

Lemma decide_some : forall o f now d stale s, all_octets d -> (54 <= usable d)%nat -> (58 <= length (d ++ stale))%nat -> settings_fit s ->
  (q_id d = ID_TIME -> 0 <= shown_time o s now < 2 ^ 63) ->
  (negb (q_action d =? GET) && negb (negb (o_set o) && ((q_action d =? SET) || (q_action d =? COMMAND))) = true -> q_id d <> ID_CLOCK_DESCRIPTION /\ (54 + needed d <= usable d)%nat) ->
  exists h, decide o f now d stale s = Some h.
Proof.
  intros o f now d stale s A L LB FS TM W. unfold decide. unfold GET, SET, COMMAND in W.
  destruct (negb (o_set o) && ((q_action d =? 1) || (q_action d =? 3))) eqn:RO; [eexists; reflexivity|]. rewrite andb_true_r in W.
  assert (W' : q_action d = 0 \/ (q_id d <> ID_CLOCK_DESCRIPTION /\ (54 + needed d <= usable d)%nat)) by (destruct (Z.eqb_spec (q_action d) 0); [now left|right; apply W; reflexivity]).
  clear W RO. unfold dispatch. cbv zeta.
  destruct FS as (_ & _ & _ & _ & _ & _ & _ & _ & _ & _ & _ & _ & _ & NUL).
  destruct (Z.eqb_spec (q_id d) 0) as [E|N0]; [unfold handleMMNullManagement, ok, err; ex_done|].
  destruct (Z.eqb_spec (q_id d) 0x0001) as [E|N1].
  { destruct W' as [W'|[W' _]]; [|contradiction]. unfold with_data. rewrite W'. cbn [Z.eqb]. unfold handleMMClockDescription, only_get, ok. cbn [Z.eqb].
    destruct (cstring_some _ NUL) as (t & ->). cbn [bind]. eexists. reflexivity. }
  destruct (Z.eqb_spec (q_id d) 0x0002) as [E|N2].
  { destruct (cstring_some _ NUL) as (t & T). unfold with_data. destruct (Z.eqb_spec (q_action d) 0) as [A0|A0].
    - rewrite A0. unfold handleMMUserDescription, ok. cbn [Z.eqb]. cbv zeta. rewrite T. cbn [bind]. eexists. reflexivity.
    - destruct W' as [W'|[_ W']]; [contradiction|]. assert (NE : needed d = S (Z.to_nat (octet 54 d))) by (unfold needed, ID_USER_DESCRIPTION; rewrite E; reflexivity). rewrite NE in W'.
      pose proof (usable_le d) as UL. unfold unpackMMUserDescription, check. rewrite lenb. destruct (Nat.ltb_spec (usable d) (54 + 1)); [lia|].
      destruct (ld 1 (firstn (usable d) d) 54) as [n0|] eqn:E1; [|exfalso; unfold ld in E1; destruct (slice_some 1 (firstn (usable d) d) 54 ltac:(rewrite lenb; lia)) as (x & X & _); rewrite X in E1; discriminate].
      cbn [bind]. apply ld_num in E1. rewrite num_firstn, num1 in E1 by lia. subst n0.
      destruct (Nat.ltb_spec (usable d - 54) (1 + Z.to_nat (octet 54 d))); [lia|].
      destruct (slice_some (Z.to_nat (octet 54 d)) (firstn (usable d) d) 55 ltac:(rewrite lenb; lia)) as (x & X & LX). rewrite X. cbn [bind].
      unfold handleMMUserDescription, ok, err. cbv zeta. cbn [fst snd].
      destruct (q_action d =? 1); [|rewrite (proj2 (Z.eqb_neq _ _) A0); eexists; reflexivity].
      destruct (Z.leb_spec (octet 54 d) 128); [|eexists; reflexivity].
      assert (G : forall y, (length y <= 128)%nat -> exists h, (do t <- cstring (s_desc (set_desc (firstn 129 (y ++ repeat 0 129)) s)); Some (mkH 0 2 (Pieces [ptptext t]) (set_desc (firstn 129 (y ++ repeat 0 129)) s))) = Some h).
      { intros y LY. change (firstn 129 (y ++ repeat 0 129)) with (stored y). cbn [set_desc s_desc]. destruct (cstring_some (stored y)) as (u & ->); [|eexists; reflexivity].
        unfold stored. rewrite firstn_app, firstn_all2 by lia. apply in_or_app. right. remember (129 - length y)%nat as k eqn:K. destruct k as [|k]; [lia|]. left. reflexivity. }
      destruct (octet 54 d =? 0); cbn [bind]; apply G; [cbn; lia|lia]. }
  assert (WT : forall k, needed d = k -> q_action d = 0 \/ (54 + k <= usable d)%nat) by (intros k <-; destruct W' as [W'|[_ W']]; [now left|now right]).
  destruct (Z.eqb_spec (q_id d) 0x0005) as [E|N3]; [ex_tab; apply WT; unfold needed; rewrite E; reflexivity|].
  destruct (Z.eqb_spec (q_id d) 0x2000) as [E|N4]; [ex_tab; apply WT; unfold needed; rewrite E; reflexivity|].
  destruct (Z.eqb_spec (q_id d) 0x2001) as [E|N5]; [ex_tab; apply WT; unfold needed; rewrite E; reflexivity|].
  destruct (Z.eqb_spec (q_id d) 0x2002) as [E|N6]; [ex_tab; apply WT; unfold needed; rewrite E; reflexivity|].
  destruct (Z.eqb_spec (q_id d) 0x2003) as [E|N7]; [ex_tab; apply WT; unfold needed; rewrite E; reflexivity|].
  destruct (Z.eqb_spec (q_id d) 0x2004) as [E|N8]; [ex_tab; apply WT; unfold needed; rewrite E; reflexivity|].
  destruct (Z.eqb_spec (q_id d) 0x2005) as [E|N9]; [ex_tab; apply WT; unfold needed; rewrite E; reflexivity|].
  destruct (Z.eqb_spec (q_id d) 0x2006) as [E|N10]; [ex_tab; apply WT; unfold needed; rewrite E; reflexivity|].
  destruct (Z.eqb_spec (q_id d) 0x2007) as [E|N11]; [ex_tab; apply WT; unfold needed; rewrite E; reflexivity|].
  destruct (Z.eqb_spec (q_id d) 0x2008) as [E|N12].
  { unfold with_data. destruct (Z.eqb_spec (q_action d) 0) as [A0|A0]; [unfold handleMMSlaveOnly, ok; rewrite A0; cbn [Z.eqb]; eexists; reflexivity|].
    assert (LN : (54 + 2 <= usable d)%nat) by (destruct (WT 2%nat) as [?|?]; [unfold needed; rewrite E; reflexivity|contradiction|assumption]).
    unfold unpackMMSlaveOnly. rewrite !check_ok by (rewrite lenb; lia).
    destruct (slice_some 4 (d ++ stale) 54 ltac:(lia)) as (x & X & _). unfold ld_le. rewrite X. cbn [bind].
    destruct (slice_some 1 (firstn (usable d) d) 55 ltac:(rewrite lenb; lia)) as (y & Y & _). unfold ld. rewrite Y. cbn [bind].
    unfold handleMMSlaveOnly, ok, err. cbv zeta. rewrite check_ok by (rewrite lenb; lia). ex_done. }
  destruct (Z.eqb_spec (q_id d) 0x2009) as [E|N13]; [ex_tab; apply WT; unfold needed; rewrite E; reflexivity|].
  destruct (Z.eqb_spec (q_id d) 0x200A) as [E|N14]; [ex_tab; apply WT; unfold needed; rewrite E; reflexivity|].
  destruct (Z.eqb_spec (q_id d) 0x200B) as [E|N15]; [ex_tab; apply WT; unfold needed; rewrite E; reflexivity|].
  destruct (Z.eqb_spec (q_id d) 0x200C) as [E|N16]; [ex_tab; apply WT; unfold needed; rewrite E; reflexivity|].
  destruct (Z.eqb_spec (q_id d) 0x200D) as [E|N17]; [unfold handleMMEnablePort, ok, err; ex_done|].
  destruct (Z.eqb_spec (q_id d) 0x200E) as [E|N18]; [unfold handleMMDisablePort, ok, err; ex_done|].
  destruct (Z.eqb_spec (q_id d) 0x200F) as [E|N19].
  { specialize (TM E). unfold shown_time in TM. change MASTER with 6 in TM.
    assert (HT : exists h, handleMMTime o now (q_action d) s = Some h).
    { unfold handleMMTime, ok, err. cbv zeta. unfold chk_s64. set (t := if negb (s_state s =? 6) && (s_utcv s || o_respect o) then sec now - s_utc s else sec now) in *.
      match goal with |- context [bind (if ?c then _ else _)] => destruct c eqn:IN; [|exfalso; unfold fits_s64 in IN; lia] end. cbn [bind].
      destruct (Z.ltb_spec t 0); [lia|]. ex_done. }
    apply ex_table; [apply WT; unfold needed; rewrite E; reflexivity|reflexivity|assumption|intros _; exact HT|intros _ _ _; exact HT]. }
  destruct (Z.eqb_spec (q_id d) 0x2010) as [E|N20]; [ex_tab; apply WT; unfold needed; rewrite E; reflexivity|].
  destruct (Z.eqb_spec (q_id d) 0x2011) as [E|N21]; [ex_tab; apply WT; unfold needed; rewrite E; reflexivity|].
  destruct (Z.eqb_spec (q_id d) 0x2012) as [E|N22]; [ex_tab; apply WT; unfold needed; rewrite E; reflexivity|].
  destruct (Z.eqb_spec (q_id d) 0x6000) as [E|N23]; [ex_tab; apply WT; unfold needed; rewrite E; reflexivity|].
  destruct (Z.eqb_spec (q_id d) 0x6001) as [E|N24]; [ex_tab; apply WT; unfold needed; rewrite E; reflexivity|].
  unfold err. ex_done.
Qed.

(** ** A request as a whole. *)
Lemma accept_addressed : forall me d, acceptManagementMessage me (q_target d) = addressed me d.
Proof. reflexivity. Qed.
Lemma unicast_bit : forall d, all_octets d -> (Z.land (octet 6 d) 4 =? 4) = q_unicast d.
Proof. intros d A. unfold q_unicast. pose proof (octet_u 6 d A) as [O _]. rewrite <- (IS_SET_bit (octet 6 d) 2) by lia. reflexivity. Qed.
Lemma where_destined : forall o from d, where_to o (if q_unicast d then Some from else None) = destined o from d.
Proof. intros o from d. unfold where_to, destined. destruct (o_unicast o); [reflexivity|]. destruct (q_unicast d); reflexivity. Qed.

(** The message a decision leads to. *)
Definition reply (f : facts) (d obuf : octets) (s : settings) (h : hres) : option octets :=
  let g := mkOut (s_domain s) (q_seq d) (q_source d) (u8 (q_start_hops d - q_hops d)) in
  if rc h =? 0 then if (out_action h =? 2) || (out_action h =? 4) then build f g 1 (q_id d) (out_action h) (out_data h) obuf else None
  else build f g 2 (u16 (rc h)) (if (q_action d =? 0) || (q_action d =? 1) then 2 else if q_action d =? 3 then 4 else 0) (complaint_data (q_id d)) obuf.
Definition finish (o : options) (from : Z) (sendable : bool) (d : octets) (c : counters) (h : hres) (msg : octets) : option outcome :=
  match destined o from d, sendable with
  | Some to, true => do msg <- flag_unicast to msg; Some (mkR (new h) (bump SentOne (bump Received c)) [(to, msg)])
  | _, _ => Some (mkR (set_state (if o_tolerant o then 4 else 2) (new h)) (bump SendError (bump Received c)) [])
  end.

Lemma receive_unanswered : forall o f now from obuf sendable d stale s c m t, all_octets d -> unpack_management (firstn (usable d) d) = Some (Some (m, t)) -> t <> Freed ->
  answered o (f_id f) d = false ->
  exists k, In k [Discarded; FormatError; Received] /\ receive o f now from obuf sendable d stale s c = Some (Some (mkR s (bump k c) [])).
Proof.
  intros o f now from obuf sendable d stale s c m t A U NF N. pose proof (unpack_received d m t U) as [R1 R2 R3 R4 R5 R6 R7 R8 R9]. unfold receive. cbv zeta. rewrite U. cbn [rbind fst snd].
  unfold handleManagement. rewrite R5, accept_addressed, R8. unfold answered in N. destruct (o_enabled o); cbn [negb andb] in *; [|destruct t; [|contradiction|contradiction] || idtac].
  2: eexists; split; [left; reflexivity|destruct t; try contradiction; reflexivity].
  destruct t as [|ty l i|]; [| |contradiction].
  - eexists. split; [right; left; reflexivity|reflexivity].
  - destruct R9 as (Q & L & -> & ->). rewrite Q in N. cbn [andb] in N. destruct (addressed (f_id f) d); cbn [negb andb] in *; [|eexists; split; [left; reflexivity|reflexivity]].
    destruct (Z.eqb_spec (q_tlv_type d) 2) as [E2|N2].
    { unfold unpackMMErrorStatus, check. destruct (Nat.ltb _ _); [eexists; split; [right; left; reflexivity|reflexivity]|]. destruct (Nat.ltb _ _); [eexists; split; [right; left; reflexivity|reflexivity]|].
      destruct (Nat.ltb _ _); [eexists; split; [right; left; reflexivity|reflexivity]|]. eexists; split; [right; right; left; reflexivity|reflexivity]. }
    destruct (q_tlv_type d =? 1); cbn [negb andb] in *; [|eexists; split; [left; reflexivity|reflexivity]].
    unfold RESPONSE, ACKNOWLEDGE in N. destruct (q_action d =? 2); cbn [negb andb orb] in *; [eexists; split; [left; reflexivity|reflexivity]|].
    destruct (q_action d =? 4); cbn [negb] in *; [eexists; split; [left; reflexivity|reflexivity]|discriminate].
Qed.
Lemma receive_answered : forall o f now from obuf sendable d stale s c, all_octets d -> answered o (f_id f) d = true -> (54 <= usable d)%nat ->
  receive o f now from obuf sendable d stale s c =
    do h <- decide o f now d stale s; do msg <- reply f d obuf s h; do x <- finish o from sendable d c h msg; Some (Some x).
Proof.
  intros o f now from obuf sendable d stale s c A AN L. unfold receive. cbv zeta.
  destruct (unpack_management_cases (firstn (usable d) d) (all_firstn _ _ A)) as [(S' & _)|[(S' & _)|(_ & m & w & t & U & _)]]; [rewrite lenb in S'; lia|rewrite lenb in S'; lia|].
  pose proof (unpack_received d m t U) as [R1 R2 R3 R4 R5 R6 R7 R8 R9]. rewrite U. cbn [rbind fst snd].
  unfold handleManagement. rewrite R5, accept_addressed, R8, R2. unfold managementInitOutgoingMsg. rewrite R4, R3, R6, R7. unfold answered in AN. apply andb_true_iff in AN. destruct AN as [AN A6].
  apply andb_true_iff in AN. destruct AN as [AN A5]. apply andb_true_iff in AN. destruct AN as [AN A4]. apply andb_true_iff in AN. destruct AN as [AN A3]. apply andb_true_iff in AN. destruct AN as [A1 A2].
  rewrite A1. cbn [negb]. destruct t as [|ty l i|]; [rewrite R9 in A2; discriminate| |destruct R9; lia]. destruct R9 as (_ & _ & -> & ->). rewrite A3. cbn [negb].
  replace (q_tlv_type d =? 2) with false by lia. rewrite A4. cbn [negb]. unfold RESPONSE, ACKNOWLEDGE in *. replace ((q_action d =? 2) || (q_action d =? 4)) with false by lia. cbv zeta.
  rewrite unicast_bit, where_destined by assumption. fold (decide o f now d stale s).
  change (if negb (o_set o) && ((q_action d =? 1) || (q_action d =? 3)) then err 6 s else dispatch o f now (firstn (usable d) d) (d ++ stale) (q_id d) (q_action d) s) with (decide o f now d stale s).
  destruct (decide o f now d stale s) as [h|]; [|reflexivity]. cbn [bind]. unfold reply. cbv zeta.
  match goal with |- bind (bind ?x _) _ = _ => destruct x as [msg|] end; [|reflexivity]. cbn [bind]. unfold finish. destruct (destined o from d) as [to|]; [|reflexivity]. destruct sendable; reflexivity.
Qed.

Lemma receive_answered_len : forall o f now from obuf sendable d stale s c r, all_octets d -> receive o f now from obuf sendable d stale s c = Some (Some r) ->
  exists m t, unpack_management (firstn (usable d) d) = Some (Some (m, t)) /\ t <> Freed /\ (answered o (f_id f) d = true -> (54 <= usable d)%nat).
Proof.
  intros o f now from obuf sendable d stale s c r A H. unfold receive in H. cbv zeta in H. destruct (unpack_management (firstn (usable d) d)) as [[[m t]|]|] eqn:U; try discriminate. cbn [rbind fst snd] in H.
  exists m, t. split; [reflexivity|]. destruct t as [|ty l i|].
  - split; [discriminate|]. intros AN. apply unpack_received in U. destruct U as [_ _ _ _ _ _ _ _ R9]. unfold answered in AN. rewrite R9 in AN. destruct (o_enabled o); discriminate.
  - split; [discriminate|]. intros _. apply unpack_received in U. destruct U as [_ _ _ _ _ _ _ _ R9]. apply R9.
  - exfalso. unfold handleManagement in H. destruct (o_enabled o); discriminate H.
Qed.
Lemma verdict_range : forall o s d, 0 <= verdict o s d < 65536.
Proof. intros o s d. unfold verdict. cbv zeta. repeat (match goal with |- context [if ?c then _ else _] => destruct c; [unfold NOT_SUPPORTED, NO_SUCH_ID, WRONG_LENGTH; lia|] end). lia. Qed.

Lemma reply_expected : forall o f now d stale obuf s h to, all_octets d -> (54 <= usable d)%nat -> clean d stale -> settings_fit s -> facts_fit f -> (q_id d = ID_DEFAULT_DS -> f_two_step f = false) ->
  length obuf = 500%nat -> decide o f now d stale s = Some h ->
  exists msg, reply f d obuf s h = Some msg /\ flag_unicast to msg = Some (expected o f s (new h) now to d).
Proof.
  intros o f now d stale obuf s h to A L C FS FF TS LO D. pose proof (decide_verdict o f now d stale s h A L C D) as V. unfold reply. cbv zeta. unfold expected. cbv zeta. rewrite <- V.
  destruct FF as (F1 & F2 & FR). assert (FF : facts_fit f) by (split; [exact F1|split; [exact F2|exact FR]]). pose proof FS as FS'. destruct FS' as (_ & _ & FD & _).
  destruct (Z.eqb_spec (rc h) 0) as [E|N].
  - destruct (decide_shown o f now d stale s h A L C FS FF TS D E) as (OA & LK & LL). rewrite OA.
    assert (RA : reply_action d = 2 \/ reply_action d = 4).
    { assert (V0 : verdict o s d = 0) by congruence. unfold verdict in V0. cbv zeta in V0. unfold reply_action, GET, SET, COMMAND, RESPONSE, ACKNOWLEDGE in *.
      destruct (q_action d =? 0); [now left|]. destruct (q_action d =? 1); [now left|]. destruct (q_action d =? 3); [now right|]. exfalso. cbn [orb andb negb] in V0.
      destruct (negb (o_set o) && false); [discriminate|]. match type of V0 with (if ?c then _ else _) = _ => destruct c; discriminate end. }
    replace ((reply_action d =? 2) || (reply_action d =? 4)) with true by lia.
    assert (RU : in_u 4 (reply_action d)) by (unfold in_u; change (2 ^ 4) with 16; lia).
    rewrite (build_answer f _ d (s_domain s) 1 (q_id d) (reply_action d) (out_data h) obuf (contents o f (new h) now d)); auto.
    + eexists. split; [reflexivity|]. apply flag_answer.
    + split; [lia|reflexivity].
    + apply num_u; [exact A|reflexivity].
  - pose proof (verdict_range o s d) as VR. rewrite <- V in VR. replace (u16 (rc h)) with (rc h) by (unfold u16; change (2 ^ 16) with 65536; lia).
    change (if (q_action d =? 0) || (q_action d =? 1) then 2 else if q_action d =? 3 then 4 else 0) with (reply_action d).
    assert (RU : in_u 4 (reply_action d)) by (unfold in_u, reply_action, RESPONSE, ACKNOWLEDGE; change (2 ^ 4) with 16; destruct (_ || _); [lia|]; destruct (_ =? _); lia).
    assert (LK : looks (complaint_data (q_id d)) (complaint d)).
    { unfold complaint_data. replace (complaint d) with (even (concat [bytes 2 (q_id d); bytes 4 0; [0]])) by reflexivity. apply lk_pieces. }
    rewrite (build_answer f _ d (s_domain s) 2 (rc h) (reply_action d) _ obuf (complaint d)); auto.
    + eexists. split; [reflexivity|]. apply flag_answer.
    + split; [lia|reflexivity].
    + unfold complaint. rewrite wire_length. cbn. lia.
Qed.

(** *** The results. *)
Lemma silent : forall o f now from obuf sendable d stale s c r, all_octets d -> answered o (f_id f) d = false -> receive o f now from obuf sendable d stale s c = Some (Some r) ->
  r_settings r = s /\ r_sent r = [].
Proof.
  intros o f now from obuf sendable d stale s c r A N H. destruct (receive_answered_len _ _ _ _ _ _ _ _ _ _ _ A H) as (m & t & U & NF & _).
  destruct (receive_unanswered o f now from obuf sendable d stale s c m t A U NF N) as (k & _ & E). rewrite E in H. injection H as <-. split; reflexivity.
Qed.
Lemma answered_view : forall o f now from obuf sendable d stale s c r, all_octets d -> answered o (f_id f) d = true -> receive o f now from obuf sendable d stale s c = Some (Some r) ->
  (54 <= usable d)%nat /\ exists h msg, decide o f now d stale s = Some h /\ reply f d obuf s h = Some msg /\ finish o from sendable d c h msg = Some r.
Proof.
  intros o f now from obuf sendable d stale s c r A N H. destruct (receive_answered_len _ _ _ _ _ _ _ _ _ _ _ A H) as (m & t & U & NF & L). specialize (L N). split; [exact L|].
  rewrite receive_answered in H by assumption. destruct (decide o f now d stale s) as [h|]; [|discriminate]. cbn [bind] in H. destruct (reply f d obuf s h) as [msg|] eqn:R; [|discriminate]. cbn [bind] in H.
  destruct (finish o from sendable d c h msg) as [x|] eqn:F; [|discriminate]. cbn [bind] in H. injection H as <-. exists h, msg. auto.
Qed.
Definition goes_out (o : options) (from : Z) (sendable : bool) (d : octets) : bool := sendable && match destined o from d with Some _ => true | None => false end.
Lemma finish_settings : forall o from sendable d c h msg r, finish o from sendable d c h msg = Some r ->
  r_settings r = (if goes_out o from sendable d then new h else set_state (if o_tolerant o then 4 else 2) (new h)) /\ (goes_out o from sendable d = false -> r_sent r = []).
Proof.
  intros o from sendable d c h msg r. unfold finish, goes_out. destruct (destined o from d) as [to|].
  - destruct sendable; cbn [andb].
    + destruct (flag_unicast to msg); [|discriminate]. cbn [bind]. intros [= <-]. split; [reflexivity|discriminate].
    + intros [= <-]. split; reflexivity.
  - rewrite andb_false_r. intros [= <-]. split; reflexivity.
Qed.
Lemma value_state : forall x v s, x <> State -> value x (set_state v s) = value x s.
Proof. intros [] v s N; try reflexivity. contradiction. Qed.
Lemma effect : forall o f now from obuf sendable d stale s c r, all_octets d -> clean d stale -> receive o f now from obuf sendable d stale s c = Some (Some r) ->
  (forall x, x <> State -> value x (r_settings r) = becomes o (f_id f) s d x) /\
  value State (r_settings r) = (if answered o (f_id f) d && negb (goes_out o from sendable d) then if o_tolerant o then 4 else 2 else becomes o (f_id f) s d State) /\
  text (s_desc (r_settings r)) = match (if answered o (f_id f) d && o_set o then asks_description d else None) with Some t => text t | None => text (s_desc s) end.
Proof.
  intros o f now from obuf sendable d stale s c r A C H. unfold becomes. destruct (answered o (f_id f) d) eqn:AN; cbn [andb].
  - destruct (answered_view _ _ _ _ _ _ _ _ _ _ _ A AN H) as (L & h & msg & D & _ & F). apply finish_settings in F. destruct F as [-> _].
    pose proof (decide_effect o f now d stale s h A L C D) as DE. pose proof (decide_desc o f now d stale s h A L C D) as DD. split; [|split].
    + intros x N. rewrite <- DE. destruct (goes_out _ _ _ _); [reflexivity|]. apply value_state. exact N.
    + destruct (goes_out _ _ _ _); cbn [negb]; [apply DE|reflexivity].
    + rewrite <- DD. destruct (goes_out _ _ _ _); reflexivity.
  - destruct (silent _ _ _ _ _ _ _ _ _ _ _ A AN H) as [-> _]. split; [reflexivity|split; reflexivity].
Qed.
Lemma fits : forall o f now from obuf sendable d stale s c r, all_octets d -> clean d stale -> settings_fit s -> receive o f now from obuf sendable d stale s c = Some (Some r) -> settings_fit (r_settings r).
Proof.
  intros o f now from obuf sendable d stale s c r A C FS H. destruct (answered o (f_id f) d) eqn:AN.
  - destruct (answered_view _ _ _ _ _ _ _ _ _ _ _ A AN H) as (L & h & msg & D & _ & F). apply finish_settings in F. destruct F as [-> _]. pose proof (decide_fit o f now d stale s h A L C FS D).
    destruct (goes_out _ _ _ _); [assumption|]. apply state_fit; [assumption|]. destruct (o_tolerant o); split; (lia || reflexivity).
  - destruct (silent _ _ _ _ _ _ _ _ _ _ _ A AN H) as [-> _]. exact FS.
Qed.
Lemma replied : forall o f now from obuf d stale s c r to, all_octets d -> length obuf = 500%nat -> settings_fit s -> facts_fit f -> clean d stale -> (q_id d = ID_DEFAULT_DS -> f_two_step f = false) ->
  answered o (f_id f) d = true -> destined o from d = Some to -> receive o f now from obuf true d stale s c = Some (Some r) ->
  r_sent r = [(to, expected o f s (r_settings r) now to d)] /\ c_received (r_counters r) = (c_received c + 1) mod 2 ^ 64 /\ c_sent (r_counters r) = (c_sent c + 1) mod 2 ^ 64.
Proof.
  intros o f now from obuf d stale s c r to A LO FS FF C TS AN DT H. destruct (answered_view _ _ _ _ _ _ _ _ _ _ _ A AN H) as (L & h & msg & D & R & F).
  destruct (reply_expected o f now d stale obuf s h to A L C FS FF TS LO D) as (msg' & R' & FL). rewrite R in R'. injection R' as <-. unfold finish in F. rewrite DT, FL in F. cbn [bind] in F. injection F as <-.
  split; [reflexivity|split; reflexivity].
Qed.
Lemma unsent : forall o f now from obuf sendable d stale s c r, all_octets d -> goes_out o from sendable d = false -> receive o f now from obuf sendable d stale s c = Some (Some r) -> r_sent r = [].
Proof.
  intros o f now from obuf sendable d stale s c r A G H. destruct (answered o (f_id f) d) eqn:AN.
  - destruct (answered_view _ _ _ _ _ _ _ _ _ _ _ A AN H) as (L & h & msg & D & _ & F). apply finish_settings in F. apply F. exact G.
  - apply (silent _ _ _ _ _ _ _ _ _ _ _ A AN H).
Qed.
Lemma defined : forall o f now from obuf sendable d stale s c, all_octets d -> length (d ++ stale) = 500%nat -> length obuf = 500%nat -> settings_fit s -> facts_fit f -> clean d stale ->
  (q_id d = ID_DEFAULT_DS -> f_two_step f = false) ->
  (q_id d = ID_TIME -> 0 <= shown_time o s now < 2 ^ 63) -> whole o (f_id f) d -> exists r, receive o f now from obuf sendable d stale s c = Some (Some r).
Proof.
  intros o f now from obuf sendable d stale s c A LB LO FS FF C TS TM (W1 & W2 & W3).
  destruct (unpack_management_cases (firstn (usable d) d) (all_firstn _ _ A)) as [(S' & _)|[(S' & _)|(_ & m & w & t & U & _)]]; [rewrite lenb in S'; lia|rewrite lenb in S'; lia|].
  pose proof (unpack_received d m t U) as R. assert (NF : t <> Freed) by (intros ->; destruct R as [_ _ _ _ _ _ _ _ [Q Q2]]; specialize (W2 Q); lia).
  destruct (answered o (f_id f) d) eqn:AN.
  - assert (L : (54 <= usable d)%nat) by (apply W2; unfold answered in AN; destruct (q_has_tlv d); [reflexivity|rewrite andb_false_r in AN; discriminate AN]).
    rewrite receive_answered by assumption. destruct (decide_some o f now d stale s A L ltac:(lia) FS TM) as (h & D).
    { intros X. apply W3. unfold examined. rewrite AN. exact X. }
    rewrite D. cbn [bind].
    destruct (reply_expected o f now d stale obuf s h Multicast A L C FS FF TS LO D) as (msg & -> & FL). cbn [bind]. unfold finish.
    destruct (destined o from d) as [to|]; [|eexists; reflexivity]. destruct sendable; [|eexists; reflexivity].
    destruct (reply_expected o f now d stale obuf s h to A L C FS FF TS LO D) as (msg' & R' & FL').
    assert (E : exists x, flag_unicast to msg = Some x).
    { destruct to; [|eexists; reflexivity]. cbn [flag_unicast] in FL. injection FL as FL. subst msg. unfold expected. cbv zeta. destruct (_ =? 0); eexists; apply (flag_answer f (s_domain s) d _ _ _ _ (Address a)). }
    destruct E as (x & ->). eexists. reflexivity.
  - destruct (receive_unanswered o f now from obuf sendable d stale s c m t A U NF AN) as (k & _ & ->). eexists. reflexivity.
Qed.

(** *** Histories of requests. *)
Lemma serve_unasked : forall o f x l s c s' c', x <> State -> Forall (fun q => all_octets (e_msg q) /\ clean (e_msg q) (e_stale q) /\ forall s, answered o (f_id f) (e_msg q) && o_set o = true -> asks s (e_msg q) x = None) l ->
  serve o f l s c = Some (s', c') -> value x s' = value x s.
Proof.
  intros o f x l. induction l as [|q l IH]; intros s c s' c' N FA; cbn [serve]; [now intros [= <- <-]|]. inversion FA as [|? ? (A & C & Q) FA']; subst.
  destruct (receive _ _ _ _ _ _ _ _ s c) as [[r|]|] eqn:R; [| |discriminate].
  - intros H. rewrite (IH _ _ _ _ N FA' H). destruct (effect _ _ _ _ _ _ _ _ _ _ _ A C R) as (E & _ & _). rewrite (E x N). unfold becomes. destruct (answered o (f_id f) (e_msg q) && o_set o) eqn:P; [|reflexivity].
    rewrite (Q s eq_refl). reflexivity.
  - intros H. eapply IH; eassumption.
Qed.
Lemma serve_read_only : forall o f l s c s' c', o_set o = false -> Forall (fun q => all_octets (e_msg q) /\ clean (e_msg q) (e_stale q)) l ->
  serve o f l s c = Some (s', c') -> (forall x, x <> State -> value x s' = value x s) /\ text (s_desc s') = text (s_desc s) /\ (Forall (fun q => goes_out o (e_from q) (e_sendable q) (e_msg q) = true) l -> value State s' = value State s).
Proof.
  intros o f l. induction l as [|q l IH]; intros s c s' c' RO FA; cbn [serve].
  - intros [= <- <-]. split; [reflexivity|split; reflexivity].
  - inversion FA as [|? ? [A C] FA']; subst. destruct (receive _ _ _ _ _ _ _ _ s c) as [[r|]|] eqn:R; [| |discriminate].
    + intros H. destruct (IH _ _ _ _ RO FA' H) as (E1 & E2 & E3). destruct (effect _ _ _ _ _ _ _ _ _ _ _ A C R) as (G1 & G2 & G3). unfold becomes in *. rewrite RO, andb_false_r in *.
      split; [|split].
      * intros x N. rewrite (E1 x N). apply G1. exact N.
      * rewrite E2, G3. reflexivity.
      * intros FG. inversion FG as [|? ? GO FG']; subst. rewrite (E3 FG'), G2, GO. cbn [negb]. rewrite andb_false_r. reflexivity.
    + intros H. destruct (IH _ _ _ _ RO FA' H) as (E1 & E2 & E3). split; [exact E1|split; [exact E2|]]. intros FG. inversion FG; subst. auto.
Qed.
