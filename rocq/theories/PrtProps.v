(** C43, C44, C45, C56 and C57: the pairing of PTP messages into measurements. *)
Require Import ZArith List Bool Lia.
Import ListNotations.
From Verif Require Import Base TimeSpec TimeModel TimeProof PrtSpec PrtModel PrtHist PrtProof PrtProof2 PrtProof3.
Open Scope Z_scope.

(** *** C43.

    Full statement: the slave servo is only ever given master to slave timestamps in which the origin
    time and the receive time belong to the same Sync event (same sequence number, current parent),
    whatever the order, loss or duplication of Sync and FollowUp messages. *)

(** A measurement given when a FollowUp arrives.  It takes the FollowUp's origin time and the receive
    time of the last Sync taken, which has the FollowUp's number and was the parent's; nothing was
    given for that Sync before.  Missing from the full statement: that the Sync came from the same
    master, which needs that the parent was not replaced in between (see C43_refuted). *)
Theorem C43_follow_partial : forall c p0 h p f p' os s r k,
  fresh p0 -> run c h p0 = Some p -> step c (OFollow f) p = Some (p', os) -> In (GiveM2S s r k) os ->
  os = [GiveM2S s r k] /\ fu_src f = parent p /\ s = time_of (fu_origin f) /\
  exists h1 m t h2 pa, h = h1 ++ OSync m (Some t) :: h2 /\ run c h1 p0 = Some pa /\ takes pa m (Some t) /\
    sy_two m = true /\ sy_seq m = fu_seq f /\ r = t /\
    during c p0 no_sync_taken (h1 ++ [OSync m (Some t)]) h2 /\
    during c p0 (without c is_m2s) (h1 ++ [OSync m (Some t)]) h2 /\
    (Forall (keeps_parent (sy_src m)) h2 -> sy_src m = fu_src f).
Proof.
  intros c p0 h p f p' os s r k F R ST IN. cbn [step] in ST. apply follow_cases in ST.
  destruct ST as [[E _]|[y [k1 [L [SRC [W [SQ [EK [_ [_ [_ [_ [_ EO]]]]]]]]]]]]]; [subst; contradiction IN|].
  subst os. destruct IN as [IN|[]]. injection IN as J1 J2 J3. subst s r k1.
  split; [reflexivity|]. split; [exact SRC|]. split; [reflexivity|].
  destruct (inv_syn_run _ _ _ _ F R) as [I1 _]. destruct (I1 W) as [h1 [m [t [h2 [pa [E [RA [T [TW [LS [RX [KP [D1 D2]]]]]]]]]]]]].
  exists h1, m, t, h2, pa. repeat split; auto; try apply T; [congruence|]. intros FA. rewrite SRC. symmetry. apply KP. exact FA.
Qed.
Print Assumptions C43_follow_partial.

(** A measurement given when a Sync arrives: it is the Sync's receive time with either its own origin
    time (one-step) or (two-step) that of a FollowUp that came early, after the last Sync taken, from
    the same master and with the same number. *)
Theorem C43_sync : forall c p0 h p m rx p' os s r k,
  fresh p0 -> run c h p0 = Some p -> step c (OSync m rx) p = Some (p', os) -> In (GiveM2S s r k) os ->
  filter is_m2s os = [GiveM2S s r k] /\ rx = Some r /\ takes p m rx /\
  ((sy_two m = false /\ s = time_of (sy_origin m) /\ from_ns16 (sy_corr m) = Some k) \/
   (sy_two m = true /\ exists h1 f h2, h = h1 ++ OFollow f :: h2 /\ fu_seq f = sy_seq m /\ fu_src f = sy_src m /\
      during c p0 no_sync_taken (h1 ++ [OFollow f]) h2 /\ s = time_of (fu_origin f) /\ from_ns16 (fu_corr f) = Some k)).
Proof.
  intros c p0 h p m rx p' os s r k F R ST IN. cbn [step] in ST. apply sync_cases in ST.
  destruct ST as [[E _]|[t [k1 [y [late [missed [T [ERX [EK [_ [_ [_ [_ [MS [EO CS]]]]]]]]]]]]]]]; [subst; contradiction IN|].
  destruct (inv_syn_run _ _ _ _ F R) as [_ I2].
  destruct CS as [[EL _]|[f [k2 [EC [TW [SQ [SRC [EK2 [_ EL]]]]]]]]].
  - subst late os. rewrite app_nil_r in *. destruct (sy_two m) eqn:TW.
    { rewrite app_nil_r in IN. destruct MS as [MS|MS]; subst missed; [contradiction IN|destruct IN as [IN|[]]; discriminate IN]. }
    assert (J : GiveM2S (time_of (sy_origin m)) t k1 = GiveM2S s r k).
    { apply in_app_iff in IN. destruct IN as [IN|[IN|[]]]; [|exact IN].
      destruct MS as [MS|MS]; subst missed; [contradiction IN|destruct IN as [IN|[]]; discriminate IN]. }
    injection J as J1 J2 J3. subst s r k. split; [destruct MS; subst missed; reflexivity|]. split; [exact ERX|]. split; [exact T|]. left. auto.
  - subst late os. rewrite TW in *. cbn [app] in *.
    assert (J : GiveM2S (time_of (fu_origin f)) t k2 = GiveM2S s r k).
    { apply in_app_iff in IN. destruct IN as [IN|[IN|[]]]; [|exact IN].
      destruct MS as [MS|MS]; subst missed; [contradiction IN|destruct IN as [IN|[]]; discriminate IN]. }
    injection J as J1 J2 J3. subst s r k. split; [destruct MS; subst missed; reflexivity|]. split; [exact ERX|]. split; [exact T|].
    right. split; [reflexivity|]. destruct (I2 f EC) as [h1 [h2 [E [_ D]]]]. exists h1, f, h2. repeat split; auto.
Qed.
Print Assumptions C43_sync.

(** Nothing else gives such a measurement. *)
Theorem C43_only : forall c o p p' os s r k,
  step c o p = Some (p', os) -> In (GiveM2S s r k) os -> (exists f, o = OFollow f) \/ (exists m rx, o = OSync m rx).
Proof.
  intros c o p p' os s r k ST IN. destruct (syn_op o) eqn:SO.
  - destruct o; try discriminate SO; [right; eauto|left; eauto|..]; cbn [step] in ST; inv ST; contradiction IN.
  - destruct (frame_syn _ _ _ _ _ ST SO) as [_ [_ NO]]. exfalso.
    assert (X : existsb is_m2s os = true) by (apply existsb_exists; exists (GiveM2S s r k); split; [exact IN|reflexivity]). congruence.
Qed.
Print Assumptions C43_only.

Lemma quiet_run : forall c h p q, Forall leaves_sync h -> run c h p = Some q -> syn_of q = syn_of p /\ parent q = parent p.
Proof.
  intros c h. induction h as [|o h IH]; intros p q F R.
  - injection R as R. subst. split; reflexivity.
  - cbn [run] in R. destruct (step c o p) as [[p1 os]|] eqn:ST; [cbn [bind fst] in R|discriminate R].
    inversion F as [|? ? F1 F2]; subst. destruct (IH _ _ F2 R) as [A B].
    assert (SO : syn_op o = false) by (destruct o; try reflexivity; contradiction F1).
    destruct (frame_syn _ _ _ _ _ ST SO) as [C0 [D _]]. split; congruence.
Qed.

(** A two-step Sync and then its FollowUp always give their measurement. *)
Theorem C43_in_order : forall c p m t p1 os1 h p2 f k,
  takes p m (Some t) -> sy_two m = true -> cached (syn_of p) = None ->
  step c (OSync m (Some t)) p = Some (p1, os1) -> Forall leaves_sync h -> run c h p1 = Some p2 ->
  (pst p2 = Slave \/ pst p2 = Uncalibrated) ->
  fu_src f = sy_src m -> fu_seq f = sy_seq m -> 44 <= fu_len f -> from_ns16 (fu_corr f) = Some k ->
  exists p3, step c (OFollow f) p2 = Some (p3, [GiveM2S (time_of (fu_origin f)) t k]).
Proof.
  intros c p m t p1 os1 h p2 f k T TW NC ST Q R L SRC SQ LEN EK. cbn [step] in ST. apply sync_cases in ST.
  destruct ST as [[_ [_ X]]|[t1 [k1 [y [late [missed [_ [ERX [_ [EP [EC [LS [RX [_ [_ CS]]]]]]]]]]]]]]]; [contradiction (X T)|].
  injection ERX as ERX. subst t1. destruct CS as [[_ W]|[f0 [k2 [X _]]]]; [|rewrite NC in X; discriminate X].
  destruct (quiet_run _ _ _ _ Q R) as [A B]. subst p1. cbn [syn_of with_syn parent] in A, B. rewrite TW in W.
  cbn [step]. unfold handle_follow. replace (fu_len f <? 44) with false by lia.
  rewrite (proj2 (listens_true p2) L). cbn [negb]. unfold from_parent. rewrite B, SRC.
  replace (sy_src m) with (parent p) by (symmetry; apply T). rewrite same_ident_refl. cbn [negb andb waiting last_seq rx_time cached].
  rewrite A, W. cbn [negb]. rewrite LS, SQ, Z.eqb_refl. cbn [negb]. rewrite EK. cbn [bind]. rewrite RX. eexists. reflexivity.
Qed.
Print Assumptions C43_in_order.

(** A FollowUp that comes before its Sync is kept for it, unless its number is 0. *)
Theorem C43_early_partial : forall c p f p1 os1 h p2 m t k k2,
  waiting (syn_of p) = false -> (pst p = Slave \/ pst p = Uncalibrated) -> fu_src f = parent p -> 44 <= fu_len f -> fu_seq f <> 0 ->
  step c (OFollow f) p = Some (p1, os1) -> Forall leaves_sync h -> run c h p1 = Some p2 ->
  (pst p2 = Slave \/ pst p2 = Uncalibrated) ->
  sy_src m = fu_src f -> sy_seq m = fu_seq f -> 44 <= sy_len m -> sy_two m = true ->
  from_ns16 (sy_corr m) = Some k -> from_ns16 (fu_corr f) = Some k2 ->
  exists p3, step c (OSync m (Some t)) p2 = Some (p3, [GiveM2S (time_of (fu_origin f)) t k2]).
Proof.
  intros c p f p1 os1 h p2 m t k k2 W L SRC LEN NZ ST Q R L2 SRC2 SQ LEN2 TW EK EK2.
  cbn [step] in ST. unfold handle_follow in ST. replace (fu_len f <? 44) with false in ST by lia.
  rewrite (proj2 (listens_true p) L) in ST. cbn [negb] in ST. unfold from_parent in ST. rewrite SRC, same_ident_refl in ST.
  cbn [negb andb waiting] in ST. rewrite W in ST. cbn [negb] in ST. rewrite (proj2 (Z.eqb_neq _ _) NZ) in ST. inv ST.
  destruct (quiet_run _ _ _ _ Q R) as [A B]. cbn [syn_of with_syn parent] in A, B.
  cbn [step]. unfold handle_sync. replace (sy_len m <? 44) with false by lia.
  rewrite (proj2 (listens_true p2) L2). cbn [negb]. unfold from_parent at 1. rewrite B, SRC2, SRC, same_ident_refl. cbn [negb].
  rewrite EK. cbn [bind]. rewrite A. cbn [waiting cached app]. rewrite SQ, Z.eqb_refl, TW.
  unfold handle_follow. cbn [fu_len fu_src fu_seq fu_origin fu_corr Z.ltb Z.compare Pos.compare Pos.compare_cont].
  change (listens (with_syn p2 (mkSyn true (fu_seq f) t k (Some f)))) with (listens p2). rewrite (proj2 (listens_true p2) L2). cbn [negb].
  unfold from_parent. cbn [parent with_syn]. rewrite B, SRC, same_ident_refl. cbn [negb andb syn_of waiting last_seq].
  rewrite Z.eqb_refl. cbn [negb]. rewrite EK2. cbn [bind]. eexists. reflexivity.
Qed.
Print Assumptions C43_early_partial.

(** *** Examples: a slave of master (1,1), own identity (9,1). *)
Definition ex_cfg : cfg := mkCfg (9, 1) false (mkTs 0 100 0) 70 false.
Definition ex_port : port :=
  mkPort Slave (1, 1) E2E (mkSyn false 0 null_time null_time None) (mkDel 5 false false None null_time None (0, 0))
         (mkPeer 7 None false false null_time null_time null_time null_time 0) (mkMast 3 None None (0, 0)).
Definition ex_sync : sync_msg := mkSync (1, 1) 42 true (100, 0) 65536 44.
Definition ex_follow : fu_msg := mkFu (1, 1) 42 (100, 500) 131072 44.
Definition ex_rx : ts := mkTs 100 900 0.

Example ex_fresh : fresh ex_port.
Proof. unfold fresh, ex_port. cbn. repeat split; lia. Qed.
Example ex_in_order : outs ex_cfg [OSync ex_sync (Some ex_rx); OOther (4, 4); OFollow ex_follow] ex_port =
  Some [GiveM2S (mkTs 100 500 0) ex_rx (mkTs 0 2 0)].
Proof. vm_compute. reflexivity. Qed.
Example ex_reversed : outs ex_cfg [OFollow ex_follow; OOther (4, 4); OSync ex_sync (Some ex_rx)] ex_port =
  Some [GiveM2S (mkTs 100 500 0) ex_rx (mkTs 0 2 0)].
Proof. vm_compute. reflexivity. Qed.
Example ex_takes : takes ex_port ex_sync (Some ex_rx).
Proof. unfold takes. cbn. repeat split; auto; [lia|discriminate]. Qed.
(** Duplicates and a missing FollowUp. *)
Example ex_duplicates : outs ex_cfg [OSync ex_sync (Some ex_rx); OFollow ex_follow; OFollow ex_follow;
    OSync (mkSync (1, 1) 43 true (101, 0) 0 44) (Some ex_rx); OSync (mkSync (1, 1) 44 true (102, 0) 0 44) (Some (mkTs 102 1 0));
    OFollow (mkFu (1, 1) 43 (101, 3) 0 44); OFollow (mkFu (1, 1) 44 (102, 3) 0 44)] ex_port =
  Some [GiveM2S (mkTs 100 500 0) ex_rx (mkTs 0 2 0); MissM2S; GiveM2S (mkTs 102 3 0) (mkTs 102 1 0) (mkTs 0 0 0)].
Proof. vm_compute. reflexivity. Qed.

(** The full statement fails when the best master algorithm replaces the parent without leaving the
    state SLAVE: the receive time of the old master's Sync is then combined with the origin time of
    the new master's FollowUp of the same number. *)
Theorem C43_refuted : exists c p0 h p f p' s r k m t,
  fresh p0 /\ h = [OSync m (Some t); OBest Slave (fu_src f)] /\ run c h p0 = Some p /\
  step c (OFollow f) p = Some (p', [GiveM2S s r k]) /\ r = t /\ s = time_of (fu_origin f) /\ sy_src m <> fu_src f.
Proof.
  exists ex_cfg, ex_port, [OSync ex_sync (Some ex_rx); OBest Slave (2, 1)]. eexists. exists (mkFu (2, 1) 42 (555, 7) 0 44).
  eexists. eexists. eexists. eexists. exists ex_sync, ex_rx.
  split; [exact ex_fresh|]. split; [reflexivity|]. split; [vm_compute; reflexivity|]. split; [vm_compute; reflexivity|].
  split; [vm_compute; reflexivity|]. split; [vm_compute; reflexivity|]. cbn. intros X. discriminate X.
Qed.
Print Assumptions C43_refuted.

(** A FollowUp numbered 0 that comes before its Sync is lost. *)
Theorem C43_early_refuted : exists c p f m t k,
  fresh p /\ pst p = Slave /\ fu_src f = parent p /\ sy_src m = parent p /\ sy_seq m = fu_seq f /\ sy_two m = true /\
  44 <= fu_len f /\ 44 <= sy_len m /\ from_ns16 (fu_corr f) = Some k /\
  outs c [OFollow f; OSync m (Some t)] p = Some [].
Proof.
  exists ex_cfg, ex_port, (mkFu (1, 1) 0 (100, 500) 0 44), (mkSync (1, 1) 0 true (100, 0) 0 44), ex_rx. eexists.
  split; [exact ex_fresh|]. do 5 (split; [reflexivity|]). split; [cbn; lia|]. split; [cbn; lia|].
  split; [vm_compute; reflexivity|]. vm_compute. reflexivity.
Qed.
Print Assumptions C43_early_refuted.

(** *** C45.

    Full statement: for two-step masters the correction applied to a master to slave measurement is
    the sum of the Sync and FollowUp correction fields.  Corrections on the wire are in units of 2^-16
    ns; instants here are in units of 2^-32 ns. *)

(** One-step masters: the Sync's own correction. *)
Theorem C45_one_step : forall c p0 h p m rx p' os s r k,
  fresh p0 -> run c h p0 = Some p -> step c (OSync m rx) p = Some (p', os) -> In (GiveM2S s r k) os ->
  sy_two m = false -> - 2^63 < sy_corr m < 2^63 -> normal k /\ instant k = sy_corr m * 2^16.
Proof.
  intros c p0 h p m rx p' os s r k F R ST IN TW RG. destruct (C43_sync _ _ _ _ _ _ _ _ _ _ _ F R ST IN) as [_ [_ [_ [[_ [_ E]]|[X _]]]]]; [|congruence].
  destruct (from_ns16_exact _ RG) as [t [E2 N]]. rewrite E2 in E. injection E as E. subst t. exact N.
Qed.
Print Assumptions C45_one_step.

(** Two-step masters: the correction is the FollowUp's alone, so it is the sum exactly when the Sync's
    is 0 (no transparent clock on the way corrected the Sync).  Missing from the full statement: a
    correction in the Sync. *)
Theorem C45_two_step_partial : forall c p0 h p o p' os s r k,
  fresh p0 -> run c h p0 = Some p -> step c o p = Some (p', os) -> In (GiveM2S s r k) os ->
  (forall m rx, o = OSync m rx -> sy_two m = true) ->
  exists m t f, In (OSync m (Some t)) (h ++ [o]) /\ In (OFollow f) (h ++ [o]) /\ sy_two m = true /\ sy_seq m = fu_seq f /\
    r = t /\ s = time_of (fu_origin f) /\
    (- 2^63 < fu_corr f < 2^63 -> normal k /\ instant k = fu_corr f * 2^16 /\ (sy_corr m = 0 <-> instant k = (sy_corr m + fu_corr f) * 2^16)).
Proof.
  intros c p0 h p o p' os s r k F R ST IN TW.
  assert (G : exists m t f, In (OSync m (Some t)) (h ++ [o]) /\ In (OFollow f) (h ++ [o]) /\ sy_two m = true /\ sy_seq m = fu_seq f /\
    r = t /\ s = time_of (fu_origin f) /\ from_ns16 (fu_corr f) = Some k).
  { destruct (C43_only _ _ _ _ _ _ _ _ ST IN) as [[f E]|[m [rx E]]]; subst o.
    - assert (ST' := ST). destruct (C43_follow_partial _ _ _ _ _ _ _ _ _ _ F R ST IN) as [_ [_ [E1 [h1 [m [t [h2 [pa [E [_ [_ [TW2 [SQ [ER _]]]]]]]]]]]]]].
      exists m, t, f. split; [apply in_or_app; left; subst h; apply in_elt|]. split; [apply in_elt|].
      split; [exact TW2|]. split; [exact SQ|]. split; [exact ER|]. split; [exact E1|].
      cbn [step] in ST. apply follow_cases in ST.
      destruct ST as [[X _]|[y [k1 [_ [_ [_ [_ [EK [_ [_ [_ [_ [_ EO]]]]]]]]]]]]]; [subst; contradiction IN|].
      subst os. destruct IN as [IN|[]]. injection IN as J1 J2 J3. subst k1. exact EK.
    - destruct (C43_sync _ _ _ _ _ _ _ _ _ _ _ F R ST IN) as [_ [ERX [_ [[X _]|[TW2 [h1 [f [h2 [E [SQ [_ [_ [E1 EK]]]]]]]]]]]]].
      + rewrite (TW m rx eq_refl) in X. discriminate X.
      + exists m, r, f. subst rx. split; [apply in_elt|]. split; [apply in_or_app; left; subst h; apply in_elt|]. repeat split; auto. }
  destruct G as [m [t [f [A [B [C0 [D [E [G EK]]]]]]]]]. exists m, t, f. do 6 (split; [assumption|]).
  intros RG. destruct (from_ns16_exact _ RG) as [t2 [E2 [N1 N2]]]. rewrite E2 in EK. injection EK as EK. subst t2.
  split; [exact N1|]. split; [exact N2|]. rewrite N2. lia.
Qed.
Print Assumptions C45_two_step_partial.

Theorem C45_two_step_refuted : exists c p0 m t f s r k,
  fresh p0 /\ outs c [OSync m (Some t); OFollow f] p0 = Some [GiveM2S s r k] /\ sy_two m = true /\
  sy_src m = parent p0 /\ sy_seq m = fu_seq f /\ fu_src f = sy_src m /\ instant k <> (sy_corr m + fu_corr f) * 2^16.
Proof.
  exists ex_cfg, ex_port, ex_sync, ex_rx, ex_follow. eexists. eexists. eexists.
  split; [exact ex_fresh|]. split; [vm_compute; reflexivity|]. do 4 (split; [reflexivity|]). vm_compute. intros X. discriminate X.
Qed.
Print Assumptions C45_two_step_refuted.

(** *** C44.

    Full statement: slave to master timestamps given to the servo always pair the transmit timestamp of
    a DelayReq with the receive timestamp of the DelayResp answering that same DelayReq, including
    when the DelayResp arrives before the transmit timestamp. *)

(** Both the transmit timestamp and the DelayResp are those of the last DelayReq: they came after it,
    and carry its ticket and its number (the port's count of requests, modulo 2^16).  The DelayResp
    was for this port, and from the parent unless that test is switched off.  Each request gives one
    measurement at most. *)
Theorem C44_pairs : forall c p0 h p o p' os s r k,
  fresh p0 -> run c h p0 = Some p -> step c o p = Some (p', os) -> In (GiveS2M s r k) os ->
  os = [GiveS2M s r k] /\
  exists h1 tk h2 t sent m,
    h = h1 ++ OAskDelay (Sent tk) :: h2 /\ Forall not_ask (h2 ++ [o]) /\
    In (OTx TxDelayReq tk (u16 (d_seq (del_of p0) + count is_ask_delay h1 + 1)) t sent) (h2 ++ [o]) /\ add t (latency c) = Some s /\
    In (ODelayResp m) (h2 ++ [o]) /\ dr_to m = own c /\ dr_seq m = u16 (d_seq (del_of p0) + count is_ask_delay h1 + 1) /\
    (dr_src m = parent p \/ ignore_id c = true) /\ r = time_of (dr_time m) /\ from_ns16 (dr_corr m) = Some k /\
    during c p0 (without c is_s2m) (h1 ++ [OAskDelay (Sent tk)]) h2.
Proof. exact s2m_pairs. Qed.
Print Assumptions C44_pairs.

Definition ex_resp : dr_msg := mkDr (1, 1) 6 (9, 1) (200, 7) 65536 54.
Example ex_asked : outs ex_cfg [OAskDelay (Sent (8, 0)); OTx TxDelayReq (8, 0) 6 (mkTs 200 1 0) true; ODelayResp ex_resp] ex_port =
  Some [GiveS2M (mkTs 200 101 0) (mkTs 200 7 0) (mkTs 0 1 0)].
Proof. vm_compute. reflexivity. Qed.
Example ex_early_resp : outs ex_cfg [OAskDelay (Sent (8, 0)); ODelayResp ex_resp; OTx TxDelayReq (8, 0) 6 (mkTs 200 1 0) true] ex_port =
  Some [GiveS2M (mkTs 200 101 0) (mkTs 200 7 0) (mkTs 0 1 0)].
Proof. vm_compute. reflexivity. Qed.
(** A response to the request before, and a late transmit timestamp of it. *)
Example ex_late : outs ex_cfg [OAskDelay (Sent (8, 0)); OAskDelay (Sent (9, 1)); OTx TxDelayReq (8, 0) 6 (mkTs 200 1 0) true;
    OTx TxDelayReq (9, 1) 7 (mkTs 201 1 0) true; ODelayResp ex_resp; ODelayResp (mkDr (1, 1) 7 (9, 1) (201, 7) 0 54)] ex_port =
  Some [GiveS2M (mkTs 201 101 0) (mkTs 201 7 0) (mkTs 0 0 0)].
Proof. vm_compute. reflexivity. Qed.

(** The answer to the pending request always gives its measurement, when the transmit timestamp is
    known. *)
Theorem C44_answered : forall c p m k,
  pst p = Slave -> mech p = E2E -> tx_pending (del_of p) = false -> rx_pending (del_of p) = true ->
  54 <= dr_len m -> dr_to m = own c -> (dr_src m = parent p \/ ignore_id c = true) -> dr_seq m = d_seq (del_of p) ->
  from_ns16 (dr_corr m) = Some k ->
  exists p', step c (ODelayResp m) p = Some (p', [GiveS2M (d_send (del_of p)) (time_of (dr_time m)) k]).
Proof.
  intros c p m k PS M T R LEN TO SRC SQ EK. cbn [step]. unfold recv_delay_resp, handle_delay_resp.
  cbn [mech pst del_of with_del d_seq tx_pending rx_pending d_tk d_send stash buffer]. replace (dr_len m <? 54) with false by lia.
  rewrite M, PS, TO, same_ident_refl, T, R. cbn [negb andb].
  replace (from_parent _ (dr_src m) || ignore_id c) with true
    by (unfold from_parent; cbn [parent with_del]; destruct SRC as [SRC|SRC]; rewrite SRC; [rewrite same_ident_refl|rewrite orb_true_r]; reflexivity).
  rewrite SQ, Z.eqb_refl. cbn [negb]. rewrite EK. cbn [bind]. eexists. reflexivity.
Qed.
Print Assumptions C44_answered.

(** And an answer that comes before the transmit timestamp is kept until it is known, provided that no
    other message leaves another identity in the buffer in between, and that it fits. *)
Theorem C44_early_partial : forall c p m tk t sent s k,
  pst p = Slave -> mech p = E2E -> tx_pending (del_of p) = true -> rx_pending (del_of p) = true -> d_tk (del_of p) = Some tk ->
  54 <= dr_len m -> dr_len m - 34 <= room c -> dr_to m = own c -> (dr_src m = parent p \/ ignore_id c = true) ->
  dr_seq m = d_seq (del_of p) -> from_ns16 (dr_corr m) = Some k -> add t (latency c) = Some s ->
  outs c [ODelayResp m; OTx TxDelayReq tk (d_seq (del_of p)) t sent] p = Some [GiveS2M s (time_of (dr_time m)) k].
Proof.
  intros c p m tk t sent s k PS M T R TK LEN RM TO SRC SQ EK AD. cbn [outs step]. unfold recv_delay_resp, handle_delay_resp.
  cbn [mech pst del_of with_del d_seq tx_pending rx_pending d_tk d_send stash buffer]. replace (dr_len m <? 54) with false by lia.
  assert (FP : from_parent p (dr_src m) || ignore_id c = true)
    by (unfold from_parent; destruct SRC as [SRC|SRC]; rewrite SRC; [rewrite same_ident_refl|rewrite orb_true_r]; reflexivity).
  rewrite M, PS, TO, same_ident_refl, T, R. unfold from_parent in *. cbn [negb andb parent with_del]. rewrite FP.
  replace (room c <? dr_len m - 34) with false by lia. cbn [bind fst snd app].
  cbn [tx_timestamp del_of with_del d_tk d_seq]. rewrite TK. unfold ticket_is. rewrite !Z.eqb_refl. cbn [andb].
  unfold delay_req_sent. rewrite AD. cbn [bind del_of with_del d_seq tx_pending rx_pending d_tk d_send stash buffer negb].
  unfold handle_delay_resp. cbn [mech pst del_of with_del d_seq tx_pending rx_pending d_tk d_send stash buffer].
  replace (dr_len m <? 54) with false by lia. rewrite M, PS, same_ident_refl. unfold from_parent. cbn [negb andb parent with_del]. rewrite FP.
  rewrite SQ, Z.eqb_refl. cbn [negb]. rewrite EK. cbn [bind fst snd app]. reflexivity.
Qed.
Print Assumptions C44_early_partial.

(** What the provisos exclude: the answer came, and the transmit timestamp, but no measurement is
    given.  Either another slave's DelayResp came in between; or an answer to an older request came
    first and took the place; or the answer carries TLVs that do not fit. *)
Theorem C44_early_refuted : exists c p0 tk t sent (genuine other stale big : dr_msg),
  fresh p0 /\ pst p0 = Slave /\ mech p0 = E2E /\
  dr_to genuine = own c /\ dr_src genuine = parent p0 /\ dr_seq genuine = 6 /\ dr_to other <> own c /\
  outs c [OAskDelay (Sent tk); ODelayResp genuine; OTx TxDelayReq tk 6 t sent] p0 <> Some [] /\
  outs c [OAskDelay (Sent tk); ODelayResp genuine; ODelayResp other; OTx TxDelayReq tk 6 t sent] p0 = Some [] /\
  dr_seq stale = 5 /\ outs c [OAskDelay (Sent tk); ODelayResp stale; ODelayResp genuine; OTx TxDelayReq tk 6 t sent] p0 = Some [] /\
  dr_seq big = 6 /\ dr_to big = own c /\ outs c [OAskDelay (Sent tk); ODelayResp big; OTx TxDelayReq tk 6 t sent] p0 = Some [].
Proof.
  exists ex_cfg, ex_port, (8, 0), (mkTs 200 1 0), true, ex_resp, (mkDr (1, 1) 6 (8, 1) (200, 5) 0 54),
    (mkDr (1, 1) 5 (9, 1) (199, 5) 0 54), (mkDr (1, 1) 6 (9, 1) (200, 7) 65536 200).
  split; [exact ex_fresh|]. do 5 (split; [reflexivity|]). split; [discriminate|]. split; [vm_compute; discriminate|].
  split; [vm_compute; reflexivity|]. split; [reflexivity|]. split; [vm_compute; reflexivity|]. split; [reflexivity|]. split; [reflexivity|].
  vm_compute. reflexivity.
Qed.
Print Assumptions C44_early_refuted.

(** *** C56: the same for the peer delay mechanism.

    Full statement: the peer delay measurement given to the servo combines the transmit timestamp of
    the last peer delay request, the receive timestamp and contents of the response to it and, for
    two-step peers, of that response's follow-up, all with the request's number and addressed to
    this port, from one peer, corrected by both correction fields. *)
Theorem C56_pairs_partial : forall c p0 h p o p' os a b d e k,
  fresh p0 -> run c h p0 = Some p -> step c o p = Some (p', os) -> In (GiveP2P a b d e k) os ->
  os = [GiveP2P a b d e k] /\
  exists h1 tk h2 t sent h3,
    h = h1 ++ OAskPeer (Sent tk) :: h2 ++ OTx TxPDelayReq tk (p_seq (peer_of p)) t sent :: h3 /\
    Forall not_sent_peer h2 /\ Forall (fun x => is_ask_peer x = false) (h3 ++ [o]) /\
    p_seq (peer_of p) = u16 (p_seq (peer_of p0) + count is_ask_peer (h1 ++ OAskPeer (Sent tk) :: h2)) /\
    add t (latency c) = Some a /\
    during c p0 (without c is_p2p) (h1 ++ OAskPeer (Sent tk) :: h2 ++ [OTx TxPDelayReq tk (p_seq (peer_of p)) t sent]) h3 /\
    ((exists m, o = OPResp m (Some e) /\ pr_two m = false /\ pr_to m = own c /\ pr_seq m = p_seq (peer_of p) /\
        b = time_of (pr_time m) /\ d = time_of (pr_time m) /\ from_ns16 (pr_corr m) = Some k) \/
     (exists m f, In (OPResp m (Some e)) h3 /\ o = OPFollow f /\ pr_two m = true /\ pr_to m = own c /\ pf_to f = own c /\
        pr_seq m = p_seq (peer_of p) /\ pf_seq f = p_seq (peer_of p) /\
        b = time_of (pr_time m) /\ d = time_of (pf_time f) /\ from_ns16 (pf_corr f) = Some k)).
Proof. exact p2p_pairs. Qed.
Print Assumptions C56_pairs_partial.

Definition ex_peer_port : port := with_mech ex_port P2P.
Definition ex_presp : pr_msg := mkPr (2, 1) 8 (9, 1) true (300, 5) 65536 54.
Definition ex_pfollow : pf_msg := mkPf (2, 1) 8 (9, 1) (300, 25) 0 54.
Example ex_peer_fresh : fresh ex_peer_port.
Proof. unfold fresh, ex_peer_port, ex_port. cbn. repeat split; lia. Qed.
Example ex_peer_two : outs ex_cfg [OAskPeer (Sent (8, 0)); OTx TxPDelayReq (8, 0) 8 (mkTs 300 0 0) true;
    OPResp ex_presp (Some (mkTs 300 30 0)); OPFollow ex_pfollow] ex_peer_port =
  Some [GiveP2P (mkTs 300 100 0) (mkTs 300 5 0) (mkTs 300 25 0) (mkTs 300 30 0) (mkTs 0 0 0)].
Proof. vm_compute. reflexivity. Qed.
Example ex_peer_one : outs ex_cfg [OAskPeer (Sent (8, 0)); OTx TxPDelayReq (8, 0) 8 (mkTs 300 0 0) true;
    OPResp (mkPr (2, 1) 8 (9, 1) false (0, 0) 65536 54) (Some (mkTs 300 30 0)); OPFollow ex_pfollow] ex_peer_port =
  Some [GiveP2P (mkTs 300 100 0) (mkTs 0 0 0) (mkTs 0 0 0) (mkTs 300 30 0) (mkTs 0 1 0)].
Proof. vm_compute. reflexivity. Qed.

(** What is missing from the full statement: the response's correction is dropped (the example above
    ex_peer_two: 1 ns), the response and its follow-up may come from different peers, and a response
    that comes before the transmit timestamp is lost. *)
Theorem C56_refuted : exists c p0 tk t m f r,
  fresh p0 /\
  (exists a b d e k, outs c [OAskPeer (Sent tk); OTx TxPDelayReq tk 8 t true; OPResp m (Some r); OPFollow f] p0 = Some [GiveP2P a b d e k] /\
     instant k <> (pr_corr m + pf_corr f) * 2^16) /\
  pr_src m <> pf_src f /\ pr_to m = own c /\ pf_to f = own c /\ pr_seq m = 8 /\ pf_seq f = 8 /\
  outs c [OAskPeer (Sent tk); OPResp m (Some r); OTx TxPDelayReq tk 8 t true; OPFollow f] p0 = Some [].
Proof.
  exists ex_cfg, ex_peer_port, (8, 0), (mkTs 300 0 0), ex_presp, (mkPf (7, 7) 8 (9, 1) (300, 25) 0 54), (mkTs 300 30 0).
  split; [exact ex_peer_fresh|]. split.
  { eexists. eexists. eexists. eexists. eexists. split; [vm_compute; reflexivity|]. vm_compute. discriminate. }
  split; [discriminate|]. do 4 (split; [reflexivity|]). vm_compute. reflexivity.
Qed.
Print Assumptions C56_refuted.

(** *** C57: follow-ups sent.

    Full statement: every FollowUp sent carries the number of the last Sync sent and the transmit
    timestamp of that Sync, and there is at most one for each; every PDelay_Resp_Follow_Up goes to
    the requester of the last answered peer delay request and carries the transmit timestamp of that
    answer. *)
Theorem C57_follow_up : forall c p0 h p o p' os seq t1,
  fresh p0 -> run c h p0 = Some p -> step c o p = Some (p', os) -> In (SendFollow seq t1) os ->
  os = [SendFollow seq t1] /\ exists h1 tk h2 t sent, o = OTx TxSync tk seq t sent /\ add t (latency c) = Some t1 /\
    h = h1 ++ OSendSync (Sent tk) :: h2 /\ Forall not_sent_sync h2 /\ during c p0 (without c is_follow) (h1 ++ [OSendSync (Sent tk)]) h2 /\
    seq = u16 (s_seq (mast_of p0) + count is_send_sync h).
Proof. exact follow_sent. Qed.
Print Assumptions C57_follow_up.

(** The peer's follow-up; that it goes to the requester needs that no later request failed to be
    answered while the timestamp was awaited. *)
Theorem C57_peer_partial : forall c p0 h p o p' os to seq t1,
  fresh p0 -> run c h p0 = Some p -> step c o p = Some (p', os) -> In (SendPFollow to seq t1) os ->
  os = [SendPFollow to seq t1] /\ exists h1 m rx tk h2 t sent q, o = OTx TxPDelayResp tk seq t sent /\ add t (latency c) = Some t1 /\
    h = h1 ++ OPReq m rx (Sent tk) :: h2 /\ run c h1 p0 = Some q /\ answers q m rx /\
    during c p0 not_answered (h1 ++ [OPReq m rx (Sent tk)]) h2 /\
    during c p0 (without c is_pfollow) (h1 ++ [OPReq m rx (Sent tk)]) h2 /\
    (during c p0 no_failed_answer (h1 ++ [OPReq m rx (Sent tk)]) h2 -> to = pq_src m).
Proof. exact pfollow_sent. Qed.
Print Assumptions C57_peer_partial.

(** A follow-up is sent whenever the timestamp of the last Sync, or of the last answer, comes. *)
Theorem C57_sent : forall c p tk t t1 sent,
  s_tk (mast_of p) = Some tk -> add t (latency c) = Some t1 ->
  exists p', step c (OTx TxSync tk (s_seq (mast_of p)) t sent) p = Some (p', [SendFollow (s_seq (mast_of p)) t1]) /\ s_tk (mast_of p') = None.
Proof.
  intros c p tk t t1 sent TK AD. cbn [step tx_timestamp]. rewrite TK. unfold ticket_is. rewrite !Z.eqb_refl. cbn [andb]. rewrite AD. cbn [bind].
  eexists. split; [reflexivity|]. reflexivity.
Qed.
Print Assumptions C57_sent.

Example ex_master : outs ex_cfg [OState Master; OSendSync (Sent (4, 2)); OTx TxSync (3, 2) 3 (mkTs 50 0 0) true; OTx TxSync (4, 2) 4 (mkTs 50 0 0) true;
    OTx TxSync (4, 2) 4 (mkTs 50 0 0) true] ex_port = Some [SendFollow 4 (mkTs 50 100 0)].
Proof. vm_compute. reflexivity. Qed.
Example ex_responder : outs ex_cfg [OPReq (mkPq (2, 1) 77 54) (Some ex_rx) (Sent (4, 2)); OTx TxPDelayResp (4, 2) 77 (mkTs 50 0 0) true] ex_peer_port =
  Some [SendPFollow (2, 1) 77 (mkTs 50 100 0)].
Proof. vm_compute. reflexivity. Qed.

(** A later request that could not be answered redirects the follow-up to its requester. *)
Theorem C57_peer_refuted : exists c p0 m1 m2 tk t seq t1,
  fresh p0 /\ answers p0 m1 (Some t) /\ pq_src m1 <> pq_src m2 /\
  outs c [OPReq m1 (Some t) (Sent tk); OPReq m2 (Some t) Failed; OTx TxPDelayResp tk seq t true] p0 = Some [SendPFollow (pq_src m2) seq t1].
Proof.
  exists ex_cfg, ex_peer_port, (mkPq (2, 1) 77 54), (mkPq (6, 1) 12 54), (4, 2), (mkTs 50 0 0), 77. eexists.
  split; [exact ex_peer_fresh|]. split; [unfold answers; cbn; repeat split; auto; [lia|discriminate]|]. split; [discriminate|].
  vm_compute. reflexivity.
Qed.
Print Assumptions C57_peer_refuted.
