(** Proofs about PrtModel: peer delay requests and the master's follow-ups. *)
Require Import ZArith List Bool Lia.
Import ListNotations.
From Verif Require Import Base TimeSpec TimeModel PrtSpec PrtModel PrtHist PrtProof PrtProof2.
Open Scope Z_scope.

(** *** Peer delay requests. *)
Definition peer_op (o : op) : bool :=
  match o with OPResp _ _ | OPFollow _ | OAskPeer _ | OTx TxPDelayReq _ _ _ _ => true | _ => false end.

Lemma to_state_peer : forall s p, peer_of (to_state s p) = peer_of p.
Proof. intros [] p; reflexivity. Qed.
Lemma to_state_mast : forall s p, mast_of (to_state s p) = mast_of p.
Proof. intros [] p; reflexivity. Qed.
Lemma best_peer : forall s i p, peer_of (best_master s i p) = peer_of p.
Proof. intros s i p. unfold best_master. destruct (pstate_eqb s (pst p)); [reflexivity|]. exact (to_state_peer s (with_parent p i)). Qed.
Lemma best_mast : forall s i p, mast_of (best_master s i p) = mast_of p.
Proof. intros s i p. unfold best_master. destruct (pstate_eqb s (pst p)); [reflexivity|]. exact (to_state_mast s (with_parent p i)). Qed.

Lemma ask_delay_peer : forall c s p, peer_of (ask_delay c s p) = peer_of p /\ mast_of (ask_delay c s p) = mast_of p.
Proof. intros c s p. unfold ask_delay. destruct s; rw_fail; split; reflexivity. Qed.

Lemma resp_frame2 : forall c m df p p' os, handle_delay_resp c m df p = Some (p', os) ->
  peer_of p' = peer_of p /\ mast_of p' = mast_of p /\
  existsb is_p2p os = false /\ existsb is_follow os = false /\ existsb is_pfollow os = false.
Proof.
  intros c m df p p' os H. apply delay_resp_cases in H.
  destruct H as [[E1 E2]|[_ [_ [_ [_ [_ [[_ [_ [_ [E1 [kept [_ E2]]]]]]|[k [_ [_ [_ [E2 E1]]]]]]]]]]]]; subst; repeat split.
Qed.

Lemma tx_delay_frame2 : forall c tk seq t sent p p' os, tx_timestamp c TxDelayReq tk seq t sent p = Some (p', os) ->
  peer_of p' = peer_of p /\ mast_of p' = mast_of p /\
  existsb is_p2p os = false /\ existsb is_follow os = false /\ existsb is_pfollow os = false.
Proof.
  intros c tk seq t sent p p' os H. cbn [tx_timestamp] in H.
  destruct (ticket_is (d_tk (del_of p)) tk && (seq =? d_seq (del_of p))); [|inv H; repeat split].
  destruct (delay_req_sent c t p) as [[p2 o2]|] eqn:ED; [cbn [bind] in H|discriminate H]. inv H.
  unfold delay_req_sent in ED. destruct (add t (latency c)) as [t1|]; [cbn [bind] in ED|discriminate ED].
  destruct (negb (tx_pending (del_of p))); [inv ED; repeat split|].
  destruct (rx_pending (del_of p)); [inv ED; repeat split|].
  destruct (stash (del_of p)); [|inv ED; repeat split].
  apply resp_frame2 in ED. exact ED.
Qed.

Lemma frame_peer : forall c o p p' os, step c o p = Some (p', os) -> peer_op o = false ->
  peer_of p' = peer_of p /\ existsb is_p2p os = false.
Proof.
  intros c o p p' os H F. destruct o; try discriminate F; cbn [step] in H.
  - apply sync_frame in H. tauto.
  - apply follow_frame in H. tauto.
  - unfold recv_delay_resp in H. apply resp_frame2 in H. tauto.
  - unfold handle_peer_req in H. crunch H; try (split; reflexivity).
    destruct (pst p); crunch H; try (split; reflexivity); destruct s; rw_fail; split; reflexivity.
  - inv H. split; reflexivity.
  - inv H. split; [apply ask_delay_peer|reflexivity].
  - inv H. unfold send_sync. destruct s; rw_fail; split; reflexivity.
  - destruct k; try discriminate F.
    + cbn [tx_timestamp] in H. crunch H; try (split; reflexivity). cbn [peer_of with_mast]. destruct sent; rw_fail; split; reflexivity.
    + apply tx_delay_frame2 in H. tauto.
    + cbn [tx_timestamp] in H. crunch H; try (split; reflexivity). cbn [peer_of with_mast]. destruct sent; rw_fail; split; reflexivity.
  - inv H. split; [apply best_peer|reflexivity].
  - inv H. split; [apply to_state_peer|reflexivity].
  - inv H. split; reflexivity.
Qed.

Lemma peer_resp_cases : forall c m rx p p' os, handle_peer_resp c m rx p = Some (p', os) ->
  (os = [] /\ p' = p) \/
  (exists t k, rx = Some t /\ want_resp (peer_of p) = true /\ pr_to m = own c /\ pr_seq m = p_seq (peer_of p) /\
     from_ns16 (pr_corr m) = Some k /\
     p' = with_peer p (mkPeer (p_seq (peer_of p)) (p_tk (peer_of p)) false (if pr_two m then true else want_follow (peer_of p))
                              (p1 (peer_of p)) (time_of (pr_time m)) t k (pr_seq m)) /\
     os = if pr_two m then [] else [GiveP2P (p1 (peer_of p)) (time_of (pr_time m)) (time_of (pr_time m)) t k]).
Proof.
  intros c m rx p p' os H. unfold handle_peer_resp in H.
  destruct (pr_len m <? 54); [inv H; left; split; reflexivity|].
  destruct (mech p); try (inv H; left; split; reflexivity).
  destruct (peers p); cbn [negb] in H; [|inv H; left; split; reflexivity].
  destruct (same_ident (own c) (pr_to m)) eqn:EI; cbn [negb] in H; [|inv H; left; split; reflexivity].
  apply same_ident_true in EI.
  destruct rx as [t|]; [|inv H; left; split; reflexivity].
  destruct (want_resp (peer_of p)) eqn:EW; cbn [negb] in H; [|inv H; left; split; reflexivity].
  destruct (p_seq (peer_of p) =? pr_seq m) eqn:EQ; cbn [negb] in H; [|inv H; left; split; reflexivity].
  apply Z.eqb_eq in EQ.
  destruct (from_ns16 (pr_corr m)) as [k|] eqn:EK; [cbn [bind] in H|discriminate H]. inv H.
  right. exists t, k. repeat split; auto.
Qed.

Lemma peer_follow_cases : forall c m p p' os, handle_peer_follow c m p = Some (p', os) ->
  (os = [] /\ p' = p) \/
  (exists k, want_follow (peer_of p) = true /\ pf_to m = own c /\ pf_seq m = p_seq (peer_of p) /\ pf_seq m = resp_seq (peer_of p) /\
     from_ns16 (pf_corr m) = Some k /\
     p' = with_peer p (mkPeer (p_seq (peer_of p)) (p_tk (peer_of p)) (want_resp (peer_of p)) false
                              (p1 (peer_of p)) (p2 (peer_of p)) (p4 (peer_of p)) k (resp_seq (peer_of p))) /\
     os = [GiveP2P (p1 (peer_of p)) (p2 (peer_of p)) (time_of (pf_time m)) (p4 (peer_of p)) k]).
Proof.
  intros c m p p' os H. unfold handle_peer_follow in H.
  destruct (pf_len m <? 54); [inv H; left; split; reflexivity|].
  destruct (mech p); try (inv H; left; split; reflexivity).
  destruct (peers p); cbn [negb] in H; [|inv H; left; split; reflexivity].
  destruct (same_ident (own c) (pf_to m)) eqn:EI; cbn [negb] in H; [|inv H; left; split; reflexivity].
  apply same_ident_true in EI.
  destruct (want_follow (peer_of p)) eqn:EW; cbn [negb] in H; [|inv H; left; split; reflexivity].
  destruct (pf_seq m =? p_seq (peer_of p)) eqn:E1; cbn [negb orb] in H; [|inv H; left; split; reflexivity].
  destruct (pf_seq m =? resp_seq (peer_of p)) eqn:E2; cbn [negb orb] in H; [|inv H; left; split; reflexivity].
  apply Z.eqb_eq in E1. apply Z.eqb_eq in E2.
  destruct (from_ns16 (pf_corr m)) as [k|] eqn:EK; [cbn [bind] in H|discriminate H]. inv H.
  right. exists k. repeat split; auto.
Qed.

Lemma tx_peer_cases : forall c tk seq t sent p p' os, tx_timestamp c TxPDelayReq tk seq t sent p = Some (p', os) ->
  os = [] /\
  (p' = p \/
   (p_tk (peer_of p) = Some tk /\ seq = p_seq (peer_of p) /\ exists t1, add t (latency c) = Some t1 /\
    p' = with_peer p (mkPeer (p_seq (peer_of p)) None true false t1 (p2 (peer_of p)) (p4 (peer_of p)) (p_corr (peer_of p)) (resp_seq (peer_of p))))).
Proof.
  intros c tk seq t sent p p' os H. cbn [tx_timestamp] in H.
  destruct (ticket_is (p_tk (peer_of p)) tk && (seq =? p_seq (peer_of p))) eqn:EM; [|inv H; split; [reflexivity|left; reflexivity]].
  apply andb_true_iff in EM. destruct EM as [EM ES]. apply ticket_is_true in EM. apply Z.eqb_eq in ES.
  unfold peer_req_sent in H. destruct (add t (latency c)) as [t1|]; [cbn [bind] in H|discriminate H]. inv H.
  split; [reflexivity|]. right. split; [exact EM|]. split; [reflexivity|]. exists t1. split; reflexivity.
Qed.

Definition stamped (c : cfg) (p0 : port) (h h1 : list op) (tk : ticket) (h2 : list op) (seq : Z) (t : ts) (sent : bool) (h3 : list op) : Prop :=
  h = h1 ++ OAskPeer (Sent tk) :: h2 ++ OTx TxPDelayReq tk seq t sent :: h3 /\ Forall not_sent_peer h2 /\
  Forall (fun o => is_ask_peer o = false) h3 /\
  during c p0 (without c is_p2p) (h1 ++ OAskPeer (Sent tk) :: h2 ++ [OTx TxPDelayReq tk seq t sent]) h3.

Definition inv_peer (c : cfg) (p0 : port) (h : list op) (p : port) : Prop :=
  let q := peer_of p in
  p_seq q = u16 (p_seq (peer_of p0) + count is_ask_peer h) /\
  (want_resp q = true -> want_follow q = false) /\
  (forall tk, p_tk q = Some tk -> exists h1 h2, h = h1 ++ OAskPeer (Sent tk) :: h2 /\ Forall not_sent_peer h2) /\
  (want_resp q = true -> exists h1 tk h2 t sent h3, stamped c p0 h h1 tk h2 (p_seq q) t sent h3 /\ add t (latency c) = Some (p1 q)) /\
  (want_follow q = true -> exists h1 tk h2 t sent h3 m, stamped c p0 h h1 tk h2 (p_seq q) t sent h3 /\ add t (latency c) = Some (p1 q) /\
     In (OPResp m (Some (p4 q))) h3 /\ pr_two m = true /\ pr_to m = own c /\ pr_seq m = p_seq q /\ resp_seq q = p_seq q /\
     p2 q = time_of (pr_time m)).

Lemma stamped_snoc : forall c p0 h h1 tk h2 seq t sent h3 o p p' os,
  stamped c p0 h h1 tk h2 seq t sent h3 -> run c h p0 = Some p -> step c o p = Some (p', os) -> is_ask_peer o = false ->
  existsb is_p2p os = false -> stamped c p0 (h ++ [o]) h1 tk h2 seq t sent (h3 ++ [o]).
Proof.
  intros c p0 h h1 tk h2 seq t sent h3 o p p' os [E [F2 [F3 D]]] R ST NA NO. unfold stamped.
  split; [subst h; rewrite <- app_assoc; cbn [app]; rewrite <- app_assoc; reflexivity|]. split; [exact F2|].
  split; [apply Forall_app; split; [exact F3|constructor; [exact NA|constructor]]|].
  eapply during_snoc; [exact D| |].
  - rewrite <- app_assoc. cbn [app]. rewrite <- app_assoc. cbn [app]. rewrite <- E. exact R.
  - intros q os' S2. rewrite ST in S2. injection S2 as S2 S3. subst. exact NO.
Qed.

Lemma tk_snoc : forall h tk o, not_sent_peer o ->
  (exists h1 h2, h = h1 ++ OAskPeer (Sent tk) :: h2 /\ Forall not_sent_peer h2) ->
  exists h1 h2, h ++ [o] = h1 ++ OAskPeer (Sent tk) :: h2 /\ Forall not_sent_peer h2.
Proof.
  intros h tk o N [h1 [h2 [E F]]]. exists h1, (h2 ++ [o]). split; [subst; rewrite <- app_assoc; reflexivity|].
  apply Forall_app. split; [exact F|constructor; [exact N|constructor]].
Qed.

Lemma inv_peer_step : forall c p0 h p o p' os,
  inv_peer c p0 h p -> run c h p0 = Some p -> step c o p = Some (p', os) -> inv_peer c p0 (h ++ [o]) p'.
Proof.
  intros c p0 h p o p' os I R ST.
  assert (SAME : peer_of p' = peer_of p -> is_ask_peer o = false -> existsb is_p2p os = false -> inv_peer c p0 (h ++ [o]) p').
  { intros F1 NA F2. destruct I as [I1 [I5 [I2 [I3 I4]]]]. unfold inv_peer. rewrite F1, count_app, count_one, NA, Z.add_0_r.
    split; [exact I1|]. split; [exact I5|]. split; [|split].
    - intros tk T. apply tk_snoc; [destruct o; try exact Logic.I; discriminate NA|apply I2; exact T].
    - intros W. destruct (I3 W) as [h1 [tk [h2 [t [sent [h3 [A B]]]]]]]. exists h1, tk, h2, t, sent, (h3 ++ [o]). split; [|exact B].
      eapply stamped_snoc; eassumption.
    - intros W. destruct (I4 W) as [h1 [tk [h2 [t [sent [h3 [m [A [B [C0 D]]]]]]]]]]. exists h1, tk, h2, t, sent, (h3 ++ [o]), m.
      split; [eapply stamped_snoc; eassumption|]. split; [exact B|]. split; [apply in_or_app; left; exact C0|exact D]. }
  destruct (peer_op o) eqn:DO.
  2:{ destruct (frame_peer _ _ _ _ _ ST DO) as [F1 F2]. apply SAME; [exact F1|destruct o; try discriminate DO; reflexivity|exact F2]. }
  destruct o; try discriminate DO; assert (ST' := ST); cbn [step] in ST.
  - apply peer_resp_cases in ST. destruct ST as [[E1 E2]|[t [k [ERX [EW [ETO [EQ [EK [EP EO]]]]]]]]]; [subst; apply SAME; reflexivity|].
    clear SAME. destruct I as [I1 [I5 [I2 [I3 I4]]]]. rewrite EP. unfold inv_peer. cbn [peer_of with_peer p_seq p_tk want_resp want_follow p1 p2 p4 p_corr resp_seq].
    rewrite count_app, count_one. cbn [is_ask_peer]. rewrite Z.add_0_r. split; [exact I1|]. split; [discriminate|]. split; [|split].
    + intros tk T. apply tk_snoc; [exact Logic.I|apply I2; exact T].
    + discriminate.
    + destruct (pr_two m) eqn:E2.
      2:{ rewrite (I5 EW). discriminate. }
      intros _. destruct (I3 EW) as [h1 [tk [h2 [t0 [sent [h3 [A B]]]]]]]. exists h1, tk, h2, t0, sent, (h3 ++ [OPResp m rx]), m.
      split; [eapply stamped_snoc; [eassumption..|reflexivity|subst os; reflexivity]|]. split; [exact B|].
      split; [apply in_or_app; right; left; rewrite ERX; reflexivity|]. repeat split; auto.
  - apply peer_follow_cases in ST. destruct ST as [[E1 E2]|[k [EW [ETO [EQ [EQ2 [EK [EP EO]]]]]]]]; [subst; apply SAME; reflexivity|].
    clear SAME. destruct I as [I1 [I5 [I2 [I3 I4]]]]. rewrite EP. unfold inv_peer. cbn [peer_of with_peer p_seq p_tk want_resp want_follow p1 p2 p4 p_corr resp_seq].
    rewrite count_app, count_one. cbn [is_ask_peer]. rewrite Z.add_0_r. split; [exact I1|].
    assert (NR : want_resp (peer_of p) = false) by (destruct (want_resp (peer_of p)); [rewrite I5 in EW by reflexivity; discriminate EW|reflexivity]).
    rewrite NR. split; [discriminate|]. split; [|split; discriminate].
    intros tk T. apply tk_snoc; [exact Logic.I|apply I2; exact T].
  - inv ST. clear SAME ST'. destruct I as [I1 [I5 [I2 [I3 I4]]]]. unfold inv_peer. rewrite count_app, count_one. cbn [is_ask_peer].
    destruct s; unfold ask_peer; rw_fail; cbn [peer_of with_peer p_seq p_tk want_resp want_follow p1 p2 p4 p_corr resp_seq];
      (split; [rewrite I1, u16_succ; reflexivity|]); (split; [discriminate|]); (split; [|split; discriminate]).
    + intros tk' T. injection T as T. subst tk'. exists h, []. split; [reflexivity|constructor].
    + intros tk' T. apply tk_snoc; [exact Logic.I|apply I2; exact T].
    + intros tk' T. apply tk_snoc; [exact Logic.I|apply I2; exact T].
  - destruct k; try discriminate DO. apply tx_peer_cases in ST. destruct ST as [EO [E2|[TK [SQ [t1 [AD E2]]]]]]; [subst; apply SAME; reflexivity|].
    clear SAME. destruct I as [I1 [I5 [I2 [I3 I4]]]]. subst p'. unfold inv_peer. cbn [peer_of with_peer p_seq p_tk want_resp want_follow p1 p2 p4 p_corr resp_seq].
    rewrite count_app, count_one. cbn [is_ask_peer]. rewrite Z.add_0_r. split; [exact I1|]. split; [reflexivity|]. split; [discriminate|]. split; [|discriminate].
    intros _. destruct (I2 tk TK) as [h1 [h2 [E F]]]. exists h1, tk, h2, t, sent, []. split; [|exact AD]. unfold stamped.
    split; [subst; rewrite <- app_assoc; reflexivity|]. split; [exact F|]. split; [constructor|apply during_nil].
Qed.

Lemma inv_peer_run : forall c p0 h p, fresh p0 -> run c h p0 = Some p -> inv_peer c p0 h p.
Proof.
  intros c p0 h p F R. revert h p R. apply (run_ind c p0 (inv_peer c p0)).
  - destruct F as [_ [_ [_ [_ [_ [_ [F1 [F2 [F3 [F4 _]]]]]]]]]]. unfold inv_peer. rewrite F1, F2, F3. unfold count. cbn [filter length].
    rewrite Z.add_0_r, u16_small by exact F4. split; [reflexivity|]. split; [reflexivity|]. split; [discriminate|]. split; discriminate.
  - intros. eapply inv_peer_step; eassumption.
Qed.

Lemma p2p_pairs : forall c p0 h p o p' os a b d e k,
  fresh p0 -> run c h p0 = Some p -> step c o p = Some (p', os) -> In (GiveP2P a b d e k) os ->
  os = [GiveP2P a b d e k] /\
  exists h1 tk h2 t sent h3,
    h = h1 ++ OAskPeer (Sent tk) :: h2 ++ OTx TxPDelayReq tk (p_seq (peer_of p)) t sent :: h3 /\
    Forall not_sent_peer h2 /\ Forall (fun x => is_ask_peer x = false) (h3 ++ [o]) /\
    p_seq (peer_of p) = u16 (p_seq (peer_of p0) + count is_ask_peer (h1 ++ OAskPeer (Sent tk) :: h2)) /\
    add t (latency c) = Some a /\
    during c p0 (without c is_p2p) (h1 ++ OAskPeer (Sent tk) :: h2 ++ [OTx TxPDelayReq tk (p_seq (peer_of p)) t sent]) h3 /\
    ((exists m, o = OPResp m (Some e) /\ pr_two m = false /\ pr_to m = own c /\ pr_seq m = p_seq (peer_of p) /\
        b = time_of (pr_time m) /\ d = time_of (pr_time m) /\ from_ns16 (pr_corr m) = Some k) \/
     (exists m f, In (OPResp m (Some e)) h3 /\ o = OPFollow f /\ pr_two m = true /\ pr_to m = own c /\ pf_to f = own c /\
        pr_seq m = p_seq (peer_of p) /\ pf_seq f = p_seq (peer_of p) /\
        b = time_of (pr_time m) /\ d = time_of (pf_time f) /\ from_ns16 (pf_corr f) = Some k)).
Proof.
  intros c p0 h p o p' os a b d e k F R ST I. destruct (inv_peer_run _ _ _ _ F R) as [I1 [I5 [I2 [I3 I4]]]].
  assert (SEQ : forall h1 tk h2 seq t sent h3, stamped c p0 h h1 tk h2 seq t sent h3 ->
    p_seq (peer_of p) = u16 (p_seq (peer_of p0) + count is_ask_peer (h1 ++ OAskPeer (Sent tk) :: h2))).
  { intros h1 tk h2 seq t sent h3 [E [_ [F3 _]]]. rewrite I1, E.
    replace (h1 ++ OAskPeer (Sent tk) :: h2 ++ OTx TxPDelayReq tk seq t sent :: h3)
      with ((h1 ++ OAskPeer (Sent tk) :: h2) ++ [OTx TxPDelayReq tk seq t sent] ++ h3) by (rewrite <- app_assoc; reflexivity).
    rewrite (count_app _ (h1 ++ _)), (count_app _ [_]), count_one. cbn [is_ask_peer].
    assert (Z0 : count is_ask_peer h3 = 0).
    { clear - F3. induction F3 as [|x l H Fo IH]; [reflexivity|]. unfold count in *. cbn [filter]. rewrite H. exact IH. }
    rewrite Z0, !Z.add_0_r. reflexivity. }
  destruct (peer_op o) eqn:DO.
  2:{ destruct (frame_peer _ _ _ _ _ ST DO) as [_ F2]. exfalso.
      assert (X : existsb is_p2p os = true) by (apply existsb_exists; exists (GiveP2P a b d e k); split; [exact I|reflexivity]). congruence. }
  destruct o; try discriminate DO; cbn [step] in ST.
  - apply peer_resp_cases in ST. destruct ST as [[E1 E2]|[t [k1 [ERX [EW [ETO [EQ [EK [EP EO]]]]]]]]]; [subst; contradiction I|].
    destruct (pr_two m) eqn:E2; subst os; [contradiction I|]. destruct I as [I|[]]. injection I as J1 J2 J3 J4 J5. subst a b d e k1.
    split; [reflexivity|]. destruct (I3 EW) as [h1 [tk [h2 [t0 [sent [h3 [A B]]]]]]]. exists h1, tk, h2, t0, sent, h3.
    destruct A as [A1 [A2 [A3 A4]]].
    split; [exact A1|]. split; [exact A2|]. split; [apply Forall_app; split; [exact A3|constructor; [reflexivity|constructor]]|].
    split; [eapply SEQ; repeat split; eassumption|]. split; [exact B|]. split; [exact A4|]. left. exists m. rewrite ERX. repeat split; auto.
  - apply peer_follow_cases in ST. destruct ST as [[E1 E2]|[k1 [EW [ETO [EQ [EQ2 [EK [EP EO]]]]]]]]; [subst; contradiction I|].
    subst os. destruct I as [I|[]]. injection I as J1 J2 J3 J4 J5. subst a b d e k1. split; [reflexivity|].
    destruct (I4 EW) as [h1 [tk [h2 [t0 [sent [h3 [m0 [A [B [B1 [B2 [B3 [B4 [B5 B6]]]]]]]]]]]]]]. exists h1, tk, h2, t0, sent, h3.
    destruct A as [A1 [A2 [A3 A4]]].
    split; [exact A1|]. split; [exact A2|]. split; [apply Forall_app; split; [exact A3|constructor; [reflexivity|constructor]]|].
    split; [eapply SEQ; repeat split; eassumption|]. split; [exact B|]. split; [exact A4|]. right. exists m0, m. repeat split; auto.
  - inv ST. contradiction I.
  - destruct k0; try discriminate DO. apply tx_peer_cases in ST. destruct ST as [EO _]. subst. contradiction I.
Qed.

(** *** Follow-ups sent. *)
Lemma peer_req_cases : forall c m rx s p p' os, handle_peer_req c m rx s p = Some (p', os) ->
  os = [] /\
  ((~ answers p m rx /\ p' = p) \/
   (answers p m rx /\
    mast_of p' = mkMast (s_seq (mast_of p)) (s_tk (mast_of p)) (match s with Sent tk => Some tk | _ => r_tk (mast_of p) end) (pq_src m))).
Proof.
  intros c m rx s p p' os H. unfold handle_peer_req in H. unfold answers.
  destruct (pq_len m <? 54) eqn:EL; [inv H; split; [reflexivity|]; left; split; [intros [_ [_ [X _]]]; lia|reflexivity]|].
  destruct (mech p); try (inv H; split; [reflexivity|]; left; split; [intros [X _]; discriminate X|reflexivity]).
  assert (D : (pst p = Listening \/ pst p = Slave \/ pst p = Master \/ pst p = Passive) \/
              (~ (pst p = Listening \/ pst p = Slave \/ pst p = Master \/ pst p = Passive) /\ Some (p, @nil out) = Some (p', os))).
  { destruct (pst p); try (left; tauto); right; (split; [intros [X|[X|[X|X]]]; discriminate X|exact H]). }
  destruct D as [D|[D E]].
  2:{ inv E. split; [reflexivity|]. left. split; [intros [_ [X _]]; exact (D X)|reflexivity]. }
  destruct rx as [t|].
  2:{ assert (E : Some (p, @nil out) = Some (p', os)) by (destruct D as [D|[D|[D|D]]]; rewrite D in H; exact H). inv E.
      split; [reflexivity|]. left. split; [intros [_ [_ [_ X]]]; apply X; reflexivity|reflexivity]. }
  assert (E : Some (match s with
              | Sent tk => with_mast p (mkMast (s_seq (mast_of p)) (s_tk (mast_of p)) (Some tk) (pq_src m))
              | _ => send_failure c (with_mast p (mkMast (s_seq (mast_of p)) (s_tk (mast_of p)) (r_tk (mast_of p)) (pq_src m)))
              end, @nil out) = Some (p', os)) by (destruct D as [D|[D|[D|D]]]; rewrite D in H; exact H).
  inv E. split; [reflexivity|]. right. split; [repeat split; auto; [lia|discriminate]|]. destruct s; rw_fail; reflexivity.
Qed.

Definition mast_op (o : op) : bool :=
  match o with OPReq _ _ _ | OSendSync _ | OTx TxSync _ _ _ _ | OTx TxPDelayResp _ _ _ _ => true | _ => false end.

Lemma frame_mast : forall c o p p' os, step c o p = Some (p', os) -> mast_op o = false ->
  mast_of p' = mast_of p /\ existsb is_follow os = false /\ existsb is_pfollow os = false.
Proof.
  intros c o p p' os H F. destruct o; try discriminate F; cbn [step] in H.
  - apply sync_frame in H. tauto.
  - apply follow_frame in H. tauto.
  - unfold recv_delay_resp in H. apply resp_frame2 in H. tauto.
  - apply peer_resp_cases in H. destruct H as [[E1 E2]|[t [k [_ [_ [_ [_ [_ [E2 E1]]]]]]]]]; subst; [repeat split|].
    destruct (pr_two m); repeat split.
  - apply peer_follow_cases in H. destruct H as [[E1 E2]|[k [_ [_ [_ [_ [_ [E2 E1]]]]]]]]; subst; repeat split.
  - inv H. repeat split.
  - inv H. split; [apply ask_delay_peer|split; reflexivity].
  - inv H. unfold ask_peer. destruct s; rw_fail; repeat split.
  - destruct k; try discriminate F.
    + apply tx_delay_frame2 in H. tauto.
    + apply tx_peer_cases in H. destruct H as [EO [E|[_ [_ [t1 [_ E]]]]]]; subst; repeat split.
  - inv H. split; [apply best_mast|split; reflexivity].
  - inv H. split; [apply to_state_mast|split; reflexivity].
  - inv H. repeat split.
Qed.

Lemma tx_sync_cases : forall c tk seq t sent p p' os, tx_timestamp c TxSync tk seq t sent p = Some (p', os) ->
  (os = [] /\ p' = p) \/
  (s_tk (mast_of p) = Some tk /\ seq = s_seq (mast_of p) /\ exists t1, add t (latency c) = Some t1 /\ os = [SendFollow seq t1] /\
   mast_of p' = mkMast (s_seq (mast_of p)) None (r_tk (mast_of p)) (r_hdr (mast_of p))).
Proof.
  intros c tk seq t sent p p' os H. cbn [tx_timestamp] in H.
  destruct (ticket_is (s_tk (mast_of p)) tk && (seq =? s_seq (mast_of p))) eqn:EM; [|inv H; left; split; reflexivity].
  apply andb_true_iff in EM. destruct EM as [EM ES]. apply ticket_is_true in EM. apply Z.eqb_eq in ES.
  destruct (add t (latency c)) as [t1|]; [cbn [bind] in H|discriminate H]. inv H. right. split; [exact EM|]. split; [reflexivity|].
  exists t1. cbn [mast_of with_mast]. destruct sent; rw_fail; repeat split.
Qed.

Lemma tx_resp_cases : forall c tk seq t sent p p' os, tx_timestamp c TxPDelayResp tk seq t sent p = Some (p', os) ->
  (os = [] /\ p' = p) \/
  (r_tk (mast_of p) = Some tk /\ exists t1, add t (latency c) = Some t1 /\ os = [SendPFollow (r_hdr (mast_of p)) seq t1] /\
   mast_of p' = mkMast (s_seq (mast_of p)) (s_tk (mast_of p)) None (r_hdr (mast_of p))).
Proof.
  intros c tk seq t sent p p' os H. cbn [tx_timestamp] in H.
  destruct (ticket_is (r_tk (mast_of p)) tk) eqn:EM; [|inv H; left; split; reflexivity].
  apply ticket_is_true in EM.
  destruct (add t (latency c)) as [t1|]; [cbn [bind] in H|discriminate H]. inv H. right. split; [exact EM|].
  exists t1. cbn [mast_of with_mast]. destruct sent; rw_fail; repeat split.
Qed.

Definition sync_sent (c : cfg) (p0 : port) (h h1 : list op) (tk : ticket) (h2 : list op) : Prop :=
  h = h1 ++ OSendSync (Sent tk) :: h2 /\ Forall not_sent_sync h2 /\ during c p0 (without c is_follow) (h1 ++ [OSendSync (Sent tk)]) h2.
Definition resp_sent (c : cfg) (p0 : port) (h h1 : list op) (m : pq_msg) (rx : option ts) (tk : ticket) (h2 : list op) (hdr : ident) : Prop :=
  h = h1 ++ OPReq m rx (Sent tk) :: h2 /\ (exists q, run c h1 p0 = Some q /\ answers q m rx) /\
  during c p0 not_answered (h1 ++ [OPReq m rx (Sent tk)]) h2 /\
  during c p0 (without c is_pfollow) (h1 ++ [OPReq m rx (Sent tk)]) h2 /\
  (during c p0 no_failed_answer (h1 ++ [OPReq m rx (Sent tk)]) h2 -> hdr = pq_src m).
Definition inv_mast (c : cfg) (p0 : port) (h : list op) (p : port) : Prop :=
  s_seq (mast_of p) = u16 (s_seq (mast_of p0) + count is_send_sync h) /\
  (forall tk, s_tk (mast_of p) = Some tk -> exists h1 h2, sync_sent c p0 h h1 tk h2) /\
  (forall tk, r_tk (mast_of p) = Some tk -> exists h1 m rx h2, resp_sent c p0 h h1 m rx tk h2 (r_hdr (mast_of p))).

Lemma during_prefix : forall c p0 P h1 h2 o, during c p0 P h1 (h2 ++ [o]) -> during c p0 P h1 h2.
Proof. intros c p0 P h1 h2 o D a x b pa E R. apply (D a x (b ++ [o])); [subst; rewrite <- app_assoc; reflexivity|exact R]. Qed.

Lemma sync_sent_snoc : forall c p0 h h1 tk h2 o p p' os,
  sync_sent c p0 h h1 tk h2 -> run c h p0 = Some p -> step c o p = Some (p', os) -> not_sent_sync o -> existsb is_follow os = false ->
  sync_sent c p0 (h ++ [o]) h1 tk (h2 ++ [o]).
Proof.
  intros c p0 h h1 tk h2 o p p' os [E [F D]] R ST N NO. split; [subst; rewrite <- app_assoc; reflexivity|].
  split; [apply Forall_app; split; [exact F|constructor; [exact N|constructor]]|].
  eapply during_snoc; [exact D| |].
  - rewrite <- app_assoc. cbn [app]. rewrite <- E. exact R.
  - intros q os' S2. rewrite ST in S2. injection S2 as S2 S3. subst. exact NO.
Qed.

Lemma resp_sent_snoc : forall c p0 h h1 m rx tk h2 o p p' os hdr hdr',
  resp_sent c p0 h h1 m rx tk h2 hdr -> run c h p0 = Some p -> step c o p = Some (p', os) -> not_answered p o ->
  (no_failed_answer p o -> hdr' = hdr) -> existsb is_pfollow os = false ->
  resp_sent c p0 (h ++ [o]) h1 m rx tk (h2 ++ [o]) hdr'.
Proof.
  intros c p0 h h1 m rx tk h2 o p p' os hdr hdr' [E [Q [D1 [D2 D3]]]] R ST N NF NO.
  assert (R' : run c ((h1 ++ [OPReq m rx (Sent tk)]) ++ h2) p0 = Some p) by (rewrite <- app_assoc; cbn [app]; rewrite <- E; exact R).
  split; [subst; rewrite <- app_assoc; reflexivity|]. split; [exact Q|].
  split; [eapply during_snoc; [exact D1|exact R'|exact N]|].
  split; [eapply during_snoc; [exact D2|exact R'|]; intros q os' S2; rewrite ST in S2; injection S2 as S2 S3; subst; exact NO|].
  intros D. rewrite NF; [apply D3; eapply during_prefix; exact D|]. exact (D h2 o [] p eq_refl R').
Qed.

Lemma inv_mast_step : forall c p0 h p o p' os,
  inv_mast c p0 h p -> run c h p0 = Some p -> step c o p = Some (p', os) -> inv_mast c p0 (h ++ [o]) p'.
Proof.
  intros c p0 h p o p' os [I1 [I2 I3]] R ST.
  assert (SAME : mast_of p' = mast_of p -> is_send_sync o = false -> not_answered p o -> (no_failed_answer p o -> True) ->
                 existsb is_follow os = false -> existsb is_pfollow os = false -> inv_mast c p0 (h ++ [o]) p').
  { intros F1 NA NB _ F2 F3. unfold inv_mast. rewrite F1, count_app, count_one, NA, Z.add_0_r.
    split; [exact I1|]. split.
    - intros tk T. destruct (I2 tk T) as [h1 [h2 A]]. exists h1, (h2 ++ [o]).
      eapply sync_sent_snoc; try eassumption. destruct o; try exact Logic.I. discriminate NA.
    - intros tk T. destruct (I3 tk T) as [h1 [m [rx [h2 A]]]]. exists h1, m, rx, (h2 ++ [o]).
      eapply resp_sent_snoc; try eassumption. reflexivity. }
  destruct (mast_op o) eqn:DO.
  2:{ destruct (frame_mast _ _ _ _ _ ST DO) as [F1 [F2 F3]]. apply SAME; try assumption; try (destruct o; try discriminate DO; exact Logic.I || reflexivity). }
  destruct o; try discriminate DO; assert (ST' := ST); cbn [step] in ST.
  - apply peer_req_cases in ST. destruct ST as [EO [[NA EP]|[A EM]]].
    + subst os p'. apply SAME; try reflexivity. destruct s; first [exact NA|exact Logic.I].
    + clear SAME. subst os. unfold inv_mast. rewrite EM. cbn [s_seq s_tk r_tk r_hdr]. rewrite count_app, count_one. cbn [is_send_sync]. rewrite Z.add_0_r.
      split; [exact I1|]. split.
      * intros tk T. destruct (I2 tk T) as [h1 [h2 B]]. eexists h1, _. eapply sync_sent_snoc; try eassumption; [exact Logic.I|reflexivity].
      * intros tk T. destruct s.
        { injection T as T. subst tk0. exists h, m, rx, []. split; [reflexivity|]. split; [exists p; split; assumption|].
          split; [apply during_nil|]. split; [apply during_nil|]. reflexivity. }
        { destruct (I3 tk T) as [h1 [m0 [rx0 [h2 B]]]]. eexists h1, m0, rx0, _. eapply resp_sent_snoc; try eassumption; [exact Logic.I| |reflexivity].
          intros X. exfalso. exact (X A). }
        { destruct (I3 tk T) as [h1 [m0 [rx0 [h2 B]]]]. eexists h1, m0, rx0, _. eapply resp_sent_snoc; try eassumption; [exact Logic.I| |reflexivity].
          intros X. exfalso. exact (X A). }
  - clear SAME. inv ST. unfold inv_mast. rewrite count_app, count_one. cbn [is_send_sync].
    assert (RS : forall tk, r_tk (mast_of p) = Some tk -> exists h1 m rx h2, resp_sent c p0 (h ++ [OSendSync s]) h1 m rx tk h2 (r_hdr (mast_of p))).
    { intros tk T. destruct (I3 tk T) as [h1 [m0 [rx0 [h2 B]]]]. eexists h1, m0, rx0, _.
      eapply resp_sent_snoc; try eassumption; [exact Logic.I|reflexivity|reflexivity]. }
    destruct s; unfold send_sync; rw_fail; cbn [mast_of with_mast s_seq s_tk r_tk r_hdr];
      (split; [rewrite I1, u16_succ; reflexivity|]); (split; [|exact RS]).
    + intros tk' T. injection T as T. subst tk'. exists h, []. split; [reflexivity|]. split; [constructor|apply during_nil].
    + intros tk T. destruct (I2 tk T) as [h1 [h2 B]]. eexists h1, _. eapply sync_sent_snoc; try eassumption; [exact Logic.I|reflexivity].
    + intros tk T. destruct (I2 tk T) as [h1 [h2 B]]. eexists h1, _. eapply sync_sent_snoc; try eassumption; [exact Logic.I|reflexivity].
  - destruct k; try discriminate DO.
    + apply tx_sync_cases in ST. destruct ST as [[E1 E2]|[TK [SQ [t1 [AD [EO EM]]]]]]; [subst; apply SAME; reflexivity || exact Logic.I || trivial|].
      clear SAME. subst os. unfold inv_mast. rewrite EM. cbn [s_seq s_tk r_tk r_hdr]. rewrite count_app, count_one. cbn [is_send_sync]. rewrite Z.add_0_r.
      split; [exact I1|]. split; [discriminate|].
      intros tk' T. destruct (I3 tk' T) as [h1 [m0 [rx0 [h2 B]]]]. eexists h1, m0, rx0, _.
      eapply resp_sent_snoc; try eassumption; [exact Logic.I|reflexivity|reflexivity].
    + apply tx_resp_cases in ST. destruct ST as [[E1 E2]|[TK [t1 [AD [EO EM]]]]]; [subst; apply SAME; reflexivity || exact Logic.I || trivial|].
      clear SAME. subst os. unfold inv_mast. rewrite EM. cbn [s_seq s_tk r_tk r_hdr]. rewrite count_app, count_one. cbn [is_send_sync]. rewrite Z.add_0_r.
      split; [exact I1|]. split; [|discriminate].
      intros tk' T. destruct (I2 tk' T) as [h1 [h2 B]]. eexists h1, _. eapply sync_sent_snoc; try eassumption; [exact Logic.I|reflexivity].
Qed.

Lemma inv_mast_run : forall c p0 h p, fresh p0 -> run c h p0 = Some p -> inv_mast c p0 h p.
Proof.
  intros c p0 h p F R. revert h p R. apply (run_ind c p0 (inv_mast c p0)).
  - destruct F as [_ [_ [_ [_ [_ [_ [_ [_ [_ [_ [F1 [F2 F3]]]]]]]]]]]]. unfold inv_mast. rewrite F1, F2. unfold count. cbn [filter length].
    rewrite Z.add_0_r, u16_small by exact F3. split; [reflexivity|]. split; discriminate.
  - intros. eapply inv_mast_step; eassumption.
Qed.

Lemma follow_sent : forall c p0 h p o p' os seq t1,
  fresh p0 -> run c h p0 = Some p -> step c o p = Some (p', os) -> In (SendFollow seq t1) os ->
  os = [SendFollow seq t1] /\ exists h1 tk h2 t sent, o = OTx TxSync tk seq t sent /\ add t (latency c) = Some t1 /\
    h = h1 ++ OSendSync (Sent tk) :: h2 /\ Forall not_sent_sync h2 /\ during c p0 (without c is_follow) (h1 ++ [OSendSync (Sent tk)]) h2 /\
    seq = u16 (s_seq (mast_of p0) + count is_send_sync h).
Proof.
  intros c p0 h p o p' os seq t1 F R ST I. destruct (inv_mast_run _ _ _ _ F R) as [I1 [I2 _]].
  destruct (mast_op o) eqn:DO.
  2:{ destruct (frame_mast _ _ _ _ _ ST DO) as [_ [F2 _]]. exfalso.
      assert (X : existsb is_follow os = true) by (apply existsb_exists; exists (SendFollow seq t1); split; [exact I|reflexivity]). congruence. }
  destruct o; try discriminate DO; cbn [step] in ST.
  - apply peer_req_cases in ST. destruct ST as [EO _]. subst. contradiction I.
  - inv ST. contradiction I.
  - destruct k; try discriminate DO.
    + apply tx_sync_cases in ST. destruct ST as [[E1 E2]|[TK [SQ [t2 [AD [EO EM]]]]]]; [subst; contradiction I|].
      subst os. destruct I as [I|[]]. injection I as J1 J2. subst t2. assert (SQ' : seq = s_seq (mast_of p)) by congruence. clear SQ. rewrite J1. split; [reflexivity|].
      destruct (I2 tk TK) as [h1 [h2 [A1 [A2 A3]]]]. exists h1, tk, h2, t, sent.
      split; [reflexivity|]. split; [exact AD|]. split; [exact A1|]. split; [exact A2|]. split; [exact A3|congruence].
    + apply tx_resp_cases in ST. destruct ST as [[E1 E2]|[TK [t2 [AD [EO EM]]]]]; [subst; contradiction I|].
      subst os. destruct I as [I|[]]. discriminate I.
Qed.

Lemma pfollow_sent : forall c p0 h p o p' os to seq t1,
  fresh p0 -> run c h p0 = Some p -> step c o p = Some (p', os) -> In (SendPFollow to seq t1) os ->
  os = [SendPFollow to seq t1] /\ exists h1 m rx tk h2 t sent q, o = OTx TxPDelayResp tk seq t sent /\ add t (latency c) = Some t1 /\
    h = h1 ++ OPReq m rx (Sent tk) :: h2 /\ run c h1 p0 = Some q /\ answers q m rx /\
    during c p0 not_answered (h1 ++ [OPReq m rx (Sent tk)]) h2 /\
    during c p0 (without c is_pfollow) (h1 ++ [OPReq m rx (Sent tk)]) h2 /\
    (during c p0 no_failed_answer (h1 ++ [OPReq m rx (Sent tk)]) h2 -> to = pq_src m).
Proof.
  intros c p0 h p o p' os to seq t1 F R ST I. destruct (inv_mast_run _ _ _ _ F R) as [I1 [_ I3]].
  destruct (mast_op o) eqn:DO.
  2:{ destruct (frame_mast _ _ _ _ _ ST DO) as [_ [_ F2]]. exfalso.
      assert (X : existsb is_pfollow os = true) by (apply existsb_exists; exists (SendPFollow to seq t1); split; [exact I|reflexivity]). congruence. }
  destruct o; try discriminate DO; cbn [step] in ST.
  - apply peer_req_cases in ST. destruct ST as [EO _]. subst. contradiction I.
  - inv ST. contradiction I.
  - destruct k; try discriminate DO.
    + apply tx_sync_cases in ST. destruct ST as [[E1 E2]|[TK [SQ [t2 [AD [EO EM]]]]]]; [subst; contradiction I|].
      subst os. destruct I as [I|[]]. discriminate I.
    + apply tx_resp_cases in ST. destruct ST as [[E1 E2]|[TK [t2 [AD [EO EM]]]]]; [subst; contradiction I|].
      subst os. destruct I as [I|[]]. injection I as J1 J2 J3. subst to seq0 t2. split; [reflexivity|].
      destruct (I3 tk TK) as [h1 [m [rx [h2 [A1 [[q [A2 A3]] [A4 [A5 A6]]]]]]]]. exists h1, m, rx, tk, h2, t, sent, q.
      repeat split; auto; apply A3.
Qed.
