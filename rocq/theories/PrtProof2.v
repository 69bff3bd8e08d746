(** Proofs about PrtModel: delay requests, peer delay requests and the master's follow-ups. *)
Require Import ZArith List Bool Lia.
Import ListNotations.
From Verif Require Import Base TimeSpec TimeModel PrtSpec PrtModel PrtHist PrtProof.
Open Scope Z_scope.

Lemma ticket_is_true : forall o tk, ticket_is o tk = true -> o = Some tk.
Proof.
  intros [[a b]|] [x y] H; [|discriminate H]. cbn [ticket_is fst snd] in H. apply andb_true_iff in H. destruct H as [H1 H2].
  apply Z.eqb_eq in H1. apply Z.eqb_eq in H2. subst. reflexivity.
Qed.

Lemma count_app : forall f h1 h2, count f (h1 ++ h2) = count f h1 + count f h2.
Proof. intros f h1 h2. unfold count. rewrite filter_app, app_length. lia. Qed.
Lemma count_one : forall f o, count f [o] = if f o then 1 else 0.
Proof. intros f o. unfold count. cbn [filter]. destruct (f o); reflexivity. Qed.

Lemma u16_succ : forall a b, u16 (u16 (a + b) + 1) = u16 (a + (b + 1)).
Proof. intros a b. unfold u16. rewrite Zplus_mod_idemp_l. f_equal. lia. Qed.
Lemma u16_small : forall a, 0 <= a < 65536 -> u16 a = a.
Proof. intros a H. unfold u16. apply Z.mod_small. change (2 ^ 16) with 65536. exact H. Qed.

(** *** Delay requests. *)
Definition del_op (o : op) : bool :=
  match o with ODelayResp _ | OOther _ | OAskDelay _ | OTx TxDelayReq _ _ _ _ | OBest _ _ | OState _ => true | _ => false end.

Ltac rw_fail := rewrite ?send_failure_syn, ?send_failure_del, ?send_failure_peer, ?send_failure_mast, ?send_failure_parent.

Lemma follow_frame : forall c m df p p' os, handle_follow c m df p = Some (p', os) ->
  del_of p' = del_of p /\ peer_of p' = peer_of p /\ mast_of p' = mast_of p /\
  existsb is_s2m os = false /\ existsb is_p2p os = false /\ existsb is_follow os = false /\ existsb is_pfollow os = false.
Proof.
  intros c m df p p' os H. apply follow_cases in H.
  destruct H as [[H1 [H2|[y [H2 _]]]]|[y [k [_ [_ [_ [_ [_ [H2 [_ [_ [_ [_ H1]]]]]]]]]]]]]; subst; repeat split.
Qed.

Lemma sync_frame : forall c m rx p p' os, handle_sync c m rx p = Some (p', os) ->
  del_of p' = del_of p /\ peer_of p' = peer_of p /\ mast_of p' = mast_of p /\
  existsb is_s2m os = false /\ existsb is_p2p os = false /\ existsb is_follow os = false /\ existsb is_pfollow os = false.
Proof.
  intros c m rx p p' os H. apply sync_cases in H.
  destruct H as [[H1 [H2 _]]|[t [k [y [late [missed [_ [_ [_ [E2 [_ [_ [_ [EM [EO CS]]]]]]]]]]]]]]].
  - subst. repeat split.
  - subst p' os. split; [reflexivity|]. split; [reflexivity|]. split; [reflexivity|].
    destruct EM as [EM|EM], CS as [[CL _]|[f [k2 [_ [_ [_ [_ [_ [_ CL]]]]]]]]]; subst missed late; destruct (sy_two m); repeat split.
Qed.

Lemma frame_del : forall c o p p' os, step c o p = Some (p', os) -> del_op o = false ->
  del_of p' = del_of p /\ existsb is_s2m os = false.
Proof.
  intros c o p p' os H F. destruct o; try discriminate F; cbn [step] in H.
  - apply sync_frame in H. tauto.
  - apply follow_frame in H. tauto.
  - unfold handle_peer_resp in H. crunch H; repeat split.
    match goal with |- context [if ?b then _ else _] => destruct b end; reflexivity.
  - unfold handle_peer_follow in H. crunch H; repeat split.
  - unfold handle_peer_req in H. crunch H; try (repeat split; fail).
    destruct (pst p); crunch H; try (repeat split; fail);
    destruct s; rw_fail; repeat split.
  - inv H. unfold ask_peer. destruct s; rw_fail; repeat split.
  - inv H. unfold send_sync. destruct s; rw_fail; repeat split.
  - destruct k; try discriminate F; cbn [tx_timestamp] in H.
    + crunch H; try (repeat split; fail). cbn [del_of with_mast]. destruct sent; rw_fail; repeat split.
    + crunch H; try (repeat split; fail). unfold peer_req_sent in E0. crunch E0; repeat split.
    + crunch H; try (repeat split; fail). cbn [del_of with_mast]. destruct sent; rw_fail; repeat split.
  - inv H. repeat split.
Qed.

Lemma to_state_del : forall s p, del_of (to_state s p) = del_of p \/
  del_of (to_state s p) = mkDel (d_seq (del_of p)) false false (d_tk (del_of p)) (d_send (del_of p)) (stash (del_of p)) (buffer (del_of p)).
Proof. intros s p. destruct s; try (left; reflexivity). right. reflexivity. Qed.

Lemma best_del : forall s i p, del_of (best_master s i p) = del_of p \/
  del_of (best_master s i p) = mkDel (d_seq (del_of p)) false false (d_tk (del_of p)) (d_send (del_of p)) (stash (del_of p)) (buffer (del_of p)).
Proof. intros s i p. unfold best_master. destruct (pstate_eqb s (pst p)); [left; reflexivity|]. apply (to_state_del s (with_parent p i)). Qed.

(** What the transmit timestamp of a delay request does. *)
Lemma tx_delay_cases : forall c tk seq t sent p p' os, tx_timestamp c TxDelayReq tk seq t sent p = Some (p', os) ->
  (os = [] /\ p' = p) \/
  (d_tk (del_of p) = Some tk /\ seq = d_seq (del_of p) /\ exists t1, add t (latency c) = Some t1 /\
   d_seq (del_of p') = d_seq (del_of p) /\ d_send (del_of p') = t1 /\ tx_pending (del_of p') = false /\ d_tk (del_of p') = None /\
   ((os = [] /\ (rx_pending (del_of p') = true -> rx_pending (del_of p) = true)) \/
    (exists m k, tx_pending (del_of p) = true /\ rx_pending (del_of p) = false /\ stash (del_of p) = Some m /\
       rx_pending (del_of p') = false /\ 54 <= dr_len m /\ (dr_src m = parent p \/ ignore_id c = true) /\
       d_seq (del_of p) = dr_seq m /\ from_ns16 (dr_corr m) = Some k /\ os = [GiveS2M t1 (time_of (dr_time m)) k]))).
Proof.
  intros c tk seq t sent p p' os H. cbn [tx_timestamp] in H.
  destruct (ticket_is (d_tk (del_of p)) tk && (seq =? d_seq (del_of p))) eqn:EM; [|inv H; left; split; reflexivity].
  apply andb_true_iff in EM. destruct EM as [EM ES]. apply ticket_is_true in EM. apply Z.eqb_eq in ES.
  destruct (delay_req_sent c t p) as [[p2 o2]|] eqn:ED; [cbn [bind] in H|discriminate H]. inv H.
  right. split; [exact EM|]. split; [reflexivity|]. unfold delay_req_sent in ED.
  destruct (add t (latency c)) as [t1|] eqn:EA; [cbn [bind] in ED|discriminate ED]. exists t1. split; [reflexivity|].
  cbn [del_of with_del d_seq d_send tx_pending rx_pending d_tk stash buffer].
  destruct (tx_pending (del_of p)) eqn:ET; cbn [negb] in ED.
  2:{ inv ED. cbn [del_of with_del d_seq d_send tx_pending rx_pending d_tk stash buffer].
      split; [reflexivity|]. split; [reflexivity|]. split; [reflexivity|]. split; [reflexivity|]. left. auto. }
  destruct (rx_pending (del_of p)) eqn:ER.
  { inv ED. cbn [del_of with_del d_seq d_send tx_pending rx_pending d_tk stash buffer].
    split; [reflexivity|]. split; [reflexivity|]. split; [reflexivity|]. split; [reflexivity|]. left. auto. }
  destruct (stash (del_of p)) as [m|] eqn:EST.
  2:{ inv ED. cbn [del_of with_del d_seq d_send tx_pending rx_pending d_tk stash buffer].
      split; [reflexivity|]. split; [reflexivity|]. split; [reflexivity|]. split; [reflexivity|]. left. auto. }
  apply delay_resp_cases in ED. cbn [del_of with_del d_seq d_send tx_pending rx_pending d_tk stash buffer mech pst parent] in ED.
  destruct ED as [[E1 E2]|[EL [EMc [ESl [EB [SRC [[X _]|[k [_ [EQ [EK [E2 E1]]]]]]]]]]]]; [|discriminate X|].
  - subst. cbn [del_of with_del d_seq d_send tx_pending rx_pending d_tk stash buffer].
    split; [reflexivity|]. split; [reflexivity|]. split; [reflexivity|]. split; [reflexivity|]. left. split; [reflexivity|]. intros X. exact X.
  - subst p2 os. cbn [del_of with_del d_seq d_send tx_pending rx_pending d_tk stash buffer].
    split; [reflexivity|]. split; [reflexivity|]. split; [reflexivity|]. split; [reflexivity|]. right. exists m, k. repeat split; auto.
Qed.

(** The invariant of the delay request part. *)
Definition asked (h h1 : list op) (tk : ticket) (h2 : list op) : Prop :=
  h = h1 ++ OAskDelay (Sent tk) :: h2 /\ Forall not_ask h2.
Definition answered (c : cfg) (h2 : list op) (m : dr_msg) : Prop := In (ODelayResp m) h2 /\ dr_to m = own c.
Definition inv_del (c : cfg) (p0 : port) (h : list op) (p : port) : Prop :=
  let d := del_of p in
  d_seq d = u16 (d_seq (del_of p0) + count is_ask_delay h) /\
  (tx_pending d = true -> exists h1 tk h2, asked h h1 tk h2 /\ d_tk d = Some tk /\
     during c p0 (without c is_s2m) (h1 ++ [OAskDelay (Sent tk)]) h2 /\
     (rx_pending d = false -> forall m, stash d = Some m -> answered c h2 m)) /\
  (tx_pending d = false -> rx_pending d = true -> d_tk d = None /\ exists h1 tk h2 t sent, asked h h1 tk h2 /\
     In (OTx TxDelayReq tk (d_seq d) t sent) h2 /\ add t (latency c) = Some (d_send d) /\
     during c p0 (without c is_s2m) (h1 ++ [OAskDelay (Sent tk)]) h2).

Lemma asked_snoc : forall h h1 tk h2 o, asked h h1 tk h2 -> is_ask_delay o = false -> asked (h ++ [o]) h1 tk (h2 ++ [o]).
Proof.
  intros h h1 tk h2 o [E F] N. split; [subst; rewrite <- app_assoc; reflexivity|].
  apply Forall_app. split; [exact F|]. constructor; [exact N|constructor].
Qed.

Lemma during_ext : forall c p0 f h h1 tk h2 o p p' os,
  asked h h1 tk h2 -> during c p0 (without c f) (h1 ++ [OAskDelay (Sent tk)]) h2 -> run c h p0 = Some p ->
  step c o p = Some (p', os) -> existsb f os = false ->
  during c p0 (without c f) (h1 ++ [OAskDelay (Sent tk)]) (h2 ++ [o]).
Proof.
  intros c p0 f h h1 tk h2 o p p' os [E _] D R ST N. eapply during_snoc; [exact D| |].
  - rewrite <- app_assoc. cbn [app]. rewrite <- E. exact R.
  - intros q os' S2. rewrite ST in S2. injection S2 as S2 S3. subst. exact N.
Qed.

(** An operation that is no request and after which the port waits for no more than before. *)
Lemma inv_del_weaken : forall c p0 h p o p' os,
  inv_del c p0 h p -> run c h p0 = Some p -> step c o p = Some (p', os) -> is_ask_delay o = false ->
  d_seq (del_of p') = d_seq (del_of p) ->
  ((tx_pending (del_of p') = false /\ rx_pending (del_of p') = false) \/
   (existsb is_s2m os = false /\ tx_pending (del_of p') = tx_pending (del_of p) /\ rx_pending (del_of p') = rx_pending (del_of p) /\
    d_tk (del_of p') = d_tk (del_of p) /\ d_send (del_of p') = d_send (del_of p) /\ stash (del_of p') = stash (del_of p))) ->
  inv_del c p0 (h ++ [o]) p'.
Proof.
  intros c p0 h p o p' os [I1 [I2 I3]] R ST NA DS W. unfold inv_del. rewrite DS, count_app, count_one, NA, Z.add_0_r.
  split; [exact I1|]. destruct W as [[W1 W2]|[NO [W1 [W2 [W3 [W4 W5]]]]]].
  - split; [rewrite W1; discriminate|rewrite W2; discriminate].
  - rewrite W1, W2, W3, W4, W5. split.
    + intros T. destruct (I2 T) as [h1 [tk [h2 [A [K [D S0]]]]]]. exists h1, tk, (h2 ++ [o]).
      split; [apply asked_snoc; assumption|]. split; [exact K|]. split; [exact (during_ext _ _ _ _ _ _ _ _ _ _ _ A D R ST NO)|].
      intros X m Y. destruct (S0 X m Y) as [B1 B2]. split; [apply in_or_app; left; exact B1|exact B2].
    + intros T X. destruct (I3 T X) as [NT [h1 [tk [h2 [t [sent [A [K [LA D]]]]]]]]]. split; [exact NT|]. exists h1, tk, (h2 ++ [o]), t, sent.
      split; [apply asked_snoc; assumption|]. split; [apply in_or_app; left; exact K|]. split; [exact LA|].
      exact (during_ext _ _ _ _ _ _ _ _ _ _ _ A D R ST NO).
Qed.

Lemma inv_del_step : forall c p0 h p o p' os,
  inv_del c p0 h p -> run c h p0 = Some p -> step c o p = Some (p', os) -> inv_del c p0 (h ++ [o]) p'.
Proof.
  intros c p0 h p o p' os I R ST. destruct (del_op o) eqn:DO.
  2:{ destruct (frame_del _ _ _ _ _ ST DO) as [F1 F2].
      apply (inv_del_weaken _ _ _ _ _ _ _ I R ST); [destruct o; try discriminate DO; reflexivity|rewrite F1; reflexivity|].
      right. rewrite F1. repeat split. exact F2. }
  destruct o; try discriminate DO.
  - (* a response *)
    assert (ST' := ST). cbn [step] in ST. unfold recv_delay_resp in ST. apply delay_resp_cases in ST.
    cbn [del_of with_del d_seq d_send tx_pending rx_pending d_tk stash buffer mech pst parent] in ST.
    destruct ST as [[E1 E2]|[EL [EM [ES [EB [SRC [[_ [RX [TX [E1 [kept [EK E2]]]]]]|[k [[X|[RX TX]] [EQ [EK [E2 E1]]]]]]]]]]]]; [| |discriminate X|].
    + subst. apply (inv_del_weaken _ _ _ _ _ _ _ I R ST'); [reflexivity..|]. right. repeat split.
    + subst. destruct I as [I1 [I2 I3]]. unfold inv_del. cbn [del_of with_del d_seq d_send tx_pending rx_pending d_tk stash buffer].
      rewrite count_app, count_one. cbn [is_ask_delay]. rewrite Z.add_0_r. split; [exact I1|]. split; [|discriminate].
      intros _. destruct (I2 TX) as [h1 [tk [h2 [A [K [D S0]]]]]]. exists h1, tk, (h2 ++ [ODelayResp m]).
      split; [apply asked_snoc; [exact A|reflexivity]|]. split; [exact K|].
      split; [exact (during_ext _ _ _ _ _ _ _ _ _ _ _ A D R ST' eq_refl)|].
      intros _ m' KM. destruct EK as [EK|EK]; rewrite EK in KM; [discriminate KM|]. injection KM as KM. subst m'.
      split; [apply in_or_app; right; left; reflexivity|exact EB].
    + subst. apply (inv_del_weaken _ _ _ _ _ _ _ I R ST'); [reflexivity..|]. left. split; [exact TX|reflexivity].
  - (* another message *)
    assert (ST' := ST). cbn [step] in ST. inv ST. apply (inv_del_weaken _ _ _ _ _ _ _ I R ST'); [reflexivity..|]. right. repeat split.
  - (* a request *)
    cbn [step] in ST. inv ST. destruct I as [I1 _]. unfold inv_del. rewrite count_app, count_one. cbn [is_ask_delay].
    destruct s; unfold ask_delay.
    + cbn [del_of with_del d_seq d_send tx_pending rx_pending d_tk stash buffer]. rewrite I1, u16_succ. split; [reflexivity|].
      split; [|discriminate]. intros _. exists h, tk, []. split; [split; [reflexivity|constructor]|]. split; [reflexivity|].
      split; [apply during_nil|discriminate].
    + cbn [del_of with_del d_seq d_send tx_pending rx_pending d_tk stash buffer]. rewrite I1, u16_succ. split; [reflexivity|]. split; discriminate.
    + rewrite send_failure_del. cbn [del_of with_del d_seq d_send tx_pending rx_pending d_tk stash buffer]. rewrite I1, u16_succ.
      split; [reflexivity|]. split; discriminate.
  - (* a transmit timestamp *)
    destruct k; try discriminate DO. assert (ST' := ST). cbn [step] in ST. apply tx_delay_cases in ST.
    destruct ST as [[E1 E2]|[TK [SQ [t1 [AD [D1 [D2 [D3 [D4 CS]]]]]]]]].
    + subst. apply (inv_del_weaken _ _ _ _ _ _ _ I R ST'); [reflexivity..|]. right. repeat split.
    + destruct CS as [[E1 RX]|[m [k [TX [RXp [STS [RX' _]]]]]]].
      2:{ apply (inv_del_weaken _ _ _ _ _ _ _ I R ST'); [reflexivity|exact D1|]. left. split; [exact D3|exact RX']. }
      destruct (rx_pending (del_of p')) eqn:ER.
      2:{ apply (inv_del_weaken _ _ _ _ _ _ _ I R ST'); [reflexivity|exact D1|]. left. split; [exact D3|exact ER]. }
      specialize (RX eq_refl). subst os. destruct I as [I1 [I2 I3]]. unfold inv_del. rewrite D1, D3.
      rewrite count_app, count_one. cbn [is_ask_delay]. rewrite Z.add_0_r. split; [exact I1|]. split; [discriminate|].
      intros _ _. split; [exact D4|]. destruct (tx_pending (del_of p)) eqn:TX.
      * destruct (I2 eq_refl) as [h1 [tk' [h2 [A [K [D _]]]]]]. rewrite TK in K. injection K as K. subst tk'.
        exists h1, tk, (h2 ++ [OTx TxDelayReq tk seq t sent]), t, sent. split; [apply asked_snoc; [exact A|reflexivity]|].
        split; [apply in_or_app; right; left; rewrite SQ; reflexivity|]. split; [rewrite D2; exact AD|].
        exact (during_ext _ _ _ _ _ _ _ _ _ _ _ A D R ST' eq_refl).
      * exfalso. destruct (I3 eq_refl RX) as [NT _]. rewrite NT in TK. discriminate TK.
  - assert (ST' := ST). cbn [step] in ST. inv ST. destruct (best_del s p1 p) as [B|B].
    + apply (inv_del_weaken _ _ _ _ _ _ _ I R ST'); [reflexivity|rewrite B; reflexivity|]. right. rewrite B. repeat split.
    + apply (inv_del_weaken _ _ _ _ _ _ _ I R ST'); [reflexivity|rewrite B; reflexivity|]. left. rewrite B. split; reflexivity.
  - assert (ST' := ST). cbn [step] in ST. inv ST. destruct (to_state_del s p) as [B|B].
    + apply (inv_del_weaken _ _ _ _ _ _ _ I R ST'); [reflexivity|rewrite B; reflexivity|]. right. rewrite B. repeat split.
    + apply (inv_del_weaken _ _ _ _ _ _ _ I R ST'); [reflexivity|rewrite B; reflexivity|]. left. rewrite B. split; reflexivity.
Qed.

Lemma inv_del_run : forall c p0 h p, fresh p0 -> run c h p0 = Some p -> inv_del c p0 h p.
Proof.
  intros c p0 h p F R. revert h p R. apply (run_ind c p0 (inv_del c p0)).
  - destruct F as [_ [_ [F1 [F2 [_ [F3 _]]]]]]. unfold inv_del. rewrite F1, F2. cbn [count filter length]. unfold count. cbn [filter length].
    rewrite Z.add_0_r, u16_small by exact F3. split; [reflexivity|]. split; discriminate.
  - intros. eapply inv_del_step; eassumption.
Qed.

(** What makes the port give a slave to master measurement. *)
Lemma s2m_cases : forall c o p p' os s r k, step c o p = Some (p', os) -> In (GiveS2M s r k) os ->
  os = [GiveS2M s r k] /\
  ((exists m, o = ODelayResp m /\ rx_pending (del_of p) = true /\ tx_pending (del_of p) = false /\ dr_to m = own c /\ 54 <= dr_len m /\
      (dr_src m = parent p \/ ignore_id c = true) /\ dr_seq m = d_seq (del_of p) /\ s = d_send (del_of p) /\
      r = time_of (dr_time m) /\ from_ns16 (dr_corr m) = Some k) \/
   (exists m tk t sent, o = OTx TxDelayReq tk (d_seq (del_of p)) t sent /\ d_tk (del_of p) = Some tk /\ tx_pending (del_of p) = true /\
      rx_pending (del_of p) = false /\ stash (del_of p) = Some m /\ add t (latency c) = Some s /\ 54 <= dr_len m /\
      (dr_src m = parent p \/ ignore_id c = true) /\ dr_seq m = d_seq (del_of p) /\
      r = time_of (dr_time m) /\ from_ns16 (dr_corr m) = Some k)).
Proof.
  intros c o p p' os s r k ST I. destruct (del_op o) eqn:DO.
  2:{ destruct (frame_del _ _ _ _ _ ST DO) as [_ F]. exfalso.
      assert (X : existsb is_s2m os = true) by (apply existsb_exists; exists (GiveS2M s r k); split; [exact I|reflexivity]). congruence. }
  destruct o; try discriminate DO; cbn [step] in ST.
  - unfold recv_delay_resp in ST. apply delay_resp_cases in ST.
    cbn [del_of with_del d_seq d_send tx_pending rx_pending d_tk stash buffer mech pst parent] in ST.
    destruct ST as [[E1 E2]|[EL [EM [ES [EB [SRC [[_ [RX [TX [E1 _]]]]|[k1 [[X|[RX TX]] [EQ [EK [E2 E1]]]]]]]]]]]]; [subst; contradiction I|subst; contradiction I|discriminate X|].
    subst os. destruct I as [I|[]]. injection I as I1 I2 I3. subst. split; [reflexivity|]. left. exists m. repeat split; auto.
  - inv ST. contradiction I.
  - inv ST. contradiction I.
  - destruct k0; try discriminate DO. apply tx_delay_cases in ST.
    destruct ST as [[E1 E2]|[TK [SQ [t1 [AD [D1 [D2 [D3 [D4 [[E1 RX]|[m [k1 [TX [RXp [STS [RX' [EL [SRC [EQ [EK E1]]]]]]]]]]]]]]]]]]]]; [subst; contradiction I|subst; contradiction I|].
    subst os. destruct I as [I|[]]. injection I as I1 I2 I3. subst. split; [reflexivity|]. right. exists m, tk, t, sent. repeat split; auto.
  - inv ST. contradiction I.
  - inv ST. contradiction I.
Qed.

Lemma s2m_pairs : forall c p0 h p o p' os s r k,
  fresh p0 -> run c h p0 = Some p -> step c o p = Some (p', os) -> In (GiveS2M s r k) os ->
  os = [GiveS2M s r k] /\
  exists h1 tk h2 t sent m,
    h = h1 ++ OAskDelay (Sent tk) :: h2 /\ Forall not_ask (h2 ++ [o]) /\
    In (OTx TxDelayReq tk (u16 (d_seq (del_of p0) + count is_ask_delay h1 + 1)) t sent) (h2 ++ [o]) /\ add t (latency c) = Some s /\
    In (ODelayResp m) (h2 ++ [o]) /\ dr_to m = own c /\ dr_seq m = u16 (d_seq (del_of p0) + count is_ask_delay h1 + 1) /\
    (dr_src m = parent p \/ ignore_id c = true) /\ r = time_of (dr_time m) /\ from_ns16 (dr_corr m) = Some k /\
    during c p0 (without c is_s2m) (h1 ++ [OAskDelay (Sent tk)]) h2.
Proof.
  intros c p0 h p o p' os s r k F R ST I. destruct (s2m_cases _ _ _ _ _ _ _ _ ST I) as [EO CS]. split; [exact EO|].
  destruct (inv_del_run _ _ _ _ F R) as [I1 [I2 I3]].
  assert (SQ : forall h1 tk h2, asked h h1 tk h2 -> d_seq (del_of p) = u16 (d_seq (del_of p0) + count is_ask_delay h1 + 1)).
  { intros h1 tk h2 [E Fo]. rewrite I1, E, count_app. change (OAskDelay (Sent tk) :: h2) with ([OAskDelay (Sent tk)] ++ h2).
    rewrite count_app, count_one. cbn [is_ask_delay]. assert (Z0 : count is_ask_delay h2 = 0).
    { clear - Fo. induction Fo as [|x l H Fo IH]; [reflexivity|]. unfold count in *. cbn [filter]. unfold not_ask in H. rewrite H. exact IH. }
    rewrite Z0. f_equal. lia. }
  destruct CS as [[m [EOo [RX [TX [TO [LN [SRC [EQ [ES [ER EK]]]]]]]]]]|[m [tk [t [sent [EOo [TK [TX [RX [STS [AD [LN [SRC [EQ [ER EK]]]]]]]]]]]]]]].
  - destruct (I3 TX RX) as [_ [h1 [tk [h2 [t [sent [A [K [AD D]]]]]]]]]. exists h1, tk, h2, t, sent, m. rewrite <- (SQ _ _ _ A).
    split; [exact (proj1 A)|]. split; [apply Forall_app; split; [exact (proj2 A)|]; subst o; constructor; [reflexivity|constructor]|].
    split; [apply in_or_app; left; exact K|]. split; [rewrite ES; exact AD|].
    split; [apply in_or_app; right; left; exact EOo|]. repeat split; auto.
  - destruct (I2 TX) as [h1 [tk' [h2 [A [K [D S0]]]]]]. rewrite TK in K. injection K as K. subst tk'.
    destruct (S0 RX m STS) as [A1 A2]. exists h1, tk, h2, t, sent, m. rewrite <- (SQ _ _ _ A).
    split; [exact (proj1 A)|]. split; [apply Forall_app; split; [exact (proj2 A)|]; subst o; constructor; [reflexivity|constructor]|].
    split; [apply in_or_app; right; left; exact EOo|]. split; [exact AD|].
    split; [apply in_or_app; left; exact A1|]. repeat split; auto.
Qed.
