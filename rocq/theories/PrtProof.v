(** Proofs about PrtModel: histories and the Sync/FollowUp part. *)
Require Import ZArith List Bool Lia.
Import ListNotations.
From Verif Require Import Base TimeSpec TimeModel PrtSpec PrtModel PrtHist.
Open Scope Z_scope.

(** *** Histories. *)
Lemma run_app : forall c h1 h2 p, run c (h1 ++ h2) p = do q <- run c h1 p; run c h2 q.
Proof.
  induction h1 as [|o h1 IH]; intros h2 p; [reflexivity|]. cbn [app run].
  destruct (step c o p) as [r|]; [cbn [bind]; apply IH|reflexivity].
Qed.

Lemma run_snoc : forall c h o p q, run c (h ++ [o]) p = Some q ->
  exists p' os, run c h p = Some p' /\ step c o p' = Some (q, os).
Proof.
  intros c h o p q H. rewrite run_app in H. destruct (run c h p) as [p'|] eqn:E; [|discriminate H]. cbn [bind run] in H.
  destruct (step c o p') as [[r os]|] eqn:E2; [|discriminate H]. cbn [bind fst] in H. injection H as H. subst r.
  exists p', os. split; [reflexivity|exact E2].
Qed.

Lemma run_step : forall c h o p p' q os, run c h p = Some p' -> step c o p' = Some (q, os) -> run c (h ++ [o]) p = Some q.
Proof. intros c h o p p' q os H1 H2. rewrite run_app, H1. cbn [bind run]. rewrite H2. reflexivity. Qed.

Lemma snoc_split : forall (A : Type) (h a b : list A) o o', h ++ [o] = a ++ o' :: b ->
  (b = [] /\ a = h /\ o' = o) \/ exists b', b = b' ++ [o] /\ h = a ++ o' :: b'.
Proof.
  intros A h a b o o' H. destruct (exists_last (l := o' :: b)) as [b1 [z E]]; [discriminate|].
  destruct b as [|b0 b].
  - left. apply app_inj_tail in H. destruct H as [H1 H2]. split; [reflexivity|]. split; congruence.
  - right. destruct b1 as [|b1h b1]; [discriminate E|]. cbn [app] in E. injection E as E1 E2. subst b1h.
    assert (X : h ++ [o] = (a ++ o' :: b1) ++ [z]).
    { rewrite H, E2. rewrite <- app_assoc. reflexivity. }
    apply app_inj_tail in X. destruct X as [X1 X2]. subst z. exists b1. split; [exact E2|exact X1].
Qed.

Lemma during_snoc : forall c p0 P h1 h2 o p,
  during c p0 P h1 h2 -> run c (h1 ++ h2) p0 = Some p -> P p o -> during c p0 P h1 (h2 ++ [o]).
Proof.
  intros c p0 P h1 h2 o p D R H a o' b pa E Ra. apply snoc_split in E. destruct E as [[E1 [E2 E3]]|[b' [E1 E2]]].
  - subst. rewrite R in Ra. injection Ra as Ra. subst. exact H.
  - exact (D a o' b' pa E2 Ra).
Qed.

Lemma during_nil : forall c p0 P h1, during c p0 P h1 [].
Proof. intros c p0 P h1 a o b pa E. destruct a; discriminate E. Qed.

Lemma same_ident_true : forall a b, same_ident a b = true <-> a = b.
Proof.
  intros [a1 a2] [b1 b2]. unfold same_ident. cbn [fst snd]. rewrite andb_true_iff, !Z.eqb_eq. split.
  - intros [H1 H2]. subst. reflexivity.
  - intros H. injection H as H1 H2. split; assumption.
Qed.
Lemma same_ident_refl : forall a, same_ident a a = true.
Proof. intros a. apply same_ident_true. reflexivity. Qed.

Lemma pstate_eqb_true : forall a b, pstate_eqb a b = true <-> a = b.
Proof. intros a b. split; [destruct a, b; intros H; try discriminate H; reflexivity|intros H; subst; destruct b; reflexivity]. Qed.

Lemma listens_true : forall p, listens p = true <-> (pst p = Slave \/ pst p = Uncalibrated).
Proof. intros p. unfold listens. destruct (pst p); split; intros H; try discriminate H; try (destruct H; discriminate); auto. Qed.

(** *** Changes of state. *)
Lemma to_state_syn : forall s p, syn_of (to_state s p) = syn_of p \/
  (exists y, syn_of (to_state s p) = y /\ waiting y = false /\ cached y = cached (syn_of p)).
Proof. intros s p. destruct s; try (left; reflexivity). right. eexists. split; [reflexivity|]. split; reflexivity. Qed.
Lemma to_state_parent : forall s p, parent (to_state s p) = parent p.
Proof. intros s p. destruct s; reflexivity. Qed.
Lemma send_failure_syn : forall c p, syn_of (send_failure c p) = syn_of p.
Proof. intros c p. unfold send_failure. destruct (tolerant c); reflexivity. Qed.
Lemma send_failure_del : forall c p, del_of (send_failure c p) = del_of p.
Proof. intros c p. unfold send_failure. destruct (tolerant c); reflexivity. Qed.
Lemma send_failure_peer : forall c p, peer_of (send_failure c p) = peer_of p.
Proof. intros c p. unfold send_failure. destruct (tolerant c); reflexivity. Qed.
Lemma send_failure_mast : forall c p, mast_of (send_failure c p) = mast_of p.
Proof. intros c p. unfold send_failure. destruct (tolerant c); reflexivity. Qed.
Lemma send_failure_parent : forall c p, parent (send_failure c p) = parent p.
Proof. intros c p. unfold send_failure. destruct (tolerant c); reflexivity. Qed.

(** *** The handlers by cases.  [crunch] splits a handler at its tests. *)
Ltac inv H := injection H as ?H1 ?H2; subst.
Ltac crunch H :=
  repeat match type of H with
  | (if ?b then _ else _) = _ => let E := fresh "E" in destruct b eqn:E
  | (match ?x with Some _ => _ | None => _ end) = _ => let E := fresh "E" in destruct x eqn:E
  | (match ?x with Sent _ => _ | NotPossible => _ | Failed => _ end) = _ => let E := fresh "E" in destruct x eqn:E
  | (match ?x with E2E => _ | P2P => _ | NoDelay => _ end) = _ => let E := fresh "E" in destruct x eqn:E
  | bind ?x _ = _ => let E := fresh "E" in destruct x eqn:E; cbn [bind] in H; [|try discriminate H]
  | (let '(_, _) := ?r in _) = _ => let E := fresh "E" in destruct r eqn:E
  | Some _ = Some _ => injection H; clear H; intros; subst
  | None = Some _ => discriminate H
  end.

(** What a FollowUp does. *)
Lemma follow_cases : forall c m df p p' os, handle_follow c m df p = Some (p', os) ->
  (os = [] /\ (p' = p \/ exists y, p' = with_syn p y /\ waiting y = waiting (syn_of p) /\ last_seq y = last_seq (syn_of p) /\
      rx_time y = rx_time (syn_of p) /\
      (cached y = None \/ cached y = cached (syn_of p) \/ (cached y = Some m /\ fu_src m = parent p /\ fu_seq m <> 0 /\ waiting y = false)))) \/
  (exists y k, listens p = true /\ fu_src m = parent p /\ waiting (syn_of p) = true /\ last_seq (syn_of p) = fu_seq m /\
     from_ns16 (fu_corr m) = Some k /\ p' = with_syn p y /\ waiting y = false /\
     last_seq y = last_seq (syn_of p) /\ rx_time y = rx_time (syn_of p) /\
     (cached y = None \/ cached y = cached (syn_of p)) /\
     os = [GiveM2S (time_of (fu_origin m)) (rx_time (syn_of p)) k]).
Proof.
  intros c m df p p' os H. unfold handle_follow in H.
  destruct (fu_len m <? 44); [inv H; left; split; [reflexivity|left; reflexivity]|].
  destruct (listens p) eqn:EL; cbn [negb] in H; [|inv H; left; split; [reflexivity|left; reflexivity]].
  destruct (from_parent p (fu_src m)) eqn:EP; cbn [andb negb] in H.
  2:{ inv H. left. split; [reflexivity|]. right. eexists. split; [reflexivity|]. repeat split. right. left. reflexivity. }
  unfold from_parent in EP. apply same_ident_true in EP.
  destruct df; cbn [negb] in H; cbn [waiting last_seq rx_time cached] in H.
  - destruct (waiting (syn_of p)) eqn:EW; cbn [negb] in H.
    + destruct (last_seq (syn_of p) =? fu_seq m) eqn:ES; cbn [negb] in H.
      * destruct (from_ns16 (fu_corr m)) as [k|] eqn:EK; [cbn [bind] in H|discriminate H]. inv H. right.
        eexists. exists k. split; [reflexivity|]. split; [symmetry; exact EP|]. split; [reflexivity|].
        split; [apply Z.eqb_eq; exact ES|]. split; [reflexivity|]. split; [reflexivity|]. split; [reflexivity|]. split; [reflexivity|]. split; [reflexivity|]. split; [right; reflexivity|reflexivity].
      * inv H. left. split; [reflexivity|]. right. eexists. split; [reflexivity|]. split; [exact EW|]. repeat split. right. left. reflexivity.
    + inv H. left. split; [reflexivity|]. right. eexists. split; [reflexivity|]. cbn [waiting last_seq rx_time cached].
      split; [reflexivity|]. split; [reflexivity|]. split; [reflexivity|].
      destruct (fu_seq m =? 0) eqn:E0; [left; reflexivity|]. right. right. apply Z.eqb_neq in E0. repeat split; auto.
  - destruct (waiting (syn_of p)) eqn:EW; cbn [negb] in H.
    + destruct (last_seq (syn_of p) =? fu_seq m) eqn:ES; cbn [negb] in H.
      * destruct (from_ns16 (fu_corr m)) as [k|] eqn:EK; [cbn [bind] in H|discriminate H]. inv H. right.
        eexists. exists k. split; [reflexivity|]. split; [symmetry; exact EP|]. split; [reflexivity|].
        split; [apply Z.eqb_eq; exact ES|]. split; [reflexivity|]. split; [reflexivity|]. split; [reflexivity|]. split; [reflexivity|]. split; [reflexivity|]. split; [left; reflexivity|reflexivity].
      * inv H. left. split; [reflexivity|]. right. eexists. split; [reflexivity|]. repeat split. left. reflexivity.
    + inv H. left. split; [reflexivity|]. right. eexists. split; [reflexivity|]. cbn [waiting last_seq rx_time cached].
      split; [reflexivity|]. split; [reflexivity|]. split; [reflexivity|].
      destruct (fu_seq m =? 0) eqn:E0; [left; reflexivity|]. right. right. apply Z.eqb_neq in E0. repeat split; auto.
Qed.

(** What a Sync does. *)
Lemma sync_cases : forall c m rx p p' os, handle_sync c m rx p = Some (p', os) ->
  (os = [] /\ p' = p /\ ~ takes p m rx) \/
  (exists t k y late missed, takes p m rx /\ rx = Some t /\ from_ns16 (sy_corr m) = Some k /\ p' = with_syn p y /\
     cached y = None /\ last_seq y = sy_seq m /\ rx_time y = t /\
     (missed = [] \/ missed = [MissM2S]) /\
     os = missed ++ (if sy_two m then [] else [GiveM2S (time_of (sy_origin m)) t k]) ++ late /\
     ((late = [] /\ waiting y = sy_two m) \/
      exists f k2, cached (syn_of p) = Some f /\ sy_two m = true /\ fu_seq f = sy_seq m /\ fu_src f = sy_src m /\
        from_ns16 (fu_corr f) = Some k2 /\ waiting y = false /\ late = [GiveM2S (time_of (fu_origin f)) t k2])).
Proof.
  intros c m rx p p' os H. unfold handle_sync in H.
  destruct (sy_len m <? 44) eqn:ELn.
  { inv H. left. split; [reflexivity|]. split; [reflexivity|]. intros [_ [_ [T _]]]. apply Z.ltb_lt in ELn. lia. }
  destruct (listens p) eqn:EL; cbn [negb] in H.
  2:{ inv H. left. split; [reflexivity|]. split; [reflexivity|]. intros [T _]. apply listens_true in T. congruence. }
  destruct (from_parent p (sy_src m)) eqn:EP; cbn [negb] in H.
  2:{ inv H. left. split; [reflexivity|]. split; [reflexivity|]. intros [_ [T _]]. unfold from_parent in EP.
      rewrite T, same_ident_refl in EP. discriminate EP. }
  destruct rx as [t|].
  2:{ inv H. left. split; [reflexivity|]. split; [reflexivity|]. intros [_ [_ [_ T]]]. apply T. reflexivity. }
  unfold from_parent in EP. apply same_ident_true in EP. apply Z.ltb_ge in ELn.
  assert (TK : takes p m (Some t)).
  { split; [apply listens_true; exact EL|]. split; [symmetry; exact EP|]. split; [exact ELn|discriminate]. }
  destruct (from_ns16 (sy_corr m)) as [k|] eqn:EK; [cbn [bind] in H|discriminate H].
  right. exists t, k.
  assert (MS : (if waiting (syn_of p) then [MissM2S] else []) = [] \/ (if waiting (syn_of p) then [MissM2S] else []) = [MissM2S])
    by (destruct (waiting (syn_of p)); auto).
  destruct (cached (syn_of p)) as [f|] eqn:EC.
  - destruct (fu_seq f =? sy_seq m) eqn:ES.
    + destruct (handle_follow c (mkFu (fu_src f) (fu_seq f) (fu_origin f) (fu_corr f) 44) true
                 (with_syn p (mkSyn (sy_two m) (sy_seq m) t k (Some f)))) as [[p2 late]|] eqn:EF;
        [cbn [bind] in H|discriminate H]. inv H. apply Z.eqb_eq in ES.
      apply follow_cases in EF. destruct EF as [[E1 E2]|[y [k2 [E1 [E2 [E3 [E4 [E5 [E6 [E7 [L [R [E8 E9]]]]]]]]]]]]].
      * subst late.
        assert (P2 : exists y2, p2 = with_syn p y2 /\ waiting y2 = sy_two m /\ last_seq y2 = sy_seq m /\ rx_time y2 = t).
        { destruct E2 as [E2|[y [E2 [W [L [R _]]]]]].
          - subst p2. eexists. split; [reflexivity|]. repeat split.
          - subst p2. exists y. split; [destruct p; reflexivity|]. cbn [syn_of with_syn waiting last_seq rx_time] in *. auto. }
        destruct P2 as [y2 [P2 [W [L R]]]]. subst p2.
        exists (mkSyn (waiting y2) (last_seq y2) (rx_time y2) (corr y2) None), [], (if waiting (syn_of p) then [MissM2S] else []).
        split; [exact TK|]. split; [reflexivity|]. split; [reflexivity|]. split; [destruct p; reflexivity|].
        split; [reflexivity|]. split; [exact L|]. split; [exact R|]. split; [exact MS|]. split; [reflexivity|].
        left. split; [reflexivity|exact W].
      * cbn [fu_src fu_seq fu_origin fu_corr syn_of with_syn waiting last_seq rx_time parent] in *. subst p2 late.
        exists (mkSyn (waiting y) (last_seq y) (rx_time y) (corr y) None).
        eexists. eexists. split; [exact TK|]. split; [reflexivity|]. split; [reflexivity|]. split; [destruct p; reflexivity|].
        split; [reflexivity|]. split; [exact L|]. split; [exact R|]. split; [exact MS|]. split; [reflexivity|].
        right. exists f, k2. split; [reflexivity|]. split; [exact E3|]. split; [exact ES|]. split; [congruence|]. split; [exact E5|]. split; [exact E7|reflexivity].
    + cbn [bind] in H. inv H.
      exists (mkSyn (sy_two m) (sy_seq m) t k None), [], (if waiting (syn_of p) then [MissM2S] else []).
      split; [exact TK|]. split; [reflexivity|]. split; [reflexivity|]. split; [destruct p; reflexivity|].
      split; [reflexivity|]. split; [reflexivity|]. split; [reflexivity|]. split; [exact MS|]. split; [reflexivity|].
      left. split; reflexivity.
  - inv H. exists (mkSyn (sy_two m) (sy_seq m) t k None), [], (if waiting (syn_of p) then [MissM2S] else []).
    split; [exact TK|]. split; [reflexivity|]. split; [reflexivity|]. split; [rewrite <- EC; reflexivity|].
    split; [reflexivity|]. split; [reflexivity|]. split; [reflexivity|]. split; [exact MS|].
    split; [rewrite app_nil_r; reflexivity|].
    left. split; reflexivity.
Qed.

Lemma delay_resp_cases : forall c m df p p' os, handle_delay_resp c m df p = Some (p', os) ->
  (os = [] /\ p' = p) \/
  (54 <= dr_len m /\ mech p = E2E /\ pst p = Slave /\ buffer (del_of p) = own c /\ (dr_src m = parent p \/ ignore_id c = true) /\
   ((df = false /\ rx_pending (del_of p) = true /\ tx_pending (del_of p) = true /\ os = [] /\
     exists kept, (kept = None \/ kept = Some m) /\
     p' = with_del p (mkDel (d_seq (del_of p)) true false (d_tk (del_of p)) (d_send (del_of p)) kept (buffer (del_of p)))) \/
    (exists k, (df = true \/ (rx_pending (del_of p) = true /\ tx_pending (del_of p) = false)) /\
     d_seq (del_of p) = dr_seq m /\ from_ns16 (dr_corr m) = Some k /\
     p' = with_del p (mkDel (d_seq (del_of p)) (tx_pending (del_of p)) false (d_tk (del_of p)) (d_send (del_of p)) (stash (del_of p)) (buffer (del_of p))) /\
     os = [GiveS2M (d_send (del_of p)) (time_of (dr_time m)) k]))).
Proof.
  intros c m df p p' os H. unfold handle_delay_resp in H.
  destruct (dr_len m <? 54) eqn:EL; [inv H; left; split; reflexivity|]. apply Z.ltb_ge in EL.
  destruct (mech p) eqn:EM; [|inv H; left; split; reflexivity..].
  destruct (pst p) eqn:ES; try (inv H; left; split; reflexivity).
  destruct (same_ident (own c) (buffer (del_of p))) eqn:EI; cbn [andb] in H; [|inv H; left; split; reflexivity].
  apply same_ident_true in EI.
  destruct (from_parent p (dr_src m) || ignore_id c) eqn:EP; [|inv H; left; split; reflexivity].
  assert (SRC : dr_src m = parent p \/ ignore_id c = true).
  { apply orb_true_iff in EP. destruct EP as [EP|EP]; [left|right; exact EP]. unfold from_parent in EP.
    apply same_ident_true in EP. symmetry. exact EP. }
  destruct (negb df && rx_pending (del_of p) && tx_pending (del_of p)) eqn:E1.
  { apply andb_true_iff in E1. destruct E1 as [E1 E3]. apply andb_true_iff in E1. destruct E1 as [E1 E2].
    inv H. right. split; [exact EL|]. split; [reflexivity|]. split; [reflexivity|]. split; [symmetry; exact EI|]. split; [exact SRC|].
    left. split; [destruct df; [discriminate E1|reflexivity]|]. split; [exact E2|]. split; [exact E3|]. split; [reflexivity|].
    exists (if room c <? dr_len m - 34 then None else Some m). split; [destruct (room c <? dr_len m - 34); auto|].
    rewrite E3. reflexivity. }
  destruct (negb df && negb (rx_pending (del_of p))) eqn:E2; [inv H; left; split; reflexivity|].
  destruct (d_seq (del_of p) =? dr_seq m) eqn:E3; cbn [negb] in H; [|inv H; left; split; reflexivity].
  destruct (from_ns16 (dr_corr m)) as [k|] eqn:EK; [cbn [bind] in H|discriminate H]. inv H.
  right. split; [exact EL|]. split; [reflexivity|]. split; [reflexivity|]. split; [symmetry; exact EI|]. split; [exact SRC|].
  right. exists k. split.
  { destruct df; [left; reflexivity|right]. destruct (rx_pending (del_of p)); [|discriminate E2].
    destruct (tx_pending (del_of p)); [discriminate E1|auto]. }
  split; [apply Z.eqb_eq; exact E3|]. split; [reflexivity|]. split; reflexivity.
Qed.

(** *** Which operations touch what. *)
Definition syn_op (o : op) : bool := match o with OSync _ _ | OFollow _ | OBest _ _ | OState _ => true | _ => false end.

Lemma delay_resp_frame : forall c m df p p' os, handle_delay_resp c m df p = Some (p', os) ->
  syn_of p' = syn_of p /\ parent p' = parent p /\ pst p' = pst p /\ mech p' = mech p /\ peer_of p' = peer_of p /\ mast_of p' = mast_of p /\
  existsb is_m2s os = false /\ existsb is_p2p os = false /\ existsb is_follow os = false /\ existsb is_pfollow os = false.
Proof.
  intros c m df p p' os H. apply delay_resp_cases in H.
  destruct H as [[H1 H2]|[_ [_ [_ [_ [_ [[_ [_ [_ [H1 [kept [_ H2]]]]]]|[k [_ [_ [_ [H2 H1]]]]]]]]]]]]; subst; repeat split.
Qed.

Lemma frame_syn : forall c o p p' os, step c o p = Some (p', os) -> syn_op o = false ->
  syn_of p' = syn_of p /\ parent p' = parent p /\ existsb is_m2s os = false.
Proof.
  intros c o p p' os H F. destruct o; try discriminate F; cbn [step] in H.
  - apply delay_resp_frame in H. destruct H as [H1 [H2 [_ [_ [_ [_ [H3 _]]]]]]]. split; [exact H1|]. split; [exact H2|exact H3].
  - unfold handle_peer_resp in H. crunch H; repeat split.
    match goal with |- context [if ?b then _ else _] => destruct b end; reflexivity.
  - unfold handle_peer_follow in H. crunch H; repeat split.
  - unfold handle_peer_req in H. crunch H; try (repeat split; fail).
    destruct (pst p); crunch H; try (repeat split; fail);
    destruct s; rewrite ?send_failure_syn, ?send_failure_parent; repeat split.
  - inv H. repeat split.
  - inv H. unfold ask_delay. destruct s; rewrite ?send_failure_syn, ?send_failure_parent; repeat split.
  - inv H. unfold ask_peer. destruct s; rewrite ?send_failure_syn, ?send_failure_parent; repeat split.
  - inv H. unfold send_sync. destruct s; rewrite ?send_failure_syn, ?send_failure_parent; repeat split.
  - destruct k; cbn [tx_timestamp] in H.
    + crunch H; try (repeat split; fail). cbn [syn_of parent with_mast].
      destruct sent; rewrite ?send_failure_syn, ?send_failure_parent; repeat split.
    + crunch H; try (repeat split; fail). unfold delay_req_sent in E0. crunch E0; try (repeat split; fail).
      all: apply delay_resp_frame in E0; destruct E0 as [H1 [H2 [_ [_ [_ [_ [H3 _]]]]]]]; split; [exact H1|]; split; [exact H2|exact H3].
    + crunch H; try (repeat split; fail). unfold peer_req_sent in E0. crunch E0; repeat split.
    + crunch H; try (repeat split; fail). cbn [syn_of parent with_mast].
      destruct sent; rewrite ?send_failure_syn, ?send_failure_parent; repeat split.
  - inv H. repeat split.
Qed.

(** *** The invariant of the Sync part. *)
Definition awaited (c : cfg) (p0 : port) (h : list op) (p : port) : Prop :=
  exists h1 m t h2 pa, h = h1 ++ OSync m (Some t) :: h2 /\ run c h1 p0 = Some pa /\ takes pa m (Some t) /\ sy_two m = true /\
    last_seq (syn_of p) = sy_seq m /\ rx_time (syn_of p) = t /\
    (Forall (keeps_parent (sy_src m)) h2 -> parent p = sy_src m) /\
    during c p0 no_sync_taken (h1 ++ [OSync m (Some t)]) h2 /\
    during c p0 (without c is_m2s) (h1 ++ [OSync m (Some t)]) h2.
Definition kept_early (c : cfg) (p0 : port) (h : list op) (f : fu_msg) : Prop :=
  exists h1 h2, h = h1 ++ OFollow f :: h2 /\ fu_seq f <> 0 /\ during c p0 no_sync_taken (h1 ++ [OFollow f]) h2.
Definition inv_syn (c : cfg) (p0 : port) (h : list op) (p : port) : Prop :=
  (waiting (syn_of p) = true -> awaited c p0 h p) /\
  (forall f, cached (syn_of p) = Some f -> kept_early c p0 h f).

Lemma awaited_snoc : forall c p0 h p o p' os,
  awaited c p0 h p -> run c h p0 = Some p -> step c o p = Some (p', os) -> existsb is_m2s os = false ->
  last_seq (syn_of p') = last_seq (syn_of p) -> rx_time (syn_of p') = rx_time (syn_of p) ->
  no_sync_taken p o -> (forall q, keeps_parent q o -> parent p = q -> parent p' = q) ->
  awaited c p0 (h ++ [o]) p'.
Proof.
  intros c p0 h p o p' os [h1 [m [t [h2 [pa [E [R [T [TW [L [X [K [D1 D2]]]]]]]]]]]]] RH ST NO LS RX NS KP.
  exists h1, m, t, (h2 ++ [o]), pa. subst h. split; [rewrite <- app_assoc; reflexivity|]. split; [exact R|]. split; [exact T|]. split; [exact TW|].
  split; [congruence|]. split; [congruence|]. split.
  { intros F. apply Forall_app in F. destruct F as [F1 F2]. inversion F2; subst. apply KP; [assumption|apply K; exact F1]. }
  assert (RH' : run c ((h1 ++ [OSync m (Some t)]) ++ h2) p0 = Some p) by (rewrite <- app_assoc; exact RH).
  split; [exact (during_snoc _ _ _ _ _ _ _ D1 RH' NS)|].
  apply (during_snoc _ _ _ _ _ _ _ D2 RH'). intros q os' S2. rewrite ST in S2. injection S2 as S2 S3. subst. exact NO.
Qed.

Lemma kept_snoc : forall c p0 h p o f,
  kept_early c p0 h f -> run c h p0 = Some p -> no_sync_taken p o -> kept_early c p0 (h ++ [o]) f.
Proof.
  intros c p0 h p o f [h1 [h2 [E [Z0 D]]]] R NS. subst h. exists h1, (h2 ++ [o]). split; [rewrite <- app_assoc; reflexivity|].
  split; [exact Z0|]. apply (during_snoc _ _ _ _ _ _ p D); [rewrite <- app_assoc; exact R|exact NS].
Qed.

Lemma inv_syn_step : forall c p0 h p o p' os,
  inv_syn c p0 h p -> run c h p0 = Some p -> step c o p = Some (p', os) -> inv_syn c p0 (h ++ [o]) p'.
Proof.
  intros c p0 h p o p' os [I1 I2] R ST. destruct (syn_op o) eqn:SO.
  2:{ destruct (frame_syn _ _ _ _ _ ST SO) as [F1 [F2 F3]].
      assert (NS : no_sync_taken p o) by (destruct o; try discriminate SO; exact Logic.I).
      split; [intros W; rewrite F1 in W|intros f Cf; rewrite F1 in Cf].
      - apply (awaited_snoc _ _ _ _ _ _ _ (I1 W) R ST F3); [rewrite F1; reflexivity..|exact NS|].
        intros q _ Q. congruence.
      - apply (kept_snoc _ _ _ _ _ _ (I2 f Cf) R NS). }
  destruct o; try discriminate SO.
  - (* Sync *)
    assert (ST' := ST). cbn [step] in ST. apply sync_cases in ST.
    destruct ST as [[E1 [E2 NT]]|[t [k [y [late [missed [T [E1 [EK [E2 [EC [EL [ER [EM [EO CS]]]]]]]]]]]]]]].
    + subst os p'. split.
      * intros W. apply (awaited_snoc _ _ _ _ _ _ _ (I1 W) R ST'); [reflexivity..|exact NT|]. auto.
      * intros f Cf. apply (kept_snoc _ _ _ _ _ _ (I2 f Cf) R). exact NT.
    + subst p' rx. unfold inv_syn; cbn [syn_of with_syn]. split; [|intros f Cf; rewrite EC in Cf; discriminate Cf].
      intros W. destruct CS as [[CL CW]|[f [k2 [_ [_ [_ [_ [_ [CW _]]]]]]]]]; [|rewrite CW in W; discriminate W].
      exists h, m, t, [], p. split; [reflexivity|]. split; [exact R|]. split; [exact T|]. split; [congruence|].
      split; [exact EL|]. split; [exact ER|]. split; [intros _; symmetry; apply T|].
      split; apply during_nil.
  - (* FollowUp *)
    assert (ST' := ST). cbn [step] in ST. apply follow_cases in ST.
    destruct ST as [[E1 E2]|[y [k [E1 [E2 [E3 [E4 [E5 [E6 [E7 [L [RX [E8 E9]]]]]]]]]]]]].
    + subst os. assert (KP : forall q, keeps_parent q (OFollow m) -> parent p = q -> parent p = q) by auto.
      destruct E2 as [E2|[y [E2 [W [L [RX CC]]]]]].
      * subst p'. split.
        -- intros W. apply (awaited_snoc _ _ _ _ _ _ _ (I1 W) R ST'); [reflexivity..|exact Logic.I|exact KP].
        -- intros f Cf. (eapply kept_snoc; [exact (I2 f Cf)|exact R|exact Logic.I]).
      * subst p'. unfold inv_syn; cbn [syn_of with_syn]. split.
        -- intros W'. rewrite W in W'. apply (awaited_snoc _ _ _ _ _ _ _ (I1 W') R ST'); [reflexivity|exact L|exact RX|exact Logic.I|exact KP].
        -- intros f Cf. destruct CC as [CC|[CC|[CC [_ [Z0 _]]]]].
           ++ rewrite CC in Cf. discriminate Cf.
           ++ rewrite CC in Cf. (eapply kept_snoc; [exact (I2 f Cf)|exact R|exact Logic.I]).
           ++ rewrite CC in Cf. injection Cf as Cf. subst f. exists h, []. split; [reflexivity|]. split; [exact Z0|apply during_nil].
    + subst p'. unfold inv_syn; cbn [syn_of with_syn]. split; [intros W; rewrite E7 in W; discriminate W|].
      intros f Cf. destruct E8 as [E8|E8]; rewrite E8 in Cf; [discriminate Cf|]. (eapply kept_snoc; [exact (I2 f Cf)|exact R|exact Logic.I]).
  - (* best master *)
    assert (ST' := ST). cbn [step] in ST. inv ST. unfold best_master. unfold best_master in ST'.
    assert (A : forall y', last_seq y' = last_seq (syn_of p) -> rx_time y' = rx_time (syn_of p) -> cached y' = cached (syn_of p) ->
                (waiting y' = true -> waiting (syn_of p) = true) ->
                syn_of (if pstate_eqb s (pst p) then with_parent p p1 else to_state s (with_parent p p1)) = y' ->
                inv_syn c p0 (h ++ [OBest s p1]) (if pstate_eqb s (pst p) then with_parent p p1 else to_state s (with_parent p p1))).
    { intros y' L RX CC W Y. split.
      - intros W'. rewrite Y in W'. eapply awaited_snoc; [apply I1; apply W; exact W'|exact R|exact ST'|reflexivity|rewrite Y; exact L|rewrite Y; exact RX|exact Logic.I|].
        intros q K _. cbn [keeps_parent] in K. destruct (pstate_eqb s (pst p)); [exact K|rewrite to_state_parent; exact K].
      - intros f Cf. rewrite Y, CC in Cf. (eapply kept_snoc; [exact (I2 f Cf)|exact R|exact Logic.I]). }
    destruct (pstate_eqb s (pst p)) eqn:ES.
    + apply (A (syn_of p)); auto.
    + destruct s; try (apply (A (syn_of p)); auto; fail).
      eapply A; [| | | |reflexivity]; try reflexivity. intros W. discriminate W.
  - (* state *)
    assert (ST' := ST). cbn [step] in ST. inv ST.
    assert (A : forall y', last_seq y' = last_seq (syn_of p) -> rx_time y' = rx_time (syn_of p) -> cached y' = cached (syn_of p) ->
                (waiting y' = true -> waiting (syn_of p) = true) -> syn_of (to_state s p) = y' ->
                inv_syn c p0 (h ++ [OState s]) (to_state s p)).
    { intros y' L RX CC W Y. split.
      - intros W'. rewrite Y in W'. eapply awaited_snoc; [apply I1; apply W; exact W'|exact R|exact ST'|reflexivity|rewrite Y; exact L|rewrite Y; exact RX|exact Logic.I|].
        intros q _ Q. rewrite to_state_parent. exact Q.
      - intros f Cf. rewrite Y, CC in Cf. (eapply kept_snoc; [exact (I2 f Cf)|exact R|exact Logic.I]). }
    destruct s; try (apply (A (syn_of p)); auto; fail).
    eapply A; [| | | |reflexivity]; try reflexivity. intros W. discriminate W.
Qed.

Lemma run_ind : forall (c : cfg) (p0 : port) (Inv : list op -> port -> Prop),
  Inv [] p0 ->
  (forall h p o p' os, Inv h p -> run c h p0 = Some p -> step c o p = Some (p', os) -> Inv (h ++ [o]) p') ->
  forall h p, run c h p0 = Some p -> Inv h p.
Proof.
  intros c p0 Inv H0 HS h. induction h as [|o h IH] using rev_ind; intros p R.
  - injection R as R. subst. exact H0.
  - apply run_snoc in R. destruct R as [p' [os [R1 R2]]]. exact (HS _ _ _ _ _ (IH _ R1) R1 R2).
Qed.

Lemma inv_syn_run : forall c p0 h p, fresh p0 -> run c h p0 = Some p -> inv_syn c p0 h p.
Proof.
  intros c p0 h p F. revert h p. apply run_ind.
  - destruct F as [F1 [F2 _]]. split; [rewrite F1; discriminate|rewrite F2; discriminate].
  - intros h p o p' os I R S0. exact (inv_syn_step _ _ _ _ _ _ _ I R S0).
Qed.
