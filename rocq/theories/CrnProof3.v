(** Proofs for the chrony module, part 3: the invariant of the dialogue. *)
Require Import ZArith QArith List Bool Lia.
Require Import Verif.Base Verif.TimeSpec Verif.TimeModel Verif.QLib Verif.ListLib Verif.StatsModel Verif.CrnSpec Verif.CrnModel Verif.CrnProof Verif.CrnProof2.
Import ListNotations.
Open Scope Z_scope.

Lemma handle_count_frame : forall m, handle_count m = m \/ exists n, handle_count m = set_nx m (with_num (m_nx m) n).
Proof. intros m. unfold handle_count. destruct (reply_ok m 2); eauto. Qed.
Lemma handle_datum_frame : forall m m1, handle_datum m = Some (m1, true) -> exists p s a md, put_peer (m_nx m) (m_idx m) p = Some s /\ m1 = set_src (set_nx m s) a md /\ a = firstn 20 (data m).
Proof.
  intros m m1 H. unfold handle_datum in H. di H; [discriminate|]. ib H. ib H. injection H as <-. eauto 10.
Qed.
Lemma handle_stats_frame : forall e m m1 ok, handle_stats e m = Some (m1, ok) ->
  (m1 = m /\ ok = false) \/ (exists p p' s, peer_at (m_nx m) (m_idx m) = Some p /\ put_peer (m_nx m) (m_idx m) p' = Some s /\ q_sel p' = q_sel p /\
     (ok = false /\ m1 = set_nx m s \/ ok = false /\ m1 = set_req (set_nx m s) (request 57 (e_rand e) []) \/
      ok = true /\ m1 = set_req (set_nx m s) (request 57 (e_rand e) (m_addr m)))).
Proof.
  intros e m m1 ok H. unfold handle_stats in H. di H; [injection H as <- <-; auto|]. ib H. rename c into p. ib H. rename c into s. right. exists p. eexists. exists s.
  split; [reflexivity|]. split; [exact B0|]. split; [reflexivity|].
  di H; [injection H as <- <-; auto|]. di H; injection H as <- <-; auto.
Qed.
Lemma handle_ntp_frame : forall m m1, handle_ntp m = Some m1 -> m1 = m \/ exists p p' s, peer_at (m_nx m) (m_idx m) = Some p /\ put_peer (m_nx m) (m_idx m) p' = Some s /\ q_sel p' = q_sel p /\ m1 = set_nx m s.
Proof.
  intros m m1 H. unfold handle_ntp in H. di H; [injection H as <-; auto|]. ib H. rename c into p. ib H. rename c into s. injection H as <-. right. exists p. eexists. exists s.
  split; [reflexivity|]. split; [exact B0|]. split; reflexivity.
Qed.

(** ** The connection *)
Lemma conn_run_app : forall a b o, conn_run o (a ++ b) = do x <- conn_run o a; conn_run x b.
Proof.
  induction a as [|x a IH]; intros b o; [reflexivity|]. destruct x; cbn [app conn_run bind]; auto; destruct o; auto.
Qed.
(** ** The requests *)
Definition mach_out (e : env) (o : out) : Prop := match o with Connect _ | Close | Look _ => True | Sent x => good_req (e_rand e) x | _ => False end.
Lemma good_sys : forall e, good_req (e_rand e) (request 33 (e_rand e) []).
Proof. intros e. exists 33, []. rewrite request_enc. split; [left; auto|reflexivity]. Qed.
Lemma good_count : forall e, good_req (e_rand e) (request 14 (e_rand e) []).
Proof. intros e. exists 14, []. rewrite request_enc. split; [left; auto|reflexivity]. Qed.
Lemma good_datum : forall e i, 0 <= i < 32 -> good_req (e_rand e) (request 15 (e_rand e) (put32 i)).
Proof. intros e i H. exists 15, (enc32 i). rewrite request_enc, put32_enc. split; [right; left; split; [auto|eauto]|reflexivity]. Qed.
Lemma good_stats : forall e i, 0 <= i < 32 -> good_req (e_rand e) (request 34 (e_rand e) (put32 i)).
Proof. intros e i H. exists 34, (enc32 i). rewrite request_enc, put32_enc. split; [right; left; split; [auto|eauto]|reflexivity]. Qed.
Lemma good_ntp : forall e a, List.length a = 20%nat -> good_req (e_rand e) (request 57 (e_rand e) a).
Proof. intros e a H. exists 57, a. rewrite request_enc. split; [right; right; auto|reflexivity]. Qed.

(** ** The state machine *)
Definition offline (q : qst) : bool := match q with SleepDisc | Conn | ConnWait => true | _ => false end.
(** During an event. *)
Definition base (g : conf) (m : cm) : Prop :=
  dull (m_st m) /\ dull (m_nx m) /\ List.length (m_resp m) = 528%nat /\ List.length (m_addr m) = 20%nat /\
  (m_must m = true -> m_cannot m = false) /\ (g_ctl g = true -> m_must m = false /\ m_cannot m = false).
Definition unlinked (m : cm) : Prop := offline (m_q m) = true -> m_open m = false.
Definition settled (m : cm) : Prop := k_state (m_nx m) = k_state (m_st m) /\ k_cc (m_nx m) = k_cc (m_st m).
(** What the state machine leaves alone. *)
Definition kept (m m1 : cm) : Prop :=
  m_flags m1 = m_flags m /\ m_st m1 = m_st m /\ m_conv m1 = m_conv m /\ m_resp m1 = m_resp m /\ m_blocked m1 = m_blocked m /\ m_phase m1 = m_phase m /\
  m_saved m1 = m_saved m /\ m_atsave m1 = m_atsave m /\ m_last m1 = m_last m.
Ltac kp := unfold kept; pj; auto 12.
Lemma kept_refl : forall m, kept m m. Proof. kp. Qed.
Lemma kept_trans : forall a b c, kept a b -> kept b c -> kept a c.
Proof.
  intros a b c (K1 & K2 & K3 & K4 & K5 & K6 & K7 & K8 & K9) (L1 & L2 & L3 & L4 & L5 & L6 & L7 & L8 & L9). unfold kept. repeat split; congruence.
Qed.
Definition agrees (m m1 : cm) (upd : bool) : Prop := upd = false -> k_cc (m_nx m) = k_cc (m_st m) -> k_cc (m_nx m1) = k_cc (m_st m).

(** After a question. *)
Lemma issued_spec : forall g e m r, base g m -> good_req (e_rand e) (m_req m) -> issued e m r ->
  let '(m1, o, ok) := r in
  base g m1 /\ kept m m1 /\ m_nx m1 = m_nx m /\ m_q m1 = m_q m /\ m_idx m1 = m_idx m /\ m_next m1 = m_next m /\ Forall (mach_out e) o /\ conn_run (m_open m) o = Some (m_open m1) /\ (ok = true -> m_open m1 = true).
Proof.
  intros g e m r D G H. destruct H as [x O A S|O|x O|x O]; pj.
  - split; [exact D|]. split; [kp|]. repeat (split; [reflexivity|]). split; [repeat constructor; exact G|]. cbn [conn_run]. rewrite O. auto.
  - split; [exact D|]. split; [kp|]. repeat (split; [reflexivity|]). split; [constructor|]. cbn [conn_run]. split; [reflexivity|discriminate].
  - split; [exact D|]. split; [kp|]. repeat (split; [reflexivity|]). split; [repeat constructor|]. cbn [conn_run]. rewrite O. split; [reflexivity|discriminate].
  - split; [exact D|]. split; [kp|]. repeat (split; [reflexivity|]). split; [constructor|]. cbn [conn_run]. split; [reflexivity|discriminate].
Qed.

(** What a branch leaves. *)
Definition sw_ok (g : conf) (e : env) (m : cm) (b : branch) : Prop :=
  let '(m1, o, upd, disc) := b in
  base g m1 /\ (disc = false -> unlinked m1) /\ kept m m1 /\ Forall (mach_out e) o /\ conn_run (m_open m) o = Some (m_open m1) /\ agrees m m1 upd.
Lemma onward_ok : forall g e m m0 r q o upd, base g m0 -> kept m m0 -> good_req (e_rand e) (m_req m0) -> issued e m0 r -> offline q = false ->
  Forall (mach_out e) o -> conn_run (m_open m) o = Some (m_open m0) -> agrees m m0 upd -> sw_ok g e m (onward r q o upd).
Proof.
  intros g e m m0 r q o upd D K G R Q F C A. pose proof (issued_spec g e m0 r D G R) as X. destruct r as [[m1 o1] ok]. destruct X as (X1 & X2 & X3 & X4 & XI & XN & X5 & X6 & X7).
  unfold onward.
  assert (KK : kept m m1) by (eapply kept_trans; eassumption).
  assert (FF : Forall (mach_out e) (o ++ o1)) by (apply Forall_app; auto).
  assert (CC : conn_run (m_open m) (o ++ o1) = Some (m_open m1)) by (rewrite conn_run_app, C; exact X6).
  assert (AA : agrees m m1 upd) by (unfold agrees in *; rewrite X3; exact A).
  destruct ok; unfold sw_ok; pj.
  - split; [exact X1|]. split; [unfold unlinked; pj; intros _; rewrite Q; discriminate|].
    split; [exact KK|]. split; [exact FF|]. split; [exact CC|exact AA].
  - split; [exact X1|]. split; [discriminate|]. split; [exact KK|]. split; [exact FF|]. split; [exact CC|exact AA].
Qed.
Lemma base_nx : forall g m s, base g m -> dull s -> base g (set_nx m s).
Proof. intros g m s (D1 & D2 & D3) S. unfold base. pj. auto. Qed.
Lemma nexts_ok : forall g e m m0 q b, base g m0 -> kept m m0 -> m_open m0 = m_open m -> k_cc (m_nx m0) = k_cc (m_nx m) -> offline q = false -> nexts e m0 q b -> sw_ok g e m b.
Proof.
  intros g e m m0 q b D K O CC Q H. pose proof D as (D1 & D2 & _). destruct H as [s E P|s r E P R].
  - rewrite parse_dull in P by exact D2. cbn [Z.eqb negb] in P. di P; [discriminate|]. injection P as <-.
    unfold sw_ok. split; [apply (base_nx g m0); [exact D|apply dull_parsed; exact D2]|]. split; [intros _; unfold unlinked; pj; discriminate|].
    split; [exact K|]. split; [constructor|]. split; [cbn; congruence|]. unfold agrees. discriminate.
  - eapply onward_ok with (m0 := ask_datum e (set_idx m0 (m_idx m0 + 1)) s); [| | |exact R|exact Q|constructor| |].
    + apply (base_nx g m0); [exact D|]. eapply dull_put; [exact D2|exact P|reflexivity].
    + exact K.
    + unfold ask_datum. pj. apply good_datum. apply put_peer_arr in P. destruct P as [_ P]. destruct D2 as [L _]. rewrite L in P. exact P.
    + cbn. unfold ask_datum. pj. congruence.
    + unfold agrees, ask_datum. pj. intros _ E2. apply put_peer_arr in P. destruct P as [-> _]. pj. congruence.
Qed.
Lemma data_20 : forall m, List.length (m_resp m) = 528%nat -> List.length (firstn 20 (data m)) = 20%nat.
Proof. intros m H. unfold data. rewrite firstn_length, skipn_length, H. reflexivity. Qed.
Lemma step_next_frame : forall g m m1, step_next g m = Some m1 -> exists t, m1 = set_next m t /\ t = mkTs (sec (m_next m) + g_interval g) (nsec (m_next m)) (frac (m_next m)).
Proof.
  intros g m m1 H. unfold step_next in H. ib H. injection H as <-. unfold chk_s64 in B. destruct (fits_s64 _); [|discriminate]. injection B as <-. eauto.
Qed.
Lemma handle_count_base : forall g m, base g m -> base g (handle_count m) /\ kept m (handle_count m) /\ m_open (handle_count m) = m_open m /\ k_cc (m_nx (handle_count m)) = k_cc (m_nx m).
Proof.
  intros g m D. destruct (handle_count_frame m) as [->|[n ->]]; [split; [exact D|]; split; [kp|]; auto|].
  pj. split; [apply base_nx; [exact D|]; apply D|]. split; [kp|]. auto.
Qed.
Lemma handle_stats_base : forall g e m m1 ok, base g m -> handle_stats e m = Some (m1, ok) -> base g m1 /\ kept m m1 /\ m_open m1 = m_open m /\ k_cc (m_nx m1) = k_cc (m_nx m) /\ (ok = true -> good_req (e_rand e) (m_req m1)).
Proof.
  intros g e m m1 ok D H. pose proof D as (_ & D2 & _ & D5 & _). apply handle_stats_frame in H. destruct H as [[-> ->]|(p & p' & s & P1 & P2 & P3 & H)].
  - split; [exact D|]. split; [kp|]. split; [auto|]. split; [auto|discriminate].
  - assert (U := dull_peer _ _ _ D2 P1). assert (dull s) by (eapply dull_put; [exact D2|exact P2|unfold unsel in *; congruence]).
    apply put_peer_arr in P2. destruct P2 as [-> _].
    destruct H as [[-> ->]|[[-> ->]|[-> ->]]]; pj; (split; [apply (base_nx g m); assumption|]); (split; [kp|]); (split; [auto|]); (split; [auto|]); try discriminate.
    intros _. apply good_ntp. exact D5.
Qed.
Lemma handle_ntp_base : forall g m m1, base g m -> handle_ntp m = Some m1 -> base g m1 /\ kept m m1 /\ m_open m1 = m_open m /\ k_cc (m_nx m1) = k_cc (m_nx m).
Proof.
  intros g m m1 D H. pose proof D as (_ & D2 & _ & D5 & _). apply handle_ntp_frame in H. destruct H as [->|(p & p' & s & P1 & P2 & P3 & ->)].
  - split; [exact D|]. split; [kp|]. auto.
  - assert (U := dull_peer _ _ _ D2 P1). assert (dull s) by (eapply dull_put; [exact D2|exact P2|unfold unsel in *; congruence]).
    apply put_peer_arr in P2. destruct P2 as [-> _]. pj. split; [apply (base_nx g m); assumption|]. split; [kp|]. auto.
Qed.
Lemma next_control_base : forall g m p m' o upd, base g m -> next_control g m p = (m', o, upd) ->
  base g m' /\ kept m m' /\ m_open m' = m_open m /\ m_q m' = m_q m /\ m_next m' = m_next m /\ m_idx m' = m_idx m /\ o = [Look p] /\ agrees m m' upd /\ upd = negb (Bool.eqb (k_cc (m_st m)) (controls p)) /\
  (upd = true -> k_cc (m_nx m') = controls p) /\ (m_nx m' = m_nx m \/ m_nx m' = with_cc (m_nx m) (controls p)).
Proof.
  intros g m p m' o upd (D1 & D2 & D3 & D4 & D5 & D6) H. apply next_control_frame in H. destruct H as (a & b & -> & U & -> & A1 & A2).
  cbv zeta. pj. split.
  - unfold base. destruct upd; pj; auto 10.
  - split; [destruct upd; kp|]. split; [destruct upd; reflexivity|]. split; [destruct upd; reflexivity|]. split; [destruct upd; reflexivity|]. split; [destruct upd; reflexivity|].
    split; [reflexivity|]. split; [unfold agrees; intros -> E; pj; exact E|]. split; [exact U|]. split; [intros ->; reflexivity|]. destruct upd; auto.
Qed.
Lemma switch_ok : forall g m ev e k b, base g m -> unlinked m -> settled m -> switch g m ev e k = Some b -> sw_ok g e m b.
Proof.
  intros g m ev e k b D UL ST H. pose proof D as (D1 & D2 & D4 & D5 & D6 & D7). destruct ST as [ST1 ST2].
  apply switch_cases in H.
  destruct H as [|E|r Q O E R|Q O E|s Q O E1 E2 P|r Q E R|m1 o1 upd r Q E N R|Q E L|s r Q E L P R|m1 s r Q E H P R|b Q E H N|m1 r Q E H R|m1 b Q E H N|m1 b Q E H N|rest m1 o1 upd m2 m3 Q S T N A X|rest m1 o1 m2 Q S T R X|rest m1 o1 Q S T R].
  - unfold sw_ok. split; [exact D|]. split; [auto|]. split; [kp|]. split; [constructor|]. split; [reflexivity|]. unfold agrees. auto.
  - unfold sw_ok. split; [exact D|]. split; [intros _; unfold unlinked; pj; discriminate|]. split; [kp|]. split; [constructor|]. split; [reflexivity|]. unfold agrees. auto.
  - eapply onward_ok with (m0 := ask_sys e (set_open m true)); [| | |exact R|reflexivity|repeat constructor| |].
    + unfold ask_sys. pj. apply (base_nx g m); assumption.
    + kp.
    + apply good_sys.
    + cbn [conn_run]. rewrite O. reflexivity.
    + unfold agrees, ask_sys. pj. auto.
  - unfold sw_ok. split; [exact D|]. split; [intros _; unfold unlinked; pj; auto|]. split; [kp|]. split; [repeat constructor|]. split; [cbn [conn_run]; pj; rewrite O; reflexivity|]. unfold agrees. auto.
  - rewrite parse_dull in P by exact D2. replace (e_connect e =? 0) with false in P by (symmetry; apply Z.eqb_neq; exact E1). cbn [negb] in P. injection P as <-.
    unfold sw_ok. split; [apply (base_nx g m); [exact D|apply dull_failed; exact D2]|]. split; [intros _; unfold unlinked; pj; auto|]. split; [kp|]. split; [repeat constructor|].
    split; [cbn [conn_run]; pj; rewrite O; rewrite (proj2 (Z.eqb_neq _ _) E1); reflexivity|]. unfold agrees. pj. auto.
  - eapply onward_ok with (m0 := ask_sys e m); [| | |exact R|reflexivity|repeat constructor| |].
    + apply (base_nx g m); assumption.
    + kp.
    + apply good_sys.
    + reflexivity.
    + unfold agrees, ask_sys. pj. auto.
  - apply (next_control_base g) in N; [|exact D]. destruct N as (N1 & N2 & N3 & N4 & N5 & NI & -> & N7 & _).
    eapply onward_ok with (m0 := ask_count e m1); [exact N1|exact N2| |exact R|reflexivity|repeat constructor| |].
    + apply good_count.
    + cbn. congruence.
    + exact N7.
  - destruct (handle_count_base g m D) as (K1 & K2 & K3 & K4). unfold sw_ok. split; [exact K1|]. split; [intros _; unfold unlinked; pj; discriminate|]. split; [exact K2|]. split; [constructor|].
    split; [cbn [conn_run]; pj; congruence|]. unfold agrees. pj. congruence.
  - destruct (handle_count_base g m D) as (K1 & K2 & K3 & K4). pose proof K1 as (_ & K5 & _).
    eapply onward_ok with (m0 := ask_datum e (set_idx (handle_count m) 0) s); [|exact K2| |exact R|reflexivity|constructor| |].
    + apply (base_nx g (handle_count m)); [exact K1|]. eapply dull_put; [exact K5|exact P|reflexivity].
    + apply good_datum. pj. lia.
    + cbn. unfold ask_datum. pj. congruence.
    + unfold agrees, ask_datum. pj. apply put_peer_arr in P. destruct P as [-> _]. pj. congruence.
  - apply handle_datum_frame in H. destruct H as (p & s0 & a & md & P0 & -> & ->). pj.
    assert (DS : dull s) by (eapply dull_put2; [exact D2|exact P0|exact P|reflexivity]).
    eapply onward_ok with (m0 := ask_stats e (set_src (set_nx m s0) (firstn 20 (data m)) md) s); [| | |exact R|reflexivity|constructor| |].
    + unfold base, ask_stats. pj. split; [exact D1|]. split; [exact DS|]. split; [exact D4|]. split; [apply data_20; exact D4|]. auto.
    + kp.
    + apply good_stats. pj. apply put_peer_arr in P0. destruct P0 as [_ P0]. destruct D2 as [L _]. rewrite L in P0. exact P0.
    + reflexivity.
    + unfold agrees, ask_stats. pj. apply put_peer_arr in P. destruct P as [-> _]. pj. apply put_peer_arr in P0. destruct P0 as [-> _]. pj. auto.
  - apply (nexts_ok g e m m Datum b); auto. kp.
  - apply (handle_stats_base g) in H; [|exact D]. destruct H as (K1 & K2 & K3 & K4 & K5).
    eapply onward_ok with (m0 := m1); [exact K1|exact K2|auto|exact R|reflexivity|constructor| |].
    + cbn. congruence.
    + unfold agrees. congruence.
  - apply (handle_stats_base g) in H; [|exact D]. destruct H as (K1 & K2 & K3 & K4 & K5). apply (nexts_ok g e m m1 Stats b); auto.
  - apply (handle_ntp_base g) in H; [|exact D]. destruct H as (K1 & K2 & K3 & K4). apply (nexts_ok g e m m1 Datum b); auto.
  - apply (next_control_base g) in N; [|exact D]. destruct N as (N1 & N2 & N3 & N4 & N5 & NI & -> & N7 & N8 & _).
    assert (O : m_open m = false) by (apply UL; rewrite Q; reflexivity).
    assert (Y : base g m2 /\ kept m m2 /\ m_open m2 = false /\ agrees m m2 upd).
    { pose proof N1 as (_ & N9 & _). destruct A as [[_ ->]|(_ & s & P & ->)].
      - split; [exact N1|]. split; [exact N2|]. split; [pj; congruence|]. exact N7.
      - rewrite parse_dull in P by exact N9. cbn in P. injection P as <-. split; [apply base_nx; [exact N1|apply dull_failed; exact N9]|]. split; [exact N2|]. split; [pj; congruence|].
        unfold agrees in *. pj. exact N7. }
    destruct Y as (Y1 & Y2 & Y3 & Y4). apply step_next_frame in X. destruct X as (t & -> & _).
    unfold sw_ok. split; [exact Y1|]. split; [intros _; unfold unlinked; pj; auto|]. split; [exact Y2|]. split; [repeat constructor|]. split; [cbn; pj; congruence|]. exact Y4.
  - assert (B1 : base g (ask_sys e m)) by (apply (base_nx g m); assumption).
    pose proof (issued_spec g e _ _ B1 (good_sys e) R) as (X1 & X2 & X3 & X4 & XI & XN & X5 & X6 & X7). apply step_next_frame in X. destruct X as (t & -> & _).
    unfold sw_ok. split; [exact X1|]. split; [intros _; unfold unlinked; pj; discriminate|]. split; [apply (kept_trans m (ask_sys e m)); [kp|exact X2]|]. split; [exact X5|]. split; [exact X6|].
    unfold agrees. pj. rewrite X3. auto.
  - assert (B1 : base g (ask_sys e m)) by (apply (base_nx g m); assumption).
    pose proof (issued_spec g e _ _ B1 (good_sys e) R) as (X1 & X2 & X3 & X4 & XI & XN & X5 & X6 & X7).
    unfold sw_ok. split; [exact X1|]. split; [discriminate|]. split; [apply (kept_trans m (ask_sys e m)); [kp|exact X2]|]. split; [exact X5|]. split; [exact X6|].
    unfold agrees. rewrite X3. auto.
Qed.
Lemma drop_ok : forall g m m1 o, base g m -> drop m = (m1, o) -> base g m1 /\ unlinked m1 /\ kept m m1 /\ (o = [] \/ o = [Close]) /\ conn_run (m_open m) o = Some (m_open m1) /\ m_nx m1 = m_nx m /\ m_open m1 = false /\ m_q m1 = SleepDisc /\ m_next m1 = m_next m.
Proof.
  intros g m m1 o D H. unfold drop, close in H. destruct (m_open m) eqn:O; injection H as <- <-.
  - split; [exact D|]. split; [unfold unlinked; pj; auto|]. split; [kp|]. split; [auto|]. split; [reflexivity|]. auto.
  - split; [exact D|]. split; [unfold unlinked; pj; auto|]. split; [kp|]. split; [auto|]. cbn [conn_run]. split; [pj; congruence|]. auto.
Qed.
Lemma machine_ok : forall g m ev e k m1 o upd, base g m -> unlinked m -> settled m -> machine g m ev e k = Some (m1, o, upd) ->
  base g m1 /\ unlinked m1 /\ kept m m1 /\ Forall (mach_out e) o /\ conn_run (m_open m) o = Some (m_open m1) /\ (upd = false -> settled m1).
Proof.
  intros g m ev e k m1 o upd D UL ST H. unfold machine in H. ib H. destruct p as [[mm oo] uu]. injection H as <- <- <-.
  assert (X : base g mm /\ unlinked mm /\ kept m mm /\ Forall (mach_out e) oo /\ conn_run (m_open m) oo = Some (m_open mm) /\ agrees m mm uu).
  { assert (DROP : forall a oa, drop m = (a, oa) -> base g a /\ unlinked a /\ kept m a /\ Forall (mach_out e) oa /\ conn_run (m_open m) oa = Some (m_open a) /\ agrees m a true).
    { intros a oa A. apply (drop_ok g) in A; [|exact D]. destruct A as (A1 & A2 & A3 & A4 & A5 & _). split; [exact A1|]. split; [exact A2|]. split; [exact A3|].
      split; [destruct A4 as [->| ->]; repeat constructor|]. split; [exact A5|]. unfold agrees. discriminate. }
    assert (SW : forall ev', (do b <- switch g m ev' e k; let '(m1, o1, upd, disc) := b in if (disc : bool) then let (m2, o2) := drop m1 in Some (m2, o1 ++ o2, true) else Some (m1, o1, upd)) = Some (mm, oo, uu) ->
      base g mm /\ unlinked mm /\ kept m mm /\ Forall (mach_out e) oo /\ conn_run (m_open m) oo = Some (m_open mm) /\ agrees m mm uu).
    { intros ev' A. ib A. destruct b as [[[a oa] ua] disc]. apply (switch_ok g m) in B0; [|exact D|exact UL|exact ST]. destruct B0 as (S1 & S2 & S3 & S4 & S5 & S6).
      destruct disc.
      - destruct (drop a) as [b ob] eqn:DR. injection A as <- <- <-. apply (drop_ok g) in DR; [|exact S1]. destruct DR as (A1 & A2 & A3 & A4 & A5 & _).
        split; [exact A1|]. split; [exact A2|]. split; [eapply kept_trans; eassumption|]. split; [apply Forall_app; split; [exact S4|destruct A4 as [->| ->]; repeat constructor]|].
        split; [rewrite conn_run_app, S5; exact A5|]. unfold agrees. discriminate.
      - injection A as <- <- <-. auto 10. }
    destruct ev; cbn beta iota in B.
    - injection B as <- <- <-. split; [exact D|]. split; [exact UL|]. split; [kp|]. split; [constructor|]. split; [reflexivity|]. unfold agrees. auto.
    - apply (SW _ B).
    - apply (SW _ B).
    - apply (SW _ B).
    - destruct (drop m) as [a oa] eqn:A. injection B as <- <- <-. apply DROP. reflexivity.
    - apply (SW _ B). }
  destruct X as (X1 & X2 & X3 & X4 & X5 & X6). split; [exact X1|]. split; [exact X2|]. split; [exact X3|]. split; [exact X4|]. split; [exact X5|].
  intros E. apply orb_false_elim in E. destruct E as [-> E2]. apply negb_false_iff in E2. apply st_eqb_eq in E2. unfold settled. split; [exact E2|].
  destruct X3 as (_ & X3 & _). rewrite X3. apply X6; [reflexivity|]. apply ST.
Qed.
