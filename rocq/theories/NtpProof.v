(** Proofs about the NTP module: invariant between module and observer. *)
Require Import ZArith QArith List Bool Lia.
Require Import Verif.Base Verif.TimeSpec Verif.TimeModel Verif.TimeProof Verif.QLib Verif.ListLib Verif.StatsSpec Verif.StatsModel Verif.Nm6Spec Verif.NtpSpec Verif.NtpModel.
Import ListNotations.
Open Scope Z_scope.

Lemma st_eqb_eq : forall a b, st_eqb a b = true <-> a = b.
Proof. intros [] []; cbn; split; congruence. Qed.
Lemma id_eqb_eq : forall a b, id_eqb a b = true <-> a = b.
Proof.
  intros [[x n]|] [[y m]|]; cbn; split; try congruence.
  - intros H. apply andb_prop in H. destruct H as [A B]. apply Z.eqb_eq in A, B. congruence.
  - intros H. injection H as -> ->. rewrite !Z.eqb_refl. reflexivity.
Qed.

(** ** Deriving the state *)
Lemma scan_found : forall l i idx c, idx <> -1 -> scan i l idx c = (idx, c || hopeful l).
Proof.
  induction l as [|p l IH]; intros i idx c N; cbn [scan hopeful existsb]; [rewrite orb_false_r; reflexivity|].
  fold (hopeful l). assert (negb (idx =? -1) = true) as E by (apply negb_true_iff, Z.eqb_neq; exact N).
  destruct (p_self p); cbn [negb andb orb]; [apply IH; exact N|]. rewrite E.
  replace (if p_selected p then idx else idx) with idx by (destruct (p_selected p); reflexivity).
  rewrite IH by exact N. destruct (p_candidate p || p_shortlist p), c; reflexivity.
Qed.
Lemma scan_spec : forall l i c, 0 <= i ->
  match chosen l with
  | None => scan i l (-1) c = (-1, c || hopeful l)
  | Some p => exists j, scan i l (-1) c = (j, c || hopeful l) /\ i <= j /\ nth_error l (Z.to_nat (j - i)) = Some p
  end.
Proof.
  induction l as [|p l IH]; intros i c I; cbn [chosen find scan hopeful existsb]; [rewrite orb_false_r; reflexivity|].
  fold (hopeful l). destruct (p_self p) eqn:SF; cbn [negb andb orb].
  - specialize (IH (i + 1) c ltac:(lia)). fold (chosen l). destruct (chosen l) as [q|].
    + destruct IH as (j & E & J & N). exists j. split; [exact E|]. split; [lia|].
      replace (Z.to_nat (j - i)) with (S (Z.to_nat (j - (i + 1)))) by lia. exact N.
    + exact IH.
  - destruct (p_selected p) eqn:L; cbn [andb].
    + exists i. change (-1 =? -1) with true. cbn [negb]. rewrite scan_found by lia. split; [|split; [lia|rewrite Z.sub_diag; reflexivity]].
      destruct (p_candidate p || p_shortlist p), c; reflexivity.
    + specialize (IH (i + 1) (if p_candidate p || p_shortlist p then true else c) ltac:(lia)). fold (chosen l).
      replace ((if p_candidate p || p_shortlist p then true else c) || hopeful l) with (c || (p_candidate p || p_shortlist p || hopeful l)) in IH
        by (destruct (p_candidate p || p_shortlist p), c; reflexivity).
      destruct (chosen l) as [q|].
      * destruct IH as (j & E & J & N). exists j. split; [exact E|]. split; [lia|].
        replace (Z.to_nat (j - i)) with (S (Z.to_nat (j - (i + 1)))) by lia. exact N.
      * exact IH.
Qed.

Lemma firstn_nth : forall A (l : list A) n k x, nth_error (firstn n l) k = Some x -> nth_error l k = Some x.
Proof.
  induction l as [|a l IH]; intros [|n] [|k] x H; cbn in *; try discriminate; [exact H|]. eapply IH. exact H.
Qed.

(** The derived state for a list of peers. *)
Definition follows (s : nst) (l : list npeer) : Prop :=
  match chosen l with
  | Some p => peer_at s = Some p /\ n_idx s <> -1
  | None => True
  end.
Lemma parse_ok : forall s u score, exists s', parse s 0 u score = Some s' /\
  n_state s' = documented 0 u (firstn (n_num s) (n_arr s)) /\
  n_id s' = ident (firstn (n_num s) (n_arr s)) /\
  follows s' (firstn (n_num s) (n_arr s)) /\
  of_chosen (n_state s') (firstn (n_num s) (n_arr s)) (n_off s') (n_disp s') (n_strat s') /\
  (chosen (firstn (n_num s) (n_arr s)) = None -> n_idx s' = -1) /\
  n_must s' = n_must s /\ n_cannot s' = n_cannot s /\ n_cc s' = n_cc s /\ n_num s' = n_num s /\ n_arr s' = n_arr s /\ n_score s' = score (n_off s').
Proof.
  intros s u score. unfold parse. cbn [negb Z.eqb]. change (0 =? 0) with true. cbn [negb].
  set (l := firstn (n_num s) (n_arr s)).
  pose proof (scan_spec l 0 false ltac:(lia)) as S. unfold documented, ident, follows, of_chosen. change (0 =? 0) with true. cbv iota.
  destruct (chosen l) as [p|] eqn:C.
  - destruct S as (j & E & J & N). rewrite E. rewrite Z.sub_0_r in N. apply firstn_nth in N.
    assert (JN : (j =? -1) = false) by (apply Z.eqb_neq; lia). rewrite JN. cbn [negb andb]. rewrite N. cbn [bind].
    assert (PA : forall x, n_idx x = j -> n_arr x = n_arr s -> peer_at x = Some p).
    { intros x X Y. unfold peer_at. rewrite X, Y. replace (j <? 0) with false by (symmetry; apply Z.ltb_ge; lia). exact N. }
    destruct u; cbn [negb].
    + cbn [orb]. eexists. split; [reflexivity|]. cbn [n_state n_id n_idx n_must n_cannot n_cc n_num n_arr n_off n_disp n_strat n_score].
      split; [reflexivity|]. split; [reflexivity|]. split; [split; [apply PA; reflexivity|cbn [n_idx]; lia]|]. split; [destruct (hopeful l); repeat split|].
      split; [discriminate|]. repeat split.
    + eexists. split; [reflexivity|]. cbn [n_state n_id n_idx n_must n_cannot n_cc n_num n_arr n_off n_disp n_strat n_score].
      split; [reflexivity|]. split; [reflexivity|]. split; [split; [apply PA; reflexivity|cbn [n_idx]; lia]|]. split; [exists p; repeat split; reflexivity|].
      split; [discriminate|]. repeat split.
  - rewrite S. change (-1 =? -1) with true. cbn [negb andb bind orb]. eexists. split; [reflexivity|]. cbn [n_state n_id n_idx n_must n_cannot n_cc n_num n_arr n_off n_disp n_strat n_score].
    split; [reflexivity|]. split; [reflexivity|]. split; [exact I|]. split; [destruct (hopeful l); repeat split|]. repeat split.
Qed.
Lemma parse_fail : forall s rc u score, rc <> 0 -> exists s', parse s rc u score = Some s' /\
  n_state s' = documented rc u [] /\ n_id s' = None /\ n_idx s' = -1 /\ n_num s' = O /\ n_must s' = false /\ n_cannot s' = false /\ n_cc s' = false /\ n_arr s' = n_arr s /\
  n_off s' = n_off s /\ n_disp s' = n_disp s /\ n_strat s' = n_strat s /\ n_score s' = n_score s.
Proof.
  intros s rc u score N. unfold parse, documented. apply Z.eqb_neq in N. rewrite N. cbn [negb]. eexists. split; [reflexivity|]. repeat split.
Qed.

(** ** Module and observer *)
Definition inv (m : nm) (v : view) : Prop :=
  let s := m_st m in
  List.length (n_arr s) = 32%nat /\ (n_num s <= 32)%nat /\
  v_peers v = firstn (n_num s) (n_arr s) /\
  n_id s = ident (v_peers v) /\
  n_state s = documented (v_rc v) (v_was v) (v_peers v) /\
  m_unsafe m = v_doubt v /\
  follows s (v_peers v) /\
  (v_rc v = 0 -> of_chosen (n_state s) (v_peers v) (n_off s) (n_disp s) (n_strat s)) /\
  (v_rc v <> 0 -> v_peers v = []).

Lemma doc_slave : forall rc u l, documented rc u l = SLAVE -> rc = 0 /\ u = false /\ exists p, chosen l = Some p.
Proof.
  intros rc u l H. unfold documented in H. destruct (rc =? 0) eqn:E.
  - apply Z.eqb_eq in E. split; [exact E|]. destruct (chosen l) as [p|]; [|destruct (hopeful l); discriminate].
    destruct u; [destruct (hopeful l); discriminate|]. split; [reflexivity|]. exists p. reflexivity.
  - destruct (rc =? ENOPROTOOPT); [discriminate|]. destruct (rc =? EAGAIN); discriminate.
Qed.

(** What a query makes of the state. *)
Lemma query_state : forall m v s rc l u score, inv m v -> u = v_doubt v ->
  List.length (n_arr s) = 32%nat -> (n_num s <= 32)%nat -> (rc = 0 -> l = firstn (n_num s) (n_arr s)) -> (rc <> 0 -> l = []) ->
  exists n, parse s rc u score = Some n /\
    List.length (n_arr n) = 32%nat /\ (n_num n <= 32)%nat /\ l = firstn (n_num n) (n_arr n) /\ n_id n = ident l /\
    n_state n = documented rc u l /\ follows n l /\ (rc = 0 -> of_chosen (n_state n) l (n_off n) (n_disp n) (n_strat n)) /\
    (rc = 0 -> n_cc n = n_cc s /\ n_must n = n_must s /\ n_cannot n = n_cannot s) /\
    (rc <> 0 -> n_cc n = false /\ n_must n = false /\ n_cannot n = false /\ n_off n = n_off s /\ n_disp n = n_disp s /\ n_strat n = n_strat s) /\
    (chosen l = None -> n_idx n = -1).
Proof.
  intros m v s rc l u score I U LA LN L0 L1. destruct (Z.eq_dec rc 0) as [->|N].
  - specialize (L0 eq_refl). subst l. destruct (parse_ok s u score) as (n & P & A1 & A2 & A3 & A4 & A5 & A6 & A7 & A8 & A9 & A10 & _).
    exists n. split; [exact P|]. rewrite A10, A9. repeat (split; [solve [auto]|]). split; [intros N; congruence|exact A5].
  - specialize (L1 N). subst l. destruct (parse_fail s rc u score N) as (n & P & A1 & A2 & A3 & A4 & A5 & A6 & A7 & A8 & A9 & A10 & A11 & _).
    exists n. split; [exact P|]. rewrite A8, A4. split; [exact LA|]. split; [lia|]. split; [reflexivity|]. split; [rewrite A2; reflexivity|].
    split; [exact A1|]. split; [exact Logic.I|]. split; [intros; congruence|]. split; [intros; congruence|]. split; [intros _; auto 10|auto].
Qed.

(** Replacing clock control leaves the rest. *)
Lemma control_change_same : forall act m n ctl n2 o, control_change act m n ctl = (n2, o) ->
  n_state n2 = n_state n /\ n_id n2 = n_id n /\ n_idx n2 = n_idx n /\ n_num n2 = n_num n /\ n_arr n2 = n_arr n /\ n_off n2 = n_off n /\ n_disp n2 = n_disp n /\ n_strat n2 = n_strat n /\
  (o = [] \/ o = [Command (wants (m_flags m))]).
Proof.
  intros act m n ctl n2 o H. unfold control_change in H. unfold wants. destruct (Z.testbit (m_flags m) CLOCK_CTRL); destruct (act && _).
  1, 3: injection H as <- <-; destruct (ctl =? 0); repeat (split; [reflexivity|]); right; reflexivity.
  all: injection H as <- <-; repeat (split; [reflexivity|]); left; reflexivity.
Qed.

Lemma rt_outs : forall act m a, rt_stats act m = Some a -> a = [] \/ exists p, act = true /\ n_state (m_st m) = SLAVE /\ peer_at (m_st m) = Some p /\
  a = [Report (p_offset p) (Z.testbit (m_flags m) SELECTED && n_cc (m_st m)) (m_sync m)].
Proof.
  intros act m a H. unfold rt_stats in H. destruct (act && _) eqn:E; [|injection H as <-; auto].
  apply andb_prop in E. destruct E as [-> E]. apply st_eqb_eq in E. destruct (peer_at (m_st m)) as [p|]; cbn [bind] in H; [|discriminate]. injection H as <-. right. exists p. auto.
Qed.
Lemma cl_outs : forall m a, clustering m = Some a -> a = [] \/ exists p, peer_at (m_st m) = Some p /\
  a = [Cluster (p_offset p) (negb (Qeq_bool (p_offset p) 0) && st_eqb (n_state (m_st m)) SLAVE)].
Proof.
  intros m a H. unfold clustering in H. destruct (Z.testbit _ _); [|injection H as <-; auto].
  destruct (peer_at (m_st m)) as [p|]; cbn [bind] in H; [|discriminate]. injection H as <-. right. exists p. auto.
Qed.

(** A query as a whole. *)
Definition qrel (g : conf) (m : nm) (k : tick) (ask : out) (s : nst) (rc : Z) (q : qst) (m' : nm) (outs : list out) : Prop :=
  exists n n2 o2 o3 o4 o5 u' c b,
    parse s rc (m_unsafe m) (k_score k) = Some n /\
    (n2, o2) = (if negb (Bool.eqb (n_cc n) (n_cc (m_st m))) then control_change (g_active g) m n (k_ctl k) else (n, [])) /\
    u' = (if negb (id_eqb (n_id n2) (n_id (m_st m))) && (m_unsafe m && negb (match n_id n2 with Some _ => true | None => false end)) then false else m_unsafe m) /\
    (o3 = [] \/ exists a b, rt_stats (g_active g) m = Some a /\ clustering m = Some b /\ o3 = a ++ b) /\
    (exists a, clustering m = Some a /\ o4 = a ++ if g_active g && differs n2 (m_st m) then [Told (status_of n2)] else []) /\
    converge (mkM (m_flags m) q (m_next m) u' n2 (m_sync m) (m_conv m)) (k_conv k) = Some (mkM (m_flags m) q (m_next m) u' n2 b c) /\
    m' = mkM (m_flags m) q (m_next m) u' n2 b c /\
    history m' = Some o5 /\ outs = ask :: o2 ++ o3 ++ o4 ++ o5.

Lemma converge_shape : forall m t m', converge m t = Some m' -> exists b c, m' = mkM (m_flags m) (m_q m) (m_next m) (m_unsafe m) (m_st m) b c.
Proof.
  intros m t m' H. unfold converge in H. destruct t as [t|]; [|injection H as <-; eexists _, _; reflexivity].
  destruct (negb _); [injection H as <-; eexists _, _; reflexivity|]. destruct (negb _); [injection H as <-; eexists _, _; reflexivity|].
  destruct (n_idx _ =? -1); [discriminate|]. destruct (peer_at _); cbn [bind] in H; [|discriminate]. destruct (conv_update _ _ _) as [[c b]|]; cbn [bind] in H; [|discriminate].
  injection H as <-. eexists _, _. reflexivity.
Qed.

Lemma rt_unsafe : forall act m b, rt_stats act (set_unsafe m b) = rt_stats act m. Proof. reflexivity. Qed.
Lemma cl_unsafe : forall m b, clustering (set_unsafe m b) = clustering m. Proof. reflexivity. Qed.

Lemma timer_cases : forall g m k m' outs, on_timer g m k = Some (m', outs) ->
  (m_q m = QSys /\ qrel g m k AskSys (with_sys (m_st m) (k_sys k)) (fst (k_sys k)) QPeer m' outs) \/
  (m_q m = QPeer /\ qrel g m k AskPeers (with_peers (m_st m) (k_peers k)) (pa_rc (k_peers k)) QSleep m' outs) \/
  (m_q m = QSleep /\ outs = [] /\ exists r, subtract (m_next m) (k_now k) = Some r /\
     ((0 <= sec r /\ m' = m) \/ (sec r < 0 /\ exists s, chk_s64 (sec (m_next m) + g_interval g) = Some s /\ m' = set_q m QSys (mkTs s (nsec (m_next m)) (frac (m_next m)))))).
Proof.
  intros g m k m' outs H. unfold on_timer, machine in H.
  assert (MAIN : forall s rc ask q, (do r <- (do n <- parse s rc (m_unsafe m) (k_score k); Some (set_q m q (m_next m), Some n, [ask]));
     let '(m1, upd, o1) := r in
     match upd with
     | None => Some (m1, o1)
     | Some new =>
      let (new2, o2) := if negb (Bool.eqb (n_cc new) (n_cc (m_st m1))) then control_change (g_active g) m1 new (k_ctl k) else (new, []) in
      do x <- (if negb (id_eqb (n_id new2) (n_id (m_st m1))) then id_change (g_active g) m1 new2 else Some (m1, []));
      do o4 <- state_change (g_active g) (fst x) new2;
      do m3 <- converge (set_st (fst x) new2) (k_conv k);
      do o5 <- history m3;
      Some (m3, o1 ++ o2 ++ snd x ++ o4 ++ o5)
     end) = Some (m', outs) -> qrel g m k ask s rc q m' outs).
  { intros s rc ask q E. destruct (parse s rc (m_unsafe m) (k_score k)) as [n|] eqn:P; cbn [bind] in E; [|discriminate].
    cbn [set_q m_st] in E.
    assert (CCE : (if negb (Bool.eqb (n_cc n) (n_cc (m_st m))) then control_change (g_active g) (set_q m q (m_next m)) n (k_ctl k) else (n, [])) =
                  (if negb (Bool.eqb (n_cc n) (n_cc (m_st m))) then control_change (g_active g) m n (k_ctl k) else (n, []))) by reflexivity.
    change (mkM (m_flags m) q (m_next m) (m_unsafe m) (m_st m) (m_sync m) (m_conv m)) with (set_q m q (m_next m)) in E.
    rewrite CCE in E. clear CCE.
    destruct (if negb (Bool.eqb (n_cc n) (n_cc (m_st m))) then control_change (g_active g) m n (k_ctl k) else (n, [])) as [n2 o2] eqn:CC.
    set (u' := if negb (id_eqb (n_id n2) (n_id (m_st m))) && (m_unsafe m && negb (match n_id n2 with Some _ => true | None => false end)) then false else m_unsafe m).
    assert (X : exists o3, (o3 = [] \/ exists a b, rt_stats (g_active g) m = Some a /\ clustering m = Some b /\ o3 = a ++ b) /\
              (if negb (id_eqb (n_id n2) (n_id (m_st m))) then id_change (g_active g) (set_q m q (m_next m)) n2 else Some (set_q m q (m_next m), [])) =
              Some (mkM (m_flags m) q (m_next m) u' (m_st m) (m_sync m) (m_conv m), o3)).
    { unfold u'. destruct (negb (id_eqb (n_id n2) (n_id (m_st m)))) eqn:ID; cbn [andb].
      - unfold id_change in E |- *. cbn [set_q m_unsafe] in E |- *.
        set (m1 := if m_unsafe m && negb (match n_id n2 with Some _ => true | None => false end) then set_unsafe (mkM (m_flags m) q (m_next m) (m_unsafe m) (m_st m) (m_sync m) (m_conv m)) false else mkM (m_flags m) q (m_next m) (m_unsafe m) (m_st m) (m_sync m) (m_conv m)) in *.
        assert (R : rt_stats (g_active g) m1 = rt_stats (g_active g) m) by (unfold m1; destruct (m_unsafe m && _); reflexivity).
        assert (C : clustering m1 = clustering m) by (unfold m1; destruct (m_unsafe m && _); reflexivity).
        change (set_q m q (m_next m)) with (mkM (m_flags m) q (m_next m) (m_unsafe m) (m_st m) (m_sync m) (m_conv m)) in *. fold m1. fold m1 in E.
        rewrite R, C in *. destruct (rt_stats (g_active g) m) as [a|] eqn:RA; cbn [bind] in *; [|discriminate]. destruct (clustering m) as [b|] eqn:CB; cbn [bind] in *; [|discriminate].
        exists (a ++ b). split; [right; exists a, b; auto|]. unfold m1. destruct (m_unsafe m && _); reflexivity.
      - exists []. split; [left; reflexivity|]. reflexivity. }
    destruct X as (o3 & O3 & X). rewrite X in E. cbn [bind fst snd] in E.
    unfold state_change in E. change (clustering (mkM (m_flags m) q (m_next m) u' (m_st m) (m_sync m) (m_conv m))) with (clustering m) in E.
    destruct (clustering m) as [a|] eqn:CA; cbn [bind] in E; [|discriminate]. cbn [m_st] in E.
    destruct (converge _ (k_conv k)) as [m3|] eqn:CV; cbn [bind] in E; [|discriminate].
    destruct (history m3) as [o5|] eqn:HI; cbn [bind] in E; [|discriminate]. injection E as <- <-.
    destruct (converge_shape _ _ _ CV) as (b & c & ->). cbn [set_st m_flags m_q m_next m_unsafe m_st] in CV, HI |- *.
    exists n, n2, o2, o3, (a ++ if g_active g && differs n2 (m_st m) then [Told (status_of n2)] else []), o5, u', c, b.
    clear H. split; [exact P|]. split; [rewrite CC; reflexivity|]. split; [reflexivity|]. split; [rewrite CA; exact O3|]. split; [exists a; auto|]. split; [exact CV|].
    split; [reflexivity|]. split; [exact HI|]. cbn [app]. rewrite <- !app_assoc. reflexivity. }
  destruct (m_q m) eqn:Q.
  - left. split; [reflexivity|]. apply MAIN. exact H.
  - right. left. split; [reflexivity|]. apply MAIN. exact H.
  - right. right. split; [reflexivity|]. destruct (subtract (m_next m) (k_now k)) as [r|] eqn:S; cbn [bind] in H; [|discriminate].
    destruct (sec r <? 0) eqn:L.
    + apply Z.ltb_lt in L. destruct (chk_s64 (sec (m_next m) + g_interval g)) as [s|] eqn:C; cbn [bind] in H; [|discriminate]. injection H as <- <-.
      split; [reflexivity|]. exists r. split; [reflexivity|]. right. split; [exact L|]. exists s. auto.
    + apply Z.ltb_ge in L. cbn [bind] in H. injection H as <- <-. split; [reflexivity|]. exists r. auto.
Qed.
