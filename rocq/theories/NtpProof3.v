(** Proofs about the NTP module: flags, beliefs, commands and reports. *)
Require Import ZArith QArith List Bool Lia.
Require Import Verif.Base Verif.TimeSpec Verif.TimeModel Verif.TimeProof Verif.QLib Verif.ListLib Verif.StatsSpec Verif.StatsModel Verif.Nm6Spec Verif.NtpSpec Verif.NtpModel Verif.NtpProof Verif.NtpProof2.
Import ListNotations.
Open Scope Z_scope.

Definition inv2 (m : nm) (v : view) (f : Z) (bl : bool) : Prop :=
  inv m v /\ m_flags m = f /\ n_cc (m_st m) = bl /\
  (chosen (v_peers v) = None -> n_idx (m_st m) = -1 \/ peer_at (m_st m) = Some zero_peer).

Lemma slave_chosen : forall m v, inv m v -> n_state (m_st m) = SLAVE -> exists p, chosen (v_peers v) = Some p /\ peer_at (m_st m) = Some p.
Proof.
  intros m v (I1 & I2 & I3 & I4 & I5 & I6 & I7 & I8 & I9) S. rewrite S in I5. symmetry in I5. apply doc_slave in I5. destruct I5 as (_ & _ & p & C).
  exists p. split; [exact C|]. unfold follows in I7. rewrite C in I7. apply I7.
Qed.
Lemma rt_true : forall act m v v' f bl a, inv2 m v f bl -> rt_stats act m = Some a -> Forall (truthful act v v' f bl) a.
Proof.
  intros act m v v' f bl a (I & F & B & _) H. apply rt_outs in H. destruct H as [->|(p & A & S & P & ->)]; [constructor|].
  destruct (slave_chosen _ _ I S) as (q & C & P'). rewrite P in P'. injection P' as <-. apply Forall_cons; [|constructor].
  cbn [truthful]. split; [exact A|]. split; [destruct I as (_ & _ & _ & _ & E & _); unfold state_of; rewrite <- E; exact S|]. split; [exists p; auto|]. rewrite F, B. reflexivity.
Qed.
Lemma cl_true : forall act m v v' f bl a, inv2 m v f bl -> clustering m = Some a -> Forall (truthful act v v' f bl) a.
Proof.
  intros act m v v' f bl a (I & F & B & N) H. pose proof H as H0. apply cl_outs in H. destruct H as [->|(p & P & ->)]; [constructor|].
  apply Forall_cons; [|constructor]. cbn [truthful]. split.
  - rewrite <- F. unfold clustering in H0. destruct (Z.testbit (m_flags m) DETERMINANT); [reflexivity|discriminate].
  - pose proof I as (_ & _ & _ & _ & E & _ & FO & _). unfold follows in FO. destruct (chosen (v_peers v)) as [q|] eqn:C.
    + destruct FO as [P' _]. rewrite P in P'. injection P' as <-. split; [reflexivity|]. rewrite E. fold (state_of v). rewrite andb_true_iff, negb_true_iff. rewrite st_eqb_eq.
      split; intros [X Y]; (split; [|exact Y]).
      * intros Z. apply Qeq_bool_iff in Z. congruence.
      * destruct (Qeq_bool (p_offset p) 0) eqn:Q; [|reflexivity]. apply Qeq_bool_iff in Q. contradiction.
    + destruct (N eq_refl) as [X|X]; [unfold peer_at in P; rewrite X in P; discriminate|]. rewrite P in X. injection X as ->. split; reflexivity.
Qed.
Lemma hi_true : forall act m v v0 f bl o, inv m v -> history m = Some o -> Forall (truthful act v0 v f bl) o.
Proof.
  intros act m v v0 f bl o I H. apply history_outs in H. assert (E : n_state (m_st m) = state_of v) by apply I. destruct H as [[S ->]|(p & S & P & ->)]; (apply Forall_cons; [|constructor]); cbn [truthful].
  - rewrite <- E. exact S.
  - split; [rewrite <- E; exact S|]. destruct (slave_chosen _ _ I S) as (q & C & P'). rewrite P in P'. injection P' as <-. exists p. auto.
Qed.

Lemma commands_app : forall a b, commands (a ++ b) = commands a ++ commands b.
Proof. intros. apply flat_map_app. Qed.
Lemma rt_nocmd : forall act m a, rt_stats act m = Some a -> commands a = [].
Proof. intros act m a H. apply rt_outs in H. destruct H as [->|(p & _ & _ & _ & ->)]; reflexivity. Qed.
Lemma cl_nocmd : forall m a, clustering m = Some a -> commands a = [].
Proof. intros m a H. apply cl_outs in H. destruct H as [->|(p & _ & ->)]; reflexivity. Qed.
Lemma hi_nocmd : forall m a, history m = Some a -> commands a = [].
Proof. intros m a H. apply history_outs in H. destruct H as [[_ ->]|(p & _ & _ & ->)]; reflexivity. Qed.
Lemma obeys_cmds : forall d o l, obeys d (o, l) = fold_left (fun d b => if (match o with Tick k => k_ctl k | Control _ _ c => c | _ => 0 end) =? 0 then b else d) (commands l) d.
Proof.
  intros d o l. unfold obeys. cbn [fst snd]. generalize (match o with Tick k => k_ctl k | Control _ _ c => c | _ => 0 end). intros c. revert d.
  induction l as [|x l IH]; intros d; [reflexivity|]. cbn [commands flat_map fold_left]. destruct x; cbn [app fold_left]; rewrite IH; reflexivity.
Qed.

(** A query: clock control. *)
Lemma query_cc : forall g m k ask s rc q m' outs bl lr, qrel g m k ask s rc q m' outs ->
  n_cc (m_st m) = bl -> n_state (m_st m') = (if rc =? ENOPROTOOPT then DISABLED else n_state (m_st m')) -> (rc <> ENOPROTOOPT -> n_state (m_st m') <> DISABLED) ->
  (forall n, parse s rc (m_unsafe m) (k_score k) = Some n -> n_cc n = lr) -> existsb is_ask [ask] = true ->
  commands outs = (if negb (g_active g) then [] else if negb (Bool.eqb lr bl) && negb (rc =? ENOPROTOOPT) then [wants (m_flags m)] else []) /\
  n_cc (m_st m') = obeys lr (Tick k, outs).
Proof.
  intros g m k ask s rc q m' outs bl lr R B ST1 ST2 LR A.
  destruct R as (n & n2 & o2 & o3 & o4 & o5 & u' & c & b & P & CC & U & O3 & (a & CA & O4) & CV & M & HI & O).
  specialize (LR n P).
  assert (C345 : commands (o3 ++ o4 ++ o5) = []).
  { rewrite !commands_app, (hi_nocmd _ _ HI), O4, commands_app, (cl_nocmd _ _ CA).
    assert (X : commands o3 = []) by (destruct O3 as [->|(x & y & X & Y & ->)]; [reflexivity|rewrite commands_app, (rt_nocmd _ _ _ X), (cl_nocmd _ _ Y); reflexivity]).
    rewrite X. destruct (g_active g && _); reflexivity. }
  assert (CO : commands outs = commands o2).
  { rewrite O. change (ask :: o2 ++ o3 ++ o4 ++ o5) with ([ask] ++ (o2 ++ (o3 ++ o4 ++ o5))). rewrite (commands_app [ask]), commands_app, C345, app_nil_r. destruct ask; try discriminate A; reflexivity. }
  rewrite obeys_cmds, CO. subst m'. cbn [m_st] in *. rewrite LR, B in CC.
  assert (NS : n_state n2 = n_state n).
  { destruct (negb (Bool.eqb lr bl)); [|injection CC as -> _; reflexivity]. symmetry in CC. apply control_change_same in CC. apply CC. }
  rewrite NS in ST1, ST2.
  destruct (negb (Bool.eqb lr bl)) eqn:D.
  - unfold control_change in CC. destruct (g_active g) eqn:GA; cbn [andb negb] in CC |- *.
    + destruct (rc =? ENOPROTOOPT) eqn:RC.
      * rewrite ST1 in CC. cbn [st_eqb negb] in CC. injection CC as -> ->. cbn [negb]. split; [reflexivity|]. exact LR.
      * apply Z.eqb_neq in RC. specialize (ST2 RC). destruct (st_eqb (n_state n) DISABLED) eqn:SD; [apply st_eqb_eq in SD; contradiction|]. cbn [negb] in CC |- *.
        change (Z.testbit (m_flags m) CLOCK_CTRL) with (wants (m_flags m)) in CC.
        destruct (wants (m_flags m)), (k_ctl k =? 0); injection CC as -> ->; (split; [reflexivity|]); try reflexivity; exact LR.
    + injection CC as -> ->. split; [reflexivity|]. exact LR.
  - injection CC as -> ->. cbn [andb]. split; [destruct (negb (g_active g)); reflexivity|]. exact LR.
Qed.

Lemma doc_gone : forall rc u l, documented rc u l = DISABLED -> rc = ENOPROTOOPT.
Proof.
  intros rc u l H. unfold documented in H. destruct (rc =? 0); [destruct (chosen l); [destruct u|]; try destruct (hopeful l); discriminate|].
  destruct (rc =? ENOPROTOOPT) eqn:E; [apply Z.eqb_eq; exact E|]. destruct (rc =? EAGAIN); discriminate.
Qed.

Lemma query_true : forall g m v k ask s rc l q m' outs f bl, inv2 m v f bl -> qrel g m k ask s rc q m' outs -> inv m' (after_query v rc l) ->
  existsb is_ask [ask] = true -> m_flags m' = m_flags m /\ Forall (truthful (g_active g) v (after_query v rc l) f bl) outs.
Proof.
  intros g m v k ask s rc l q m' outs f bl I R I' A.
  destruct R as (n & n2 & o2 & o3 & o4 & o5 & u' & c & b & P & CC & U & O3 & (a & CA & O4) & CV & M & HI & O).
  split; [subst m'; reflexivity|]. subst outs. apply Forall_cons; [destruct ask; try discriminate A; exact Logic.I|].
  apply Forall_app. split; [|apply Forall_app; split; [|apply Forall_app; split]].
  - destruct (negb (Bool.eqb (n_cc n) (n_cc (m_st m)))); [|injection CC as _ ->; constructor]. unfold control_change in CC. destruct (g_active g); cbn [andb] in CC; [|injection CC as _ ->; constructor].
    destruct (negb _); injection CC as _ ->; [|constructor]. apply Forall_cons; [reflexivity|constructor].
  - destruct O3 as [->|(x & y & X & Y & ->)]; [constructor|]. apply Forall_app. split; [eapply rt_true; eauto|eapply cl_true; eauto].
  - rewrite O4. apply Forall_app. split; [eapply cl_true; eauto|]. destruct (g_active g); cbn [andb]; [|constructor]. destruct (differs n2 (m_st m)); [|constructor].
    apply Forall_cons; [|constructor]. cbn [truthful status_of s_state s_remote s_offset s_acc s_steps]. subst m'. destruct I' as (_ & _ & _ & _ & E & _ & _ & OC & _). cbn [m_st] in E, OC.
    split; [reflexivity|]. split; [exact E|]. split; [reflexivity|]. exact OC.
  - eapply hi_true; eauto.
Qed.

Lemma lxor_ctrl : forall a b, Z.testbit (Z.lxor a b) CLOCK_CTRL = negb (Bool.eqb (wants a) (wants b)).
Proof. intros. rewrite Z.lxor_spec. unfold wants. destruct (Z.testbit a CLOCK_CTRL), (Z.testbit b CLOCK_CTRL); reflexivity. Qed.

Lemma follows_none : forall g m v k ask s rc l q m' outs, inv m v -> qrel g m k ask s rc q m' outs ->
  List.length (n_arr s) = 32%nat -> (n_num s <= 32)%nat -> (rc = 0 -> l = firstn (n_num s) (n_arr s)) -> (rc <> 0 -> l = []) ->
  (chosen l = None -> n_idx (m_st m') = -1).
Proof.
  intros g m v k ask s rc l q m' outs I R LA LN L0 L1 C.
  destruct R as (n & n2 & o2 & o3 & o4 & o5 & u' & c & b & P & CC & U & O3 & (a & CA & O4) & CV & M & HI & O).
  pose proof I as (_ & _ & _ & _ & _ & I6 & _).
  destruct (query_state m v s rc l (m_unsafe m) (k_score k) I I6 LA LN L0 L1) as (n' & P' & _ & _ & _ & _ & _ & _ & _ & _ & _ & B).
  rewrite P in P'. injection P' as <-. subst m'. cbn [m_st]. rewrite <- (B C).
  destruct (negb (Bool.eqb (n_cc n) (n_cc (m_st m)))); [|injection CC as -> _; reflexivity]. symmetry in CC. apply control_change_same in CC. apply CC.
Qed.

(** Everything together, for one step. *)
Lemma step_all : forall g m v f bl o m' outs, inv2 m v f bl -> op_ok o -> step g m o = Some (m', outs) ->
  inv2 m' (see v (o, outs)) (flags_after (g_active g) f [(o, outs)]) (belief bl (o, outs)) /\
  Forall (truthful (g_active g) v (see v (o, outs)) f bl) outs /\ commands outs = expects (g_active g) f bl (o, outs).
Proof.
  intros g m v f bl o m' outs I2 OK E. pose proof I2 as (I & F & B & N). pose proof (inv_step g m v o m' outs I OK E) as I'.
  destruct o as [k|mask flags ctl| | | | |]; cbn [step] in E.
  - destruct OK as (AO & _ & _). destruct AO as [AL AN]. pose proof I as (J1 & J2 & J3 & J4 & J5 & J6 & J7 & J8 & J9).
    cbn [flags_after fold_left fst]. unfold expects, belief, learned, gone. cbn [fst snd].
    destruct (timer_cases g m k m' outs E) as [[Q R]|[[Q R]|(Q & O & r & S & C)]].
    + destruct (qrel_asks _ _ _ _ _ _ _ _ _ R) as (r & EO & NA). assert (AS : asks_sys outs = true) by (rewrite EO; reflexivity).
      unfold see in I' |- *. cbn [fst snd] in I' |- *. rewrite AS in *.
      destruct (query_true _ _ _ _ _ _ _ _ _ _ _ _ _ I2 R I' eq_refl) as [FL TR].
      assert (NS : n_state (m_st m') = documented (fst (k_sys k)) (v_doubt v) (if fst (k_sys k) =? 0 then v_peers v else [])) by apply I'.
      assert (N2 : chosen (if fst (k_sys k) =? 0 then v_peers v else []) = None -> n_idx (m_st m') = -1).
      { eapply follows_none; [exact I|exact R|exact J1|exact J2| |].
        - intros ->. exact J3.
        - intros X. apply Z.eqb_neq in X. rewrite X. reflexivity. }
      destruct (query_cc g m k AskSys _ _ _ _ _ bl (if fst (k_sys k) =? 0 then match snd (k_sys k) with Some x => x | None => bl end else false) R B) as (C1 & C2); [| | |reflexivity|].
      * destruct (fst (k_sys k) =? ENOPROTOOPT) eqn:X; [|reflexivity]. rewrite NS. apply Z.eqb_eq in X. rewrite X. reflexivity.
      * intros X Y. rewrite NS in Y. apply doc_gone in Y. contradiction.
      * intros n P. destruct (query_state m v (with_sys (m_st m) (k_sys k)) (fst (k_sys k)) (if fst (k_sys k) =? 0 then v_peers v else []) (m_unsafe m) (k_score k) I J6 J1 J2) as (n' & P' & _ & _ & _ & _ & _ & _ & _ & K1 & K2 & _);
          [| |rewrite P in P'; injection P' as <-].
        -- intros ->. exact J3.
        -- intros X. apply Z.eqb_neq in X. rewrite X. reflexivity.
        -- destruct (fst (k_sys k) =? 0) eqn:X.
           ++ apply Z.eqb_eq in X. destruct (K1 X) as (Y & _). rewrite Y. cbn [with_sys n_cc]. rewrite B. reflexivity.
           ++ apply Z.eqb_neq in X. apply K2; exact X.
      * split; [|split; [exact TR|rewrite <- F; exact C1]]. split; [exact I'|]. split; [rewrite FL; exact F|]. split; [exact C2|]. intros X. left. apply N2. exact X.
    + destruct (qrel_asks _ _ _ _ _ _ _ _ _ R) as (r & EO & NA). destruct (no_asks r NA) as [NS0 NP].
      assert (AS : asks_sys outs = false) by (rewrite EO; exact NS0). assert (AP : asks_peers outs = true) by (rewrite EO; reflexivity).
      unfold see in I' |- *. cbn [fst snd] in I' |- *. rewrite AS, AP in *.
      destruct (query_true _ _ _ _ _ _ _ _ _ _ _ _ _ I2 R I' eq_refl) as [FL TR].
      assert (NS : n_state (m_st m') = documented (pa_rc (k_peers k)) (v_doubt v) (listed_peers (k_peers k))) by apply I'.
      assert (L0 : pa_rc (k_peers k) = 0 -> listed_peers (k_peers k) = firstn (pa_num (k_peers k)) (pa_arr (k_peers k))) by (intros Z0; unfold listed_peers; rewrite Z0; reflexivity).
      assert (L1 : pa_rc (k_peers k) <> 0 -> listed_peers (k_peers k) = []) by (intros Z0; unfold listed_peers; apply Z.eqb_neq in Z0; rewrite Z0; reflexivity).
      assert (N2 : chosen (listed_peers (k_peers k)) = None -> n_idx (m_st m') = -1) by (eapply follows_none; [exact I|exact R|exact AL|exact AN|exact L0|exact L1]).
      destruct (query_cc g m k AskPeers _ _ _ _ _ bl (if pa_rc (k_peers k) =? 0 then bl else false) R B) as (C1 & C2); [| | |reflexivity|].
      * destruct (pa_rc (k_peers k) =? ENOPROTOOPT) eqn:X; [|reflexivity]. rewrite NS. apply Z.eqb_eq in X. rewrite X. reflexivity.
      * intros X Y. rewrite NS in Y. apply doc_gone in Y. contradiction.
      * intros n P. destruct (query_state m v (with_peers (m_st m) (k_peers k)) (pa_rc (k_peers k)) (listed_peers (k_peers k)) (m_unsafe m) (k_score k) I J6 AL AN L0 L1) as (n' & P' & _ & _ & _ & _ & _ & _ & _ & K1 & K2 & _).
        assert (XX : parse (with_peers (m_st m) (k_peers k)) (pa_rc (k_peers k)) (m_unsafe m) (k_score k) = Some n) by exact P.
        rewrite P in P'; injection P' as <-.
        destruct (pa_rc (k_peers k) =? 0) eqn:X.
        -- apply Z.eqb_eq in X. destruct (K1 X) as (Y & _). rewrite Y. exact B.
        -- apply Z.eqb_neq in X. apply K2; exact X.
      * split; [|split; [exact TR|rewrite <- F; exact C1]]. split; [exact I'|]. split; [rewrite FL; exact F|]. split; [exact C2|]. intros X. left. apply N2. exact X.
    + subst outs. cbn [asks_sys asks_peers existsb see fst snd] in *. rewrite eqb_reflx. cbn [negb andb]. split; [|split; [constructor|destruct (negb (g_active g)); reflexivity]].
      destruct C as [[_ ->]|[_ (s & _ & ->)]]; (split; [exact I'|split; [exact F|split; [exact B|exact N]]]).
  - injection E as E. unfold see in *. cbn [fst] in I' |- *. unfold belief, learned, expects. cbn [fst flags_after fold_left]. rewrite obeys_cmds.
    unfold on_control in E. destruct (g_active g) eqn:GA; cbn [negb] in E |- *.
    2:{ injection E as <- <-. split; [split; [exact I|split; [exact F|split; [exact B|exact N]]]|]. split; [constructor|reflexivity]. }
    cbv zeta in E. rewrite lxor_ctrl in E. fold (new_flags (m_flags m) mask flags) in E. rewrite F in E.
    destruct (Bool.eqb (wants (new_flags f mask flags)) (wants f)) eqn:W; cbn [negb] in E.
    + injection E as <- <-. split; [split; [exact I'|split; [reflexivity|split; [exact B|exact N]]]|]. split; [constructor|reflexivity].
    + change (Z.testbit (new_flags f mask flags) CLOCK_CTRL) with (wants (new_flags f mask flags)) in E.
      assert (X : exists s', m' = set_flags m (new_flags f mask flags) s' /\ outs = [Command (wants (new_flags f mask flags))] /\ n_idx s' = n_idx (m_st m) /\ n_arr s' = n_arr (m_st m) /\
                  n_cc s' = if ctl =? 0 then wants (new_flags f mask flags) else n_cc (m_st m)).
      { destruct (wants (new_flags f mask flags)); (destruct (ctl =? 0); [|destruct (negb _)]); injection E as <- <-; eexists; (split; [reflexivity|]); repeat split; reflexivity. }
      destruct X as (s' & -> & -> & X1 & X2 & X3). split.
      * split; [exact I'|]. split; [reflexivity|]. cbn [commands flat_map app fold_left set_flags m_st]. split; [rewrite X3, B; reflexivity|].
        intros X. unfold peer_at. rewrite X1, X2. exact (N X).
      * split; [apply Forall_cons; [reflexivity|constructor]|reflexivity].
  - injection E as <- <-. split; [split; [exact I'|split; [exact F|split; [exact B|exact N]]]|]. split; [constructor|]. unfold expects. cbn. destruct (negb (g_active g)); reflexivity.
  - destruct (rt_stats (g_active g) m) as [a|] eqn:RT; cbn [bind] in E; [|discriminate]. destruct (clustering m) as [b|] eqn:CL; cbn [bind] in E; [|discriminate]. injection E as <- <-.
    assert (CM : commands (a ++ b) = []) by (rewrite commands_app, (rt_nocmd _ _ _ RT), (cl_nocmd _ _ CL); reflexivity).
    split; [|split; [apply Forall_app; split; [eapply rt_true; eauto|eapply cl_true; eauto]|rewrite CM; unfold expects; cbn; destruct (negb (g_active g)); reflexivity]].
    unfold belief, learned. cbn [fst]. rewrite obeys_cmds, CM. exact I2.
  - unfold on_save in E. destruct (if st_eqb (n_state (m_st m)) SLAVE then _ else _) as [d|] eqn:D; cbn [bind] in E; [|discriminate]. injection E as <- <-.
    split; [exact I2|]. split; [|unfold expects; cbn; destruct (negb (g_active g)); reflexivity]. apply Forall_cons; [|constructor]. cbn [truthful].
    pose proof I as (J1 & J2 & J3 & J4 & J5 & J6 & J7 & J8 & J9). unfold state_of. rewrite <- J5, J3. split; [reflexivity|]. split; [exact F|].
    split; [rewrite firstn_length; lia|]. split; [reflexivity|]. destruct (st_eqb (n_state (m_st m)) SLAVE) eqn:SL.
    + apply st_eqb_eq in SL. destruct (peer_at (m_st m)) as [p|] eqn:P; cbn [bind] in D; [|discriminate]. injection D as <-. split; [exact SL|].
      destruct (slave_chosen _ _ I SL) as (q & C & P'). rewrite P in P'. injection P' as <-. exists p. rewrite <- J3. auto.
    + injection D as <-. intros X. rewrite X in SL. discriminate.
  - unfold on_topology in E. destruct (negb (Z.testbit (m_flags m) SELECTED)) eqn:SE; cbn [bind] in E; [discriminate|]. destruct (peer_at (m_st m)) as [p|] eqn:P; cbn [bind] in E; [|discriminate]. injection E as <- <-.
    split; [exact I2|]. split; [|unfold expects; cbn; destruct (negb (g_active g)); reflexivity]. apply Forall_cons; [|constructor]. cbn [truthful].
    pose proof I as (J1 & J2 & J3 & J4 & J5 & J6 & J7 & J8 & J9). unfold state_of. rewrite <- J5. split; [reflexivity|]. apply negb_false_iff in SE. split; [rewrite <- F; exact SE|].
    destruct (st_eqb (n_state (m_st m)) SLAVE) eqn:SL.
    + apply st_eqb_eq in SL. split; [exact SL|]. destruct (slave_chosen _ _ I SL) as (q & C & P'). rewrite P in P'. injection P' as <-. exists p. auto.
    + intros X. rewrite X in SL. discriminate.
  - injection E as <- <-. split; [exact I2|]. split; [|unfold expects; cbn; destruct (negb (g_active g)); reflexivity]. apply Forall_cons; [|constructor]. cbn [truthful reply_of s_state s_remote s_acc s_steps s_offset].
    pose proof I as (J1 & J2 & J3 & J4 & J5 & J6 & J7 & J8 & J9). split; [exact J5|]. split; [reflexivity|]. split.
    + intros X. destruct (st_eqb (n_state (m_st m)) SLAVE) eqn:SL; [apply st_eqb_eq in SL; contradiction|]. auto.
    + intros X. specialize (J8 X). destruct (n_state (m_st m)); try exact J8; cbn [st_eqb of_chosen] in *; destruct J8 as (Y & _); auto.
Qed.
