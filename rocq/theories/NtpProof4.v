(** Proofs about the NTP module: whole histories. *)
Require Import ZArith QArith List Bool Lia.
Require Import Verif.Base Verif.TimeSpec Verif.TimeModel Verif.TimeProof Verif.QLib Verif.ListLib Verif.StatsSpec Verif.StatsModel Verif.Nm6Spec Verif.NtpSpec Verif.NtpModel Verif.NtpProof Verif.NtpProof2 Verif.NtpProof3.
Import ListNotations.
Open Scope Z_scope.

Lemma run_split : forall g l m m' log p e q, run g m l = Some (m', log) -> log = p ++ e :: q ->
  exists l1 l2 m1 m2, l = l1 ++ fst e :: l2 /\ run g m l1 = Some (m1, p) /\ step g m1 (fst e) = Some (m2, snd e) /\ run g m2 l2 = Some (m', q).
Proof.
  induction l as [|o l IH]; intros m m' log p e q R E; [cbn in R; injection R as _ <-; destruct p; discriminate|].
  destruct (run_cons _ _ _ _ _ _ R) as (m1 & outs & log' & S & R' & ->). destruct p as [|x p].
  - injection E as <- <-. exists [], l, m, m1. auto.
  - injection E as <- E. destruct (IH _ _ _ _ _ _ R' E) as (l1 & l2 & m3 & m4 & -> & A & B & C). exists (o :: l1), l2, m3, m4. split; [reflexivity|].
    cbn [run]. rewrite S. cbn [bind fst snd]. rewrite A. auto.
Qed.
Lemma run_app : forall g l1 l2 m m' log, run g m (l1 ++ l2) = Some (m', log) ->
  exists m1 p q, run g m l1 = Some (m1, p) /\ run g m1 l2 = Some (m', q) /\ log = p ++ q.
Proof.
  induction l1 as [|o l1 IH]; intros l2 m m' log R; [exists m, [], log; auto|].
  cbn [app] in R. destruct (run_cons _ _ _ _ _ _ R) as (m1 & outs & log' & S & R' & ->). destruct (IH _ _ _ _ R') as (m2 & p & q & A & B & ->).
  exists m2, ((o, outs) :: p), q. split; [cbn [run]; rewrite S; cbn [bind fst snd]; rewrite A; reflexivity|]. auto.
Qed.
Lemma inv2_run : forall g l m v f bl m' log, inv2 m v f bl -> Forall op_ok l -> run g m l = Some (m', log) ->
  inv2 m' (seen v log) (flags_after (g_active g) f log) (belief_after bl log).
Proof.
  induction l as [|o l IH]; intros m v f bl m' log I F R; [cbn in R; injection R as <- <-; exact I|].
  inversion F as [|? ? FO FL]; subst. destruct (run_cons _ _ _ _ _ _ R) as (m1 & outs & log' & S & R' & ->). unfold seen, flags_after, belief_after. cbn [fold_left].
  destruct (step_all _ _ _ _ _ _ _ _ I FO S) as (I' & _). exact (IH _ _ _ _ _ _ I' FL R').
Qed.
Lemma configure_cc : forall g b s o, boot_ok b -> configure g b = Some (inr (s, o)) ->
  n_cc s = first_belief g b /\ (chosen (v_peers (first_view b)) = None -> n_idx s = -1 \/ peer_at s = Some zero_peer).
Proof.
  intros g b s o [AL AN] H. unfold configure in H. unfold first_view, first_belief.
  destruct (g_active g && negb (g_key g) && negb (g_ignore g)); [discriminate|]. destruct (g_timesyncd g); [discriminate|].
  destruct (b_create b =? ENOPROTOOPT) eqn:EP; [injection H as <- _; split; [reflexivity|right; reflexivity]|].
  destruct (negb (b_create b =? 0)); [discriminate|]. cbv zeta in H.
  assert (PF : forall x rc u sc n, parse x rc u sc = Some n -> rc <> 0 -> n_cc n = false /\ n_idx n = -1).
  { intros x rc u sc n P N. apply Z.eqb_neq in N. unfold parse in P. rewrite N in P. injection P as <-. auto. }
  assert (PO : forall x u sc n, parse x 0 u sc = Some n -> n_cc n = n_cc x /\ (chosen (firstn (n_num x) (n_arr x)) = None -> n_idx n = -1)).
  { intros x u sc n P. destruct (parse_ok x u sc) as (n' & P' & A1 & A2 & A3 & A4 & A5 & A6 & A7 & A8 & A9 & A10 & _). rewrite P in P'. injection P' as <-. auto. }
  destruct (fst (b_sys b) =? 0) eqn:SY; cbn [negb] in H.
  - destruct (pa_rc (b_peers b) =? 0) eqn:PR; cbn [negb] in H; [|discriminate]. cbn [v_peers].
    set (s2 := with_peers (with_sys (with_cc zero_state false false true) (b_sys b)) (b_peers b)) in *.
    change (n_cc s2) with (match snd (b_sys b) with Some x => x | None => true end) in H.
    set (x := match snd (b_sys b) with Some x => x | None => true end) in *.
    destruct (if g_active g && x then _ else _) as [[s3 o3]|] eqn:R; [|discriminate].
    assert (S3 : n_arr s3 = pa_arr (b_peers b) /\ n_num s3 = pa_num (b_peers b) /\ n_cc s3 = if g_active g && x && (b_ctl b =? 0) then false else x).
    { destruct (g_active g && x) eqn:AX; [|injection R as <- _; auto]. apply andb_prop in AX. destruct AX as [_ X]. cbn [andb].
      destruct (b_ctl b =? 0); cbn [negb] in R; [injection R as <- _; auto|]. destruct (g_ignore g); [|discriminate]. injection R as <- _. auto. }
    destruct S3 as (S31 & S32 & S33).
    destruct (negb (g_active g) && n_cc s3 && g_writable g && negb (g_ignore g)); [discriminate|].
    destruct (parse _ 0 false (b_score b)) as [n|] eqn:P; cbn [bind] in H; [|discriminate]. injection H as <- _. destruct (PO _ _ _ _ P) as [C D].
    unfold listed_peers. rewrite PR. destruct (negb (g_active g) && n_cc s3 && g_writable g); cbn [with_cc n_cc n_num n_arr] in C, D; rewrite C, S33; rewrite S31, S32 in D; auto.
  - apply Z.eqb_neq in SY. destruct (parse _ (fst (b_sys b)) false (b_score b)) as [n|] eqn:P; cbn [bind] in H; [|discriminate]. injection H as <- _. destruct (PF _ _ _ _ _ P SY). auto.
Qed.
Lemma start_inv2 : forall g b now l m o log, boot_ok b -> live g b now l = Some (inr (m, o, log)) ->
  exists m1, inv2 m1 (first_view b) 2 (first_belief g b) /\ run g m1 l = Some (m, log) /\ m_q m1 = QSys /\ m_next m1 = now /\ m_sync m1 = false /\ conv_init (g_min g) (g_max g) = Some (m_conv m1) /\
    exists o1 o2, o = o1 ++ o2 /\ configure g b = Some (inr (m_st m1, o1)) /\ on_run g (mkM 2 QSys (mkTs 0 0 0) false (m_st m1) false (m_conv m1)) now = Some (m1, o2).
Proof.
  intros g b now l m o log BO H. destruct (live_split _ _ _ _ _ _ _ H) as (s & o1 & cv & m1 & o2 & C & CV & R & RR & EO).
  pose proof R as R0. destruct (on_run_state _ _ _ _ _ _ R) as (-> & _). exists (mkM 2 QSys now false s false cv). destruct (configure_cc _ _ _ _ BO C) as [X Y].
  split; [split; [eapply configure_inv; eauto|auto]|]. cbn. repeat (split; [solve [auto]|]). exists o1, o2. auto.
Qed.
(** Every event of every history. *)
Lemma events : forall g b now l m o log p e q, boot_ok b -> Forall op_ok l -> live g b now l = Some (inr (m, o, log)) -> log = p ++ e :: q ->
  exists m1 m2 l1 l2, l = l1 ++ fst e :: l2 /\ inv2 m1 (seen (first_view b) p) (flags_after (g_active g) 2 p) (belief_after (first_belief g b) p) /\
    step g m1 (fst e) = Some (m2, snd e) /\ op_ok (fst e) /\
    inv2 m2 (seen (first_view b) (p ++ [e])) (flags_after (g_active g) 2 (p ++ [e])) (belief_after (first_belief g b) (p ++ [e])) /\
    Forall (truthful (g_active g) (seen (first_view b) p) (seen (first_view b) (p ++ [e])) (flags_after (g_active g) 2 p) (belief_after (first_belief g b) p)) (snd e) /\
    commands (snd e) = expects (g_active g) (flags_after (g_active g) 2 p) (belief_after (first_belief g b) p) e /\ run g m2 l2 = Some (m, q).
Proof.
  intros g b now l m o log p e q BO F H E. destruct (start_inv2 _ _ _ _ _ _ _ BO H) as (m0 & I0 & R & _).
  destruct (run_split _ _ _ _ _ _ _ _ R E) as (l1 & l2 & m1 & m2 & -> & R1 & S & R2). exists m1, m2, l1, l2. split; [reflexivity|].
  apply Forall_app in F. destruct F as [F1 F2]. inversion F2 as [|? ? FO FL]; subst. pose proof (inv2_run _ _ _ _ _ _ _ _ I0 F1 R1) as I1. split; [exact I1|]. split; [exact S|]. split; [exact FO|].
  destruct (step_all _ _ _ _ _ _ _ _ I1 FO S) as (A & B & C). rewrite <- surjective_pairing in A, B, C.
  unfold seen, flags_after, belief_after in *. rewrite !fold_left_app. cbn [fold_left] in *. auto.
Qed.

(** ** What the engine was told *)
Definition agree (s : status) (n : nst) : Prop :=
  s_state s = n_state n /\ (s_offset s == n_off n)%Q /\ (match s_acc s, n_disp n with Some x, Some y => (x == y)%Q | None, None => True | _, _ => False end) /\
  s_steps s = n_strat n /\ s_remote s = st_eqb (n_state n) SLAVE.
Lemma agree_refl : forall n, agree (status_of n) n.
Proof. intros n. unfold agree, status_of. cbn. split; [reflexivity|]. split; [reflexivity|]. split; [destruct (n_disp n); [reflexivity|exact Logic.I]|]. auto. Qed.
Lemma told_app : forall d a b, told d (a ++ b) = told (told d a) b. Proof. intros. apply fold_left_app. Qed.
Lemma told_none : forall l d, (forall s, ~ In (Told s) l) -> told d l = d.
Proof.
  induction l as [|o l IH]; intros d H; [reflexivity|]. unfold told in *. cbn [fold_left]. rewrite IH; [|intros s X; apply (H s); right; exact X].
  destruct o; try reflexivity. exfalso. apply (H s). left. reflexivity.
Qed.
Lemma differs_not : forall a b, differs a b = false -> n_state a = n_state b /\ n_must a = n_must b /\ n_cannot a = n_cannot b /\ (n_off a == n_off b)%Q /\ opt_eqb (n_disp a) (n_disp b) = true /\ n_strat a = n_strat b.
Proof.
  intros a b H. unfold differs in H. repeat (apply orb_false_iff in H; destruct H as [H ?]). repeat match goal with X : negb _ = false |- _ => apply negb_false_iff in X end.
  apply st_eqb_eq in H. apply Z.eqb_eq in H0. apply Qeq_bool_iff in H2. apply eqb_prop in H3, H4. auto 10.
Qed.
Lemma no_told_cmd : forall (o2 : list out) w s, o2 = [] \/ o2 = [Command w] -> ~ In (Told s) o2.
Proof. intros o2 w s [->| ->] X; [exact X|]. destruct X as [X|[]]. discriminate. Qed.
Lemma tick_told : forall g m k ask s rc q m' outs d, g_active g = true -> qrel g m k ask s rc q m' outs -> existsb is_ask [ask] = true ->
  told d outs = if differs (m_st m') (m_st m) then Some (status_of (m_st m')) else d.
Proof.
  intros g m k ask s rc q m' outs d GA R A.
  destruct R as (n & n2 & o2 & o3 & o4 & o5 & u' & c & b & P & CC & U & O3 & (a & CA & O4) & CV & M & HI & O).
  assert (T2 : forall x, ~ In (Told x) o2).
  { intros x. destruct (negb (Bool.eqb (n_cc n) (n_cc (m_st m)))); [|injection CC as _ ->; intros []]. symmetry in CC. apply control_change_same in CC.
    destruct CC as (_ & _ & _ & _ & _ & _ & _ & _ & CC). exact (no_told_cmd _ _ x CC). }
  assert (RT : forall x y, rt_stats (g_active g) m = Some x -> ~ In (Told y) x).
  { intros x y X. apply rt_outs in X. destruct X as [->|(p & _ & _ & _ & ->)]; cbn; intros Z; intuition discriminate. }
  assert (CL : forall x y, clustering m = Some x -> ~ In (Told y) x).
  { intros x y X. apply cl_outs in X. destruct X as [->|(p & _ & ->)]; cbn; intros Z; intuition discriminate. }
  assert (T3 : forall x, ~ In (Told x) o3).
  { intros z. destruct O3 as [->|(x & y & X & Y & ->)]; [intros []|]. intros Z. apply in_app_or in Z. destruct Z as [Z|Z]; [exact (RT x z X Z)|exact (CL y z Y Z)]. }
  assert (T5 : forall x, ~ In (Told x) o5).
  { intros x. apply history_outs in HI. destruct HI as [[_ ->]|(p & _ & _ & ->)]; intros [Z|[]]; discriminate. }
  subst outs. change (ask :: o2 ++ o3 ++ o4 ++ o5) with ([ask] ++ o2 ++ o3 ++ o4 ++ o5). rewrite !told_app.
  rewrite (told_none [ask]); [|intros x [X|[]]; subst ask; discriminate]. rewrite (told_none o2), (told_none o3), (told_none o5); auto.
  rewrite O4, told_app, (told_none a); [|intros x; exact (CL a x CA)]. subst m'. cbn [m_st]. rewrite GA. cbn [andb]. destruct (differs n2 (m_st m)); reflexivity.
Qed.
Lemma quiet_wants : forall f mask flags, Z.testbit mask CLOCK_CTRL = false -> wants (new_flags f mask flags) = wants f.
Proof. intros f mask flags H. unfold wants, new_flags. rewrite Z.lor_spec, Z.ldiff_spec, Z.land_spec, H. cbn. rewrite andb_true_r, andb_false_r, orb_false_r. reflexivity. Qed.
Lemma step_told : forall g m o m' outs t, g_active g = true -> step g m o = Some (m', outs) -> agree t (m_st m) ->
  exists t', told (Some t) outs = Some t' /\ agree t' (m_st m') /\
    (quiet o -> s_must t = n_must (m_st m) /\ s_cannot t = n_cannot (m_st m) -> s_must t' = n_must (m_st m') /\ s_cannot t' = n_cannot (m_st m')).
Proof.
  intros g m o m' outs t GA E AG. destruct o as [k|mask flags ctl| | | | |]; cbn [step] in E.
  - assert (Q : forall ask s rc q, qrel g m k ask s rc q m' outs -> existsb is_ask [ask] = true -> exists t', told (Some t) outs = Some t' /\ agree t' (m_st m') /\
      (quiet (Tick k) -> s_must t = n_must (m_st m) /\ s_cannot t = n_cannot (m_st m) -> s_must t' = n_must (m_st m') /\ s_cannot t' = n_cannot (m_st m'))).
    { intros ask s rc q R A. rewrite (tick_told _ _ _ _ _ _ _ _ _ (Some t) GA R A). destruct (differs (m_st m') (m_st m)) eqn:D.
      - eexists. split; [reflexivity|]. split; [apply agree_refl|]. intros _ _. split; reflexivity.
      - exists t. split; [reflexivity|]. apply differs_not in D. destruct D as (D1 & D2 & D3 & D4 & D5 & D6). destruct AG as (A1 & A2 & A3 & A4 & A5). split.
        + unfold agree. rewrite D1, D6, D4. split; [exact A1|]. split; [exact A2|]. split; [|auto].
          destruct (s_acc t), (n_disp (m_st m)), (n_disp (m_st m')); cbn [opt_eqb] in D5; try discriminate; try contradiction; auto. apply Qeq_bool_iff in D5. rewrite D5. exact A3.
        + intros _ [X Y]. rewrite D2, D3. auto. }
    destruct (timer_cases g m k m' outs E) as [[_ R]|[[_ R]|(_ & -> & r & S & C)]]; [exact (Q _ _ _ _ R eq_refl)|exact (Q _ _ _ _ R eq_refl)|].
    exists t. split; [reflexivity|]. destruct C as [[_ ->]|[_ (s & _ & ->)]]; (split; [exact AG|auto]).
  - injection E as E. unfold on_control in E. rewrite GA in E. cbn [negb] in E. cbv zeta in E. rewrite lxor_ctrl in E. fold (new_flags (m_flags m) mask flags) in E.
    change (Z.testbit (new_flags (m_flags m) mask flags) CLOCK_CTRL) with (wants (new_flags (m_flags m) mask flags)) in E.
    exists t. destruct (Bool.eqb (wants (new_flags (m_flags m) mask flags)) (wants (m_flags m))) eqn:W; cbn [negb] in E.
    + injection E as <- <-. split; [reflexivity|]. split; [exact AG|auto].
    + split; [|split].
      * apply (f_equal snd) in E. cbn [snd] in E. subst outs. reflexivity.
      * apply (f_equal fst) in E. cbn [fst] in E. subst m'. destruct (ctl =? 0); [|destruct (negb _); [destruct (wants (new_flags _ _ _))|]]; exact AG.
      * intros Q. cbn [quiet] in Q. rewrite (quiet_wants (m_flags m) mask flags Q), eqb_reflx in W. discriminate.
  - injection E as <- <-. exists t. auto.
  - destruct (rt_stats (g_active g) m) as [a|] eqn:RT; cbn [bind] in E; [|discriminate]. destruct (clustering m) as [b|] eqn:CL; cbn [bind] in E; [|discriminate]. injection E as <- <-.
    exists t. split; [|auto]. apply told_none. intros s X. apply rt_outs in RT. apply cl_outs in CL.
    destruct RT as [->|(p & _ & _ & _ & ->)], CL as [->|(p' & _ & ->)]; cbn in X; intuition discriminate.
  - destruct (on_save m) as [a|] eqn:SV; cbn [bind] in E; [|discriminate]. injection E as <- <-. exists t. split; [|auto]. unfold on_save in SV. cbv zeta in SV.
    match type of SV with (do d <- ?X; _) = _ => destruct X end; cbn [bind] in SV; [|discriminate]. injection SV as <-. reflexivity.
  - destruct (on_topology m) as [a|] eqn:TP; cbn [bind] in E; [|discriminate]. injection E as <- <-. exists t. split; [|auto]. unfold on_topology in TP.
    destruct (negb _); [discriminate|]. destruct (peer_at _); cbn [bind] in TP; [|discriminate]. injection TP as <-. reflexivity.
  - injection E as <- <-. exists t. auto.
Qed.
Lemma run_told : forall g l m m' log t, g_active g = true -> run g m l = Some (m', log) -> agree t (m_st m) ->
  exists t', told (Some t) (concat (map snd log)) = Some t' /\ agree t' (m_st m') /\
    (Forall quiet l -> s_must t = n_must (m_st m) /\ s_cannot t = n_cannot (m_st m) -> s_must t' = n_must (m_st m') /\ s_cannot t' = n_cannot (m_st m')).
Proof.
  induction l as [|o l IH]; intros m m' log t GA R AG; [cbn in R; injection R as <- <-; exists t; auto|].
  destruct (run_cons _ _ _ _ _ _ R) as (m1 & outs & log' & S & R' & ->). cbn [map snd concat]. rewrite told_app.
  destruct (step_told _ _ _ _ _ _ GA S AG) as (t1 & T1 & A1 & Q1). rewrite T1. destruct (IH _ _ _ _ GA R' A1) as (t' & T' & A' & Q'). exists t'. split; [exact T'|]. split; [exact A'|].
  intros F C. inversion F; subst. auto.
Qed.
Lemma live_told : forall g b now l m o log, boot_ok b -> g_active g = true -> live g b now l = Some (inr (m, o, log)) ->
  exists t, told None (o ++ concat (map snd log)) = Some t /\ agree t (m_st m) /\ (Forall quiet l -> s_must t = n_must (m_st m) /\ s_cannot t = n_cannot (m_st m)).
Proof.
  intros g b now l m o log BO GA H. destruct (start_inv2 _ _ _ _ _ _ _ BO H) as (m1 & I & R & _ & _ & _ & _ & o1 & o2 & EO & _ & OR).
  destruct (on_run_state _ _ _ _ _ _ OR) as (_ & T & _). destruct (T GA) as (a & h & E2 & _ & _).
  assert (HT : told None (o) = Some (status_of (m_st m1)) ).
  { rewrite EO, E2, !told_app. change (told (Some (status_of (m_st m1))) h = Some (status_of (m_st m1))).
    assert (HH : forall s, ~ In (Told s) h).
    { assert (E := on_run_state _ _ _ _ _ _ OR). clear E. intros s X.
      unfold on_run in OR. rewrite GA in OR. cbv zeta in OR. destruct (id_change true _ _) as [x|] eqn:IC; cbn [bind] in OR; [|discriminate].
      destruct (history (fst x)) as [h'|] eqn:HI; cbn [bind] in OR; [|discriminate]. injection OR as _ OR. rewrite E2 in OR.
      assert (IN : In (Told s) (snd x ++ Told (status_of (m_st m1)) :: h') -> True) by auto. clear IN.
      assert (AX : forall z, ~ In (Told z) (snd x)).
      { intros z Z. unfold id_change in IC. cbv zeta in IC. destruct (rt_stats true _) as [r|] eqn:RT; cbn [bind] in IC; [|discriminate]. destruct (clustering _) as [c|] eqn:CL; cbn [bind] in IC; [|discriminate].
        injection IC as <-. cbn [snd] in Z. apply rt_outs in RT. apply cl_outs in CL. destruct RT as [->|(p & _ & _ & _ & ->)], CL as [->|(p' & _ & ->)]; cbn in Z; intuition discriminate. }
      assert (HX : forall z, ~ In (Told z) h').
      { intros z Z. apply history_outs in HI. destruct HI as [[_ ->]|(p & _ & _ & ->)]; cbn in Z; intuition discriminate. }
      clear - OR X AX HX. revert a OR. induction (snd x) as [|y r IH]; intros a OR.
      - destruct a as [|z a]; cbn [app] in OR.
        + injection OR as OR. subst h'. exact (HX s X).
        + injection OR as <- OR. apply (HX s). rewrite OR. apply in_or_app. right. right. exact X.
      - destruct a as [|z a]; cbn [app] in OR.
        + injection OR as -> OR. apply (AX (status_of (m_st m1))). left. reflexivity.
        + injection OR as <- OR. apply (IH (fun z X => AX z (or_intror X)) a OR). }
    apply told_none. exact HH. }
  rewrite told_app, HT. destruct (run_told _ _ _ _ _ _ GA R (agree_refl (m_st m1))) as (t & T1 & A1 & Q1). exists t. split; [exact T1|]. split; [exact A1|].
  intros F. apply (Q1 F). split; reflexivity.
Qed.
Lemma run_join : forall g l1 l2 ma mb mc la lb, run g ma l1 = Some (mb, la) -> run g mb l2 = Some (mc, lb) -> run g ma (l1 ++ l2) = Some (mc, la ++ lb).
Proof.
  induction l1 as [|x l1 IH]; intros l2 ma mb mc la lb A B; [injection A as -> <-; exact B|].
  destruct (run_cons _ _ _ _ _ _ A) as (m1 & outs & log' & S & R' & ->). cbn [app run]. rewrite S. cbn [bind fst snd].
  rewrite (IH _ _ _ _ _ _ R' B). reflexivity.
Qed.
Lemma live_join : forall g b now l1 l2 m o log m' log', live g b now l1 = Some (inr (m, o, log)) -> run g m l2 = Some (m', log') -> live g b now (l1 ++ l2) = Some (inr (m', o, log ++ log')).
Proof.
  intros g b now l1 l2 m o log m' log' L R. unfold live in *. destruct (startup g b) as [[e|[m0 o0]]|]; cbn [bind] in *; try discriminate.
  destruct (on_run g m0 now) as [[m1 o1]|]; cbn [bind fst snd] in *; [|discriminate].
  destruct (run g m1 l1) as [[m2 log2]|] eqn:R0; cbn [bind fst snd] in *; [|discriminate]. injection L as -> <- ->.
  rewrite (run_join _ _ _ _ _ _ _ _ R0 R). reflexivity.
Qed.
