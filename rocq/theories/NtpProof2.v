(** Proofs about the NTP module: the invariant holds in every history; what is told and reported. *)
Require Import ZArith QArith List Bool Lia.
Require Import Verif.Base Verif.TimeSpec Verif.TimeModel Verif.TimeProof Verif.QLib Verif.ListLib Verif.StatsSpec Verif.StatsModel Verif.Nm6Spec Verif.NtpSpec Verif.NtpModel Verif.NtpProof.
Import ListNotations.
Open Scope Z_scope.

Definition is_ask (o : out) : bool := match o with AskSys | AskPeers => true | _ => false end.
Lemma history_outs : forall m o, history m = Some o -> (n_state (m_st m) <> SLAVE /\ o = [History None (m_sync m)]) \/
  exists p, n_state (m_st m) = SLAVE /\ peer_at (m_st m) = Some p /\ o = [History (Some (p_offset p)) (m_sync m)].
Proof.
  intros m o H. unfold history in H. destruct (st_eqb (n_state (m_st m)) SLAVE) eqn:E.
  - apply st_eqb_eq in E. destruct (n_idx (m_st m) =? -1); [discriminate|]. destruct (peer_at (m_st m)) as [p|]; cbn [bind] in H; [|discriminate]. injection H as <-.
    right. exists p. auto.
  - injection H as <-. left. split; [intros X; rewrite X in E; discriminate|reflexivity].
Qed.
Lemma qrel_asks : forall g m k ask s rc q m' outs, qrel g m k ask s rc q m' outs -> exists r, outs = ask :: r /\ existsb is_ask r = false.
Proof.
  intros g m k ask s rc q m' outs (n & n2 & o2 & o3 & o4 & o5 & u' & c & b & P & CC & U & O3 & (a & CA & O4) & CV & M & HI & O).
  exists (o2 ++ o3 ++ o4 ++ o5). split; [exact O|].
  assert (A2 : existsb is_ask o2 = false).
  { destruct (negb (Bool.eqb (n_cc n) (n_cc (m_st m)))); [|injection CC as _ ->; reflexivity]. symmetry in CC. apply control_change_same in CC.
    destruct CC as (_ & _ & _ & _ & _ & _ & _ & _ & [-> | ->]); reflexivity. }
  assert (RT : forall x, rt_stats (g_active g) m = Some x -> existsb is_ask x = false).
  { intros x X. apply rt_outs in X. destruct X as [->|(p & _ & _ & _ & ->)]; reflexivity. }
  assert (CL : forall x, clustering m = Some x -> existsb is_ask x = false).
  { intros x X. apply cl_outs in X. destruct X as [->|(p & _ & ->)]; reflexivity. }
  assert (A3 : existsb is_ask o3 = false).
  { destruct O3 as [->|(x & y & X & Y & ->)]; [reflexivity|]. rewrite existsb_app, (RT x X), (CL y Y). reflexivity. }
  assert (A4 : existsb is_ask o4 = false).
  { rewrite O4, existsb_app, (CL a CA). destruct (g_active g && differs n2 (m_st m)); reflexivity. }
  assert (A5 : existsb is_ask o5 = false).
  { apply history_outs in HI. destruct HI as [[_ ->]|(p & _ & _ & ->)]; reflexivity. }
  rewrite !existsb_app, A2, A3, A4, A5. reflexivity.
Qed.
Lemma ask_sys : forall r, existsb is_ask r = false -> asks_sys (AskSys :: r) = true.
Proof. reflexivity. Qed.
Lemma no_asks : forall r, existsb is_ask r = false -> asks_sys r = false /\ asks_peers r = false.
Proof.
  induction r as [|o r IH]; intros H; [auto|]. cbn [existsb] in H. apply orb_false_iff in H. destruct H as [A B]. destruct (IH B) as [C D].
  unfold asks_sys, asks_peers in *. cbn [existsb]. destruct o; try discriminate A; auto.
Qed.

(** The state after a query, for any of the two. *)
Lemma query_inv : forall g m v k ask s rc l q m' outs, inv m v -> qrel g m k ask s rc q m' outs ->
  List.length (n_arr s) = 32%nat -> (n_num s <= 32)%nat -> (rc = 0 -> l = firstn (n_num s) (n_arr s)) -> (rc <> 0 -> l = []) ->
  inv m' (after_query v rc l).
Proof.
  intros g m v k ask s rc l q m' outs I R LA LN L0 L1.
  destruct R as (n & n2 & o2 & o3 & o4 & o5 & u' & c & b & P & CC & U & O3 & (a & CA & O4) & CV & M & HI & O).
  pose proof I as (I1 & I2 & I3 & I4 & I5 & I6 & I7 & I8 & I9).
  destruct (query_state m v s rc l (m_unsafe m) (k_score k) I I6 LA LN L0 L1) as (n' & P' & B1 & B2 & B3 & B4 & B5 & B6 & B7 & B8 & B9 & _).
  rewrite P in P'. injection P' as <-.
  assert (SAME : n_state n2 = n_state n /\ n_id n2 = n_id n /\ n_idx n2 = n_idx n /\ n_num n2 = n_num n /\ n_arr n2 = n_arr n /\ n_off n2 = n_off n /\ n_disp n2 = n_disp n /\ n_strat n2 = n_strat n).
  { destruct (negb (Bool.eqb (n_cc n) (n_cc (m_st m)))); [|injection CC as -> _; repeat split]. symmetry in CC. apply control_change_same in CC. tauto. }
  destruct SAME as (S1 & S2 & S3 & S4 & S5 & S6 & S7 & S8).
  subst m'. unfold inv, after_query. cbn [m_st m_unsafe v_peers v_rc v_was v_doubt]. rewrite S1, S2, S4, S5, S6, S7, S8.
  split; [exact B1|]. split; [exact B2|]. split; [exact B3|]. split; [exact B4|]. split; [rewrite <- I6; exact B5|]. split.
  - rewrite U, S2, B4, I4, I6. generalize (negb (id_eqb (ident l) (ident (v_peers v)))). intros x. destruct x, (v_doubt v), (ident l); reflexivity.
  - split; [|split; [exact B7|exact L1]]. unfold follows in *. destruct (chosen l); [|exact Logic.I]. unfold peer_at in *. rewrite S3, S5. exact B6.
Qed.

Lemma inv_step : forall g m v o m' outs, inv m v -> op_ok o -> step g m o = Some (m', outs) -> inv m' (see v (o, outs)).
Proof.
  intros g m v o m' outs I OK E. destruct o as [k|mask flags ctl| | | | |]; cbn [step] in E; unfold see; cbn [fst snd].
  - destruct OK as (AO & _ & _). destruct AO as [AL AN]. pose proof I as (I1 & I2 & I3 & I4 & I5 & I6 & I7 & I8 & I9).
    destruct (timer_cases g m k m' outs E) as [[Q R]|[[Q R]|(Q & O & r & S & C)]].
    + destruct (qrel_asks _ _ _ _ _ _ _ _ _ R) as (r & -> & NA). cbn [asks_sys existsb]. eapply query_inv; try exact R; try exact I; try assumption.
      * intros ->. cbn [Z.eqb]. exact I3.
      * intros N. apply Z.eqb_neq in N. rewrite N. reflexivity.
    + destruct (qrel_asks _ _ _ _ _ _ _ _ _ R) as (r & -> & NA). destruct (no_asks r NA) as [NS NP].
      change (asks_sys (AskPeers :: r)) with (asks_sys r). rewrite NS. cbn [asks_peers existsb].
      eapply query_inv; try exact R; try exact I; try assumption.
      * intros Z0. unfold listed_peers. rewrite Z0. reflexivity.
      * intros N. unfold listed_peers. apply Z.eqb_neq in N. rewrite N. reflexivity.
    + subst outs. cbn [asks_sys asks_peers existsb]. destruct C as [[_ ->]|[_ (s & _ & ->)]]; exact I.
  - injection E as E. apply (f_equal fst) in E. cbn [fst] in E. subst m'. unfold on_control. destruct (negb (g_active g)); [exact I|].
    cbv zeta. destruct (Z.testbit (Z.lxor _ _) CLOCK_CTRL); cbn [fst]; [|exact I].
    destruct I as (I1 & I2 & I3 & I4 & I5 & I6 & I7 & I8 & I9).
    destruct (ctl =? 0); [|destruct (negb _); [destruct (Z.testbit _ CLOCK_CTRL)|]]; exact (conj I1 (conj I2 (conj I3 (conj I4 (conj I5 (conj I6 (conj I7 (conj I8 I9)))))))).
  - injection E as <- <-. destruct I as (I1 & I2 & I3 & I4 & I5 & I6 & I7 & I8 & I9). exact (conj I1 (conj I2 (conj I3 (conj I4 (conj I5 (conj eq_refl (conj I7 (conj I8 I9)))))))).
  - destruct (rt_stats (g_active g) m); cbn [bind] in E; [|discriminate]. destruct (clustering m); cbn [bind] in E; [|discriminate]. injection E as <- _. exact I.
  - destruct (on_save m); cbn [bind] in E; [|discriminate]. injection E as <- _. exact I.
  - destruct (on_topology m); cbn [bind] in E; [|discriminate]. injection E as <- _. exact I.
  - injection E as <- _. exact I.
Qed.

Lemma run_cons : forall g m o l m' log, run g m (o :: l) = Some (m', log) ->
  exists m1 outs log', step g m o = Some (m1, outs) /\ run g m1 l = Some (m', log') /\ log = (o, outs) :: log'.
Proof.
  intros g m o l m' log H. cbn [run] in H. destruct (step g m o) as [[m1 outs]|]; cbn [bind fst snd] in H; [|discriminate].
  destruct (run g m1 l) as [[m2 log']|] eqn:R; cbn [bind fst snd] in H; [|discriminate]. injection H as <- <-. exists m1, outs, log'. auto.
Qed.
Lemma inv_run : forall g l m v m' log, inv m v -> Forall op_ok l -> run g m l = Some (m', log) -> inv m' (seen v log).
Proof.
  induction l as [|o l IH]; intros m v m' log I F R; [cbn in R; injection R as <- <-; exact I|].
  inversion F as [|? ? FO FL]; subst. destruct (run_cons _ _ _ _ _ _ R) as (m1 & outs & log' & S & R' & ->). unfold seen. cbn [fold_left].
  eapply IH; [|exact FL|exact R']. eapply inv_step; eauto.
Qed.

(** ** The start *)
Lemma configure_inv : forall g b s o, boot_ok b -> configure g b = Some (inr (s, o)) ->
  forall f q n c, inv (mkM f q n false s false c) (first_view b).
Proof.
  intros g b s o [AL AN] H f q nx c. unfold configure in H. unfold first_view.
  destruct (g_active g && negb (g_key g) && negb (g_ignore g)); [discriminate|]. destruct (g_timesyncd g); [discriminate|].
  destruct (b_create b =? ENOPROTOOPT) eqn:EP.
  - injection H as <- _. unfold inv. cbn. repeat split; try lia; try discriminate.
  - destruct (negb (b_create b =? 0)); [discriminate|]. cbv zeta in H.
    assert (GEN : forall x rc u sc n l, parse x rc u sc = Some n -> u = false -> List.length (n_arr x) = 32%nat -> (n_num x <= 32)%nat -> (rc = 0 -> l = firstn (n_num x) (n_arr x)) -> (rc <> 0 -> l = []) ->
             inv (mkM f q nx false n false c) (mkView l rc false false)).
    { intros x rc u sc n l P U A1 A2 A3 A4. assert (I0 : inv (mkM f q nx false zero_state false c) (mkView [] EAGAIN false false)) by (unfold inv; cbn; repeat split; try lia; try discriminate).
      destruct (query_state _ _ x rc l u sc I0 U A1 A2 A3 A4) as (n' & P' & B1 & B2 & B3 & B4 & B5 & B6 & B7 & B8 & B9 & _). rewrite P in P'. injection P' as <-. subst u.
      unfold inv. cbn [m_st m_unsafe v_peers v_rc v_was v_doubt]. auto 12. }
    destruct (fst (b_sys b) =? 0) eqn:SY; cbn [negb] in H.
    + destruct (pa_rc (b_peers b) =? 0) eqn:PR; cbn [negb] in H; [|discriminate].
      set (s2 := with_peers (with_sys (with_cc zero_state false false true) (b_sys b)) (b_peers b)) in *.
      assert (S2 : n_arr s2 = pa_arr (b_peers b) /\ n_num s2 = pa_num (b_peers b)) by (split; reflexivity).
      assert (X : forall x, n_arr x = pa_arr (b_peers b) -> n_num x = pa_num (b_peers b) -> forall n, parse x 0 false (b_score b) = Some n -> inv (mkM f q nx false n false c) (mkView (listed_peers (b_peers b)) 0 false false)).
      { intros x XA XN n P. apply (GEN x 0 false (b_score b) n); auto; try (rewrite XA; exact AL); try (rewrite XN; exact AN); try lia.
        intros _. unfold listed_peers. rewrite PR, XA, XN. reflexivity. }
      destruct (if g_active g && n_cc s2 then _ else _) as [[s3 o3]|] eqn:R; [|discriminate].
      assert (S3 : n_arr s3 = pa_arr (b_peers b) /\ n_num s3 = pa_num (b_peers b)).
      { destruct (g_active g && n_cc s2); [|injection R as <- _; exact S2].
        destruct (negb (b_ctl b =? 0)); [destruct (g_ignore g); [|discriminate]|]; injection R as <- _; exact S2. }
      destruct (negb (g_active g) && n_cc s3 && g_writable g && negb (g_ignore g)); [discriminate|].
      destruct (parse _ 0 false (b_score b)) as [n|] eqn:P; cbn [bind] in H; [|discriminate]. injection H as <- _.
      eapply X; [| |exact P]; destruct (negb (g_active g) && n_cc s3 && g_writable g); apply S3.
    + apply Z.eqb_neq in SY. destruct (parse _ (fst (b_sys b)) false (b_score b)) as [n|] eqn:P; cbn [bind] in H; [|discriminate]. injection H as <- _.
      eapply GEN; [exact P|reflexivity|reflexivity| |congruence|reflexivity]. cbn. lia.
Qed.

Lemma live_split : forall g b now l m o log, live g b now l = Some (inr (m, o, log)) ->
  exists s o1 cv m1 o2, configure g b = Some (inr (s, o1)) /\ conv_init (g_min g) (g_max g) = Some cv /\
    on_run g (mkM 2 QSys (mkTs 0 0 0) false s false cv) now = Some (m1, o2) /\ run g m1 l = Some (m, log) /\ o = o1 ++ o2.
Proof.
  intros g b now l m o log H. unfold live, startup in H. destruct (configure g b) as [[e|[s o1]]|] eqn:C; cbn [bind] in H; try discriminate.
  destruct (conv_init (g_min g) (g_max g)) as [cv|] eqn:CV; cbn [bind] in H; [|discriminate].
  change (2 ^ TIMESTAMPS) with 2 in H.
  destruct (on_run g _ now) as [[m1 o2]|] eqn:R; cbn [bind fst snd] in H; [|discriminate].
  destruct (run g m1 l) as [[m2 log2]|] eqn:RR; cbn [bind fst snd] in H; [|discriminate]. injection H as <- <- <-.
  exists s, o1, cv, m1, o2. auto.
Qed.
Lemma on_run_state : forall g s cv now m1 o2, on_run g (mkM 2 QSys (mkTs 0 0 0) false s false cv) now = Some (m1, o2) ->
  m1 = mkM 2 QSys now false s false cv /\
  (g_active g = true -> exists a h, o2 = a ++ Told (status_of s) :: h /\ existsb is_ask o2 = false /\ forall x, In x a -> exists p d y, x = Report p d y) /\
  (g_active g = false -> o2 = []).
Proof.
  intros g s cv now m1 o2 H.
  assert (E : on_run g (mkM 2 QSys (mkTs 0 0 0) false s false cv) now =
    if g_active g then do a <- rt_stats true (mkM 2 QSys now false s false cv); do h <- history (mkM 2 QSys now false s false cv);
                       Some (mkM 2 QSys now false s false cv, a ++ Told (status_of s) :: h)
    else Some (mkM 2 QSys now false s false cv, [])).
  { unfold on_run. destruct (g_active g); [|reflexivity]. unfold id_change. cbv zeta.
    set (M := mkM 2 QSys now false s false cv).
    change (set_unsafe (set_q (mkM 2 QSys (mkTs 0 0 0) false s false cv) QSys now) false) with M.
    change (m_unsafe M && negb (match n_id (m_st M) with Some _ => true | None => false end)) with false. cbn iota.
    change (clustering M) with (Some (@nil out)). change (m_st M) with s.
    destruct (rt_stats true M) as [a|]; [|reflexivity]. cbn [bind fst snd]. rewrite app_nil_r. reflexivity. }
  rewrite E in H. clear E. destruct (g_active g) eqn:A.
  - destruct (rt_stats true (mkM 2 QSys now false s false cv)) as [a|] eqn:RT; cbn [bind] in H; [|discriminate].
    destruct (history (mkM 2 QSys now false s false cv)) as [h|] eqn:HI; cbn [bind] in H; [|discriminate]. injection H as <- <-. split; [reflexivity|].
    split; [|discriminate]. intros _. exists a, h. split; [reflexivity|]. apply rt_outs in RT. apply history_outs in HI. split.
    + rewrite existsb_app. cbn [existsb is_ask]. destruct RT as [->|(p & _ & _ & _ & ->)], HI as [[_ ->]|(p' & _ & _ & ->)]; reflexivity.
    + destruct RT as [->|(p & _ & _ & _ & ->)]; intros x X; [destruct X|]. destruct X as [<-|[]]. eexists _, _, _. reflexivity.
  - injection H as <- <-. split; [reflexivity|]. split; [discriminate|reflexivity].
Qed.
Lemma live_inv : forall g b now l m o log, boot_ok b -> Forall op_ok l -> live g b now l = Some (inr (m, o, log)) -> inv m (seen (first_view b) log).
Proof.
  intros g b now l m o log BO F H. destruct (live_split _ _ _ _ _ _ _ H) as (s & o1 & cv & m1 & o2 & C & CV & R & RR & _).
  destruct (on_run_state _ _ _ _ _ _ R) as (-> & _). eapply inv_run; [|exact F|exact RR]. eapply configure_inv; eauto.
Qed.
