(** Proofs about the NTP module: cadence, convergence, constraints, the absence of undefined behaviour. *)
Require Import ZArith QArith List Bool Lia.
Require Import Verif.Base Verif.TimeSpec Verif.TimeModel Verif.TimeProof Verif.QLib Verif.ListLib Verif.StatsSpec Verif.StatsModel Verif.Nm6Spec Verif.NtpSpec Verif.NtpModel Verif.NtpProof Verif.NtpProof2 Verif.NtpProof3 Verif.NtpProof4.
Import ListNotations.
Open Scope Z_scope.

(** ** Convergence *)
Definition says (y y' : bool) (o : out) : Prop :=
  match o with
  | Report _ _ z => z = y
  | Saved _ _ _ _ (Some (_, z, _, _)) _ _ => z = y
  | History _ z => z = y'
  | _ => True
  end.
Definition is_hist (o : out) : bool := match o with History _ _ => true | _ => false end.
Lemma written_app : forall a b, existsb is_hist a = false -> written (a ++ b) = written b.
Proof.
  intros a b. unfold written. rewrite fold_left_app. intros H. f_equal.
  assert (G : forall x, fold_left (fun acc o => match o with History x _ => Some x | _ => acc end) a x = x).
  { revert H. induction a as [|o a IH]; intros H x; [reflexivity|]. cbn [existsb] in H. apply orb_false_iff in H. destruct H as [H1 H2]. cbn [fold_left]. rewrite IH; [|exact H2]. destruct o; try reflexivity; discriminate H1. }
  apply G.
Qed.
Lemma nohist_written : forall a, existsb is_hist a = false -> written a = None.
Proof. intros a H. rewrite <- (app_nil_r a). rewrite written_app; [reflexivity|exact H]. Qed.

(** A query, as seen by convergence. *)
Lemma query_sync : forall g m k ask s rc q m' outs v', qrel g m k ask s rc q m' outs -> existsb is_ask [ask] = true -> inv m' v' ->
  Forall (says (m_sync m) (m_sync m')) outs /\
  exists x, written outs = Some x /\ conv_run (m_conv m) (measure (m_flags m) (Tick k, outs)) = Some (m_conv m') /\
    (m_sync m' = true -> exists t off c', k_conv k = Some t /\ x = Some off /\ Z.testbit (m_flags m) TIMESTAMPS = true /\ conv_update (m_conv m) (sec t) off = Some (c', true)).
Proof.
  intros g m k ask s rc q m' outs v' R A I'.
  destruct R as (n & n2 & o2 & o3 & o4 & o5 & u' & c & b & P & CC & U & O3 & (a & CA & O4) & CV & M & HI & O).
  assert (RT : forall x, rt_stats (g_active g) m = Some x -> existsb is_hist x = false /\ Forall (says (m_sync m) (m_sync m')) x).
  { intros x X. apply rt_outs in X. destruct X as [->|(p & _ & _ & _ & ->)]; (split; [reflexivity|]); [constructor|]. apply Forall_cons; [reflexivity|constructor]. }
  assert (CL : forall x, clustering m = Some x -> existsb is_hist x = false /\ Forall (says (m_sync m) (m_sync m')) x).
  { intros x X. apply cl_outs in X. destruct X as [->|(p & _ & ->)]; (split; [reflexivity|]); [constructor|]. apply Forall_cons; [exact Logic.I|constructor]. }
  assert (A2 : existsb is_hist o2 = false /\ Forall (says (m_sync m) (m_sync m')) o2).
  { destruct (negb (Bool.eqb (n_cc n) (n_cc (m_st m)))); [|injection CC as _ ->; split; [reflexivity|constructor]]. symmetry in CC. apply control_change_same in CC.
    destruct CC as (_ & _ & _ & _ & _ & _ & _ & _ & [->| ->]); (split; [reflexivity|]); [constructor|apply Forall_cons; [exact Logic.I|constructor]]. }
  assert (A3 : existsb is_hist o3 = false /\ Forall (says (m_sync m) (m_sync m')) o3).
  { destruct O3 as [->|(x & y & X & Y & ->)]; [split; [reflexivity|constructor]|]. rewrite existsb_app. destruct (RT _ X) as [-> R1], (CL _ Y) as [-> R2]. split; [reflexivity|apply Forall_app; auto]. }
  assert (A4 : existsb is_hist o4 = false /\ Forall (says (m_sync m) (m_sync m')) o4).
  { rewrite O4, existsb_app. destruct (CL _ CA) as [-> R2]. split; [destruct (g_active g && _); reflexivity|]. apply Forall_app. split; [exact R2|]. destruct (g_active g && _); [apply Forall_cons; [exact Logic.I|constructor]|constructor]. }
  assert (W : written outs = written o5).
  { subst outs. change (ask :: o2 ++ o3 ++ o4 ++ o5) with ([ask] ++ o2 ++ o3 ++ o4 ++ o5). rewrite !written_app; try tauto. destruct ask; try discriminate A; reflexivity. }
  assert (H5 : Forall (says (m_sync m) (m_sync m')) o5) by (apply history_outs in HI; destruct HI as [[_ ->]|(p & _ & _ & ->)]; (apply Forall_cons; [reflexivity|constructor])).
  split.
  - subst outs. apply Forall_cons; [destruct ask; try discriminate A; exact Logic.I|]. repeat (apply Forall_app; split); try tauto.
  - unfold measure. cbn [fst snd]. rewrite W. pose proof HI as HI0. apply history_outs in HI.
    assert (NS : n_state (m_st m') = n_state n2) by (subst m'; reflexivity). unfold converge in CV. cbn [m_st m_flags m_conv m_q m_next m_unsafe m_sync set_sync] in CV.
    destruct HI as [[S ->]|(p & S & PA & ->)]; cbn [written fold_left].
    + rewrite NS in S. exists None. split; [reflexivity|]. destruct (st_eqb (n_state n2) SLAVE) eqn:SL; [apply st_eqb_eq in SL; contradiction|]. cbn [negb] in CV.
      assert (X : c = conv_reset (m_conv m) /\ b = false) by (destruct (k_conv k); injection CV as <- <-; auto). destruct X as [-> ->]. subst m'. cbn [m_conv m_sync].
      split; [destruct (k_conv k); reflexivity|discriminate].
    + rewrite NS in S. exists (Some (p_offset p)). split; [reflexivity|]. rewrite S in CV. cbn [st_eqb negb] in CV.
      destruct (k_conv k) as [t|]; [|injection CV as <- <-; subst m'; split; [reflexivity|discriminate]].
      destruct (Z.testbit (m_flags m) TIMESTAMPS) eqn:TS; cbn [negb] in CV.
      * destruct (n_idx n2 =? -1); [discriminate|]. subst m'. cbn [m_st] in PA.
        destruct (peer_at n2) as [p'|]; cbn [bind] in CV; [|discriminate]. injection PA as <-.
        destruct (conv_update (m_conv m) (sec t) (p_offset p')) as [[c' b']|] eqn:CU; cbn [bind] in CV; [|discriminate]. injection CV as <- <-. cbn [fst snd m_conv m_sync conv_run conv_step].
        rewrite CU. cbn [bind fst]. split; [reflexivity|]. intros Y. exists t, (p_offset p'), c'. cbn in Y. subst b'. auto.
      * injection CV as <- <-. subst m'. split; [reflexivity|discriminate].
Qed.

Lemma synced_says : forall l y y', Forall (says y y') l -> written l <> None -> synced y l = y'.
Proof.
  intros l y y' F W. assert (G : forall l z, Forall (says y y') l -> (z = y' \/ written l <> None) -> synced z l = y').
  { clear. induction l as [|o l IH]; intros z F W; [destruct W as [W|W]; [exact W|exfalso; apply W; reflexivity]|]. inversion F as [|? ? F1 F2]; subst. unfold synced. cbn [fold_left]. apply IH; [exact F2|].
    destruct (written l) eqn:WL; [right; discriminate|]. left. unfold written in *. cbn [fold_left] in W. destruct o; try (destruct W as [W|W]; [exact W|congruence]). exact F1. }
  apply G; auto.
Qed.

Lemma step_sync : forall g m v o m' outs, inv m v -> op_ok o -> step g m o = Some (m', outs) ->
  Forall (says (m_sync m) (m_sync m')) outs /\ m_sync m' = synced (m_sync m) outs /\
  conv_run (m_conv m) (measure (m_flags m) (o, outs)) = Some (m_conv m') /\
  (forall x, In (History x true) outs -> exists k t off c', o = Tick k /\ k_conv k = Some t /\ x = Some off /\ Z.testbit (m_flags m) TIMESTAMPS = true /\ conv_update (m_conv m) (sec t) off = Some (c', true)).
Proof.
  intros g m v o m' outs I OK E. pose proof (inv_step g m v o m' outs I OK E) as I'. destruct o as [k|mask flags ctl| | | | |]; cbn [step] in E.
  - assert (Q : forall ask s rc q, qrel g m k ask s rc q m' outs -> existsb is_ask [ask] = true -> 
        Forall (says (m_sync m) (m_sync m')) outs /\ m_sync m' = synced (m_sync m) outs /\
        conv_run (m_conv m) (measure (m_flags m) (Tick k, outs)) = Some (m_conv m') /\
        (forall x, In (History x true) outs -> exists k0 t off c', Tick k = Tick k0 /\ k_conv k0 = Some t /\ x = Some off /\ Z.testbit (m_flags m) TIMESTAMPS = true /\ conv_update (m_conv m) (sec t) off = Some (c', true))).
    { intros ask s rc q R A. destruct (query_sync _ _ _ _ _ _ _ _ _ _ R A I') as (F & x & W & C & S). split; [exact F|]. split; [symmetry; apply synced_says; [exact F|rewrite W; discriminate]|].
      split; [exact C|]. intros y Y. pose proof (proj1 (Forall_forall _ _) F _ Y) as T. cbn [says] in T. destruct (S (eq_sym T)) as (t & off & c' & S1 & S2 & S3 & S4).
      exists k, t, off, c'. split; [reflexivity|]. split; [exact S1|]. split; [|auto].
      assert (HW : forall l x y z, written l = Some x -> In (History y z) l -> (forall y' z', In (History y' z') l -> forall y2 z2, In (History y2 z2) l -> y' = y2) -> y = x).
      { clear. intros l x y z W Y U. assert (G : forall l d x, fold_left (fun acc o => match o with History x _ => Some x | _ => acc end) l d = Some x -> d = Some x \/ exists z, In (History x z) l).
        { clear. induction l as [|o l IH]; intros d x H; [left; exact H|]. cbn [fold_left] in H. apply IH in H. destruct H as [H|[z H]]; [|right; exists z; right; exact H].
          destruct o; try (left; exact H). injection H as ->. right. eexists. left. reflexivity. }
        destruct (G _ _ _ W) as [X|[z' X]]; [discriminate|]. exact (U _ _ Y _ _ X). }
      rewrite <- S2. eapply HW; [exact W|exact Y|].
      (* only one history entry *)
      assert (ONE : exists pre h, outs = pre ++ [h] /\ existsb is_hist pre = false).
      { destruct R as (n & n2 & o2 & o3 & o4 & o5 & u' & c & b & P & CC & U & O3 & (a & CA & O4) & CV & M & HI & O). 
        exists (ask :: o2 ++ o3 ++ o4). apply history_outs in HI.
        assert (NH : existsb is_hist (ask :: o2 ++ o3 ++ o4) = false).
        { cbn [existsb]. rewrite !existsb_app. assert (X0 : is_hist ask = false) by (destruct ask; try discriminate A; reflexivity).
          assert (X1 : existsb is_hist o2 = false).
          { destruct (negb (Bool.eqb (n_cc n) (n_cc (m_st m)))); [|injection CC as _ ->; reflexivity]. symmetry in CC. apply control_change_same in CC. destruct CC as (_ & _ & _ & _ & _ & _ & _ & _ & [->| ->]); reflexivity. }
          assert (CL : forall x, clustering m = Some x -> existsb is_hist x = false) by (intros z X; apply cl_outs in X; destruct X as [->|(p & _ & ->)]; reflexivity).
          assert (X2 : existsb is_hist o3 = false).
          { destruct O3 as [->|(z & y' & X & Y' & ->)]; [reflexivity|]. rewrite existsb_app, (CL _ Y'). apply rt_outs in X. destruct X as [->|(p & _ & _ & _ & ->)]; reflexivity. }
          assert (X3 : existsb is_hist o4 = false) by (rewrite O4, existsb_app, (CL _ CA); destruct (g_active g && _); reflexivity).
          rewrite X0, X1, X2, X3. reflexivity. }
        destruct HI as [[_ ->]|(p & _ & _ & ->)]; eexists; (split; [rewrite O; cbn [app]; rewrite <- !app_assoc; reflexivity|exact NH]). }
      destruct ONE as (pre & h & EO & NH). intros y1 z1 Y1 y2 z2 Y2.
      assert (L : forall y z, In (History y z) outs -> h = History y z).
      { intros y0 z0 X. rewrite EO in X. apply in_app_or in X. destruct X as [X|[X|[]]]; [|exact X]. exfalso. 
        assert (existsb is_hist pre = true) by (apply existsb_exists; exists (History y0 z0); auto). congruence. }
      pose proof (L _ _ Y1) as E1. pose proof (L _ _ Y2) as E2. congruence. }
    destruct (timer_cases g m k m' outs E) as [[_ R]|[[_ R]|(_ & -> & r & S & C)]]; [exact (Q _ _ _ _ R eq_refl)|exact (Q _ _ _ _ R eq_refl)|].
    split; [constructor|]. destruct C as [[_ ->]|[_ (s & _ & ->)]]; (split; [reflexivity|]; split; [reflexivity|intros x []]).
  - injection E as E. unfold on_control in E. destruct (negb (g_active g)); [injection E as <- <-; split; [constructor|]; split; [reflexivity|]; split; [reflexivity|intros x []]|].
    cbv zeta in E. destruct (Z.testbit (Z.lxor _ _) CLOCK_CTRL).
    + pose proof (f_equal fst E) as E1. pose proof (f_equal snd E) as E2. cbn [fst snd] in E1, E2. subst m' outs. split; [apply Forall_cons; [exact Logic.I|constructor]|].
      split; [reflexivity|]. split; [reflexivity|]. intros x [X|[]]. discriminate.
    + injection E as <- <-. split; [constructor|]; split; [reflexivity|]; split; [reflexivity|intros x []].
  - injection E as <- <-. split; [constructor|]; split; [reflexivity|]; split; [reflexivity|intros x []].
  - destruct (rt_stats (g_active g) m) as [a|] eqn:RT; cbn [bind] in E; [|discriminate]. destruct (clustering m) as [b|] eqn:CL; cbn [bind] in E; [|discriminate]. injection E as <- <-.
    apply rt_outs in RT. apply cl_outs in CL. destruct RT as [->|(p & _ & _ & _ & ->)], CL as [->|(p' & _ & ->)]; cbn [app];
      (split; [repeat (apply Forall_cons; [first [reflexivity|exact Logic.I]|]); constructor|]; split; [reflexivity|]; split; [reflexivity|]; intros x X; cbn in X; intuition discriminate).
  - destruct (on_save m) as [a|] eqn:SV; cbn [bind] in E; [|discriminate]. injection E as <- <-. unfold on_save in SV. cbv zeta in SV.
    destruct (st_eqb (n_state (m_st m)) SLAVE); [destruct (peer_at (m_st m)); cbn [bind] in SV; [|discriminate]|cbn [bind] in SV]; injection SV as <-;
      (split; [apply Forall_cons; [first [reflexivity|exact Logic.I]|constructor]|]; split; [reflexivity|]; split; [reflexivity|]; intros x X; cbn in X; intuition discriminate).
  - destruct (on_topology m) as [a|] eqn:TP; cbn [bind] in E; [|discriminate]. injection E as <- <-. unfold on_topology in TP.
    destruct (negb _); [discriminate|]. destruct (peer_at _); cbn [bind] in TP; [|discriminate]. injection TP as <-.
    split; [apply Forall_cons; [exact Logic.I|constructor]|]; split; [reflexivity|]; split; [reflexivity|]; intros x X; cbn in X; intuition discriminate.
  - injection E as <- <-. split; [apply Forall_cons; [exact Logic.I|constructor]|]; split; [reflexivity|]; split; [reflexivity|]; intros x X; cbn in X; intuition discriminate.
Qed.
Lemma conv_run_app : forall a b c c1, conv_run c a = Some c1 -> conv_run c (a ++ b) = conv_run c1 b.
Proof.
  induction a as [|o a IH]; intros b c c1 H; [injection H as <-; reflexivity|]. cbn [app conv_run] in *. destruct (conv_step c o) as [c'|]; cbn [bind] in *; [|discriminate]. apply IH. exact H.
Qed.
Lemma run_conv : forall g l m v bl m' log, inv2 m v (m_flags m) bl -> Forall op_ok l -> run g m l = Some (m', log) ->
  conv_run (m_conv m) (measures (g_active g) (m_flags m) log) = Some (m_conv m') /\ m_sync m' = synced (m_sync m) (concat (map snd log)).
Proof.
  induction l as [|o l IH]; intros m v bl m' log I F R; [cbn in R; injection R as <- <-; split; reflexivity|].
  inversion F as [|? ? FO FL]; subst. destruct (run_cons _ _ _ _ _ _ R) as (m1 & outs & log' & S & R' & ->).
  destruct (step_sync _ _ _ _ _ _ (proj1 I) FO S) as (_ & S2 & S3 & _). destruct (step_all _ _ _ _ _ _ _ _ I FO S) as (I' & _).
  pose proof I' as (_ & FE & _). rewrite <- FE in I'. destruct (IH _ _ _ _ _ I' FL R') as [C D]. cbn [measures map concat snd]. rewrite (conv_run_app _ _ _ _ S3). rewrite <- FE. split; [exact C|].
  rewrite D, S2. unfold synced. rewrite fold_left_app. reflexivity.
Qed.
