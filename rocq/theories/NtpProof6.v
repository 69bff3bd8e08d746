(** Proofs about the NTP module: cadence, constraints, doubt, the absence of undefined behaviour. *)
Require Import ZArith QArith List Bool Lia.
Require Import Verif.FilterModel Verif.FilterProof.
Require Import Verif.Base Verif.TimeSpec Verif.TimeModel Verif.TimeProof Verif.QLib Verif.ListLib Verif.StatsSpec Verif.StatsModel Verif.Nm6Spec Verif.NtpSpec Verif.NtpModel Verif.NtpProof Verif.NtpProof2 Verif.NtpProof3 Verif.NtpProof4 Verif.NtpProof5.
Import ListNotations.
Open Scope Z_scope.

(** ** Cadence *)
Lemma sub_sign : forall a b r, normal a -> normal b -> subtract a b = Some r -> (sec r < 0 <-> instant a < instant b).
Proof.
  intros a b r A B S. destruct (subtract_exact _ _ _ A B S) as [(N1 & N2 & N3) E]. unfold instant in *. lia.
Qed.
Lemma sec_mono : forall a b, normal a -> normal b -> instant a < instant b -> sec a <= sec b.
Proof. intros a b (A1 & A2 & A3) (B1 & B2 & B3) H. unfold instant in H. lia. Qed.

Definition cad (g : conf) (now : ts) (m : nm) (a n : Z) : Prop :=
  0 <= a /\ m_next m = mkTs (sec now + g_interval g * a) (nsec now) (frac now) /\ n = a + match m_q m with QSys => 0 | _ => 1 end.
Lemma due_next : forall now i a, instant (mkTs (sec now + i * a) (nsec now) (frac now)) = due now i a.
Proof. intros. unfold due, instant, s_unit. cbn [sec nsec frac]. lia. Qed.
Lemma next_normal : forall g now m a n, normal now -> cad g now m a n -> - 2^63 <= sec (m_next m) < 2^63 -> normal (m_next m).
Proof. intros g now m a n (N1 & N2 & N3) (A & -> & _) H. cbn [sec] in H. unfold normal. cbn. lia. Qed.

Lemma step_cad : forall g now m o m' outs a n, normal now -> - 2^63 <= sec (m_next m) < 2^63 -> op_ok o -> cad g now m a n -> step g m o = Some (m', outs) ->
  - 2^63 <= sec (m_next m') < 2^63 /\
  exists a', cad g now m' a' (if asks_sys outs then n + 1 else n) /\
    (a' = a \/ exists k, o = Tick k /\ a' = a + 1 /\ due now (g_interval g) a < instant (k_now k) /\ sec now + g_interval g * a <= sec (k_now k)) /\
    (match o with Tick k => match m_q m with QSys => asks_sys outs = true /\ m_q m' = QPeer | QPeer => asks_sys outs = false /\ m_q m' = QSleep | QSleep => due now (g_interval g) a < instant (k_now k) -> m_q m' = QSys end
              | _ => m_q m' = m_q m end).
Proof.
  intros g now m o m' outs a n NN RG OK C E. pose proof (next_normal _ _ _ _ _ NN C RG) as NX. destruct o as [k|mask flags ctl| | | | |]; cbn [step] in E.
  - destruct OK as (_ & (KN & KR) & _). destruct (timer_cases g m k m' outs E) as [[Q R]|[[Q R]|(Q & -> & r & S & X)]].
    + destruct (qrel_asks _ _ _ _ _ _ _ _ _ R) as (r & -> & NA). destruct R as (? & ? & ? & ? & ? & ? & ? & ? & ? & _ & _ & _ & _ & _ & _ & -> & _). cbn [m_next m_q]. change (asks_sys (AskSys :: r)) with true. split; [exact RG|].
      exists a. rewrite Q. split; [|auto]. destruct C as (C1 & C2 & C3). rewrite Q in C3. unfold cad. cbn [m_next m_q]. split; [exact C1|]. split; [exact C2|lia].
    + destruct (qrel_asks _ _ _ _ _ _ _ _ _ R) as (r & -> & NA). destruct (no_asks r NA) as [NS _]. change (asks_sys (AskPeers :: r)) with (asks_sys r). rewrite NS.
      destruct R as (? & ? & ? & ? & ? & ? & ? & ? & ? & _ & _ & _ & _ & _ & _ & -> & _). cbn [m_next m_q]. split; [exact RG|].
      exists a. rewrite Q. split; [|auto]. destruct C as (C1 & C2 & C3). rewrite Q in C3. unfold cad. cbn [m_next m_q]. split; [exact C1|]. split; [exact C2|lia].
    + pose proof (sub_sign _ _ _ NX KN S) as SG. cbn [asks_sys existsb]. rewrite Q. pose proof C as (C1 & C2 & C3). assert (D : instant (m_next m) = due now (g_interval g) a) by (rewrite C2; apply due_next).
      rewrite D in SG. destruct X as [[X ->]|[X (s & CS & ->)]].
      * split; [exact RG|]. exists a. split; [exact C|]. split; [auto|]. intros L. apply SG in L. lia.
      * unfold chk_s64 in CS. destruct (fits_s64 _) eqn:FI; [|discriminate]. injection CS as <-. apply fits_s64_iff in FI. cbn [set_q m_next m_q sec]. split; [exact FI|].
        apply SG in X. exists (a + 1). split; [|split; [|reflexivity]].
        -- unfold cad. cbn [set_q m_next m_q]. rewrite Q in C3. split; [lia|]. split; [|lia]. rewrite C2. cbn [sec nsec frac]. f_equal. lia.
        -- right. exists k. split; [reflexivity|]. split; [reflexivity|]. split; [exact X|]. rewrite <- D in X. apply sec_mono in X; [|exact NX|exact KN]. rewrite C2 in X. cbn [sec] in X. exact X.
  - injection E as E. assert (X : m_next m' = m_next m /\ m_q m' = m_q m /\ asks_sys outs = false).
    { unfold on_control in E. destruct (negb (g_active g)); [injection E as <- <-; auto|]. cbv zeta in E. destruct (Z.testbit (Z.lxor _ _) CLOCK_CTRL).
      - pose proof (f_equal fst E) as E1. pose proof (f_equal snd E) as E2. cbn [fst snd] in E1, E2. subst m' outs. auto.
      - injection E as <- <-. auto. }
    destruct X as (X1 & X2 & X3). rewrite X1, X3. split; [exact RG|]. exists a. split; [|auto]. unfold cad. rewrite X1, X2. exact C.
  - injection E as <- <-. split; [exact RG|]. exists a. auto.
  - destruct (rt_stats (g_active g) m) as [x|] eqn:RT; cbn [bind] in E; [|discriminate]. destruct (clustering m) as [b|] eqn:CL; cbn [bind] in E; [|discriminate]. injection E as <- <-. split; [exact RG|]. exists a.
    assert (X : asks_sys (x ++ b) = false) by (apply rt_outs in RT; apply cl_outs in CL; destruct RT as [->|(p & _ & _ & _ & ->)], CL as [->|(p' & _ & ->)]; reflexivity). rewrite X. auto.
  - destruct (on_save m) as [x|] eqn:SV; cbn [bind] in E; [|discriminate]. injection E as <- <-. split; [exact RG|]. exists a.
    assert (X : asks_sys x = false). { unfold on_save in SV. cbv zeta in SV. match type of SV with (do d <- ?X; _) = _ => destruct X end; cbn [bind] in SV; [|discriminate]. injection SV as <-. reflexivity. }
    rewrite X. auto.
  - destruct (on_topology m) as [x|] eqn:TP; cbn [bind] in E; [|discriminate]. injection E as <- <-. split; [exact RG|]. exists a.
    assert (X : asks_sys x = false). { unfold on_topology in TP. destruct (negb _); [discriminate|]. destruct (peer_at _); cbn [bind] in TP; [|discriminate]. injection TP as <-. reflexivity. }
    rewrite X. auto.
  - injection E as <- <-. split; [exact RG|]. exists a. auto.
Qed.
Lemma run_cad : forall g now l m m' log a n pre, normal now -> - 2^63 <= sec (m_next m) < 2^63 -> Forall op_ok l -> cad g now m a n ->
  run g m l = Some (m', log) -> (a = 0 \/ late pre (sec now + g_interval g * (a - 1))) ->
  - 2^63 <= sec (m_next m') < 2^63 /\
  exists a', cad g now m' a' (fold_left (fun n e => if asks_sys (snd e) then n + 1 else n) log n) /\ (a' = 0 \/ late (pre ++ log) (sec now + g_interval g * (a' - 1))).
Proof.
  induction l as [|o l IH]; intros m m' log a n pre NN RG F C R LA; [cbn in R; injection R as <- <-; split; [exact RG|]; exists a; rewrite app_nil_r; auto|].
  inversion F as [|? ? FO FL]; subst. destruct (run_cons _ _ _ _ _ _ R) as (m1 & outs & log' & S & R' & ->).
  destruct (step_cad _ _ _ _ _ _ _ _ NN RG FO C S) as (RG1 & a1 & C1 & X & _). cbn [fold_left].
  destruct (IH _ _ _ _ _ (pre ++ [(o, outs)]) NN RG1 FL C1 R') as (RG2 & a2 & C2 & L2).
  - destruct X as [->|(k & -> & -> & _ & X)].
    + destruct LA as [->|(k & os & IN & L)]; [auto|]. right. exists k, os. split; [apply in_or_app; auto|exact L].
    + right. exists k, outs. split; [apply in_or_app; right; left; reflexivity|]. replace (a + 1 - 1) with a by lia. exact X.
  - split; [exact RG2|]. exists a2. split; [exact C2|]. rewrite <- app_assoc in L2. exact L2.
Qed.

(** ** Constraints of an honest daemon *)
Definition con (m : nm) (f : Z) (d : bool) : Prop :=
  n_cc (m_st m) = d /\ m_flags m = f /\ (n_must (m_st m) = true -> d = true) /\ (n_cannot (m_st m) = true -> d = false) /\
  (d = true -> wants f = false -> n_must (m_st m) = true) /\ (d = false -> wants f = true -> n_cannot (m_st m) = true).
Lemma quiet_query : forall g m v k ask s rc q m' outs, inv m v -> qrel g m k ask s rc q m' outs ->
  (List.length (n_arr s) = 32%nat /\ (n_num s <= 32)%nat) -> rc = 0 -> n_cc s = n_cc (m_st m) -> n_must s = n_must (m_st m) -> n_cannot s = n_cannot (m_st m) -> existsb is_ask [ask] = true ->
  n_cc (m_st m') = n_cc (m_st m) /\ n_must (m_st m') = n_must (m_st m) /\ n_cannot (m_st m') = n_cannot (m_st m) /\ m_flags m' = m_flags m /\ commands outs = [].
Proof.
  intros g m v k ask s rc q m' outs I R [A1 A2] -> C M N A. pose proof R as R0.
  destruct R as (n & n2 & o2 & o3 & o4 & o5 & u' & c & b & P & CC & U & O3 & (a & CA & O4) & CV & MM & HI & O).
  pose proof I as (_ & _ & _ & _ & _ & I6 & _).
  destruct (query_state m v s 0 (firstn (n_num s) (n_arr s)) (m_unsafe m) (k_score k) I I6 A1 A2) as (n' & P' & _ & _ & _ & _ & _ & _ & _ & K & _ & _); [auto|congruence|].
  rewrite P in P'. injection P' as <-. destruct (K eq_refl) as (K1 & K2 & K3). rewrite K1, C, eqb_reflx in CC. cbn [negb] in CC. injection CC as -> ->.
  subst m'. cbn [m_st m_flags]. rewrite K1, K2, K3. split; [exact C|]. split; [exact M|]. split; [exact N|]. split; [reflexivity|].
  rewrite O. change (ask :: [] ++ o3 ++ o4 ++ o5) with ([ask] ++ o3 ++ o4 ++ o5). rewrite !commands_app, (hi_nocmd _ _ HI), O4, commands_app, (cl_nocmd _ _ CA).
  assert (X : commands o3 = []) by (destruct O3 as [->|(x & y & X & Y & ->)]; [reflexivity|rewrite commands_app, (rt_nocmd _ _ _ X), (cl_nocmd _ _ Y); reflexivity]).
  rewrite X. destruct (g_active g && _); destruct ask; try discriminate A; reflexivity.
Qed.
Lemma step_con : forall g m v f bl o m' outs d, g_active g = true -> inv2 m v f bl -> op_ok o -> con m f d -> step g m o = Some (m', outs) -> honest d (o, outs) ->
  con m' (flags_after true f [(o, outs)]) (obeys d (o, outs)).
Proof.
  intros g m v f bl o m' outs d GA I2 OK C E H. pose proof I2 as (I & FF & _). pose proof C as (C1 & C2 & C3 & C4 & C5 & C6). rewrite obeys_cmds. destruct o as [k|mask flags ctl| | | | |]; cbn [step] in E.
  - cbn [flags_after fold_left fst]. destruct OK as ((AL & AN) & _ & _). pose proof I as (J1 & J2 & _).
    destruct (timer_cases g m k m' outs E) as [[Q R]|[[Q R]|(Q & -> & r & S & X)]].
    + destruct (qrel_asks _ _ _ _ _ _ _ _ _ R) as (r & EO & NA). destruct H as [H _]. cbn [snd] in H. rewrite EO in H. destruct (H eq_refl) as [H0 H1].
      destruct (quiet_query _ _ _ _ _ _ _ _ _ _ I R) as (B1 & B2 & B3 & B4 & B5); try reflexivity; [split; assumption|exact H0| |].
      * cbn [with_sys n_cc]. destruct H1 as [->| ->]; [reflexivity|congruence].
      * rewrite B5. cbn [fold_left]. unfold con. rewrite B1, B2, B3, B4. exact C.
    + destruct (qrel_asks _ _ _ _ _ _ _ _ _ R) as (r & EO & NA). destruct H as [_ H]. cbn [snd] in H. rewrite EO in H. specialize (H eq_refl).
      destruct (quiet_query _ _ _ _ _ _ _ _ _ _ I R) as (B1 & B2 & B3 & B4 & B5); try reflexivity; [split; assumption|exact H|].
      rewrite B5. cbn [fold_left]. unfold con. rewrite B1, B2, B3, B4. exact C.
    + destruct X as [[_ ->]|[_ (s & _ & ->)]]; exact C.
  - injection E as E. unfold on_control in E. rewrite GA in E. cbn [negb] in E. cbv zeta in E. rewrite lxor_ctrl in E. fold (new_flags (m_flags m) mask flags) in E. rewrite C2, C1 in E.
    change (Z.testbit (new_flags f mask flags) CLOCK_CTRL) with (wants (new_flags f mask flags)) in E. cbn [flags_after fold_left fst]. set (f' := new_flags f mask flags) in *.
    destruct (Bool.eqb (wants f') (wants f)) eqn:W; cbn [negb] in E.
    + injection E as <- <-. apply eqb_prop in W. cbn [commands flat_map fold_left]. unfold con. cbn [set_flags m_st m_flags]. rewrite W. auto 10.
    + assert (X : outs = [Command (wants f')] /\ m_flags m' = f' /\ m_st m' = if ctl =? 0 then with_cc (m_st m) false false (wants f') else
             if negb (Bool.eqb (wants f') d) then if wants f' then with_cc (m_st m) (n_must (m_st m)) true d else with_cc (m_st m) true (n_cannot (m_st m)) d else m_st m).
      { pose proof (f_equal fst E) as E1. pose proof (f_equal snd E) as E2. cbn [fst snd] in E1, E2. subst m' outs. auto. }
      destruct X as (-> & X2 & X3). cbn [commands flat_map app fold_left]. unfold con. rewrite X2, X3. clear E H X3 X2.
      destruct (ctl =? 0).
      * cbn [with_cc n_cc n_must n_cannot]. split; [reflexivity|]. split; [reflexivity|]. repeat split; intros; congruence.
      * destruct (wants f') eqn:WF, d; cbn [Bool.eqb negb with_cc n_cc n_must n_cannot]; (split; [auto|]; split; [reflexivity|]; repeat split; intros; try congruence; auto).
  - injection E as <- <-. exact C.
  - destruct (rt_stats (g_active g) m) as [x|] eqn:RT; cbn [bind] in E; [|discriminate]. destruct (clustering m) as [b|] eqn:CL; cbn [bind] in E; [|discriminate]. injection E as <- <-.
    rewrite commands_app, (rt_nocmd _ _ _ RT), (cl_nocmd _ _ CL). exact C.
  - destruct (on_save m) as [x|] eqn:SV; cbn [bind] in E; [|discriminate]. injection E as <- <-. unfold on_save in SV. cbv zeta in SV. match type of SV with (do d <- ?X; _) = _ => destruct X end; cbn [bind] in SV; [|discriminate]. injection SV as <-. exact C.
  - destruct (on_topology m) as [x|] eqn:TP; cbn [bind] in E; [|discriminate]. injection E as <- <-. unfold on_topology in TP. destruct (negb _); [discriminate|]. destruct (peer_at _); cbn [bind] in TP; [|discriminate]. injection TP as <-. exact C.
  - injection E as <- <-. exact C.
Qed.
Lemma run_con : forall g l m v f bl m' log d, g_active g = true -> inv2 m v f bl -> Forall op_ok l -> con m f d -> run g m l = Some (m', log) -> honest_all d log ->
  con m' (flags_after true f log) (truth_after d log).
Proof.
  induction l as [|o l IH]; intros m v f bl m' log d GA I F C R H; [cbn in R; injection R as <- <-; exact C|].
  inversion F as [|? ? FO FL]; subst. destruct (run_cons _ _ _ _ _ _ R) as (m1 & outs & log' & S & R' & ->). destruct H as [H1 H2].
  pose proof (step_con _ _ _ _ _ _ _ _ _ GA I FO C S H1) as C1. destruct (step_all _ _ _ _ _ _ _ _ I FO S) as (I' & _). rewrite GA in I'.
  exact (IH _ _ _ _ _ _ _ GA I' FL C1 R' H2).
Qed.
Lemma configure_con : forall g b s o, g_active g = true -> b_create b = 0 -> fst (b_sys b) = 0 -> configure g b = Some (inr (s, o)) ->
  n_must s = first_belief g b /\ n_cannot s = false.
Proof.
  intros g b s o GA BC BS H. unfold configure in H. unfold first_belief. rewrite GA, BC, BS in *. cbn [andb negb Z.eqb] in *.
  destruct (negb (g_key g) && negb (g_ignore g)); [discriminate|]. destruct (g_timesyncd g); [discriminate|]. change (0 =? ENOPROTOOPT) with false in *. cbn iota in *. cbv zeta in H.
  destruct (pa_rc (b_peers b) =? 0) eqn:PR; cbn [negb] in H; [|discriminate].
  set (s2 := with_peers (with_sys (with_cc zero_state false false true) (b_sys b)) (b_peers b)) in *.
  change (n_cc s2) with (match snd (b_sys b) with Some x => x | None => true end) in H.
  set (x := match snd (b_sys b) with Some x => x | None => true end) in *.
  assert (PO : forall y n, parse y 0 false (b_score b) = Some n -> n_must n = n_must y /\ n_cannot n = n_cannot y).
  { intros y n P. destruct (parse_ok y false (b_score b)) as (n' & P' & A1 & A2 & A3 & A4 & A5 & A6 & A7 & A8 & A9 & A10 & _). rewrite P in P'. injection P' as <-.
    unfold parse in P. cbn in P. destruct (scan 0 _ _ _) as [i c]. destruct (negb (i =? -1)); cbn [andb] in P; [|injection P as <-; auto].
    destruct (nth_error (n_arr y) (Z.to_nat i)); cbn [bind] in P; [|discriminate]. injection P as <-. auto. }
  destruct x; cbn [andb] in *.
  - destruct (b_ctl b =? 0); cbn [negb] in *.
    + destruct (parse _ 0 false (b_score b)) as [n|] eqn:P; cbn [bind] in H; [|discriminate]. injection H as <- _. apply PO in P. exact P.
    + destruct (g_ignore g); [|discriminate]. destruct (parse _ 0 false (b_score b)) as [n|] eqn:P; cbn [bind] in H; [|discriminate]. injection H as <- _. apply PO in P. exact P.
  - destruct (parse _ 0 false (b_score b)) as [n|] eqn:P; cbn [bind] in H; [|discriminate]. injection H as <- _. apply PO in P. exact P.
Qed.

(** ** Doubt *)
Lemma doubt_step : forall v e, v_doubt v = true -> ident (v_peers v) <> None -> identified e ->
  v_doubt (see v e) = true /\ ident (v_peers (see v e)) <> None /\ (asks e = true -> state_of (see v e) <> SLAVE).
Proof.
  intros v [o outs] D N H. unfold see, asks, identified in *. cbn [fst snd] in *. destruct o as [k| | | | | |]; try (split; [auto|split; [exact N|discriminate]]).
  assert (AQ : forall rc l, ident l <> None -> v_doubt (after_query v rc l) = true /\ ident (v_peers (after_query v rc l)) <> None /\ (state_of (after_query v rc l) <> SLAVE)).
  { intros rc l L. unfold after_query, state_of. cbn [v_doubt v_peers v_rc v_was]. split; [|split; [exact L|]].
    - destruct (ident l); [|contradiction]. rewrite andb_false_r. exact D.
    - rewrite D. intros X. apply doc_slave in X. destruct X as (_ & X & _). discriminate. }
  destruct (asks_sys outs); [|destruct (asks_peers outs)].
  - destruct H as [H _]. rewrite (H eq_refl). cbn [Z.eqb]. destruct (AQ 0 (v_peers v) N) as (A & B & C). auto.
  - destruct H as [_ H]. destruct (AQ (pa_rc (k_peers k)) _ (H eq_refl)) as (A & B & C). auto.
  - split; [exact D|]. split; [exact N|discriminate].
Qed.
Lemma doubt_run : forall q v, v_doubt v = true -> ident (v_peers v) <> None -> Forall identified q ->
  v_doubt (seen v q) = true /\ ident (v_peers (seen v q)) <> None.
Proof.
  induction q as [|e q IH]; intros v D N F; [auto|]. inversion F as [|? ? F1 F2]; subst. destruct (doubt_step v e D N F1) as (A & B & _). exact (IH _ A B F2).
Qed.

(** ** No undefined behaviour *)
Definition fine (g : conf) (m : nm) : Prop :=
  Z.testbit (m_flags m) DETERMINANT = false /\ normal (m_next m) /\ - 2^61 < sec (m_next m) < 2^61 + 2^33 /\
  c_min (m_conv m) = g_min g /\ - 2^61 < c_start (m_conv m) < 2^61.

Lemma conv_defined : forall g c t x, 0 <= g_min g < 2^32 -> c_min c = g_min g -> - 2^61 < c_start c < 2^61 -> - 2^61 < t < 2^61 ->
  exists c' b, conv_update c t x = Some (c', b) /\ c_min c' = g_min g /\ - 2^61 < c_start c' < 2^61.
Proof.
  intros g c t x G M S T. unfold conv_update. destruct (_ || _); [eexists _, _; split; [reflexivity|]; cbn; split; [exact M|lia]|].
  destruct (t <? c_start c); [eexists _, _; split; [reflexivity|]; cbn; split; [exact M|lia]|].
  unfold chk_s64. assert (F : fits_s64 ((if c_num c =? 0 then t else c_start c) + c_min c) = true) by (apply fits_s64_iff; rewrite M; destruct (c_num c =? 0); lia).
  cbv zeta. rewrite F. cbn [bind]. eexists _, _. split; [reflexivity|]. cbn. split; [exact M|]. destruct (c_num c =? 0); lia.
Qed.
Lemma clustering_fine : forall m, Z.testbit (m_flags m) DETERMINANT = false -> clustering m = Some [].
Proof. intros m H. unfold clustering. rewrite H. reflexivity. Qed.
Lemma rt_defined : forall act m v, inv m v -> exists a, rt_stats act m = Some a.
Proof.
  intros act m v I. unfold rt_stats. destruct (act && _) eqn:E; [|eauto]. apply andb_prop in E. destruct E as [_ E]. apply st_eqb_eq in E.
  destruct (slave_chosen _ _ I E) as (p & _ & ->). eexists. reflexivity.
Qed.
Lemma history_defined : forall m v, inv m v -> exists a, history m = Some a.
Proof.
  intros m v I. unfold history. destruct (st_eqb _ _) eqn:E; [|eauto]. apply st_eqb_eq in E. destruct (slave_chosen _ _ I E) as (p & C & P). rewrite P.
  destruct I as (_ & _ & _ & _ & _ & _ & F & _). unfold follows in F. rewrite C in F. destruct F as [_ F]. apply Z.eqb_neq in F. rewrite F. eexists. reflexivity.
Qed.
Lemma fine_sync : forall g m b c, fine g m -> c_min c = g_min g -> - 2^61 < c_start c < 2^61 -> fine g (set_sync m b c).
Proof. intros g m b c (F1 & F2 & F3 & _) A B. exact (conj F1 (conj F2 (conj F3 (conj A B)))). Qed.
Lemma converge_defined : forall g m v t, conf_ok g -> inv m v -> fine g m -> (match t with Some t => sane t | None => True end) ->
  exists m', converge m t = Some m' /\ inv m' v /\ fine g m'.
Proof.
  intros g m v t (G1 & G2 & G3) I FI T. pose proof FI as (F1 & F2 & F3 & F4 & F5). unfold converge.
  assert (ST : forall b c, inv (set_sync m b c) v) by (intros; exact I).
  destruct t as [t|]; [|eexists; split; [reflexivity|]; split; [apply ST|apply fine_sync; [exact FI|first [exact F4|exact X]|first [exact F5|exact Y|cbn; lia]]]].
  destruct (negb (st_eqb (n_state (m_st m)) SLAVE)) eqn:S; [eexists; split; [reflexivity|]; split; [apply ST|apply fine_sync; [exact FI|first [exact F4|exact X]|first [exact F5|exact Y|cbn; lia]]]|].
  apply negb_false_iff, st_eqb_eq in S. destruct (slave_chosen _ _ I S) as (p & C & P).
  destruct (negb (Z.testbit (m_flags m) TIMESTAMPS)); [eexists; split; [reflexivity|]; split; [apply ST|apply fine_sync; [exact FI|first [exact F4|exact X]|first [exact F5|exact Y|cbn; lia]]]|].
  pose proof I as (_ & _ & _ & _ & _ & _ & F & _). unfold follows in F. rewrite C in F. destruct F as [_ F]. apply Z.eqb_neq in F. rewrite F, P. cbn [bind].
  destruct T as [_ T]. destruct (conv_defined g (m_conv m) (sec t) (p_offset p) G2 F4 F5 T) as (c' & b & -> & X & Y). cbn [bind fst snd]. eexists. split; [reflexivity|]. split; [apply ST|apply fine_sync; [exact FI|first [exact F4|exact X]|first [exact F5|exact Y|cbn; lia]]].
Qed.
Lemma tick_defined : forall g m v k, conf_ok g -> inv m v -> fine g m -> op_ok (Tick k) -> exists m' outs, on_timer g m k = Some (m', outs) /\ fine g m'.
Proof.
  intros g m v k G I FI OK. pose proof FI as (F1 & F2 & F3 & F4 & F5). pose proof OK as (AO & (KN & KR) & KC). destruct AO as [AL AN]. pose proof I as (J1 & J2 & J3 & J4 & J5 & J6 & J7 & J8 & J9).
  unfold on_timer, machine.
  assert (MAIN : forall s rc l q, List.length (n_arr s) = 32%nat -> (n_num s <= 32)%nat -> (rc = 0 -> l = firstn (n_num s) (n_arr s)) -> (rc <> 0 -> l = []) ->
    forall ask, exists m' outs,
    (do r <- (do n <- parse s rc (m_unsafe m) (k_score k); Some (set_q m q (m_next m), Some n, [ask]));
     let '(m1, upd, o1) := r in
     match upd with
     | None => Some (m1, o1)
     | Some new =>
      let (new2, o2) := if negb (Bool.eqb (n_cc new) (n_cc (m_st m1))) then control_change (g_active g) m1 new (k_ctl k) else (new, []) in
      do x <- (if negb (id_eqb (n_id new2) (n_id (m_st m1))) then id_change (g_active g) m1 new2 else Some (m1, []));
      do o4 <- state_change (g_active g) (fst x) new2;
      do m3 <- converge (set_st (fst x) new2) (k_conv k);
      do o5 <- history m3;
      Some (m3, o1 ++ o2 ++ snd x ++ o4 ++ o5)
     end) = Some (m', outs) /\ fine g m').
  { intros s rc l q LA LN L0 L1 ask.
    destruct (query_state m v s rc l (m_unsafe m) (k_score k) I J6 LA LN L0 L1) as (n & P & B1 & B2 & B3 & B4 & B5 & B6 & B7 & B8 & B9 & _). rewrite P. cbn [bind].
    set (m1 := set_q m q (m_next m)). destruct (if negb (Bool.eqb (n_cc n) (n_cc (m_st m1))) then control_change (g_active g) m1 n (k_ctl k) else (n, [])) as [n2 o2] eqn:CC.
    assert (SAME : n_state n2 = n_state n /\ n_id n2 = n_id n /\ n_idx n2 = n_idx n /\ n_num n2 = n_num n /\ n_arr n2 = n_arr n /\ n_off n2 = n_off n /\ n_disp n2 = n_disp n /\ n_strat n2 = n_strat n).
    { destruct (negb (Bool.eqb (n_cc n) (n_cc (m_st m1)))); [|injection CC as -> _; repeat split]. apply control_change_same in CC. tauto. }
    destruct SAME as (S1 & S2 & S3 & S4 & S5 & S6 & S7 & S8).
    assert (X : exists u' o3, (if negb (id_eqb (n_id n2) (n_id (m_st m1))) then id_change (g_active g) m1 n2 else Some (m1, [])) = Some (mkM (m_flags m) q (m_next m) u' (m_st m) (m_sync m) (m_conv m), o3)).
    { destruct (negb (id_eqb _ _)); [|eexists _, _; reflexivity]. unfold id_change. cbv zeta.
      destruct (rt_defined (g_active g) m v I) as [a RA].
      set (m2 := if m_unsafe m1 && negb (match n_id n2 with Some _ => true | None => false end) then set_unsafe m1 false else m1).
      assert (R : rt_stats (g_active g) m2 = Some a) by (unfold m2; destruct (m_unsafe m1 && _); exact RA). rewrite R. cbn [bind].
      assert (CL : clustering m2 = Some []) by (apply clustering_fine; unfold m2; destruct (m_unsafe m1 && _); exact F1). rewrite CL. cbn [bind].
      unfold m2. destruct (m_unsafe m1 && _); eexists _, _; reflexivity. }
    destruct X as (u' & o3 & X). rewrite X. cbn [bind fst snd]. unfold state_change. rewrite clustering_fine; [|exact F1]. cbn [bind].
    set (v2 := mkView l rc (v_doubt v) u').
    assert (I' : inv (set_st (mkM (m_flags m) q (m_next m) u' (m_st m) (m_sync m) (m_conv m)) n2) v2).
    { unfold inv, set_st, v2. cbn [m_st m_unsafe v_peers v_rc v_was v_doubt]. rewrite S1, S2, S4, S5, S6, S7, S8.
      split; [exact B1|]. split; [exact B2|]. split; [exact B3|]. split; [exact B4|]. split; [rewrite <- J6; exact B5|]. split; [reflexivity|].
      split; [|split; [exact B7|exact L1]]. unfold follows in *. destruct (chosen l); [|exact Logic.I]. unfold peer_at in *. rewrite S3, S5. exact B6. }
    assert (FI' : fine g (set_st (mkM (m_flags m) q (m_next m) u' (m_st m) (m_sync m) (m_conv m)) n2)) by exact FI.
    destruct (converge_defined g _ v2 (k_conv k) G I' FI' KC) as (m3 & -> & I3 & F3'). cbn [bind]. destruct (history_defined _ _ I3) as [h ->]. cbn [bind]. eexists _, _. split; [reflexivity|exact F3']. }
  destruct (m_q m).
  - apply (MAIN _ _ (if fst (k_sys k) =? 0 then v_peers v else [])); [exact J1|exact J2|intros ->; exact J3|intros X; apply Z.eqb_neq in X; rewrite X; reflexivity].
  - apply (MAIN _ _ (listed_peers (k_peers k))); [exact AL|exact AN| |]; intros X; unfold listed_peers; [rewrite X; reflexivity|apply Z.eqb_neq in X; rewrite X; reflexivity].
  - destruct (proj2 (subtract_defined (m_next m) (k_now k) F2 KN)) as [r S].
    { split; [lia|]. destruct F2 as (A1 & A2 & A3), KN as (B1 & B2 & B3). unfold representable, instant, s_unit. lia. }
    rewrite S. cbn [bind]. destruct (sec r <? 0) eqn:L.
    + apply Z.ltb_lt in L. apply (sub_sign _ _ _ F2 KN S) in L. apply (sec_mono _ _ F2 KN) in L. destruct G as (G1 & _).
      unfold chk_s64. assert (FS : fits_s64 (sec (m_next m) + g_interval g) = true) by (apply fits_s64_iff; lia). rewrite FS. cbn [bind]. eexists _, _. split; [reflexivity|].
      destruct F2 as (N1 & N2 & N3). unfold fine, normal, set_q. cbn [m_flags m_next m_conv sec nsec frac]. repeat split; auto; lia.
    + cbn [bind]. eexists _, _. split; [reflexivity|exact FI].
Qed.
Lemma step_defined : forall g m v o, conf_ok g -> inv m v -> fine g m -> op_ok o -> safe o -> exists m' outs, step g m o = Some (m', outs) /\ fine g m'.
Proof.
  intros g m v o G I FI OK SF. destruct o as [k|mask flags ctl| | | | |]; cbn [step].
  - eapply tick_defined; eauto.
  - eexists _, _. split; [f_equal; apply surjective_pairing|]. pose proof FI as (F1 & F2). unfold on_control. destruct (negb (g_active g)); [exact FI|]. cbv zeta.
    assert (D : Z.testbit (Z.lor (Z.ldiff (m_flags m) mask) (Z.land flags mask)) DETERMINANT = false).
    { rewrite Z.lor_spec, Z.ldiff_spec, Z.land_spec, F1. cbn [safe] in SF. rewrite andb_comm. rewrite (andb_comm (Z.testbit flags _)), SF. rewrite andb_false_r. reflexivity. }
    destruct (Z.testbit (Z.lxor _ _) CLOCK_CTRL); cbn [fst]; (split; [exact D|exact F2]).
  - eexists _, _. split; [reflexivity|exact FI].
  - destruct (rt_defined (g_active g) m v I) as [a ->]. rewrite clustering_fine; [|apply FI]. cbn [bind]. eexists _, _. split; [reflexivity|exact FI].
  - unfold on_save. cbv zeta. destruct (st_eqb (n_state (m_st m)) SLAVE) eqn:S.
    + apply st_eqb_eq in S. destruct (slave_chosen _ _ I S) as (p & _ & ->). cbn [bind]. eexists _, _. split; [reflexivity|exact FI].
    + cbn [bind]. eexists _, _. split; [reflexivity|exact FI].
  - destruct SF.
  - eexists _, _. split; [reflexivity|exact FI].
Qed.
Lemma run_defined : forall g l m v, conf_ok g -> inv m v -> fine g m -> Forall op_ok l -> Forall safe l -> run g m l <> None.
Proof.
  induction l as [|o l IH]; intros m v G I FI F1 F2; [discriminate|]. inversion F1; subst. inversion F2; subst.
  destruct (step_defined g m v o G I FI) as (m' & outs & S & FI'); try assumption. cbn [run]. rewrite S. cbn [bind fst snd].
  assert (I' : inv m' (see v (o, outs))) by (eapply inv_step; eauto). specialize (IH m' _ G I' FI'). destruct (run g m' l); [discriminate|]. exfalso. apply IH; auto.
Qed.
Lemma live_defined : forall g b now l, conf_ok g -> sane now -> boot_ok b -> Forall op_ok l -> Forall safe l -> live g b now l <> None.
Proof.
  intros g b now l G [NN NR] BO F1 F2. pose proof G as (G1 & G2 & G3). unfold live, startup.
  assert (CD : configure g b <> None).
  { pose proof BO as [AL AN]. unfold configure. destruct (g_active g && negb (g_key g) && negb (g_ignore g)); [discriminate|]. destruct (g_timesyncd g); [discriminate|].
    destruct (b_create b =? ENOPROTOOPT); [discriminate|]. destruct (negb (b_create b =? 0)); [discriminate|]. cbv zeta.
    assert (PD : forall s rc, exists n, parse s rc false (b_score b) = Some n).
    { intros s rc. destruct (Z.eq_dec rc 0) as [->|N]; [destruct (parse_ok s false (b_score b)) as (n & P & _)|destruct (parse_fail s rc false (b_score b) N) as (n & P & _)]; exists n; exact P. }
    destruct (negb (fst (b_sys b) =? 0)); [destruct (PD (with_sys (with_cc zero_state false false true) (b_sys b)) (fst (b_sys b))) as [n ->]; discriminate|].
    destruct (negb (pa_rc (b_peers b) =? 0)); [discriminate|]. match goal with |- context [match ?X with Some _ => _ | None => _ end] => destruct X as [[s3 o3]|] end; [|discriminate].
    destruct (negb (g_active g) && n_cc s3 && g_writable g && negb (g_ignore g)); [discriminate|].
    match goal with |- context [parse ?S 0 false _] => destruct (PD S 0) as [n ->] end. discriminate. }
  destruct (configure g b) as [[e|[s o]]|] eqn:C; [discriminate| |contradiction]. cbn [bind]. unfold conv_init.
  assert (QB : FilterModel.Qlt_bool 0 (g_max g) = true) by (apply FilterProof.Qlt_bool_iff; exact G3). rewrite QB. cbn [bind].
  set (cv := conv_reset (mkConv (g_min g) (g_max g) 0 0 0)). set (m1 := mkM 2 QSys now false s false cv).
  assert (I : inv m1 (first_view b)) by (eapply configure_inv; eauto).
  assert (FI : fine g m1) by (unfold fine, m1, cv, conv_reset; cbn; repeat split; try apply NN; try lia).
  assert (OR : exists o2, on_run g (mkM (2 ^ TIMESTAMPS) QSys (mkTs 0 0 0) false s false cv) now = Some (m1, o2)).
  { unfold on_run. cbv zeta. change (set_unsafe (set_q (mkM (2 ^ TIMESTAMPS) QSys (mkTs 0 0 0) false s false cv) QSys now) false) with m1. destruct (g_active g); [|eexists; reflexivity].
    unfold id_change. cbv zeta. change (m_unsafe m1 && negb (match n_id (m_st m1) with Some _ => true | None => false end)) with false. cbn iota.
    destruct (rt_defined true m1 _ I) as [a ->]. rewrite clustering_fine; [|reflexivity]. cbn [bind fst]. destruct (history_defined _ _ I) as [h ->]. cbn [bind]. eexists. reflexivity. }
  destruct OR as [o2 ->]. cbn [bind fst snd]. pose proof (run_defined g l m1 _ G I FI F1 F2) as RD. destruct (run g m1 l); [discriminate|contradiction].
Qed.
