(** Proofs for the chrony module, part 5: events, messages and whole lives. *)
Require Import ZArith QArith List Bool Lia.
Require Import Verif.Base Verif.TimeSpec Verif.TimeModel Verif.QLib Verif.ListLib Verif.StatsModel Verif.CrnSpec Verif.CrnModel Verif.CrnProof Verif.CrnProof2 Verif.CrnProof3 Verif.CrnProof4.
Import ListNotations.
Open Scope Z_scope.

Definition inv (g : conf) (m : cm) : Prop :=
  base g m /\ unlinked m /\ settled m /\ fresh_save m /\ (g_ctl g = false -> m_blocked m = k_cc (m_st m)).
(** What every event keeps in order. *)
Definition ev_ok (g : conf) (m m1 : cm) (o : list out) : Prop :=
  inv g m1 /\ conn_run (m_open m) o = Some (m_open m1) /\ block_run (m_blocked m) o = Some (m_blocked m1) /\ told_run (k_state (m_st m)) o = Some (k_state (m_st m1)) /\
  Forall unsynced o /\ Forall (free g) o /\ (g_ctl g = false -> existsb is_did o = false) /\ (g_ctl g = true -> cmd_run (m_saved m) None o = Some (m_saved m1)).
Lemma ev_ok_app : forall g m m1 m2 a b, ev_ok g m m1 a -> ev_ok g m1 m2 b -> ev_ok g m m2 (a ++ b).
Proof.
  intros g m m1 m2 a b (A1 & A2 & A3 & A4 & A5 & A6 & A7 & A8) (B1 & B2 & B3 & B4 & B5 & B6 & B7 & B8). unfold ev_ok.
  split; [exact B1|]. split; [rewrite conn_run_app, A2; exact B2|]. split; [rewrite block_run_app, A3; exact B3|]. split; [rewrite told_run_app, A4; exact B4|].
  split; [apply Forall_app; auto|]. split; [apply Forall_app; auto|]. split; [intros G; rewrite existsb_app, A7, B7 by exact G; reflexivity|].
  intros G. eapply cmd_run_join; auto.
Qed.
Lemma ev_ok_nil : forall g m m1, inv g m1 -> m_open m1 = m_open m -> m_blocked m1 = m_blocked m -> k_state (m_st m1) = k_state (m_st m) -> m_saved m1 = m_saved m -> ev_ok g m m1 [].
Proof.
  intros g m m1 I E1 E2 E3 E4. unfold ev_ok. cbn. rewrite E1, E2, E3, E4. split; [exact I|]. repeat (split; [reflexivity || constructor|]). auto.
Qed.
Definition sent_ok (r : Z) (o : out) : Prop := match o with Sent x => good_req r x | _ => True end.
Lemma mach_quiet : forall g e o, Forall (mach_out e) o -> Forall unsynced o /\ Forall (free g) o /\ (forall b, block_run b o = Some b) /\ (forall s, told_run s o = Some s) /\ existsb is_did o = false /\ (forall b, forallb (only b) o = true) /\ Forall (sent_ok (e_rand e)) o.
Proof.
  intros g e. induction o as [|x o IH]; intros H; [repeat split; constructor|]. assert (A := Forall_inv H). destruct (IH (Forall_inv_tail H)) as (I1 & I2 & I3 & I4 & I5 & I6 & I7).
  destruct x; cbn in A; try contradiction; (split; [constructor; [exact I|exact I1]|]); (split; [constructor; [exact I|exact I2]|]); (split; [intros; cbn; auto|]); (split; [intros; cbn; auto|]); (split; [exact I5|]); (split; [intros; cbn; auto|]); constructor; auto; exact I.
Qed.
Lemma upd_sent : forall r o, forallb upd_out o = true -> Forall (sent_ok r) o.
Proof. intros r o H. rewrite forallb_forall in H. apply Forall_forall. intros x X. specialize (H x X). destruct x; try discriminate H; exact I. Qed.

Lemma advance_ok : forall g m ev e k m1 o, inv g m -> advance g m ev e k = Some (m1, o) ->
  ev_ok g m m1 o /\ m_flags m1 = m_flags m /\ m_phase m1 = m_phase m /\ Forall (sent_ok (e_rand e)) o /\ forallb (only (wants (m_flags m))) o = true.
Proof.
  intros g m ev e k m1 o (I1 & I2 & I3 & I4 & I5) H. unfold advance in H. ib H. destruct p as [[ma oa] upd]. apply (machine_ok g) in B; [|exact I1|exact I2|exact I3].
  destruct B as (A1 & A2 & A3 & A4 & A5 & A6). pose proof A3 as (K1 & K2 & K3 & K4 & K5 & K6 & K7 & K8 & K9).
  assert (FS : fresh_save ma) by (unfold fresh_save in *; rewrite K7, K9; exact I4).
  destruct (mach_quiet g e oa A4) as (Q1 & Q2 & Q3 & Q4 & Q5 & Q6 & Q7).
  destruct upd.
  - ib H. destruct p as [mb ob]. cbn [fst snd] in H. injection H as <- <-. apply (update_ok g) in B; [|exact A1|exact A2|exact FS].
    destruct B as (U1 & U2 & U3 & U4 & U5 & U6 & U7 & U8 & UI & U9 & UA & UB & UC & UE & UF & UG & UH & UJ & UK & _).
    split.
    + unfold ev_ok. split.
      { split; [exact U1|]. split; [exact U2|]. split; [unfold settled; rewrite U4; auto|]. split; [exact U3|]. intros G. destruct (UJ G) as (_ & _ & _ & J). apply J. rewrite K5, K2. apply I5; exact G. }
      split; [rewrite conn_run_app, A5; exact UA|]. split; [rewrite block_run_app, Q3; cbn [bind]; rewrite <- K5; exact UB|]. split; [rewrite told_run_app, Q4; cbn [bind]; rewrite <- K2; exact UC|].
      split; [apply Forall_app; auto|]. split; [apply Forall_app; auto|]. split; [intros G; rewrite existsb_app, Q5; destruct (UJ G) as (J & _); rewrite J; reflexivity|].
      intros G. eapply cmd_run_join; [rewrite cmd_run_none by exact Q5; reflexivity|]. rewrite <- K7. apply UK; exact G.
    + split; [congruence|]. split; [congruence|]. split; [apply Forall_app; split; [exact Q7|apply upd_sent; exact UE]|]. rewrite forallb_app, Q6, <- K1, UF. reflexivity.
  - injection H as <- <-. split.
    + unfold ev_ok. split.
      { split; [exact A1|]. split; [exact A2|]. split; [apply A6; reflexivity|]. split; [exact FS|]. rewrite K5, K2. exact I5. }
      split; [exact A5|]. split; [rewrite K5; apply Q3|]. split; [rewrite K2; apply Q4|]. split; [exact Q1|]. split; [exact Q2|]. split; [intros; exact Q5|]. intros _. rewrite K7. apply cmd_run_none. exact Q5.
    + split; [exact K1|]. split; [exact K6|]. split; [exact Q7|apply Q6].
Qed.
Lemma look_ev : forall g m p m1 cc, inv g m -> look g m p = (m1, cc) -> ev_ok g m m1 [Look p] /\ held m m1 /\ m_open m1 = m_open m /\ cc = controls p /\ m_saved m1 = m_saved m /\ m_last m1 = m_last m.
Proof.
  intros g m p m1 cc (I1 & I2 & I3 & I4 & I5) L. apply (look_base g) in L; [|exact I1]. destruct L as (L1 & L2 & L3 & L4 & L5 & L6 & L7 & L8). pose proof L2 as (H1 & H2 & H3 & H4 & H5 & H6 & H7 & H8 & H9 & HA & HB).
  split; [|auto 10]. unfold ev_ok. split.
  { split; [exact L1|]. split; [unfold unlinked in *; rewrite H2, L3; exact I2|]. split; [unfold settled in *; rewrite H5, H6; exact I3|]. split; [unfold fresh_save in *; rewrite L4, L5; exact I4|]. rewrite HA, H5. exact I5. }
  cbn. rewrite L3, HA, H5, L4. repeat (split; [reflexivity || (repeat constructor)|]). auto.
Qed.
Lemma control_ev : forall g m e k en m1 o rc, inv g m -> control g m e k en = Some (m1, o, rc) -> ev_ok g m m1 o /\ held m m1 /\ forallb ctl_out o = true /\ forallb (only en) o = true.
Proof.
  intros g m e k en m1 o rc (I1 & I2 & I3 & I4 & I5) H. apply (control_ok g) in H; [|exact I1|exact I4]. destruct H as (C1 & C2 & C3 & C4 & C5 & C6 & C7 & C8 & C9). pose proof C2 as (H1 & H2 & H3 & H4 & H5 & H6 & H7 & H8 & H9 & HA & HB).
  destruct (ctl_quiet g o C6) as (Q1 & Q2 & Q3 & Q4).
  split; [|auto]. unfold ev_ok. split.
  { split; [exact C1|]. split; [eapply unlinked_held; eassumption|]. split; [unfold settled in *; rewrite H5, H6; exact I3|]. split; [intros E; congruence|]. rewrite HA, H5. exact I5. }
  split; [exact C4|]. split; [rewrite HA; apply Q3|]. split; [rewrite H5; apply Q4|]. split; [exact Q1|]. split; [exact Q2|]. split; [intros G; destruct (C8 G) as (-> & _); reflexivity|]. rewrite C5. exact C9.
Qed.
Lemma inv_flags : forall g m x, inv g m -> inv g (set_flags m x). Proof. intros g m x H. exact H. Qed.
Lemma ev_flags : forall g m m1 x o, ev_ok g m m1 o -> ev_ok g m (set_flags m1 x) o. Proof. intros g m m1 x o H. exact H. Qed.
(** The wish that holds during an event. *)
Definition op_wish (m : cm) (o : op) : bool := match o with Control mask flags _ => wants (new_flags (m_flags m) mask flags) | _ => wants (m_flags m) end.
Definition msg_out (o : out) : bool := match o with Cluster _ _ | Saved _ _ _ _ _ _ _ | Drawn _ _ | Reply _ => true | _ => false end.
Lemma msg_quiet : forall o, forallb msg_out o = true -> (forall x, conn_run x o = Some x) /\ (forall x, block_run x o = Some x) /\ existsb is_did o = false /\ (forall r, Forall (sent_ok r) o) /\ (forall b, forallb (only b) o = true).
Proof.
  induction o as [|x o IH]; intros H; [repeat split; constructor|]. cbn in H. apply andb_prop in H. destruct H as [A B]. destruct (IH B) as (I1 & I2 & I3 & I4 & I5).
  destruct x; try discriminate A; (split; [intros; apply I1|]); (split; [intros; apply I2|]); (split; [exact I3|]); (split; [intros; constructor; [exact I|apply I4]|]); intros; cbn; apply I5.
Qed.
Lemma step_ok : forall g m o m1 l, inv g m -> step g m o = Some (m1, l) ->
  ev_ok g m m1 l /\ Forall (sent_ok (op_rand o)) l /\ forallb (only (op_wish m o)) l = true.
Proof.
  intros g m o m1 l IN H. pose proof IN as (I1 & I2 & I3 & I4 & I5).
  assert (MSG : forall a, forallb msg_out a = true -> Forall unsynced a -> Forall (free g) a -> told_run (k_state (m_st m)) a = Some (k_state (m_st m)) -> ev_ok g m m a).
  { intros a A1 A2 A3 A4. destruct (msg_quiet a A1) as (Q1 & Q2 & Q3 & _). unfold ev_ok. split; [exact IN|]. split; [apply Q1|]. split; [apply Q2|]. split; [exact A4|]. split; [exact A2|]. split; [exact A3|]. split; [auto|]. intros _. apply cmd_run_none. exact Q3. }
  assert (DS : dull (m_st m)) by apply I1.
  destruct o as [e|r e|mask flags e| | | | | ]; cbn [step] in H.
  - apply (advance_ok g) in H; [|exact IN]. tauto.
  - unfold on_io in H. destruct (m_open m) eqn:O; cbn [negb] in H.
    2:{ injection H as <- <-. split; [apply ev_ok_nil; auto|]. split; [constructor|reflexivity]. }
    destruct r as [x| | ].
    + cbv zeta in H. apply (advance_ok g) in H; [destruct H as (A & _ & _ & B & C); auto|].
      split; [|auto]. destruct I1 as (D1 & D2 & D3 & D4). unfold base. pj. split; [exact D1|]. split; [exact D2|]. split; [|exact D4].
      rewrite app_length, skipn_length, D3. rewrite firstn_length. lia.
    + apply (advance_ok g) in H; [|exact IN]. tauto.
    + apply (advance_ok g) in H; [|exact IN]. tauto.
  - unfold on_control in H. change (Z.lor (Z.ldiff (m_flags m) mask) (Z.land flags mask)) with (new_flags (m_flags m) mask flags) in H. cbv zeta in H. cbn [op_rand op_wish].
    di H; [|injection H as <- <-; split; [apply ev_ok_nil; auto|split; [constructor|reflexivity]]].
    destruct (look g m (e_proc e 0)) as [ma cc] eqn:L. apply (look_ev g) in L; [|exact IN]. destruct L as (L1 & L2 & L3 & -> & L4 & L5).
    change (Z.testbit (new_flags (m_flags m) mask flags) CLOCK_CTRL) with (wants (new_flags (m_flags m) mask flags)) in H. di H.
    + di H; [injection H as <- <-; split; [exact L1|split; [repeat constructor|reflexivity]]|].
      ib H. destruct p as [[mb ob] rc]. cbn [fst snd] in H. injection H as <- <-. apply (control_ev g) in B; [|apply L1]. destruct B as (B1 & B2 & B3 & B4).
      split; [apply ev_flags; apply (ev_ok_app g m ma mb [Look (e_proc e 0)] ob L1 B1)|].
      split; [|exact B4]. constructor; [exact I|]. rewrite forallb_forall in B3. apply Forall_forall. intros x X. specialize (B3 x X). destruct x; try discriminate B3; exact I.
    + injection H as <- <-. split; [exact L1|split; [repeat constructor|reflexivity]].
  - injection H as <- <-. split; [|split; [constructor|reflexivity]]. apply ev_ok_nil; auto.
  - rewrite rt_stats_ok in H by exact DS. cbn [bind] in H. ib H. injection H as <- <-. cbn [app op_rand].
    apply clustering_ok in B; [|exact DS]. destruct B as [(-> & _)|(x & -> & _)]; (split; [apply MSG; repeat constructor|split; [repeat constructor|reflexivity]]).
  - ib H. injection H as <- <-. unfold on_save in B. di B; [discriminate|]. pose proof DS as (_ & _ & D3 & _). rewrite not_slave in B by exact D3. cbn [bind] in B. injection B as <-. destruct I1 as (_ & _ & _ & _ & D6 & D7).
    split; [apply MSG; [reflexivity|repeat constructor; assumption|repeat constructor; solve [exact D6|apply D7; assumption]|]|split; [repeat constructor|reflexivity]].
    cbn [told_run]. rewrite st_eqb_refl. reflexivity.
  - ib H. injection H as <- <-. unfold on_topology in B. di B; [discriminate|]. ib B. pose proof DS as (_ & _ & D3 & _). rewrite not_slave in B by exact D3. injection B as <-.
    split; [apply MSG; [reflexivity|repeat constructor; assumption|repeat constructor|]|split; [repeat constructor|reflexivity]].
    cbn [told_run]. rewrite st_eqb_refl. reflexivity.
  - injection H as <- <-. pose proof DS as (_ & _ & D3 & _ & _ & D6 & _). destruct I1 as (_ & _ & _ & _ & C6 & C7).
    split; [apply MSG; [reflexivity| | |]|split; [repeat constructor|reflexivity]].
    + repeat constructor; cbn; [exact D3|apply not_slave; exact D3|exact D6].
    + repeat constructor; cbn; [exact C6|apply C7; assumption|apply C7; assumption].
    + cbn. rewrite st_eqb_refl. reflexivity.
Qed.
Lemma run_ok : forall g l m m1 log, inv g m -> run g m l = Some (m1, log) -> ev_ok g m m1 (flat log) /\ Forall (fun x => Forall (sent_ok (op_rand (fst x))) (snd x)) log.
Proof.
  intros g. induction l as [|o l IH]; intros m m1 log IN H; cbn [run] in H.
  - injection H as <- <-. split; [apply ev_ok_nil; auto|constructor].
  - ib H. destruct p as [ma oa]. cbn [fst snd] in H. ib H. destruct p as [mb lb]. cbn [fst snd] in H. injection H as <- <-.
    apply (step_ok g) in B; [|exact IN]. destruct B as (S1 & S2 & S3). apply IH in B0; [|apply S1]. destruct B0 as (R1 & R2).
    split; [apply (ev_ok_app g m ma mb); assumption|]. constructor; assumption.
Qed.
(** ** Before the message to run *)
Lemma run_idle : forall g l m m1 log, Forall message l -> m_phase m = false -> m_open m = false -> run g m l = Some (m1, log) -> m_open m1 = false /\ m_phase m1 = false /\ m_st m1 = with_unsafe (m_st m) (k_unsafe (m_st m1)) /\ m_blocked m1 = m_blocked m /\ m_saved m1 = m_saved m /\ m_last m1 = m_last m.
Proof.
  intros g. induction l as [|o l IH]; intros m m1 log F P O H; cbn [run] in H.
  - injection H as <- <-. repeat (split; [assumption|]). split; [destruct (m_st m); reflexivity|auto].
  - ib H. destruct p as [ma oa]. cbn [fst snd] in H. ib H. destruct p as [mb lb]. cbn [fst snd] in H. injection H as <- <-.
    assert (A : m_phase ma = false /\ m_open ma = false /\ with_unsafe (m_st ma) true = with_unsafe (m_st m) true /\ m_blocked ma = m_blocked m /\ m_saved ma = m_saved m /\ m_last ma = m_last m).
    { assert (M := Forall_inv F). destruct o as [e|r e|mask flags e| | | | | ]; try contradiction; cbn [step] in B.
      - unfold on_control in B. rewrite P in B. cbn [andb] in B. injection B as <- <-. auto 10.
      - injection B as <- <-. auto 10.
      - ib B. ib B. injection B as <- <-. auto 10.
      - ib B. injection B as <- <-. auto 10.
      - ib B. injection B as <- <-. auto 10.
      - injection B as <- <-. auto 10. }
    destruct A as (A1 & A2 & A3 & A4 & A5 & A6). apply IH in B0; [|exact (Forall_inv_tail F)|exact A1|exact A2]. destruct B0 as (B1 & B2 & B3 & B4 & B5 & B6).
    repeat (split; [congruence|]). split; [|split; [congruence|split; congruence]]. rewrite B3. destruct (m_st ma), (m_st m). pj. injection A3. intros. subst. reflexivity.
Qed.
Lemma dull_zero : dull zero_state.
Proof. unfold dull, zero_state. pj. split; [reflexivity|]. split; [apply Forall_forall; intros x X; apply repeat_spec in X; subst x; reflexivity|]. split; [discriminate|]. auto 10. Qed.
Lemma startup_ok : forall g p m o, startup g p = Some (inr (m, o)) -> inv g m /\ m_open m = false /\ m_phase m = false /\ m_saved m = false /\ m_last m = null_time /\ k_state (m_st m) = first_state p /\ k_cc (m_st m) = controls p /\ m_blocked m = controls p /\
  o = Look p :: (if controls p then [Block true] else []) /\ m_nx m = m_st m /\ m_flags m = 2 ^ TIMESTAMPS /\ m_q m = SleepDisc /\ k_idx (m_st m) = 0 /\ k_num (m_st m) = 0 /\ m_next m = null_time /\ k_disp (m_st m) = Some 0%Q.
Proof.
  intros g p m o H. unfold startup in H. di H; [discriminate|]. ib H. rename c into cv.
  set (m0 := mkM (2 ^ TIMESTAMPS) false false SleepDisc 0 (repeat 0 20) 0 null_time null_time zero_state zero_state cv (repeat 0 520) (repeat 0 528) false false false false false false null_time) in *.
  assert (B0 : base g m0). { unfold base, m0. pj. split; [exact dull_zero|]. split; [exact dull_zero|]. auto 10. }
  assert (E : m_open m0 = false /\ m_phase m0 = false /\ m_saved m0 = false /\ m_last m0 = null_time /\ m_q m0 = SleepDisc /\ m_st m0 = zero_state /\ m_nx m0 = zero_state /\ m_flags m0 = 2 ^ TIMESTAMPS /\ m_blocked m0 = false /\ m_next m0 = null_time) by (unfold m0; auto 12).
  clearbody m0. destruct (look g m0 p) as [m1 cc] eqn:L. apply (look_base g) in L; [|exact B0]. destruct L as (L1 & L2 & L3 & L4 & L5 & L6 & -> & L8).
  destruct L2 as (H1 & H2 & H3 & H4 & H5 & H6 & H7 & H8 & H9 & HA & HB). destruct E as (E1 & E2 & E3 & E4 & E5 & E6 & E7 & E8 & E9 & EA).
  set (m2 := set_st m1 (with_cc (m_st m1) (controls p))) in *.
  assert (BL : (if controls p then block m2 true else (m2, [])) = (set_blocked m2 (controls p), if controls p then [Block true] else [])).
  { unfold block. destruct (controls p) eqn:CP.
    - unfold m2. pj. rewrite HA, E9. reflexivity.
    - f_equal. unfold m2. destruct m1. cbn in HA. rewrite HA, E9. reflexivity. }
  rewrite BL in H. injection H as <- <-. unfold m2. pj. rewrite H5, E6, L8. pj.
  destruct L1 as (D1 & D2 & D3 & D4 & D5 & D6). rewrite H5, E6 in D1.
  assert (FIN : forall s, dull s -> k_state s = first_state p -> k_cc s = controls p -> k_idx s = 0 -> k_num s = 0 -> k_disp s = Some 0%Q -> 
    let mm := set_nx (set_st (set_blocked (set_st m1 (with_cc zero_state (controls p))) (controls p)) s) s in
    inv g mm /\ m_open mm = false /\ m_phase mm = false /\ m_saved mm = false /\ m_last mm = null_time /\ k_state (m_st mm) = first_state p /\ k_cc (m_st mm) = controls p /\ m_blocked mm = controls p /\
    Look p :: (if controls p then [Block true] else []) = Look p :: (if controls p then [Block true] else []) /\ m_nx mm = m_st mm /\ m_flags mm = 2 ^ TIMESTAMPS /\ m_q mm = SleepDisc /\ k_idx (m_st mm) = 0 /\ k_num (m_st mm) = 0 /\ m_next mm = null_time /\ k_disp (m_st mm) = Some 0%Q).
  { intros s S1 S2 S3 S4 S5 S6 mm. unfold mm, inv, base, unlinked, settled, fresh_save. pj. repeat match goal with |- _ /\ _ => split end; try congruence; try assumption; auto. }
  unfold first_state in *. destruct (seen p).
  - apply (FIN (with_cc zero_state (controls p))); try reflexivity. exact dull_zero.
  - apply (FIN (with_state (with_cc zero_state (controls p)) DISABLED)); try reflexivity. pose proof dull_zero as (Z1 & Z2 & Z3 & Z4). unfold dull. pj. split; [exact Z1|]. split; [exact Z2|]. split; [discriminate|exact Z4].
Qed.
Lemma ctl_sent : forall r o, forallb ctl_out o = true -> Forall (sent_ok r) o.
Proof. intros r o H. rewrite forallb_forall in H. apply Forall_forall. intros x X. specialize (H x X). destruct x; try discriminate H; exact I. Qed.
Lemma on_run_ok : forall g m e m1 o, inv g m -> m_open m = false -> on_run g m e = Some (m1, o) ->
  ev_ok g m m1 o /\ Forall (sent_ok (e_rand e)) o /\ m_phase m1 = true /\
  (exists m4 o4 o5, o = Look (e_proc e 0) :: o4 ++ o5 /\ advance g m4 ERun e 3 = Some (m1, o5) /\ inv g m4 /\ m_q m4 = SleepDisc /\ m_next m4 = e_now e /\ m_phase m4 = true /\ m_st m4 = with_unsafe (m_st m) false /\ m_nx m4 = m_st m4 /\
     (g_ctl g = false -> o4 = [] \/ exists rc, o4 = [Exit rc]) /\
     (m_flags m4 = m_flags m \/ m_flags m4 = Z.ldiff (m_flags m) (2 ^ CLOCK_CTRL)) /\ forallb (only (wants (m_flags m))) o4 = true).
Proof.
  intros g m e m1 o IN O H. unfold on_run in H.
  set (ma := set_st (set_q (set_next (set_phase m true) (e_now e)) SleepDisc) (with_unsafe (m_st m) false)) in *.
  assert (IA : inv g ma /\ m_open ma = false /\ m_q ma = SleepDisc /\ m_next ma = e_now e /\ m_phase ma = true /\ m_flags ma = m_flags m /\ m_st ma = with_unsafe (m_st m) false /\ m_blocked ma = m_blocked m /\ m_saved ma = m_saved m).
  { destruct IN as (I1 & I2 & I3 & I4 & I5). split; [|unfold ma; pj; auto 10]. unfold inv, ma. split; [exact I1|]. split; [unfold unlinked; pj; auto|]. auto. }
  clearbody ma. destruct IA as (IA & OA & QA & NA & PA & FA & SA & BA & VA).
  destruct (look g ma (e_proc e 0)) as [mb cc] eqn:L. apply (look_ev g) in L; [|exact IA]. destruct L as (L1 & L2 & L3 & -> & L4 & L5). destruct L2 as (H1 & H2 & H3 & H4 & H5 & H6 & H7 & H8 & H9 & HA & HB).
  change (Z.testbit (m_flags m) CLOCK_CTRL) with (wants (m_flags m)) in H.
  ib H. destruct p as [mc oc]. ib H. destruct p as [md od]. cbn [fst snd] in H. injection H as <- <-.
  assert (X : ev_ok g mb mc oc /\ m_q mc = SleepDisc /\ m_next mc = e_now e /\ m_phase mc = true /\ m_st mc = m_st mb /\ (g_ctl g = false -> oc = [] \/ exists rc, oc = [Exit rc]) /\
     (m_flags mc = m_flags m \/ m_flags mc = Z.ldiff (m_flags m) (2 ^ CLOCK_CTRL)) /\ forallb (only (wants (m_flags m))) oc = true /\ Forall (sent_ok (e_rand e)) oc).
  { assert (SAME : forall x, ev_ok g mb (set_flags mb x) []). { intros x. apply ev_flags. apply ev_ok_nil; auto. apply L1. }
    assert (SELF : ev_ok g mb mb []) by (apply ev_ok_nil; auto; apply L1).
    di B; [|di B].
    - di B.
      + ib B. destruct p as [[me oe] rc]. injection B as <- <-. pose proof B1 as B1'. apply (control_ev g) in B1; [|apply L1]. destruct B1 as (C1 & C2 & C3 & C4). destruct C2 as (K1 & K2 & K3 & K4 & K5 & K6 & K7 & K8 & K9 & KA & KB).
        apply andb_prop in C. destruct C as [W _]. rewrite W.
        destruct (rc =? 0); pj.
        * split; [exact C1|]. do 4 (split; [congruence|]). split; [congruence|]. split; [left; congruence|]. split; [exact C4|apply ctl_sent; exact C3].
        * split; [apply ev_flags; exact C1|]. do 4 (split; [congruence|]). split; [congruence|]. split; [right; replace (m_flags m) with (m_flags me) by congruence; reflexivity|]. split; [exact C4|apply ctl_sent; exact C3].
      + injection B as <- <-. pj. split; [apply SAME|]. do 4 (split; [congruence|]). split; [auto|]. split; [right; replace (m_flags m) with (m_flags mb) by congruence; reflexivity|]. split; [reflexivity|constructor].
    - ib B. destruct p as [[me oe] rc]. apply andb_prop in C0. destruct C0 as [W _]. apply negb_true_iff in W. rewrite W.
      assert (Y : ev_ok g mb me oe /\ m_q me = SleepDisc /\ m_next me = e_now e /\ m_phase me = true /\ m_st me = m_st mb /\ m_flags me = m_flags m /\ (g_ctl g = false -> oe = []) /\ forallb (only false) oe = true /\ Forall (sent_ok (e_rand e)) oe).
      { di B1.
        - apply (control_ev g) in B1; [|apply L1]. destruct B1 as (C1' & C2 & C3 & C4). destruct C2 as (K1 & K2 & K3 & K4 & K5 & K6 & K7 & K8 & K9 & KA & KB).
          split; [exact C1'|]. do 5 (split; [congruence|]). split; [congruence|]. split; [exact C4|apply ctl_sent; exact C3].
        - injection B1 as <- <- <-. split; [exact SELF|]. do 5 (split; [congruence|]). auto. }
      destruct Y as (Y1 & Y2 & Y3 & Y4 & Y5 & Y6 & Y7 & Y8 & Y9). injection B as <- <-.
      destruct ((negb (g_ctl g) || negb (rc =? 0)) && g_writable g && negb (g_ignore g)).
      + split; [apply (ev_ok_app g mb me me); [exact Y1|]|].
        { destruct Y1 as (Y1 & _). unfold ev_ok. split; [exact Y1|]. repeat (split; [reflexivity || (repeat constructor)|]). auto. }
        repeat (split; [assumption|]). split; [intros G; rewrite Y7 by exact G; right; eexists; reflexivity|]. split; [auto|]. split; [rewrite forallb_app, Y8; reflexivity|]. apply Forall_app. split; [exact Y9|repeat constructor].
      + split; [exact Y1|]. repeat (split; [assumption|]). split; [intros G; left; auto|]. auto.
    - injection B as <- <-. split; [exact SELF|]. do 4 (split; [congruence|]). split; [auto|]. split; [left; congruence|]. split; [reflexivity|constructor]. }
  destruct X as (X1 & X2 & X3 & X4 & X5 & X6 & X7 & X8 & X9).
  assert (SE : ev_ok g mc (set_nx mc (m_st mc)) []).
  { apply ev_ok_nil; auto. destruct X1 as ((I1 & I2 & I3 & I4 & I5) & _). split; [apply base_nx; [exact I1|apply I1]|]. split; [exact I2|]. split; [unfold settled; pj; auto|]. auto. }
  pose proof B0 as ADV. apply (advance_ok g) in B0; [|apply SE]. destruct B0 as (A1 & A2 & A3 & A4 & A5). pj.
  assert (ALL : ev_ok g ma md ([Look (e_proc e 0)] ++ oc ++ [] ++ od)).
  { eapply ev_ok_app; [exact L1|]. eapply ev_ok_app; [exact X1|]. eapply ev_ok_app; [exact SE|]. exact A1. }
  cbn [app] in ALL. split.
  { destruct ALL as (Z1 & Z2 & Z3 & Z4 & Z5). unfold ev_ok. rewrite OA in Z2. rewrite O, <- BA, <- VA. rewrite SA in Z4. pj. auto. }
  split.
  { constructor; [exact I|]. apply Forall_app. split; [exact X9|exact A4]. }
  split; [congruence|]. exists (set_nx mc (m_st mc)), oc, od. split; [reflexivity|]. split; [exact ADV|]. split; [apply SE|]. pj. do 5 (split; [congruence|]). split; [exact X6|]. auto.
Qed.
