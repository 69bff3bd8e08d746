(** Proofs about the engine model: selection, hold-off, servo table. *)
Require Import ZArith List Bool Lia Permutation.
Import ListNotations.
From Verif Require Import Base ListLib BicSpec BicModel BicProof BicProps EngSpec EngModel.
Open Scope Z_scope.

Lemma same_iff : forall a b, same a b = true <-> a = b.
Proof.
  intros [a|] [b|]; cbn; rewrite ?Nat.eqb_eq; split; intros H; congruence.
Qed.
Lemma same_false : forall a b, same a b = false <-> a <> b.
Proof. intros a b. rewrite <- not_true_iff_false, same_iff. tauto. Qed.
Lemma same_refl : forall a, same a a = true.
Proof. intros. apply same_iff. reflexivity. Qed.

(** ** The servo table *)
Definition slaves (m : nat) (tbl : list (nat * bool)) : list nat :=
  map fst (filter (fun p => snd p && negb (fst p =? m)%nat) tbl).

Lemma assign_servos_spec : forall m tbl idx sv, (idx <= length sv)%nat ->
  assign_servos m tbl idx sv =
  if (idx + length (slaves m tbl) <=? length sv)%nat
  then Some (firstn idx sv ++ map (fun c => Some (m, c)) (slaves m tbl) ++
             skipn (idx + length (slaves m tbl)) sv, (idx + length (slaves m tbl))%nat)
  else None.
Proof.
  intros m. induction tbl as [|[c d] tbl IH]; intros idx sv Hi.
  - cbn. rewrite Nat.add_0_r. destruct (Nat.leb_spec idx (length sv)); [|lia].
    rewrite firstn_skipn. reflexivity.
  - cbn [assign_servos]. unfold slaves. cbn [filter fst snd].
    destruct (d && negb (c =? m)%nat) eqn:E.
    + cbn [map length fst]. fold (slaves m tbl).
      destruct (Nat.ltb_spec idx (length sv)) as [L|L].
      * rewrite IH by (rewrite set_nth_length; lia). rewrite set_nth_length.
        replace (S idx + length (slaves m tbl))%nat with (idx + S (length (slaves m tbl)))%nat by lia.
        destruct (Nat.leb_spec (idx + S (length (slaves m tbl))) (length sv)); [|reflexivity].
        rewrite firstn_S_set_nth by lia. rewrite skipn_set_nth_gt by lia.
        rewrite <- app_assoc. reflexivity.
      * destruct (Nat.leb_spec (idx + S (length (slaves m tbl))) (length sv)); [lia|reflexivity].
    + fold (slaves m tbl). apply IH. assumption.
Qed.

Lemma in_slaves : forall m tbl c, In c (slaves m tbl) <-> In (c, true) tbl /\ c <> m.
Proof.
  intros m tbl c. unfold slaves. rewrite in_map_iff. split.
  - intros [[c' d] [<- H]]. apply filter_In in H as [H1 H2]. cbn in *.
    apply andb_true_iff in H2 as [-> H2]. apply negb_true_iff, Nat.eqb_neq in H2. auto.
  - intros [H1 H2]. exists (c, true). split; [reflexivity|]. apply filter_In. split; [assumption|].
    cbn. apply negb_true_iff, Nat.eqb_neq. assumption.
Qed.
Lemma slaves_nodup : forall m tbl, NoDup (map fst tbl) -> NoDup (slaves m tbl).
Proof.
  intros m tbl. unfold slaves. induction tbl as [|[c d] tbl IH]; cbn; intros H; [constructor|].
  inversion H as [|? ? Hn Hd]; subst. destruct (d && negb (c =? m)%nat); [|auto].
  cbn. constructor; [|auto]. intros K. apply Hn. apply in_map_iff in K as [[c' d'] [E K]].
  cbn in E. subst c'. apply filter_In in K as [K _]. apply in_map_iff. exists (c, d'). auto.
Qed.
Lemma nodup_map_inj : forall A B (f : A -> B) l, (forall x y, f x = f y -> x = y) -> NoDup l -> NoDup (map f l).
Proof.
  intros A B f l Hf. induction 1; cbn; constructor; [|assumption].
  intros K. apply in_map_iff in K as [y [E K]]. apply Hf in E. subst. contradiction.
Qed.

Lemma reconfigure_some : forall e clk tbl e', reconfigure e clk tbl = Some e' ->
  exists m, clk = Some m /\ (length (slaves m tbl) <= length (e_servos e))%nat /\
    e' = mkEng (e_recs e) (e_clks e) (e_ranks e) (e_flags e) (e_sel e) (e_cand e) (e_timer e)
       (Some m) (map (fun c => Some (m, c)) (slaves m tbl) ++ skipn (length (slaves m tbl)) (e_servos e))
       (length (slaves m tbl)).
Proof.
  intros e clk tbl e' H. unfold reconfigure in H. destruct clk as [m|]; [|discriminate].
  cbn [bind] in H. rewrite assign_servos_spec in H by lia. cbn [Nat.add firstn app] in H.
  destruct (Nat.leb_spec (length (slaves m tbl)) (length (e_servos e))); [|discriminate].
  cbn [bind fst snd] in H. injection H as <-. exists m. auto.
Qed.
Lemma reconfigure_none : forall e clk tbl, reconfigure e clk tbl = None <->
  (clk = None \/ exists m, clk = Some m /\ (length (e_servos e) < length (slaves m tbl))%nat).
Proof.
  intros e clk tbl. unfold reconfigure. destruct clk as [m|]; cbn [bind].
  - rewrite assign_servos_spec by lia. cbn [Nat.add firstn app].
    destruct (Nat.leb_spec (length (slaves m tbl)) (length (e_servos e))); cbn [bind].
    + split; [discriminate|]. intros [K|[m' [E K]]]; [discriminate|]. injection E as <-. lia.
    + split; [|reflexivity]. intros _. right. eauto.
  - split; [auto|reflexivity].
Qed.

Lemma firstn_app_all : forall A (l l' : list A), firstn (length l) (l ++ l') = l.
Proof. intros. rewrite firstn_app, Nat.sub_diag, firstn_all. cbn. apply app_nil_r. Qed.

Lemma serve_of_slaves : forall e m tbl, NoDup (map fst tbl) ->
  running e = map (fun c => Some (m, c)) (slaves m tbl) -> servos_serve e m tbl.
Proof.
  intros e m tbl Hn Hr. unfold servos_serve. rewrite Hr. split.
  - apply nodup_map_inj; [congruence|]. apply slaves_nodup. assumption.
  - intros p. rewrite in_map_iff. split.
    + intros [c [<- Hc]]. apply in_slaves in Hc. exists c. tauto.
    + intros [c [-> Hc]]. exists c. split; [reflexivity|]. apply in_slaves. assumption.
Qed.

Lemma reconfigure_serves : forall e clk tbl e', NoDup (map fst tbl) ->
  reconfigure e clk tbl = Some e' ->
  exists m, clk = Some m /\ e_lrc e' = Some m /\ servos_serve e' m tbl.
Proof.
  intros e clk tbl e' Hn H. apply reconfigure_some in H as [m [-> [Hl ->]]].
  exists m. split; [reflexivity|]. split; [reflexivity|].
  apply serve_of_slaves; [assumption|]. unfold running. cbn [e_active e_servos].
  rewrite <- (map_length (fun c => Some (m, c)) (slaves m tbl)) at 1. apply firstn_app_all.
Qed.

(** ** Changing the selected instance *)
Definition dflags (e : eng) : list bool :=
  match e_sel e with Some old => set_nth old false (e_flags e) | None => e_flags e end.
Definition frame (e e' : eng) : Prop :=
  e_recs e' = e_recs e /\ e_clks e' = e_clks e /\ e_ranks e' = e_ranks e /\
  e_cand e' = e_cand e /\ e_timer e' = e_timer e.
Definition servos_kept (e e' : eng) : Prop :=
  e_lrc e' = e_lrc e /\ e_servos e' = e_servos e /\ e_active e' = e_active e.

Inductive sel_case (e : eng) (new : nat) (v : env) (e' : eng) : bool -> Prop :=
  | sel_same : e_sel e = Some new -> e' = e -> sel_case e new v e' true
  | sel_refused old : e_sel e = Some old -> old <> new -> deselect_ok v = false -> e' = e ->
      sel_case e new v e' false
  | sel_lost : e_sel e <> Some new -> (e_sel e <> None -> deselect_ok v = true) ->
      select_ok v = false -> frame e e' -> servos_kept e e' -> nth_error (e_clks e) new <> None ->
      e_sel e' = Some new -> e_flags e' = dflags e -> sel_case e new v e' false
  | sel_done clk : e_sel e <> Some new -> (e_sel e <> None -> deselect_ok v = true) ->
      select_ok v = true -> frame e e' -> nth_error (e_clks e) new = Some clk ->
      e_sel e' = Some new -> e_flags e' = set_nth new true (dflags e) -> e_lrc e' = clk ->
      (clk = e_lrc e /\ servos_kept e e' \/
       clk <> e_lrc e /\ reconfigure (with_sel e (set_nth new true (dflags e)) (Some new)) clk (clocks v) = Some e') ->
      sel_case e new v e' true.

Lemma select_sync_cases : forall e new v e' ok,
  select_sync e new v = Some (e', ok) -> sel_case e new v e' ok.
Proof.
  intros e new v e' ok H. unfold select_sync in H.
  destruct (same (Some new) (e_sel e)) eqn:Es.
  { apply same_iff in Es. injection H as <- <-. apply sel_same; auto. }
  apply same_false in Es.
  destruct (nth_error (e_clks e) new) as [clk|] eqn:Ec; [|discriminate]. cbn [bind] in H.
  fold (dflags e) in H.
  destruct (match e_sel e with Some _ => negb (deselect_ok v) | None => false end) eqn:Ed.
  { injection H as <- <-. destruct (e_sel e) as [old|] eqn:Eo; [|discriminate].
    apply negb_true_iff in Ed. eapply sel_refused; eauto; congruence. }
  assert (Hd : e_sel e <> None -> deselect_ok v = true).
  { destruct (e_sel e); [|congruence]. apply negb_false_iff in Ed. auto. }
  destruct (select_ok v) eqn:Eo; cbn [negb] in H.
  2:{ injection H as <- <-. apply sel_lost; auto; unfold frame, servos_kept; cbn; auto 6; congruence. }
  destruct (same clk (e_lrc e)) eqn:El; cbn [negb] in H.
  - apply same_iff in El. injection H as <- <-.
    apply sel_done with clk; auto; unfold frame, servos_kept; cbn; auto 8.
  - apply same_false in El.
    destruct (reconfigure _ clk (clocks v)) as [e2|] eqn:Er; [|discriminate].
    cbn [bind] in H. injection H as <- <-. pose proof Er as Er'.
    apply reconfigure_some in Er as [m [-> [_ E2]]].
    apply sel_done with (Some m); auto; rewrite E2; unfold frame; cbn; auto 8.
Qed.

Lemma reconfigure_frame : forall e clk tbl e', reconfigure e clk tbl = Some e' ->
  frame e e' /\ e_sel e' = e_sel e /\ e_flags e' = e_flags e /\ e_lrc e' = clk.
Proof.
  intros e clk tbl e' H. apply reconfigure_some in H as [m [-> [_ ->]]]. unfold frame. cbn. auto 10.
Qed.
Lemma sel_case_frame : forall e new v e' ok, sel_case e new v e' ok -> frame e e'.
Proof. intros e new v e' ok []; subst; try assumption; unfold frame; auto 8. Qed.

(** The first component of a choice does not depend on the ranks. *)
Lemma choose_ranks : forall rd sort policy recs k k' r ks,
  choose rd sort policy recs k = Some (r, ks) ->
  exists ks', choose rd sort policy recs k' = Some (r, ks').
Proof.
  intros rd sort policy recs k k' r ks. unfold choose.
  destruct (length recs) as [|[|n]]; [intros H; injection H as <- _; eauto..|].
  destruct (has_tie_break policy); [|discriminate].
  destruct (hd_error _); cbn [bind]; [|discriminate]. intros H. injection H as <- _. eauto.
Qed.
Lemma best_frame : forall cf e e', e_recs e' = e_recs e -> best cf e' = best cf e.
Proof.
  intros cf e e' H. unfold best. rewrite H.
  destruct (choose _ _ _ (e_recs e) (e_ranks e)) as [[r ks]|] eqn:E.
  - destruct (choose_ranks _ _ _ _ _ (e_ranks e') _ _ E) as [ks' ->]. reflexivity.
  - destruct (choose _ _ _ (e_recs e) (e_ranks e')) as [[r ks]|] eqn:E'; [|reflexivity].
    destruct (choose_ranks _ _ _ _ _ (e_ranks e) _ _ E') as [ks' K]. congruence.
Qed.
Lemma best_choose : forall cf e r ks new, e_recs e = r ->
  choose (cf_rd cf) (cf_sort cf) (cf_policy cf) r ks = Some (Some new, e_ranks e) ->
  best cf e = Some new.
Proof.
  intros cf e r ks new Hr H. unfold best. rewrite Hr.
  destruct (choose_ranks _ _ _ _ _ (e_ranks e) _ _ H) as [ks' ->]. reflexivity.
Qed.

(** ** A status report *)
(** [e1]: the reference clock of the selected instance has been taken over. [e2]: the status
    has been stored and the instances rated. *)
Record rated (cf : config) (e : eng) (i : nat) (r : report) (v : env) (x : inst) (e2 : eng) (new : nat) : Prop := {
  rt_rec : nth_error (e_recs e) i = Some x;
  rt_recs : e_recs e2 = set_nth i (store x (r_inst r)) (e_recs e);
  rt_clks : e_clks e2 = set_nth i (r_clock r) (e_clks e);
  rt_sel : e_sel e2 = e_sel e;
  rt_flags : e_flags e2 = e_flags e;
  rt_cand : e_cand e2 = e_cand e;
  rt_timer : e_timer e2 = e_timer e;
  rt_best : best cf e2 = Some new;
  rt_ranks : length (e_ranks e2) = length (e_ranks e);
  rt_lrc : (e_sel e = Some i /\ r_clock r <> e_lrc e /\ exists e1,
              reconfigure e (r_clock r) (clocks v) = Some e1 /\ servos_kept e1 e2) \/
           (~ (e_sel e = Some i /\ r_clock r <> e_lrc e) /\ servos_kept e e2) }.

Inductive report_case (cf : config) (e : eng) (now : Z) (i : nat) (r : report) (v : env) (e' : eng) : Prop :=
  | rep_keep x new : rated cf e i r v x e' new -> e_sel e = Some new -> e_cand e = None ->
      report_case cf e now i r v e'
  | rep_cand x new : rated cf e i r v x e' new -> e_cand e = Some new ->
      report_case cf e now i r v e'
  | rep_now x new e2 ok : rated cf e i r v x e2 new -> cf_holdoff cf = 0 ->
      ~ (e_sel e = Some new /\ e_cand e = None) -> e_cand e <> Some new ->
      sel_case e2 new v e' ok -> report_case cf e now i r v e'
  | rep_restart x new e2 : rated cf e i r v x e2 new -> cf_holdoff cf <> 0 ->
      ~ (e_sel e = Some new /\ e_cand e = None) -> e_cand e <> Some new ->
      e_cand e = None \/ e_sel e = Some new ->
      e' = with_cand e2 (Some new) (restart cf now (e_timer e) v) -> report_case cf e now i r v e'
  | rep_change x new e2 c : rated cf e i r v x e2 new -> cf_holdoff cf <> 0 ->
      e_cand e = Some c -> c <> new -> e_sel e <> Some new ->
      e' = with_cand e2 (Some new) (e_timer e) -> report_case cf e now i r v e'.

Lemma choose_length : forall rd sort policy recs k r ks,
  choose rd sort policy recs k = Some (r, ks) -> length ks = length k.
Proof.
  intros rd sort policy recs k r ks. unfold choose.
  destruct (length recs) as [|[|n]]; [intros H; injection H as _ <-; reflexivity..|].
  destruct (has_tie_break policy); [|discriminate].
  destruct (hd_error _); cbn [bind]; [|discriminate]. intros H. injection H as _ <-.
  apply assign_ranks_length.
Qed.

Lemma on_report_cases : forall cf e now i r v e',
  on_report cf e now i r v = Some e' -> report_case cf e now i r v e'.
Proof.
  intros cf e now i r v e' H. unfold on_report in H.
  destruct (nth_error (e_recs e) i) as [x|] eqn:Ex; [|discriminate]. cbn [bind] in H.
  set (cond := same (Some i) (e_sel e) && negb (same (r_clock r) (e_lrc e))) in *.
  assert (Hc : cond = true <-> e_sel e = Some i /\ r_clock r <> e_lrc e).
  { unfold cond. rewrite andb_true_iff, negb_true_iff, same_iff, same_false. intuition congruence. }
  destruct (if cond then reconfigure e (r_clock r) (clocks v) else Some e) as [e1|] eqn:E1; [|discriminate].
  assert (F : frame e e1 /\ e_sel e1 = e_sel e /\ e_flags e1 = e_flags e).
  { destruct cond.
    - apply reconfigure_frame in E1. tauto.
    - injection E1 as <-. unfold frame. auto 8. }
  destruct F as [[F1 [F2 [F3 [F4 F5]]]] [F6 F7]]. cbn [bind] in H.
  destruct (choose _ _ _ _ _) as [[ch ks]|] eqn:Ech; [|discriminate]. cbn [bind fst snd] in H.
  destruct ch as [new|]; [|discriminate]. cbn [bind] in H.
  set (e2 := with_recs e1 _ _ ks) in *.
  assert (R : rated cf e i r v x e2 new).
  { constructor; cbn; try congruence.
    - eapply best_choose; [reflexivity|]. exact Ech.
    - rewrite (choose_length _ _ _ _ _ _ _ Ech). congruence.
    - destruct cond eqn:Eco.
      + left. destruct (proj1 Hc eq_refl) as [A B]. split; [exact A|]. split; [exact B|].
        exists e1. split; [exact E1|]. unfold servos_kept. cbn. auto.
      + right. split; [intros K; apply Hc in K; discriminate|]. injection E1 as <-.
        unfold servos_kept. cbn. auto. }
  assert (S2 : e_sel e2 = e_sel e) by (apply (rt_sel _ _ _ _ _ _ _ _ R)).
  assert (C2 : e_cand e2 = e_cand e) by (apply (rt_cand _ _ _ _ _ _ _ _ R)).
  assert (T2 : e_timer e2 = e_timer e) by (apply (rt_timer _ _ _ _ _ _ _ _ R)).
  clearbody e2. rewrite S2, C2, T2 in H.
  destruct (same (Some new) (e_sel e) && same (e_cand e) None) eqn:Ek.
  { injection H as <-. apply andb_true_iff in Ek as [K1 K2]. apply same_iff in K1, K2.
    eapply rep_keep; eauto. }
  assert (N1 : ~ (e_sel e = Some new /\ e_cand e = None)).
  { intros [K1 K2]. rewrite K1, K2, same_refl in Ek. discriminate. }
  destruct (same (Some new) (e_cand e)) eqn:Ec.
  { injection H as <-. apply same_iff in Ec. eapply rep_cand; eauto. }
  apply same_false in Ec.
  destruct (cf_holdoff cf =? 0) eqn:Eh.
  { apply Z.eqb_eq in Eh. destruct (select_sync e2 new v) as [[e3 ok]|] eqn:Es; [|discriminate].
    cbn [bind fst] in H. injection H as <-. apply select_sync_cases in Es.
    eapply rep_now; eauto. }
  apply Z.eqb_neq in Eh. injection H as <-.
  destruct (same (e_cand e) None || same (e_sel e) (Some new)) eqn:Er.
  - apply orb_true_iff in Er. rewrite !same_iff in Er. eapply rep_restart; eauto.
  - apply orb_false_iff in Er as [K1 K2]. apply same_false in K1, K2.
    destruct (e_cand e) as [c|] eqn:Ecc; [|congruence].
    eapply rep_change; eauto; congruence.
Qed.

(** ** Runs *)
Lemma run_snoc : forall cf evs e ev, run cf e (evs ++ [ev]) =
  (do tr <- run cf e evs; do e' <- step cf (last_state e tr) ev; Some (tr ++ [(ev, e')])).
Proof.
  intros cf. induction evs as [|a evs IH]; intros e ev; cbn [app run].
  - cbn. destruct (step cf e ev); reflexivity.
  - destruct (step cf e a) as [e1|]; [|reflexivity]. cbn [bind]. rewrite IH.
    destruct (run cf e1 evs) as [tr|]; [|reflexivity]. cbn [bind].
    replace (last_state e ((a, e1) :: tr)) with (last_state e1 tr).
    2:{ unfold last_state. cbn [map snd]. destruct tr as [|p tr]; [reflexivity|].
        cbn [map]. generalize (snd p). induction (map snd tr); intros; [reflexivity|]. cbn in *. auto. }
    destruct (step cf (last_state e1 tr) ev); reflexivity.
Qed.
Lemma last_state_snoc : forall e tr ev e', last_state e (tr ++ [(ev, e')]) = e'.
Proof. intros. unfold last_state. rewrite map_app. cbn. apply last_last. Qed.

Lemma run_events : forall cf evs e tr, run cf e evs = Some tr -> map fst tr = evs.
Proof.
  intros cf. induction evs as [|a evs IH]; intros e tr H; cbn in H.
  - injection H as <-. reflexivity.
  - destruct (step cf e a) as [e1|]; [|discriminate]. cbn [bind] in H.
    destruct (run cf e1 evs) as [tr'|] eqn:E; [|discriminate]. cbn [bind] in H.
    injection H as <-. cbn. f_equal. eauto.
Qed.

(** Induction over runs, adding events at the end. *)
Lemma run_ind : forall cf e0 (P : trace -> Prop),
  P [] ->
  (forall tr ev e', P tr -> run cf e0 (map fst tr) = Some tr ->
     step cf (last_state e0 tr) ev = Some e' -> P (tr ++ [(ev, e')])) ->
  forall evs tr, run cf e0 evs = Some tr -> P tr.
Proof.
  intros cf e0 P H0 Hs. induction evs as [|ev evs IH] using rev_ind; intros tr H.
  - cbn in H. injection H as <-. exact H0.
  - rewrite run_snoc in H. destruct (run cf e0 evs) as [tr'|] eqn:E; [|discriminate].
    cbn [bind] in H. destruct (step cf (last_state e0 tr') ev) as [e'|] eqn:E'; [|discriminate].
    cbn [bind] in H. injection H as <-. apply Hs; [apply IH; reflexivity| |exact E'].
    rewrite (run_events _ _ _ _ E). exact E.
Qed.

(** What one event does, as cases. *)
Inductive step_case (cf : config) (e : eng) (ev : event) (e' : eng) : Prop :=
  | st_report i r : ev_act ev = Report i r -> report_case cf e (ev_time ev) i r (ev_env ev) e' ->
      step_case cf e ev e'
  | st_idle : e' = e ->
      (ev_act ev = HoldoffExpiry /\ (forall d, e_timer e = Some d -> ev_time ev < d)) \/
      (exists i, ev_act ev = UserSelect i /\ (cf_strategy cf <> ManualChoice \/ i = None)) ->
      step_case cf e ev e'
  | st_nothing d : ev_act ev = HoldoffExpiry -> e_timer e = Some d -> d <= ev_time ev ->
      e_cand e = None -> e' = with_cand e None None -> step_case cf e ev e'
  | st_fire d c e1 ok : ev_act ev = HoldoffExpiry -> e_timer e = Some d -> d <= ev_time ev ->
      e_cand e = Some c -> sel_case (with_cand e (Some c) None) c (ev_env ev) e1 ok ->
      e' = with_cand e1 None None -> step_case cf e ev e'
  | st_user k ok : ev_act ev = UserSelect (Some k) -> cf_strategy cf = ManualChoice ->
      sel_case (with_recs e (select_instance (e_recs e) (Some k)) (e_clks e) (e_ranks e)) k
               (ev_env ev) e' ok -> step_case cf e ev e'
  | st_plug s clk : ev_act ev = Hotplug -> e_sel e = Some s -> nth_error (e_clks e) s = Some clk ->
      reconfigure e clk (clocks (ev_env ev)) = Some e' -> step_case cf e ev e'.

Lemma step_cases : forall cf e ev e', step cf e ev = Some e' -> step_case cf e ev e'.
Proof.
  intros cf e ev e' H. unfold step in H. destruct (ev_act ev) as [i r| |i|] eqn:Ea.
  - eapply st_report; [eassumption|]. apply on_report_cases. assumption.
  - destruct (e_timer e) as [d|] eqn:Et.
    + destruct (Z.leb_spec d (ev_time ev)) as [L|L].
      * unfold on_holdoff in H. cbn [e_cand with_cand] in H. destruct (e_cand e) as [c|] eqn:Ec.
        -- destruct (select_sync _ c _) as [[e1 ok]|] eqn:Es; [|discriminate].
           cbn [bind fst] in H. injection H as <-. apply select_sync_cases in Es.
           eapply st_fire; eauto.
           pose proof (sel_case_frame _ _ _ _ _ Es) as [_ [_ [_ [_ F]]]]. cbn in F. rewrite F. reflexivity.
        -- injection H as <-. eapply st_nothing; eauto.
      * injection H as <-. apply st_idle; [reflexivity|]. left. split; [assumption|].
        intros d' E. congruence.
    + injection H as <-. apply st_idle; [reflexivity|]. left. split; [assumption|]. congruence.
  - unfold on_select in H. destruct (cf_strategy cf) eqn:Es.
    1,3: injection H as <-; apply st_idle; [reflexivity|]; right; exists i; split; [assumption|]; left; congruence.
    destruct i as [k|].
    + destruct (select_sync _ k _) as [[e1 ok]|] eqn:E; [|discriminate].
      cbn [bind fst] in H. injection H as <-. apply select_sync_cases in E. eapply st_user; eauto.
    + injection H as <-. apply st_idle; [reflexivity|]. right. exists None. auto.
  - destruct (e_sel e) as [s|] eqn:Es; [|discriminate]. cbn [bind] in H.
    destruct (nth_error (e_clks e) s) as [clk|] eqn:Ec; [|discriminate]. cbn [bind] in H.
    eapply st_plug; eauto.
Qed.

(** ** At most one instance is selected *)
Record wf (e : eng) : Prop := {
  wf_flags : length (e_flags e) = length (e_recs e);
  wf_clks : length (e_clks e) = length (e_recs e);
  wf_ranks : length (e_ranks e) = length (e_recs e);
  wf_sel : forall s, e_sel e = Some s -> (s < length (e_recs e))%nat;
  wf_told : forall i, nth_error (e_flags e) i = Some true -> e_sel e = Some i }.
Definition told (e : eng) : Prop := forall s, e_sel e = Some s -> nth_error (e_flags e) s = Some true.

Lemma dflags_false : forall e i, wf e -> nth_error (dflags e) i = Some true -> False.
Proof.
  intros e i W H. unfold dflags in H. destruct (e_sel e) as [s|] eqn:E.
  - destruct (Nat.eq_dec s i) as [->|N].
    + rewrite nth_error_set_nth_same in H; [discriminate|]. rewrite (wf_flags _ W). apply (wf_sel _ W). assumption.
    + rewrite nth_error_set_nth_other in H by assumption. apply (wf_told _ W) in H. congruence.
  - apply (wf_told _ W) in H. congruence.
Qed.
Lemma dflags_length : forall e, length (dflags e) = length (e_flags e).
Proof. intros e. unfold dflags. destruct (e_sel e); [apply set_nth_length|reflexivity]. Qed.

Lemma sel_case_wf : forall e new v e' ok, sel_case e new v e' ok -> wf e -> wf e'.
Proof.
  intros e new v e' ok C W. destruct C as [? ->|? ? ? ? ->|Hs Hd Hk [F1 [F2 [F3 [F4 F5]]]] K Hn S2 G|clk Hs Hd Hk [F1 [F2 [F3 [F4 F5]]]] Hn S2 G L R]; try assumption.
  - constructor.
    + rewrite G, F1, dflags_length. apply W.
    + rewrite F1, F2. apply W.
    + rewrite F1, F3. apply W.
    + intros s E. rewrite F1, <- (wf_clks _ W). rewrite S2 in E. injection E as <-. apply nth_error_Some. assumption.
    + intros i H. rewrite G in H. exfalso. eapply dflags_false; eauto.
  - assert (Hlt : (new < length (e_recs e))%nat) by (rewrite <- (wf_clks _ W); apply nth_error_Some; congruence).
    constructor.
    + rewrite G, F1, set_nth_length, dflags_length. apply W.
    + rewrite F1, F2. apply W.
    + rewrite F1, F3. apply W.
    + intros s E. rewrite F1. rewrite S2 in E. injection E as <-. assumption.
    + intros i H. rewrite S2. rewrite G in H. destruct (Nat.eq_dec new i) as [->|N]; [reflexivity|].
      rewrite nth_error_set_nth_other in H by assumption. exfalso. eapply dflags_false; eauto.
Qed.
Lemma sel_case_told : forall e new v e' ok, sel_case e new v e' ok -> wf e -> told e ->
  deselect_ok v = true -> select_ok v = true ->
  told e' /\ e_sel e' = Some new.
Proof.
  intros e new v e' ok C W T Hd Hs. destruct C as [? ->|? ? ? ? ->|? ? ? ? ? ? ? ?|clk ? ? ? ? Hn S2 G ? ?]; try congruence.
  - split; assumption.
  - split; [|assumption]. intros s E. rewrite S2 in E. injection E as <-. rewrite G.
    apply nth_error_set_nth_same. rewrite dflags_length, (wf_flags _ W), <- (wf_clks _ W).
    apply nth_error_Some. congruence.
Qed.
Lemma wf_with_cand : forall e c t, wf e -> wf (with_cand e c t).
Proof. intros e c t [A B C D E]. constructor; assumption. Qed.
Lemma rated_wf : forall cf e i r v x e2 new, rated cf e i r v x e2 new -> wf e -> wf e2.
Proof.
  intros cf e i r v x e2 new R W. constructor.
  - rewrite (rt_flags _ _ _ _ _ _ _ _ R), (rt_recs _ _ _ _ _ _ _ _ R), set_nth_length. apply W.
  - rewrite (rt_clks _ _ _ _ _ _ _ _ R), (rt_recs _ _ _ _ _ _ _ _ R), !set_nth_length. apply W.
  - rewrite (rt_ranks _ _ _ _ _ _ _ _ R), (rt_recs _ _ _ _ _ _ _ _ R), set_nth_length. apply W.
  - rewrite (rt_sel _ _ _ _ _ _ _ _ R), (rt_recs _ _ _ _ _ _ _ _ R), set_nth_length. apply W.
  - rewrite (rt_sel _ _ _ _ _ _ _ _ R), (rt_flags _ _ _ _ _ _ _ _ R). apply W.
Qed.
Lemma rated_told : forall cf e i r v x e2 new, rated cf e i r v x e2 new -> told e -> told e2.
Proof.
  intros cf e i r v x e2 new R T s. rewrite (rt_sel _ _ _ _ _ _ _ _ R), (rt_flags _ _ _ _ _ _ _ _ R). apply T.
Qed.
Lemma select_instance_length : forall recs k, length (select_instance recs k) = length recs.
Proof. intros. unfold select_instance. rewrite map_length, combine_length, seq_length. apply Nat.min_id. Qed.
Lemma wf_user : forall e k, wf e -> wf (with_recs e (select_instance (e_recs e) k) (e_clks e) (e_ranks e)).
Proof.
  intros e k W. constructor; cbn; rewrite ?select_instance_length; apply W.
Qed.
Lemma reconfigure_wf : forall e clk tbl e', reconfigure e clk tbl = Some e' -> wf e -> wf e'.
Proof.
  intros e clk tbl e' H W. apply reconfigure_frame in H as [[F1 [F2 [F3 _]]] [F4 [F5 _]]].
  constructor; rewrite ?F1, ?F2, ?F3, ?F4, ?F5; apply W.
Qed.

Lemma step_wf : forall cf e ev e', step cf e ev = Some e' -> wf e -> wf e'.
Proof.
  intros cf e ev e' H W. apply step_cases in H. destruct H as [i r _ C| -> _ |? ? ? ? ? ->|? ? ? ? ? ? ? ? C ->|? ? ? ? C|? ? ? ? ? R].
  - destruct C as [x new R ? ?|x new R ?|x new e2 ok R ? ? ? C|x new e2 R ? ? ? ? ->|x new e2 c R ? ? ? ? ->].
    + eapply rated_wf; eauto.
    + eapply rated_wf; eauto.
    + eapply sel_case_wf; [eassumption|]. eapply rated_wf; eauto.
    + apply wf_with_cand. eapply rated_wf; eauto.
    + apply wf_with_cand. eapply rated_wf; eauto.
  - assumption.
  - apply wf_with_cand. assumption.
  - apply wf_with_cand. eapply sel_case_wf; [eassumption|]. apply wf_with_cand. assumption.
  - eapply sel_case_wf; [eassumption|]. apply wf_user. assumption.
  - eapply reconfigure_wf; eauto.
Qed.
Lemma step_told : forall cf e ev e', step cf e ev = Some e' -> wf e -> controls_ok ev -> told e -> told e'.
Proof.
  intros cf e ev e' H W [Ok1 Ok2] T. apply step_cases in H. destruct H as [i r _ C| -> _ |? ? ? ? ? ->|? ? ? ? ? ? ? ? C ->|? ? ? ? C|? ? ? ? ? R].
  - destruct C as [x new R ? ?|x new R ?|x new e2 ok R ? ? ? C|x new e2 R ? ? ? ? ->|x new e2 c R ? ? ? ? ->].
    + eapply rated_told; eauto.
    + eapply rated_told; eauto.
    + eapply sel_case_told; eauto; [eapply rated_wf|eapply rated_told]; eauto.
    + exact (rated_told _ _ _ _ _ _ _ _ R T).
    + exact (rated_told _ _ _ _ _ _ _ _ R T).
  - assumption.
  - exact T.
  - eapply sel_case_told in C as [C _]; eauto using wf_with_cand.
  - eapply sel_case_told in C as [C _]; eauto using wf_user.
  - apply reconfigure_frame in R as [_ [F4 [F5 _]]]. intros s0. rewrite F4, F5. apply T.
Qed.

(** ** Start-up *)
Record started (cf : config) (initial : option nat) (v : env) (e : eng) : Prop := {
  su_wf : wf e; su_told : told e;
  su_sel : exists s, e_sel e = Some s /\
    match cf_strategy cf with Automatic => best cf e = Some s | _ => initial = Some s end;
  su_cand : cf_strategy cf <> ManualStartup -> e_cand e = None /\ e_timer e = None;
  su_mark : cf_strategy cf = ManualChoice ->
    forall i x, nth_error (e_recs e) i = Some x -> (i_selected x = true <-> e_sel e = Some i);
  su_lrc : exists s, e_sel e = Some s /\ nth_error (e_clks e) s = Some (e_lrc e);
  su_servos : match e_lrc e with
              | Some m => NoDup (map fst (clocks v)) -> servos_serve e m (clocks v)
              | None => e_active e = 0%nat
              end }.

Lemma with_cand_same : forall e, with_cand e (e_cand e) (e_timer e) = e.
Proof. intros []. reflexivity. Qed.

Lemma startup_started : forall cf reports initial total now v e,
  startup cf reports initial total now v = Some e ->
  started cf initial v e /\
  (forall i x, nth_error (e_recs e) i = Some x ->
     exists r y, nth_error reports i = Some r /\ store y (r_inst r) = x) /\
  length (e_servos e) = total.
Proof.
  intros cf reports initial total now v e H. unfold startup in H.
  set (unmarked := fun r : report => store _ (r_inst r)) in *.
  set (recs := map unmarked reports) in *.
  destruct (choose _ _ _ recs _) as [[ch ks]|] eqn:Ech; [|discriminate]. cbn [bind fst snd] in H.
  destruct ch as [bic|]; [|discriminate]. cbn [bind] in H.
  assert (Lk : length ks = length recs).
  { rewrite (choose_length _ _ _ _ _ _ _ Ech). apply map_length. }
  assert (Recs : forall i x, nth_error recs i = Some x ->
     exists r y, nth_error reports i = Some r /\ store y (r_inst r) = x).
  { intros i x Hx. unfold recs in Hx. rewrite nth_error_map in Hx.
    destruct (nth_error reports i) as [r|]; [|discriminate]. cbn in Hx. injection Hx as <-.
    exists r. eexists. split; [reflexivity|]. reflexivity. }
  assert (Base0 : forall rs, length rs = length recs ->
    wf (mkEng rs (map r_clock reports) ks (map (fun _ => false) reports) None None None None (repeat None total) 0)).
  { intros rs Hr. assert (Lr : length recs = length reports) by apply map_length.
    constructor; cbn; rewrite ?map_length; [congruence|congruence|congruence|discriminate|].
    intros i K. rewrite nth_error_map in K. destruct (nth_error reports i); discriminate. }
  assert (Main : forall rs k e1 ok, length rs = length recs ->
    sel_case (mkEng rs (map r_clock reports) ks (map (fun _ => false) reports) None None None None (repeat None total) 0) k v e1 ok ->
    ok = true -> wf e1 /\ told e1 /\ e_sel e1 = Some k /\ e_recs e1 = rs /\ e_ranks e1 = ks /\
      e_cand e1 = None /\ e_timer e1 = None /\ nth_error (e_clks e1) k = Some (e_lrc e1) /\
      match e_lrc e1 with
      | Some m => NoDup (map fst (clocks v)) -> servos_serve e1 m (clocks v)
      | None => e_active e1 = 0%nat
      end /\ length (e_servos e1) = total).
  { intros rs k e1 ok Hr C Hok. pose proof (sel_case_wf _ _ _ _ _ C (Base0 rs Hr)) as W1.
    destruct C as [? ? | ? ? ? ? ? | ? ? ? ? ? ? ? ? | clk ? ? Hs [F1 [F2 [F3 [F4 F5]]]] Hn S2 G L R]; cbn in *; try discriminate.
    split; [assumption|]. split.
    { intros s E. rewrite S2 in E. injection E as <-. rewrite G. unfold dflags. cbn.
      apply nth_error_set_nth_same. pose proof (wf_sel _ W1 k S2) as K. rewrite F1 in K.
      rewrite map_length. rewrite Hr in K. unfold recs in K. rewrite map_length in K. assumption. }
    split; [assumption|]. split; [assumption|]. split; [assumption|]. split; [assumption|]. split; [assumption|].
    split; [rewrite F2, L; assumption|].
    destruct R as [[Eclk [K1 [K2 K3]]]|[_ R]]; cbn in *.
    - rewrite L, Eclk. split; [assumption|]. rewrite K2. apply repeat_length.
    - pose proof R as R'. apply reconfigure_some in R' as [m [Em [Hl E]]]. rewrite L, Em. split.
      + intros Hn'. destruct (reconfigure_serves _ _ _ _ Hn' R) as [m' [E' [_ K]]]. congruence.
      + rewrite E. cbn [e_servos]. rewrite app_length, map_length, skipn_length. cbn in Hl |- *.
        rewrite repeat_length in *. lia. }
  destruct (cf_strategy cf) eqn:Est.
  - destruct (select_sync _ bic v) as [[e1 ok]|] eqn:Es; [|discriminate]. cbn [bind fst snd] in H.
    destruct ok; [|discriminate]. cbn [bind] in H. injection H as <-. apply select_sync_cases in Es.
    destruct (Main _ _ _ _ eq_refl Es eq_refl) as [W [T [Hs [Hr [Hk [Hc [Ht [Hn [Hv Hlen]]]]]]]]].
    split; [|split; [rewrite Hr; exact Recs|exact Hlen]]. constructor; try assumption.
    + exists bic. rewrite Est. split; [assumption|]. eapply best_choose; [exact Hr|]. rewrite Hk. exact Ech.
    + auto.
    + congruence.
    + eauto.
  - destruct initial as [k|]; [|discriminate]. cbn [bind] in H.
    destruct (select_sync _ k v) as [[e1 ok]|] eqn:Es; [|discriminate]. cbn [bind fst snd] in H.
    destruct ok; [|discriminate]. cbn [bind] in H. injection H as <-. apply select_sync_cases in Es.
    destruct (Main _ _ _ _ (select_instance_length _ _) Es eq_refl) as [W [T [Hs [Hr [Hk [Hc [Ht [Hn [Hv Hlen]]]]]]]]].
    destruct (C11_select_instance_one_selected recs (Some k)) as [_ [_ Hm]].
    assert (Hm' : forall i y, nth_error (select_instance recs (Some k)) i = Some y ->
      exists x, nth_error recs i = Some x /\ (i_selected y = true <-> Some k = Some i) /\
        store y x = y).
    { intros i y Hy. destruct (nth_error recs i) as [x|] eqn:Ex.
      - destruct (Hm i x Ex) as [y' [Hy' [Hsel [E1 E2]]]]. rewrite Hy in Hy'. injection Hy' as <-.
        exists x. split; [reflexivity|]. split; [assumption|].
        destruct x, y. unfold store. cbn in *. congruence.
      - apply nth_error_None in Ex. rewrite <- (select_instance_length recs (Some k)) in Ex.
        apply nth_error_None in Ex. congruence. }
    split; [|split; [|exact Hlen]].
    + constructor; try assumption.
      * exists k. rewrite Est. auto.
      * auto.
      * intros _ i x Hx. rewrite Hr in Hx. cbn in Hx. destruct (Hm' i x Hx) as [_ [_ [K _]]]. rewrite Hs. exact K.
      * eauto.
    + intros i y Hy. rewrite Hr in Hy. cbn in Hy. destruct (Hm' i y Hy) as [x [Ex [_ E]]].
      destruct (Recs i x Ex) as [r [z [Hr' E']]]. exists r, y. split; [assumption|].
      rewrite <- E at 2. rewrite <- E'. reflexivity.
  - destruct initial as [k|]; [|discriminate]. cbn [bind] in H.
    destruct (select_sync _ k v) as [[e1 ok]|] eqn:Es; [|discriminate]. cbn [bind fst snd] in H.
    destruct ok; [|discriminate]. cbn [bind] in H. apply select_sync_cases in Es.
    destruct (Main _ _ _ _ eq_refl Es eq_refl) as [W [T [Hs [Hr [Hk [Hc [Ht [Hn [Hv Hlen]]]]]]]]].
    set (e2 := if (bic =? k)%nat then e1 else with_cand e1 (Some bic) (e_timer e1)) in *.
    assert (Hsame : exists c t, e2 = with_cand e1 c t).
    { unfold e2. destruct (bic =? k)%nat; eauto. exists (e_cand e1), (e_timer e1).
      symmetry. apply with_cand_same. }
    assert (Hfin : exists c t, e = with_cand e1 c t).
    { destruct Hsame as [c [t E2]]. rewrite E2 in H.
      destruct (negb _ && negb _); [destruct (start_ok v); [|discriminate]|]; injection H as <-; do 2 eexists; reflexivity. }
    destruct Hfin as [c [t ->]].
    split; [|split; [cbn; rewrite Hr; exact Recs|exact Hlen]]. constructor; cbn; try assumption.
    + apply wf_with_cand. assumption.
    + exists k. rewrite Est. auto.
    + congruence.
    + congruence.
    + eauto.
Qed.

(** ** Hold-off *)
(** Once the instance [s] has stopped being rated best it has not been rated best since. *)
Definition no_recovery (cf : config) (s : option nat) (l : list eng) : Prop :=
  forall l1 x l2, l = l1 ++ x :: l2 -> best cf x <> s -> Forall (fun y => best cf y <> s) l2.

Lemma no_recovery_one : forall cf s x, no_recovery cf s [x].
Proof.
  intros cf s x l1 y l2 H _. destruct l1 as [|a [|b l1]]; cbn in H.
  - injection H as _ <-. constructor.
  - discriminate.
  - discriminate.
Qed.
Lemma split_snoc : forall A (l : list A) x l1 y l2, l ++ [x] = l1 ++ y :: l2 ->
  (l1 = l /\ y = x /\ l2 = []) \/ exists l2', l2 = l2' ++ [x] /\ l = l1 ++ y :: l2'.
Proof.
  intros A l x l1 y l2 H. destruct l2 as [|z l2 _] using rev_ind.
  - left. apply app_inj_tail in H as [-> ->]. auto.
  - right. exists l2. rewrite app_comm_cons, app_assoc in H. apply app_inj_tail in H as [-> ->]. auto.
Qed.
Lemma no_recovery_other : forall cf s l x, no_recovery cf s l -> best cf x <> s -> no_recovery cf s (l ++ [x]).
Proof.
  intros cf s l x H Hx l1 y l2 E Hy. apply split_snoc in E as [[_ [_ ->]]|[l2' [-> E]]]; [constructor|].
  apply Forall_app. split; [eapply H; eauto|]. constructor; [assumption|constructor].
Qed.
Lemma no_recovery_same : forall cf s l y x, no_recovery cf s (l ++ [y]) -> best cf x = best cf y ->
  no_recovery cf s ((l ++ [y]) ++ [x]).
Proof.
  intros cf s l y x H Hxy l1 z l2 E Hz. apply split_snoc in E as [[_ [_ ->]]|[l2' [-> E]]]; [constructor|].
  pose proof (H _ _ _ E Hz) as K. apply Forall_app. split; [assumption|].
  constructor; [|constructor]. rewrite Hxy. apply split_snoc in E as [[_ [E _]]|[l3 [-> _]]]; [congruence|].
  apply Forall_app in K as [_ K]. inversion K. assumption.
Qed.

(** The running timer was (re)started by an event [ev0]; the selected instance has not
    changed since, and has not recovered unnoticed. *)
Definition since (cf : config) (tr : trace) (e : eng) (d : Z) : Prop :=
  exists pre ev0 e0 post, tr = pre ++ (ev0, e0) :: post /\ d = ev_time ev0 + holdoff_ns cf /\
    (exists i r, ev_act ev0 = Report i r) /\
    Forall (fun x => e_sel x = e_sel e) (e0 :: map snd post) /\
    no_recovery cf (e_sel e) (e0 :: map snd post).
Record pending (cf : config) (e0 : eng) (tr : trace) : Prop := {
  pd_cand : forall c, e_cand (last_state e0 tr) = Some c -> best cf (last_state e0 tr) = Some c;
  pd_none : e_cand (last_state e0 tr) = None -> e_timer (last_state e0 tr) = None;
  pd_since : forall d, e_timer (last_state e0 tr) = Some d -> since cf tr (last_state e0 tr) d }.

Lemma since_snoc : forall cf e0 tr ev e' d, since cf tr (last_state e0 tr) d ->
  e_sel e' = e_sel (last_state e0 tr) ->
  best cf e' = best cf (last_state e0 tr) \/ best cf e' <> e_sel (last_state e0 tr) ->
  since cf (tr ++ [(ev, e')]) e' d.
Proof.
  intros cf e0 tr ev e' d [pre [ev0 [x0 [post [E [Hd [Hr [Hf Hn]]]]]]]] Hs Hb.
  exists pre, ev0, x0, (post ++ [(ev, e')]).
  split; [rewrite E, <- app_assoc; reflexivity|]. split; [assumption|]. split; [assumption|].
  rewrite Hs, map_app. cbn [map snd]. rewrite app_comm_cons. split.
  - apply Forall_app. split; [assumption|]. constructor; [assumption|constructor].
  - destruct Hb as [Hb|Hb].
    + destruct (exists_last (l := x0 :: map snd post)) as [l [y El]]; [discriminate|].
      rewrite El in *. apply no_recovery_same; [assumption|]. rewrite Hb. f_equal.
      unfold last_state. rewrite E, map_app. cbn [map snd]. rewrite El.
      rewrite app_assoc. apply last_last.
    + apply no_recovery_other; assumption.
Qed.

Lemma best_with_cand : forall cf e c t, best cf (with_cand e c t) = best cf e.
Proof. intros. apply best_frame. reflexivity. Qed.

Lemma step_pending : forall cf e0 tr ev e', cf_strategy cf = Automatic -> cf_holdoff cf <> 0 ->
  pending cf e0 tr -> step cf (last_state e0 tr) ev = Some e' -> timers_ok ev ->
  pending cf e0 (tr ++ [(ev, e')]).
Proof.
  intros cf e0 tr ev e' Ha Hh [P1 P2 P3] H Tok. set (e := last_state e0 tr) in *.
  assert (Keep : e_sel e' = e_sel e -> e_cand e' = e_cand e -> e_timer e' = e_timer e ->
    best cf e' = best cf e -> pending cf e0 (tr ++ [(ev, e')])).
  { intros K1 K2 K3 K4. constructor; rewrite last_state_snoc.
    - intros c. rewrite K2, K4. apply P1.
    - rewrite K2, K3. apply P2.
    - intros d. rewrite K3. intros Hd. eapply since_snoc; [apply P3; exact Hd|exact K1|left; exact K4]. }
  apply step_cases in H. destruct H as [i r Ea C| -> _ |d ? Ht ? Hc ->|d c e1 ok ? ? ? ? C ->|k ok ? ? C|s clk ? ? ? R].
  - destruct C as [x new R Hs Hc|x new R Hc|x new e2 ok R Hz ? ? C|x new e2 R ? ? ? ? ->|x new e2 c R ? Hc ? Hs ->].
    + constructor; rewrite last_state_snoc.
      * rewrite (rt_cand _ _ _ _ _ _ _ _ R). congruence.
      * rewrite (rt_cand _ _ _ _ _ _ _ _ R), (rt_timer _ _ _ _ _ _ _ _ R). apply P2.
      * rewrite (rt_timer _ _ _ _ _ _ _ _ R), (P2 Hc). discriminate.
    + apply Keep; [apply R..|]. rewrite (rt_best _ _ _ _ _ _ _ _ R). symmetry. apply P1. assumption.
    + congruence.
    + constructor; rewrite last_state_snoc; cbn.
      * intros c E. injection E as <-. rewrite best_with_cand. apply R.
      * discriminate.
      * intros d E. unfold restart in E. rewrite Tok in E. injection E as <-.
        exists tr, ev, (with_cand e2 (Some new) (restart cf (ev_time ev) (e_timer e) (ev_env ev))), [].
        split; [reflexivity|]. split; [reflexivity|]. split; [eauto|]. split.
        -- constructor; [reflexivity|constructor].
        -- apply no_recovery_one.
    + constructor; rewrite last_state_snoc; cbn.
      * intros c' E. injection E as <-. rewrite best_with_cand. apply R.
      * discriminate.
      * intros d E. eapply since_snoc; [apply P3; exact E|apply R|].
        right. rewrite best_with_cand, (rt_best _ _ _ _ _ _ _ _ R). fold e. congruence.
  - apply Keep; reflexivity.
  - rewrite (P2 Hc) in Ht. discriminate.
  - constructor; rewrite last_state_snoc; cbn; try discriminate. reflexivity.
  - congruence.
  - apply reconfigure_frame in R as [[F1 [F2 [F3 [F4 F5]]]] [F6 _]].
    apply Keep; auto. apply best_frame. assumption.
Qed.

Lemma sel_case_some : forall e new v e' ok, sel_case e new v e' ok -> e_sel e <> None -> e_sel e' <> None.
Proof. intros e new v e' ok C N. destruct C; subst; congruence. Qed.
Lemma step_some : forall cf e ev e', step cf e ev = Some e' -> e_sel e <> None -> e_sel e' <> None.
Proof.
  intros cf e ev e' H W. apply step_cases in H. destruct H as [i r _ C| -> _ |? ? ? ? ? ->|? ? ? ? ? ? ? ? C ->|? ? ? ? C|? ? ? ? ? R].
  - destruct C as [x new R ? ?|x new R ?|x new e2 ok R ? ? ? C|x new e2 R ? ? ? ? ->|x new e2 c R ? ? ? ? ->];
      pose proof (rt_sel _ _ _ _ _ _ _ _ R) as K; try (cbn; congruence).
    eapply sel_case_some; [eassumption|congruence].
  - assumption.
  - assumption.
  - eapply sel_case_some in C; assumption.
  - eapply sel_case_some in C; assumption.
  - apply reconfigure_frame in R as [_ [F _]]. congruence.
Qed.

Lemma step_length : forall cf e ev e', step cf e ev = Some e' -> length (e_recs e') = length (e_recs e).
Proof.
  intros cf e ev e' H. apply step_cases in H. destruct H as [i r _ C| -> _ |? ? ? ? ? ->|? ? ? ? ? ? ? ? C ->|? ? ? ? C|? ? ? ? ? R]; try reflexivity.
  - destruct C as [x new R ? ?|x new R ?|x new e2 ok R ? ? ? C|x new e2 R ? ? ? ? ->|x new e2 c R ? ? ? ? ->];
      pose proof (rt_recs _ _ _ _ _ _ _ _ R) as K; try (cbn; rewrite K; apply set_nth_length).
    apply sel_case_frame in C as [F _]. rewrite F, K. apply set_nth_length.
  - apply sel_case_frame in C as [F _]. cbn in *. congruence.
  - apply sel_case_frame in C as [F _]. rewrite F. cbn. apply select_instance_length.
  - apply reconfigure_frame in R as [[F _] _]. congruence.
Qed.

(** ** The user's choice stays *)
Lemma manual_best : forall cf recs ks s, qsort_contract (cf_sort cf) ->
  (exists rest, cf_policy cf = Manual :: rest) -> In TieBreak (cf_policy cf) ->
  Forall (numeric (cf_rd cf)) recs -> (s < length recs)%nat ->
  (forall i x, nth_error recs i = Some x -> (i_selected x = true <-> s = i)) ->
  forall r ks', choose (cf_rd cf) (cf_sort cf) (cf_policy cf) recs ks = Some (r, ks') -> r = Some s.
Proof.
  intros cf recs ks s Hq [rest Hp] Ht Hn Hl Hm r ks' H.
  assert (Ho : one_selected recs).
  { intros i j x y Hi Hj Hx Hy. apply (Hm i x Hi) in Hx. apply (Hm j y Hj) in Hy. congruence. }
  destruct (C11_choose_best_and_ranks_partial (cf_rd cf) (cf_sort cf) (cf_policy cf) recs (map (fun _ => 0) recs)
              Hq Ht Ho Hn (map_length _ _)) as [r' [k' [Hc [_ Hb]]]].
  destruct (choose_ranks _ _ _ _ _ (map (fun _ => 0) recs) _ _ H) as [k2 H2].
  assert (r' = r) by congruence. subst r'. clear Hc H2.
  destruct (Hb ltac:(destruct recs; [cbn in Hl; lia|discriminate])) as [b [x [-> [Hx [Hpref _]]]]].
  destruct (Nat.eq_dec b s) as [->|N]; [reflexivity|exfalso].
  destruct (nth_error recs s) as [y|] eqn:Ey; [|apply nth_error_None in Ey; lia].
  destruct (Hpref s y Ey (not_eq_sym N)) as [[n [before [r [after [Ep [_ [Hd Hr]]]]]]] _].
  assert (Sy : i_selected y = true) by (apply (Hm s y Ey); reflexivity).
  assert (Sx : i_selected x = false).
  { destruct (i_selected x) eqn:E; [|reflexivity]. apply (Hm b x Hx) in E. congruence. }
  rewrite Hp in Ep. destruct before as [|r0 before]; cbn in Ep; injection Ep as <- ->.
  - cbn in Hr. destruct Hr. congruence.
  - apply (Hd Manual); [left; reflexivity|]. right. cbn. auto.
Qed.

Definition marked (e : eng) : Prop :=
  forall i x, nth_error (e_recs e) i = Some x -> (i_selected x = true <-> e_sel e = Some i).
Record chosen (cf : config) (e : eng) : Prop := {
  ch_wf : wf e; ch_sel : e_sel e <> None; ch_cand : e_cand e = None; ch_timer : e_timer e = None;
  ch_marked : marked e; ch_numeric : Forall (numeric (cf_rd cf)) (e_recs e) }.
Definition numeric_event (cf : config) (ev : event) : Prop :=
  forall i r, ev_act ev = Report i r -> numeric (cf_rd cf) (r_inst r).

Lemma Forall_set_nth : forall A (P : A -> Prop) i x l, P x -> Forall P l -> Forall P (set_nth i x l).
Proof.
  intros A P i x l Hx. revert i. induction l as [|a l IH]; intros i H; cbn; [constructor|].
  inversion H; subst. destruct i; constructor; auto.
Qed.
Lemma numeric_store : forall rd x r, numeric rd r -> numeric rd (store x r).
Proof. intros rd x r H. exact H. Qed.
Lemma numeric_select : forall rd recs k, Forall (numeric rd) recs -> Forall (numeric rd) (select_instance recs k).
Proof.
  intros rd recs k H. unfold select_instance. apply Forall_forall. intros y Hy.
  apply in_map_iff in Hy as [[i x] [<- Hx]]. apply in_combine_r in Hx.
  rewrite Forall_forall in H. apply H in Hx. exact Hx.
Qed.

Lemma rated_marked : forall cf e i r v x e2 new, rated cf e i r v x e2 new -> marked e -> marked e2.
Proof.
  intros cf e i r v x e2 new R M j y. rewrite (rt_recs _ _ _ _ _ _ _ _ R), (rt_sel _ _ _ _ _ _ _ _ R).
  intros Hj. pose proof (rt_rec _ _ _ _ _ _ _ _ R) as Hx. destruct (Nat.eq_dec i j) as [->|N].
  - rewrite nth_error_set_nth_same in Hj by (apply nth_error_Some; congruence).
    injection Hj as <-. cbn. apply (M j x Hx).
  - rewrite nth_error_set_nth_other in Hj by assumption. apply M. assumption.
Qed.

Lemma step_chosen : forall cf e ev e', qsort_contract (cf_sort cf) ->
  cf_strategy cf = ManualChoice -> (exists rest, cf_policy cf = Manual :: rest) -> In TieBreak (cf_policy cf) ->
  chosen cf e -> controls_ok ev -> numeric_event cf ev -> told e -> step cf e ev = Some e' ->
  chosen cf e' /\ e_sel e' = match ev_act ev with UserSelect (Some k) => Some k | _ => e_sel e end.
Proof.
  intros cf e ev e' Hq Hst Hp Ht [W Hs Hc Htm M Nm] [Ok1 Ok2] Nev T H.
  pose proof (step_wf _ _ _ _ H W) as W'. pose proof (step_some _ _ _ _ H Hs) as S'.
  apply step_cases in H. destruct H as [i r Ea C| -> Hi |? ? ? ? ? ->|? ? ? ? ? ? Hc' ? C ->|k ok Ea ? C|? ? Ea ? ? R].
  - rewrite Ea.
    assert (Key : forall x e2 new, rated cf e i r (ev_env ev) x e2 new -> e_sel e = Some new /\
              Forall (numeric (cf_rd cf)) (e_recs e2)).
    { intros x e2 new R. pose proof (rt_best _ _ _ _ _ _ _ _ R) as B.
      pose proof (rated_marked _ _ _ _ _ _ _ _ R M) as M2.
      assert (Nm2 : Forall (numeric (cf_rd cf)) (e_recs e2)).
      { rewrite (rt_recs _ _ _ _ _ _ _ _ R). apply Forall_set_nth; [|assumption].
        apply numeric_store. eapply Nev. exact Ea. }
      split; [|assumption]. unfold best in B.
      destruct (choose _ _ _ (e_recs e2) _) as [[[b|] ks]|] eqn:E; try discriminate. injection B as ->.
      destruct (e_sel e) as [s|] eqn:Es; [|congruence].
      pose proof (rt_sel _ _ _ _ _ _ _ _ R) as S2.
      assert (Some new = Some s); [|congruence].
      eapply (manual_best cf (e_recs e2) _ s); eauto.
      - rewrite (rt_recs _ _ _ _ _ _ _ _ R), set_nth_length. apply (wf_sel _ W). assumption.
      - intros j y Hj. rewrite (M2 j y Hj), S2, Es. split; congruence. }
    destruct C as [x new R ? ?|x new R ?|x new e2 ok R ? N1 ? C|x new e2 R ? N1 ? ? ->|x new e2 c R ? ? ? ? ->];
      destruct (Key _ _ _ R) as [K1 K2]; try congruence; try (exfalso; tauto).
    split; [|apply (rt_sel _ _ _ _ _ _ _ _ R)]. constructor; auto.
    + rewrite (rt_cand _ _ _ _ _ _ _ _ R). assumption.
    + rewrite (rt_timer _ _ _ _ _ _ _ _ R). assumption.
    + eapply rated_marked; eauto.
  - split; [constructor; auto|]. destruct Hi as [[-> _]|[j [-> [K|K]]]]; [reflexivity|contradiction|]. subst j. reflexivity.
  - congruence.
  - congruence.
  - rewrite Ea. pose proof (sel_case_told _ _ _ _ _ C (wf_user _ _ W) T Ok1 Ok2) as [_ Sk].
    split; [|assumption]. pose proof (sel_case_frame _ _ _ _ _ C) as [F1 [F2 [F3 [F4 F5]]]]. cbn in *.
    constructor; auto; try congruence.
    + intros j y Hj. rewrite F1 in Hj. rewrite Sk.
      destruct (C11_select_instance_one_selected (e_recs e) (Some k)) as [_ [Hlen Hm]].
      destruct (nth_error (e_recs e) j) as [z|] eqn:Ez.
      * destruct (Hm j z Ez) as [y' [Hy' [Hsel _]]]. rewrite Hj in Hy'. injection Hy' as <-. exact Hsel.
      * exfalso. apply nth_error_None in Ez. rewrite <- Hlen in Ez. apply nth_error_None in Ez. congruence.
    + rewrite F1. apply numeric_select. assumption.
  - rewrite Ea. apply reconfigure_frame in R as [[F1 [F2 [F3 [F4 F5]]]] [F6 _]].
    split; [|assumption]. constructor; auto; try congruence.
    intros j y. rewrite F1, F6. apply M.
Qed.

(** ** The servo table follows the selected instance *)
Record serving (e : eng) (vs : list env) : Prop := {
  sv_lrc : exists s, e_sel e = Some s /\ nth_error (e_clks e) s = Some (e_lrc e);
  sv_table : match e_lrc e with
             | Some m => exists v, In v vs /\ (NoDup (map fst (clocks v)) -> servos_serve e m (clocks v))
             | None => e_active e = 0%nat
             end }.

Lemma kept_serve : forall e e' m tbl, servos_kept e e' -> servos_serve e m tbl -> servos_serve e' m tbl.
Proof. intros e e' m tbl [_ [A B]] H. unfold servos_serve, running in *. rewrite A, B. exact H. Qed.
Lemma table_kept : forall e e' vs vs', servos_kept e e' -> incl vs vs' ->
  match e_lrc e with
  | Some m => exists v, In v vs /\ (NoDup (map fst (clocks v)) -> servos_serve e m (clocks v))
  | None => e_active e = 0%nat
  end ->
  match e_lrc e' with
  | Some m => exists v, In v vs' /\ (NoDup (map fst (clocks v)) -> servos_serve e' m (clocks v))
  | None => e_active e' = 0%nat
  end.
Proof.
  intros e e' vs vs' K I H. pose proof K as [A [_ C]]. rewrite A, C. destruct (e_lrc e); [|assumption].
  destruct H as [v [Hv H]]. exists v. split; [auto|]. intros Hn. eapply kept_serve; eauto.
Qed.
Lemma table_new : forall e clk v e' vs, reconfigure e clk (clocks v) = Some e' -> In v vs ->
  match e_lrc e' with
  | Some m => exists v, In v vs /\ (NoDup (map fst (clocks v)) -> servos_serve e' m (clocks v))
  | None => e_active e' = 0%nat
  end.
Proof.
  intros e clk v e' vs H Hv. pose proof (reconfigure_frame _ _ _ _ H) as [_ [_ [_ E]]].
  pose proof H as H'. apply reconfigure_some in H' as [m [-> _]]. rewrite E.
  exists v. split; [assumption|]. intros Hn. destruct (reconfigure_serves _ _ _ _ Hn H) as [m' [E' [_ K]]].
  congruence.
Qed.

Lemma sel_case_serving : forall e new v e' ok vs, sel_case e new v e' ok -> serving e vs ->
  deselect_ok v = true -> select_ok v = true -> In v vs -> serving e' vs.
Proof.
  intros e new v e' ok vs C [L T] Hd Hs Hv.
  destruct C as [? ->|? ? ? ? ->|? ? ? ? ? ? ? ?|clk ? ? ? [F1 [F2 _]] Hn S2 G El R]; try congruence.
  - constructor; assumption.
  - constructor.
    + exists new. split; [assumption|]. rewrite F2, El. assumption.
    + destruct R as [[_ R]|[_ R]].
      * eapply table_kept; [exact R|apply incl_refl|exact T].
      * eapply table_new; eauto.
Qed.

Lemma rated_serving : forall cf e i r v x e2 new vs, wf e -> rated cf e i r v x e2 new -> serving e vs ->
  serving e2 (v :: vs).
Proof.
  intros cf e i r v x e2 new vs W R [[s [Hs Hk]] T]. constructor.
  - exists s. rewrite (rt_sel _ _ _ _ _ _ _ _ R), (rt_clks _ _ _ _ _ _ _ _ R). split; [assumption|].
    pose proof (rt_rec _ _ _ _ _ _ _ _ R) as Hx.
    assert (Hi : (i < length (e_clks e))%nat) by (rewrite (wf_clks _ W); apply nth_error_Some; congruence).
    destruct (rt_lrc _ _ _ _ _ _ _ _ R) as [[K1 [K2 [e1 [K3 K4]]]]|[K1 [K2 _]]].
    + assert (s = i) by congruence. subst s. rewrite nth_error_set_nth_same by assumption.
      destruct K4 as [-> _]. apply reconfigure_frame in K3 as [_ [_ [_ ->]]]. reflexivity.
    + rewrite K2. destruct (Nat.eq_dec i s) as [->|N].
      * rewrite nth_error_set_nth_same by assumption. f_equal.
        destruct (same (r_clock r) (e_lrc e)) eqn:E; [apply same_iff; assumption|].
        apply same_false in E. tauto.
      * rewrite nth_error_set_nth_other by assumption. assumption.
  - destruct (rt_lrc _ _ _ _ _ _ _ _ R) as [[K1 [K2 [e1 [K3 K4]]]]|[K1 K2]].
    + eapply table_kept; [exact K4|apply incl_refl|]. eapply table_new; [exact K3|left; reflexivity].
    + eapply table_kept; [exact K2| |exact T]. apply incl_tl, incl_refl.
Qed.

Lemma serving_incl : forall e vs vs', serving e vs -> incl vs vs' -> serving e vs'.
Proof.
  intros e vs vs' [L T] I. constructor; [assumption|]. destruct (e_lrc e); [|assumption].
  destruct T as [v [Hv T]]. eauto.
Qed.
Lemma serving_with_cand : forall e c t vs, serving e vs -> serving (with_cand e c t) vs.
Proof. intros e c t vs [L T]. constructor; assumption. Qed.

Lemma step_serving : forall cf e ev e' vs, step cf e ev = Some e' -> wf e -> controls_ok ev ->
  serving e vs -> serving e' (ev_env ev :: vs).
Proof.
  intros cf e ev e' vs H W [Ok1 Ok2] V.
  assert (V1 : serving e (ev_env ev :: vs)) by (eapply serving_incl; [eassumption|apply incl_tl, incl_refl]).
  apply step_cases in H. destruct H as [i r Ea C| -> Hi |? ? ? ? ? ->|? ? ? ? ? ? Hc' ? C ->|k ok Ea ? C|s clk Ea Hs Hk R].
  - destruct C as [x new R ? ?|x new R ?|x new e2 ok R ? N1 ? C|x new e2 R ? N1 ? ? ->|x new e2 c R ? ? ? ? ->];
      pose proof (rated_serving _ _ _ _ _ _ _ _ _ W R V) as V2; try assumption.
    + eapply sel_case_serving; eauto. left. reflexivity.
    + apply serving_with_cand. assumption.
    + apply serving_with_cand. assumption.
  - assumption.
  - apply serving_with_cand. assumption.
  - apply serving_with_cand. eapply sel_case_serving; eauto; [apply serving_with_cand; assumption|left; reflexivity].
  - eapply sel_case_serving; eauto; [|left; reflexivity]. destruct V1 as [L T]. constructor; assumption.
  - pose proof (reconfigure_frame _ _ _ _ R) as [[_ [F2 _]] [F6 [_ El]]]. constructor.
    + exists s. split; [congruence|]. rewrite F2, El. assumption.
    + eapply table_new; [exact R|left; reflexivity].
Qed.

(** ** No better instance is left waiting *)
Record waiting (cf : config) (e0 : eng) (tr : trace) : Prop := {
  wt_wf : wf (last_state e0 tr); wt_told : told (last_state e0 tr);
  wt_none : e_cand (last_state e0 tr) = None -> best cf (last_state e0 tr) = e_sel (last_state e0 tr);
  wt_cand : forall c, e_cand (last_state e0 tr) = Some c -> best cf (last_state e0 tr) = Some c /\
    cf_holdoff cf <> 0 /\
    exists ev d, In ev (map fst tr) /\ e_timer (last_state e0 tr) = Some d /\ d = ev_time ev + holdoff_ns cf }.

Lemma step_waiting : forall cf e0 tr ev e', cf_strategy cf = Automatic ->
  waiting cf e0 tr -> step cf (last_state e0 tr) ev = Some e' -> controls_ok ev -> timers_ok ev ->
  waiting cf e0 (tr ++ [(ev, e')]).
Proof.
  intros cf e0 tr ev e' Ha [W T P1 P2] H Ok Tok. set (e := last_state e0 tr) in *.
  pose proof (step_wf _ _ _ _ H W) as W'. pose proof (step_told _ _ _ _ H W Ok T) as T'.
  assert (Keep : e_sel e' = e_sel e -> e_cand e' = e_cand e -> e_timer e' = e_timer e ->
    best cf e' = best cf e -> waiting cf e0 (tr ++ [(ev, e')])).
  { intros K1 K2 K3 K4. constructor; rewrite ?last_state_snoc; auto.
    - rewrite K1, K2, K4. apply P1.
    - intros c. rewrite K2, K3, K4. intros Hc. destruct (P2 c Hc) as [B [Z [ev' [d [I [D1 D2]]]]]].
      split; [assumption|]. split; [assumption|]. exists ev', d. split; [|auto].
      rewrite map_app. apply in_app_iff. auto. }
  apply step_cases in H. destruct H as [i r Ea C| -> _ |d ? Ht ? Hc ->|d c e1 ok ? ? ? Hc C ->|k ok ? ? C|s clk ? ? ? R].
  - destruct C as [x new R Hs Hc|x new R Hc|x new e2 ok R Hz ? Hn C|x new e2 R ? ? ? ? ->|x new e2 c R ? Hc ? Hs ->].
    + constructor; rewrite ?last_state_snoc; auto.
      * intros _. rewrite (rt_sel _ _ _ _ _ _ _ _ R), (rt_best _ _ _ _ _ _ _ _ R). congruence.
      * intros c. rewrite (rt_cand _ _ _ _ _ _ _ _ R). congruence.
    + apply Keep; [apply R..|]. rewrite (rt_best _ _ _ _ _ _ _ _ R). symmetry. apply P2. assumption.
    + pose proof (sel_case_frame _ _ _ _ _ C) as [F1 [_ [_ [F4 _]]]]. destruct Ok as [Ok1 Ok2].
      pose proof (sel_case_told _ _ _ _ _ C (rated_wf _ _ _ _ _ _ _ _ R W) (rated_told _ _ _ _ _ _ _ _ R T) Ok1 Ok2) as [_ Sk].
      constructor; rewrite ?last_state_snoc; auto.
      * intros _. rewrite Sk, <- (rt_best _ _ _ _ _ _ _ _ R). apply best_frame. assumption.
      * intros c. rewrite F4, (rt_cand _ _ _ _ _ _ _ _ R). intros Hc.
        destruct (P2 c Hc) as [_ [Z _]]. contradiction.
    + constructor; rewrite ?last_state_snoc; auto; cbn; [discriminate|].
      intros c E. injection E as <-. split; [rewrite best_with_cand; apply R|]. split; [assumption|].
      exists ev, (ev_time ev + holdoff_ns cf). split; [rewrite map_app; apply in_app_iff; right; left; reflexivity|].
      unfold restart. rewrite Tok. auto.
    + constructor; rewrite ?last_state_snoc; auto; cbn; [discriminate|].
      intros c' E. injection E as <-. split; [rewrite best_with_cand; apply R|]. split; [assumption|].
      destruct (P2 c Hc) as [_ [_ [ev' [d [I D]]]]]. exists ev', d. split; [|assumption].
      rewrite map_app. apply in_app_iff. auto.
  - apply Keep; reflexivity.
  - constructor; rewrite ?last_state_snoc; [assumption|assumption| |discriminate].
    intros _. rewrite best_with_cand. apply P1. assumption.
  - pose proof (sel_case_frame _ _ _ _ _ C) as [F1 _]. destruct Ok as [Ok1 Ok2].
    pose proof (sel_case_told _ _ _ _ _ C (wf_with_cand _ _ _ W) T Ok1 Ok2) as [_ Sk].
    constructor; rewrite ?last_state_snoc; [assumption|assumption| |discriminate].
    intros _. cbn [e_sel with_cand]. rewrite best_with_cand, Sk. rewrite (best_frame cf e e1 F1). apply P2. assumption.
  - congruence.
  - apply reconfigure_frame in R as [[F1 [F2 [F3 [F4 F5]]]] [F6 _]].
    apply Keep; auto. apply best_frame. assumption.
Qed.
