(** The engine: one selected instance (C36), hold-off (C37), servos per slave clock (C50). *)
Require Import ZArith QArith List Bool Lia Permutation.
Import ListNotations.
From Verif Require Import Base ListLib BicSpec BicModel BicProof BicProps EngSpec EngModel EngProof.
Open Scope Z_scope.

(** ** C36: exactly one selected instance *)

(** After every history of events, whatever fails, the engine regards one existing instance
    as selected and no other instance has been told that it is selected. *)
Theorem C36_at_most_one : forall cf reports initial total now v e0 evs tr,
  startup cf reports initial total now v = Some e0 -> run cf e0 evs = Some tr ->
  exists s, e_sel (last_state e0 tr) = Some s /\ (s < length reports)%nat /\
    forall i, nth_error (e_flags (last_state e0 tr)) i = Some true -> i = s.
Proof.
  intros cf reports initial total now v e0 evs tr H0 Hr.
  destruct (startup_started _ _ _ _ _ _ _ H0) as [St _].
  assert (L0 : length (e_recs e0) = length reports).
  { unfold startup in H0. destruct (startup_started _ _ _ _ _ _ _ H0) as [_ [Rec _]].
    destruct (Nat.lt_trichotomy (length (e_recs e0)) (length reports)) as [L|[L|L]]; [|assumption|].
    - exfalso. clear Rec. pose proof (su_wf _ _ _ _ St) as W.
      assert (K : length (e_flags e0) = length reports).
      { destruct (choose _ _ _ _ _) as [[ch ks]|]; [|discriminate]. cbn [bind fst snd] in H0.
        destruct ch as [bic|]; [|discriminate]. cbn [bind] in H0.
        assert (Q : forall rs k e1 ok, select_sync (mkEng rs (map r_clock reports) ks (map (fun _ => false) reports) None None None None (repeat None total) 0) k v = Some (e1, ok) -> length (e_flags e1) = length reports).
        { intros rs k e1 ok E. apply select_sync_cases in E.
          destruct E as [E ->|? E ? ? ->|? ? ? ? ? ? ? G|? ? ? ? ? ? ? G ? ?]; cbn in *; try discriminate;
            rewrite G; unfold dflags; cbn; rewrite ?set_nth_length; apply map_length. }
        destruct (cf_strategy cf); [|destruct initial as [k|]; [|discriminate]; cbn [bind] in H0..].
        - destruct (select_sync _ bic v) as [[e1 ok]|] eqn:E; [|discriminate]. cbn [bind fst snd] in H0.
          destruct ok; [|discriminate]. injection H0 as <-. eapply Q; exact E.
        - destruct (select_sync _ k v) as [[e1 ok]|] eqn:E; [|discriminate]. cbn [bind fst snd] in H0.
          destruct ok; [|discriminate]. injection H0 as <-. eapply Q; exact E.
        - destruct (select_sync _ k v) as [[e1 ok]|] eqn:E; [|discriminate]. cbn [bind fst snd] in H0.
          destruct ok; [|discriminate]. cbn [bind] in H0. apply Q in E.
          destruct (bic =? k)%nat; (destruct (negb _ && negb _); [destruct (start_ok v); [|discriminate]|]); injection H0 as <-; exact E. }
      rewrite (wf_flags _ W) in K. lia.
    - exfalso. destruct (nth_error (e_recs e0) (length reports)) as [x|] eqn:E.
      + destruct (Rec _ _ E) as [r [y [K _]]]. assert (length reports < length reports)%nat by (apply nth_error_Some; congruence). lia.
      + apply nth_error_None in E. lia. }
  assert (I : wf (last_state e0 tr) /\ e_sel (last_state e0 tr) <> None /\
              length (e_recs (last_state e0 tr)) = length reports).
  { revert evs tr Hr. refine (run_ind cf e0 _ _ _).
    - cbn. destruct St as [W _ [s [Hs _]] _ _ _ _]. unfold last_state. cbn. split; [exact W|]. split; [congruence|exact L0].
    - intros tr ev e' [W [Sn Ln]] _ H. rewrite last_state_snoc.
      split; [eapply step_wf; eauto|]. split; [eapply step_some; eauto|].
      rewrite (step_length _ _ _ _ H). assumption. }
  destruct I as [W [Sn Ln]]. destruct (e_sel (last_state e0 tr)) as [s|] eqn:Es; [|congruence].
  exists s. split; [reflexivity|]. split; [rewrite <- Ln; apply (wf_sel _ W); assumption|].
  intros i Hi. apply (wf_told _ W) in Hi. congruence.
Qed.
Print Assumptions C36_at_most_one.

(** Full statement: after every history exactly one instance has been told that it is
    selected, namely the one the engine regards as selected.  Proved if every control message
    is delivered; false otherwise, see [C36_lost_selection_refuted]. *)
Theorem C36_exactly_one_partial : forall cf reports initial total now v e0 evs tr,
  startup cf reports initial total now v = Some e0 -> run cf e0 evs = Some tr ->
  Forall controls_ok evs ->
  exists s, e_sel (last_state e0 tr) = Some s /\
    forall i, nth_error (e_flags (last_state e0 tr)) i = Some true <-> i = s.
Proof.
  intros cf reports initial total now v e0 evs tr H0 Hr Hok.
  destruct (startup_started _ _ _ _ _ _ _ H0) as [St _].
  assert (I : Forall controls_ok (map fst tr) ->
     wf (last_state e0 tr) /\ e_sel (last_state e0 tr) <> None /\ told (last_state e0 tr)).
  { clear Hok. revert evs tr Hr. refine (run_ind cf e0 _ _ _).
    - intros _. destruct St as [W T [s [Hs _]] _ _ _ _]. unfold last_state. cbn. split; [exact W|]. split; [congruence|exact T].
    - intros tr ev e' IH _ H Hok. rewrite last_state_snoc. rewrite map_app in Hok. apply Forall_app in Hok as [Ho1 Ho2].
      inversion Ho2; subst. destruct (IH Ho1) as [W [Sn T]].
      split; [eapply step_wf; eauto|]. split; [eapply step_some; eauto|]. eapply step_told; eauto. }
  rewrite (run_events _ _ _ _ Hr) in I. destruct (I Hok) as [W [Sn T]]. destruct (e_sel (last_state e0 tr)) as [s|] eqn:Es; [|congruence].
  exists s. split; [reflexivity|]. intros i. split.
  - intros Hi. apply (wf_told _ W) in Hi. congruence.
  - intros ->. apply T. assumption.
Qed.
Print Assumptions C36_exactly_one_partial.

(** Concrete engines for examples: two or three instances rated by user priority. *)
Definition prio (n : Z) : inst := mkInst false 0 Slave 0 n 0 0 (Fin 0) (Fin 0) (Fin 0) 0.
Definition rep (n : Z) (clk : nat) : report := mkRep (prio n) (Some clk).
Definition good : env := mkEnv true true true true [(0, true); (1, true); (2, true)]%nat.
Definition cf_of (st : strategy) (h : Z) (policy : list rule) : config :=
  mkCf policy st h (fun x => x) isort.
Definition auto (h : Z) : config := cf_of Automatic h [UserPriority; TieBreak].
Definition second : Z := 1000000000.

Example C36_ex :
  match startup (auto 0) [rep 1 1; rep 2 2; rep 3 1] None 8 0 good with
  | Some e0 => match run (auto 0) e0 [mkEv 5 (Report 0%nat (rep 9 1)) good] with
               | Some tr => e_sel (last_state e0 tr) = Some 1%nat /\
                            e_flags (last_state e0 tr) = [false; true; false] /\
                            e_lrc e0 = Some 1%nat /\ e_lrc (last_state e0 tr) = Some 2%nat
               | None => False
               end
  | None => False
  end.
Proof. vm_compute. repeat split. Qed.

(** If the message that selects the new instance is lost, the engine regards it as selected
    although it was never told; selecting it again, by the user or by the rules, repairs
    nothing. *)
Theorem C36_lost_selection_refuted : exists cf reports e0 evs tr,
  startup cf reports (Some 0%nat) 8 0 good = Some e0 /\ run cf e0 evs = Some tr /\
  e_sel (last_state e0 tr) = Some 1%nat /\
  (forall i, nth_error (e_flags (last_state e0 tr)) i <> Some true) /\
  forall evs', Forall (fun ev => ev_act ev = UserSelect (Some 1%nat)) evs' ->
    exists tr', run cf (last_state e0 tr) evs' = Some tr' /\
      e_sel (last_state (last_state e0 tr) tr') = Some 1%nat /\
      forall i, nth_error (e_flags (last_state (last_state e0 tr) tr')) i <> Some true.
Proof.
  exists (cf_of ManualChoice 0 [Manual; TieBreak]), [rep 1 1; rep 2 2].
  set (evs := [mkEv 5 (UserSelect (Some 1%nat)) (mkEnv true false true true [])]).
  destruct (startup _ _ _ _ _ _) as [e0|] eqn:E0; [|vm_compute in E0; discriminate].
  destruct (run (cf_of ManualChoice 0 [Manual; TieBreak]) e0 evs) as [tr|] eqn:Er;
    [|vm_compute in E0; injection E0 as <-; vm_compute in Er; discriminate].
  exists e0, evs, tr. split; [reflexivity|]. split; [exact Er|].
  vm_compute in E0. injection E0 as <-. vm_compute in Er. injection Er as <-.
  split; [reflexivity|].
  assert (F : forall i, nth_error [false; false] i <> Some true).
  { intros [|[|[|i]]]; discriminate. }
  split; [exact F|].
  match goal with |- context[run _ ?x _] => set (e1 := x) in * end.
  assert (St : forall ev, ev_act ev = UserSelect (Some 1%nat) ->
     step (cf_of ManualChoice 0 [Manual; TieBreak]) e1 ev = Some e1).
  { intros [t a v] Ha. cbn in Ha. subst a. reflexivity. }
  assert (G : forall evs', Forall (fun ev => ev_act ev = UserSelect (Some 1%nat)) evs' ->
    exists tr', run (cf_of ManualChoice 0 [Manual; TieBreak]) e1 evs' = Some tr' /\ last_state e1 tr' = e1).
  { induction evs' as [|ev evs' IH] using rev_ind; intros H.
    - exists []. split; reflexivity.
    - apply Forall_app in H as [H1 H2]. inversion H2; subst. destruct (IH H1) as [tr' [R L]].
      exists (tr' ++ [(ev, e1)]). rewrite run_snoc, R. cbn [bind]. rewrite L, (St ev) by assumption.
      split; [reflexivity|]. apply last_state_snoc. }
  intros evs' H. destruct (G evs' H) as [tr' [R L]]. exists tr'. split; [exact R|].
  rewrite L. split; [reflexivity|exact F].
Qed.
Print Assumptions C36_lost_selection_refuted.

(** Under manual selection the selected instance is always the user's last choice (at first
    the configured instance), whatever the instances report.  Full statement: for every rule
    list.  Proved for rule lists that begin with the manual rule (the default does), without
    NaN among the reported values, and with control messages delivered; false for other rule
    lists, see [C36_manual_overridden_refuted]. *)
Definition last_choice (initial : option nat) (evs : list event) : option nat :=
  fold_left (fun c ev => match ev_act ev with UserSelect (Some k) => Some k | _ => c end) evs initial.
Theorem C36_manual_choice_partial : forall cf reports initial total now v e0 evs tr,
  qsort_contract (cf_sort cf) -> cf_strategy cf = ManualChoice ->
  (exists rest, cf_policy cf = Manual :: rest) -> In TieBreak (cf_policy cf) ->
  Forall (fun r => numeric (cf_rd cf) (r_inst r)) reports ->
  Forall controls_ok evs ->
  (forall ev i r, In ev evs -> ev_act ev = Report i r -> numeric (cf_rd cf) (r_inst r)) ->
  startup cf reports initial total now v = Some e0 -> run cf e0 evs = Some tr ->
  e_sel (last_state e0 tr) = last_choice initial evs.
Proof.
  intros cf reports initial total now v e0 evs tr Hq Hst Hp Ht Hn Hok Hnev H0 Hr.
  destruct (startup_started _ _ _ _ _ _ _ H0) as [St [Rec _]].
  pose proof (run_events _ _ _ _ Hr) as Ev.
  assert (I : Forall controls_ok (map fst tr) -> Forall (numeric_event cf) (map fst tr) ->
    chosen cf (last_state e0 tr) /\ told (last_state e0 tr) /\
    e_sel (last_state e0 tr) = last_choice initial (map fst tr)).
  { clear Hok Hnev Ev. revert evs tr Hr. refine (run_ind cf e0 _ _ _).
    - intros _ _. destruct St as [W T [s [Hs Hi]] Hc Hm _ _]. rewrite Hst in *.
      destruct (Hc ltac:(discriminate)) as [C1 C2]. unfold last_state. cbn.
      split; [|split; [assumption|congruence]]. constructor; auto; [congruence| |].
      + intros i x Hx. apply Hm; auto.
      + apply Forall_forall. intros x Hx. apply In_nth_error in Hx as [i Hx].
        destruct (Rec i x Hx) as [r [y [Hi' <-]]]. apply numeric_store.
        rewrite Forall_forall in Hn. apply Hn. eapply nth_error_In. exact Hi'.
    - intros tr ev e' IH _ H Ho Hne. rewrite last_state_snoc. rewrite map_app in *.
      apply Forall_app in Ho as [Ho1 Ho2]. apply Forall_app in Hne as [Hn1 Hn2].
      inversion Ho2; subst. inversion Hn2; subst. destruct (IH Ho1 Hn1) as [C [T E]].
      destruct (step_chosen cf _ _ _ Hq Hst Hp Ht C ltac:(eassumption) ltac:(eassumption) T H) as [C' E'].
      split; [assumption|]. split; [eapply step_told; eauto; apply C|].
      unfold last_choice. rewrite fold_left_app. cbn [fold_left map fst]. fold (last_choice initial (map fst tr)).
      rewrite E', E. destruct (ev_act ev) as [| |[k|]|]; reflexivity. }
  rewrite Ev in I. apply I; [assumption|]. apply Forall_forall. intros ev Hin i r Ha. eauto.
Qed.
Print Assumptions C36_manual_choice_partial.

Example C36_manual_ex :
  match startup (cf_of ManualChoice 5 default_policy) [rep 1 1; rep 2 2] (Some 1%nat) 8 0 good with
  | Some e0 => match run (cf_of ManualChoice 5 default_policy) e0
                 [mkEv 5 (Report 1%nat (rep 99 2)) good; mkEv 6 HoldoffExpiry good;
                  mkEv 7 (UserSelect (Some 0%nat)) good] with
               | Some tr => e_sel e0 = Some 1%nat /\ map (fun p => e_sel (snd p)) tr = [Some 1; Some 1; Some 0]%nat
               | None => False
               end
  | None => False
  end.
Proof. vm_compute. split; reflexivity. Qed.

(** With another rule list a pending candidate survives the user's choice, and the hold-off
    timer then replaces the instance the user has just selected. *)
Theorem C36_manual_overridden_refuted : exists cf reports e0 evs tr,
  cf_strategy cf = ManualChoice /\ startup cf reports (Some 0%nat) 8 0 good = Some e0 /\
  Forall controls_ok evs /\ Forall timers_ok evs /\ run cf e0 evs = Some tr /\
  last_choice (Some 0%nat) evs = Some 2%nat /\
  map (fun p => e_sel (snd p)) tr = [Some 0; Some 2; Some 1]%nat.
Proof.
  exists (cf_of ManualChoice 10 [UserPriority; TieBreak]), [rep 1 1; rep 2 2; rep 3 0].
  destruct (startup _ _ _ _ _ _) as [e0|] eqn:E0; [|vm_compute in E0; discriminate].
  exists e0, [mkEv 0 (Report 0%nat (rep 9 1)) good;
          mkEv (9 * second) (UserSelect (Some 2%nat)) good;
          mkEv (10 * second) HoldoffExpiry good].
  vm_compute in E0. injection E0 as <-.
  eexists. split; [reflexivity|]. split; [reflexivity|].
  split; [repeat constructor|]. split; [repeat constructor|].
  split; [vm_compute; reflexivity|]. split; reflexivity.
Qed.
Print Assumptions C36_manual_overridden_refuted.

(** ** C37: hold-off *)

(** What "best" means in the theorems below: the instance that the rule list prefers to every
    other instance, judging by the last reports (see C11-C13 for NaN). *)
Theorem C37_best : forall cf e b, qsort_contract (cf_sort cf) -> In TieBreak (cf_policy cf) ->
  one_selected (e_recs e) -> Forall (numeric (cf_rd cf)) (e_recs e) ->
  (best cf e = Some b <-> exists x, nth_error (e_recs e) b = Some x /\
     forall j y, nth_error (e_recs e) j = Some y -> j <> b ->
       preferred (cf_rd cf) (cf_policy cf) (b, x) (j, y)).
Proof.
  intros cf e b Hq Ht Ho Hn. unfold best.
  destruct (C11_choose_best_and_ranks_partial (cf_rd cf) (cf_sort cf) (cf_policy cf) (e_recs e) (map (fun _ => 0) (e_recs e))
              Hq Ht Ho Hn (map_length _ _)) as [r [ks [Hc [Hnil Hb]]]].
  destruct (choose_ranks _ _ _ _ _ (e_ranks e) _ _ Hc) as [ks' ->].
  destruct (e_recs e) as [|x0 rs] eqn:Er.
  - rewrite Hnil by reflexivity. split; [discriminate|]. intros [x [K _]]. destruct b; discriminate.
  - rewrite <- Er in *. destruct (Hb ltac:(rewrite Er; discriminate)) as [best [x [-> [Hx [Hp _]]]]]. split.
    + intros E. injection E as <-. exists x. split; [assumption|]. intros j y Hj Nj. apply (Hp j y Hj Nj).
    + intros [y [Hy Hp']]. destruct (Nat.eq_dec best b) as [->|N]; [reflexivity|exfalso].
      destruct (Hp b y Hy (not_eq_sym N)) as [_ K]. apply K. apply Hp'; assumption.
Qed.
Print Assumptions C37_best.

(** Full statement: the engine switches to a candidate only after it has continuously been
    rated better than the selected instance for at least the hold-off.  False, see the
    theorems below.  What holds in automatic mode: the engine changes its selection only when
    the hold-off timer expires, only to the instance that is rated best at that moment, and
    only if the hold-off timer was (re)started by a status report at least the hold-off
    earlier, since when the selection has not changed and, once the selected instance
    stopped being rated best, it has never been rated best again. *)
Theorem C37_switch_partial : forall cf reports initial total now v e0 evs tr ev e' s c,
  cf_strategy cf = Automatic -> cf_holdoff cf <> 0 -> Forall timers_ok evs ->
  startup cf reports initial total now v = Some e0 -> run cf e0 evs = Some tr ->
  step cf (last_state e0 tr) ev = Some e' ->
  e_sel (last_state e0 tr) = Some s -> e_sel e' = Some c -> c <> s ->
  ev_act ev = HoldoffExpiry /\ best cf (last_state e0 tr) = Some c /\
  exists pre ev1 e1 post, tr = pre ++ (ev1, e1) :: post /\
    ev_time ev1 + holdoff_ns cf <= ev_time ev /\ (exists i r, ev_act ev1 = Report i r) /\
    Forall (fun x => e_sel x = Some s) (e1 :: map snd post) /\
    (forall l1 x l2, e1 :: map snd post = l1 ++ x :: l2 -> best cf x <> Some s ->
       Forall (fun y => best cf y <> Some s) l2).
Proof.
  intros cf reports initial total now v e0 evs tr ev e' s c Ha Hh Ht H0 Hr Hst Hs Hc Hcs.
  destruct (startup_started _ _ _ _ _ _ _ H0) as [St _].
  assert (I : Forall timers_ok (map fst tr) -> pending cf e0 tr).
  { clear Ht Hst Hs. revert evs tr Hr. refine (run_ind cf e0 _ _ _).
    - intros _. destruct (su_cand _ _ _ _ St ltac:(congruence)) as [C1 C2].
      constructor; unfold last_state; cbn; congruence.
    - intros tr ev' e2 IH _ H Hok. rewrite map_app in Hok. apply Forall_app in Hok as [Ho1 Ho2].
      inversion Ho2; subst. eapply step_pending; eauto. }
  rewrite (run_events _ _ _ _ Hr) in I. destruct (I Ht) as [P1 P2 P3]. clear I.
  set (e := last_state e0 tr) in *. apply step_cases in Hst.
  destruct Hst as [i r Ea C| -> _ |d ? ? ? Hcn ->|d c' e1 ok Ea Htm Hd Hcc C ->|k ok ? ? C|s' clk ? ? ? R].
  - exfalso. destruct C as [x new R ? ?|x new R ?|x new e2 ok R Hz ? ? C|x new e2 R ? ? ? ? ->|x new e2 c2 R ? ? ? ? ->];
      pose proof (rt_sel _ _ _ _ _ _ _ _ R) as K; cbn in Hc; congruence.
  - congruence.
  - cbn in Hc. congruence.
  - assert (c' = c).
    { cbn in Hc. destruct C as [? ->|? ? ? ? ->|? ? ? ? ? ? K ?|? ? ? ? ? ? K ? ? ?]; cbn in *; congruence. }
    subst c'. split; [assumption|]. split; [apply P1; assumption|].
    destruct (P3 d Htm) as [pre [ev1 [e1' [post [E [Hd' [Hrep [Hf Hn]]]]]]]].
    exists pre, ev1, e1', post. rewrite Hs in Hf, Hn.
    split; [assumption|]. split; [lia|]. split; [assumption|]. split; [assumption|]. exact Hn.
  - congruence.
  - apply reconfigure_frame in R as [_ [F _]]. congruence.
Qed.
Print Assumptions C37_switch_partial.

(** If the selected instance is rated best again when the timer expires, nothing changes. *)
Theorem C37_recovered : forall cf reports initial total now v e0 evs tr ev e',
  cf_strategy cf = Automatic -> cf_holdoff cf <> 0 -> Forall timers_ok evs ->
  startup cf reports initial total now v = Some e0 -> run cf e0 evs = Some tr ->
  step cf (last_state e0 tr) ev = Some e' -> ev_act ev = HoldoffExpiry ->
  best cf (last_state e0 tr) = e_sel (last_state e0 tr) ->
  e_sel e' = e_sel (last_state e0 tr) /\ e_flags e' = e_flags (last_state e0 tr).
Proof.
  intros cf reports initial total now v e0 evs tr ev e' Ha Hh Ht H0 Hr Hst Hev Hb.
  destruct (startup_started _ _ _ _ _ _ _ H0) as [St _].
  assert (I : Forall timers_ok (map fst tr) -> pending cf e0 tr).
  { clear Ht Hst Hb. revert evs tr Hr. refine (run_ind cf e0 _ _ _).
    - intros _. destruct (su_cand _ _ _ _ St ltac:(congruence)) as [C1 C2].
      constructor; unfold last_state; cbn; congruence.
    - intros tr ev' e2 IH _ H Hok. rewrite map_app in Hok. apply Forall_app in Hok as [Ho1 Ho2].
      inversion Ho2; subst. eapply step_pending; eauto. }
  rewrite (run_events _ _ _ _ Hr) in I. destruct (I Ht) as [P1 P2 P3]. clear I.
  set (e := last_state e0 tr) in *. apply step_cases in Hst.
  destruct Hst as [i r Ea C| -> _ |d ? ? ? Hcn ->|d c' e1 ok Ea Htm Hd Hcc C ->|k ok ? ? C|s' clk ? ? ? R]; try congruence.
  - auto.
  - cbn. auto.
  - pose proof (P1 _ Hcc) as K. destruct C as [? ->|? K2 ? ? ->|K2 ? ? ? ? ? ? ?|? K2 ? ? ? ? ? ? ? ?]; cbn in *; auto; congruence.
Qed.
Print Assumptions C37_recovered.

(** No better instance is left waiting for ever: in automatic mode, with control messages and
    timers working, after every history either the selected instance is rated best, or the
    hold-off timer is running, set to expire the hold-off after some event of the history,
    and when it is handled on or after that time the best instance becomes selected. *)
Theorem C37_switch_happens : forall cf reports initial total now v e0 evs tr,
  cf_strategy cf = Automatic -> Forall timers_ok evs -> Forall controls_ok evs ->
  startup cf reports initial total now v = Some e0 -> run cf e0 evs = Some tr ->
  e_sel (last_state e0 tr) = best cf (last_state e0 tr) \/
  (cf_holdoff cf <> 0 /\ exists ev1, In ev1 evs /\
     e_timer (last_state e0 tr) = Some (ev_time ev1 + holdoff_ns cf) /\
     forall ev e', ev_act ev = HoldoffExpiry -> controls_ok ev ->
       ev_time ev1 + holdoff_ns cf <= ev_time ev ->
       step cf (last_state e0 tr) ev = Some e' -> e_sel e' = best cf e' /\ best cf e' = best cf (last_state e0 tr)).
Proof.
  intros cf reports initial total now v e0 evs tr Ha Ht Hok H0 Hr.
  destruct (startup_started _ _ _ _ _ _ _ H0) as [St _].
  assert (I : Forall timers_ok (map fst tr) -> Forall controls_ok (map fst tr) -> waiting cf e0 tr).
  { clear Ht Hok. revert evs tr Hr. refine (run_ind cf e0 _ _ _).
    - intros _ _. destruct (su_cand _ _ _ _ St ltac:(congruence)) as [C1 C2].
      destruct St as [W T [s [Hs Hb]] _ _ _ _]. rewrite Ha in Hb.
      constructor; unfold last_state; cbn; auto; congruence.
    - intros tr ev' e2 IH _ H Hto Hco. rewrite map_app in *. apply Forall_app in Hto as [Ho1 Ho2].
      apply Forall_app in Hco as [Hc1 Hc2].
      inversion Ho2; subst. inversion Hc2; subst. eapply step_waiting; eauto. }
  rewrite (run_events _ _ _ _ Hr) in I. destruct (I Ht Hok) as [W T P1 P2]. clear I.
  set (e := last_state e0 tr) in *.
  destruct (e_cand e) as [c|] eqn:Ec; [|left; symmetry; auto]. right.
  destruct (P2 c eq_refl) as [Hb [Hz [ev1 [d [Hin [Htm Hd]]]]]].
  split; [assumption|]. exists ev1. rewrite <- (run_events _ _ _ _ Hr). split; [assumption|].
  split; [congruence|]. intros ev e' Ea [Ok1 Ok2] Hle Hst. apply step_cases in Hst.
  destruct Hst as [i r Ea' C| -> Hi |d' ? ? ? Hcn ->|d' c' e1 ok Ea' Htm' Hd' Hcc C ->|k ok ? ? C|s' clk ? ? ? R]; try congruence.
  - exfalso. destruct Hi as [[_ K]|[j [K _]]]; [|congruence]. specialize (K d Htm). lia.
  - assert (c' = c) by congruence. subst c'.
    pose proof (sel_case_told _ _ _ _ _ C (wf_with_cand _ _ _ W) T Ok1 Ok2) as [_ Sk].
    pose proof (sel_case_frame _ _ _ _ _ C) as [F1 _]. cbn [e_sel with_cand].
    rewrite best_with_cand, Sk, (best_frame cf e e1 F1), Hb. auto.
Qed.
Print Assumptions C37_switch_happens.

(** Without hold-off the best instance is selected at once. *)
Theorem C37_no_holdoff : forall cf reports initial total now v e0 evs tr,
  cf_strategy cf = Automatic -> cf_holdoff cf = 0 -> Forall timers_ok evs -> Forall controls_ok evs ->
  startup cf reports initial total now v = Some e0 -> run cf e0 evs = Some tr ->
  e_sel (last_state e0 tr) = best cf (last_state e0 tr).
Proof.
  intros cf reports initial total now v e0 evs tr Ha Hh Ht Hok H0 Hr.
  destruct (C37_switch_happens _ _ _ _ _ _ _ _ _ Ha Ht Hok H0 Hr) as [E|[N _]]; [assumption|contradiction].
Qed.
Print Assumptions C37_no_holdoff.

Definition sels (tr : trace) : list (option nat) := map (fun p => e_sel (snd p)) tr.
Definition bests (cf : config) (tr : trace) : list (option nat) := map (fun p => best cf (snd p)) tr.

(** The ordinary case: the selected instance deteriorates, stays worse, and is replaced when
    the hold-off has passed, not before. *)
Example C37_ex :
  match startup (auto 10) [rep 1 1; rep 2 2] None 8 0 good with
  | Some e0 => match run (auto 10) e0
                 [mkEv 0 (Report 0%nat (rep 9 1)) good; mkEv (10 * second - 1) HoldoffExpiry good;
                  mkEv (10 * second) HoldoffExpiry good] with
               | Some tr => sels tr = [Some 0; Some 0; Some 1]%nat
               | None => False
               end
  | None => False
  end.
Proof. vm_compute. reflexivity. Qed.

(** The full statement is false.  (1) After a recovery the timer is left running: an instance
    that is better for one nanosecond is switched to. *)
Theorem C37_after_recovery_refuted : exists reports e0 evs tr,
  startup (auto 10) reports None 8 0 good = Some e0 /\ run (auto 10) e0 evs = Some tr /\
  Forall timers_ok evs /\ Forall controls_ok evs /\
  map ev_time evs = [0; second; 11 * second - 1; 11 * second] /\
  bests (auto 10) tr = [Some 1; Some 0; Some 1; Some 1]%nat /\
  sels tr = [Some 0; Some 0; Some 0; Some 1]%nat.
Proof.
  exists [rep 1 1; rep 2 2].
  destruct (startup _ _ _ _ _ _) as [e0|] eqn:E0; [|vm_compute in E0; discriminate].
  exists e0, [mkEv 0 (Report 0%nat (rep 9 1)) good; mkEv second (Report 0%nat (rep 1 1)) good;
              mkEv (11 * second - 1) (Report 0%nat (rep 9 1)) good; mkEv (11 * second) HoldoffExpiry good].
  vm_compute in E0. injection E0 as <-.
  eexists. split; [reflexivity|]. split; [vm_compute; reflexivity|].
  split; [repeat constructor|]. split; [repeat constructor|].
  split; [reflexivity|]. split; vm_compute; reflexivity.
Qed.
Print Assumptions C37_after_recovery_refuted.

(** (2) A new candidate inherits the time served by the previous candidate. *)
Theorem C37_new_candidate_refuted : exists reports e0 evs tr,
  startup (auto 10) reports None 8 0 good = Some e0 /\ run (auto 10) e0 evs = Some tr /\
  Forall timers_ok evs /\ Forall controls_ok evs /\
  map ev_time evs = [0; 10 * second - 1; 10 * second] /\
  bests (auto 10) tr = [Some 1; Some 2; Some 2]%nat /\
  sels tr = [Some 0; Some 0; Some 2]%nat.
Proof.
  exists [rep 3 1; rep 4 2; rep 5 2].
  destruct (startup _ _ _ _ _ _) as [e0|] eqn:E0; [|vm_compute in E0; discriminate].
  exists e0, [mkEv 0 (Report 1%nat (rep 2 2)) good; mkEv (10 * second - 1) (Report 2%nat (rep 1 2)) good;
              mkEv (10 * second) HoldoffExpiry good].
  vm_compute in E0. injection E0 as <-.
  eexists. split; [reflexivity|]. split; [vm_compute; reflexivity|].
  split; [repeat constructor|]. split; [repeat constructor|].
  split; [reflexivity|]. split; vm_compute; reflexivity.
Qed.
Print Assumptions C37_new_candidate_refuted.

(** (3) Manual start-up without hold-off: the instance that was best at start-up remains the
    candidate for ever, no timer runs, and it is never selected, however often it is rated
    best. *)
Theorem C37_manual_startup_stuck_refuted : exists reports e0 evs tr,
  startup (cf_of ManualStartup 0 [UserPriority; TieBreak]) reports (Some 1%nat) 8 0 good = Some e0 /\
  run (cf_of ManualStartup 0 [UserPriority; TieBreak]) e0 evs = Some tr /\
  Forall timers_ok evs /\ Forall controls_ok evs /\ e_timer e0 = None /\
  bests (cf_of ManualStartup 0 [UserPriority; TieBreak]) tr = [Some 0; Some 2; Some 0; Some 0]%nat /\
  sels tr = [Some 1; Some 2; Some 2; Some 2]%nat.
Proof.
  exists [rep 1 1; rep 2 2; rep 3 2].
  destruct (startup _ _ _ _ _ _) as [e0|] eqn:E0; [|vm_compute in E0; discriminate].
  exists e0, [mkEv 1 (Report 1%nat (rep 9 2)) good; mkEv 2 (Report 2%nat (rep 0 2)) good;
              mkEv 3 (Report 2%nat (rep 3 2)) good; mkEv (1000 * second) HoldoffExpiry good].
  vm_compute in E0. injection E0 as <-.
  eexists. split; [reflexivity|]. split; [vm_compute; reflexivity|].
  split; [repeat constructor|]. split; [repeat constructor|].
  split; [reflexivity|]. split; vm_compute; reflexivity.
Qed.
Print Assumptions C37_manual_startup_stuck_refuted.

(** ** C50: one servo per slave clock *)

(** Reconfiguration for the reference clock [m]: afterwards there is exactly one servo in use
    for each clock that may be disciplined and is not the reference, all servos in use have
    the reference as master, and none drives its own master. *)
Theorem C50_reconfigure : forall e clk tbl e', NoDup (map fst tbl) ->
  reconfigure e clk tbl = Some e' ->
  exists m, clk = Some m /\ e_lrc e' = Some m /\ NoDup (running e') /\
    (forall c, In (Some (m, c)) (running e') <-> In (c, true) tbl /\ c <> m) /\
    (forall p, In p (running e') -> exists c, p = Some (m, c) /\ c <> m).
Proof.
  intros e clk tbl e' Hn H. destruct (reconfigure_serves _ _ _ _ Hn H) as [m [E [L [Nd K]]]].
  exists m. split; [assumption|]. split; [assumption|]. split; [assumption|]. split.
  - intros c. rewrite K. split.
    + intros [c' [E' R]]. injection E' as <-. assumption.
    + intros R. exists c. auto.
  - intros p Hp. apply K in Hp as [c [-> [_ R]]]. eauto.
Qed.
Print Assumptions C50_reconfigure.

(** After every history, control messages being delivered: the engine's reference is the
    clock of the selected instance, and the servos in use serve the clocks found at start-up
    or at some later event.  Full statement: without the hypothesis on control messages;
    false, see [C50_lost_selection_refuted]. *)
Theorem C50_follows_selection_partial : forall cf reports initial total now v e0 evs tr,
  startup cf reports initial total now v = Some e0 -> run cf e0 evs = Some tr ->
  Forall controls_ok evs ->
  NoDup (map fst (clocks v)) -> Forall (fun ev => NoDup (map fst (clocks (ev_env ev)))) evs ->
  (exists s, e_sel (last_state e0 tr) = Some s /\
     nth_error (e_clks (last_state e0 tr)) s = Some (e_lrc (last_state e0 tr))) /\
  match e_lrc (last_state e0 tr) with
  | Some m => exists tbl, (tbl = clocks v \/ exists ev, In ev evs /\ tbl = clocks (ev_env ev)) /\
      NoDup (running (last_state e0 tr)) /\
      forall p, In p (running (last_state e0 tr)) <-> exists c, p = Some (m, c) /\ In (c, true) tbl /\ c <> m
  | None => running (last_state e0 tr) = []
  end.
Proof.
  intros cf reports initial total now v e0 evs tr H0 Hr Hok Hn Hns.
  destruct (startup_started _ _ _ _ _ _ _ H0) as [St _].
  assert (I : Forall controls_ok (map fst tr) ->
     wf (last_state e0 tr) /\ serving (last_state e0 tr) (rev (map ev_env (map fst tr)) ++ [v])).
  { clear Hok Hns. revert evs tr Hr. refine (run_ind cf e0 _ _ _).
    - intros _. destruct St as [W T _ _ _ L Sv]. split; [exact W|].
      constructor; [exact L|]. unfold last_state. cbn. destruct (e_lrc e0); [|assumption].
      exists v. split; [left; reflexivity|assumption].
    - intros tr ev e' IH _ H Ho. rewrite last_state_snoc. rewrite !map_app in *. apply Forall_app in Ho as [Ho1 Ho2].
      inversion Ho2; subst. destruct (IH Ho1) as [W Sv]. split; [eapply step_wf; eauto|].
      rewrite rev_app_distr. cbn. eapply step_serving; eauto. }
  rewrite (run_events _ _ _ _ Hr) in I. destruct (I Hok) as [W [L T]]. split; [assumption|].
  destruct (e_lrc (last_state e0 tr)) as [m|].
  - destruct T as [v' [Hin Sv]]. exists (clocks v').
    assert (D : v' = v \/ exists ev, In ev evs /\ v' = ev_env ev).
    { apply in_app_iff in Hin as [Hin|[Hin|[]]]; [|left; congruence]. right.
      apply in_rev, in_map_iff in Hin as [ev [E Hin]]. eauto. }
    destruct Sv as [S1 S2].
    + destruct D as [->|[ev [Hin' ->]]]; [assumption|]. rewrite Forall_forall in Hns. apply Hns. assumption.
    + split; [destruct D as [->|[ev [Hin' ->]]]; eauto|]. split; assumption.
  - unfold running. rewrite T. reflexivity.
Qed.
Print Assumptions C50_follows_selection_partial.

(** Immediately after hot-plugging the servos serve exactly the clocks that now exist. *)
Theorem C50_hotplug : forall cf e ev e', ev_act ev = Hotplug -> step cf e ev = Some e' ->
  NoDup (map fst (clocks (ev_env ev))) ->
  exists s m, e_sel e = Some s /\ nth_error (e_clks e) s = Some (Some m) /\ e_lrc e' = Some m /\
    NoDup (running e') /\
    forall p, In p (running e') <-> exists c, p = Some (m, c) /\ In (c, true) (clocks (ev_env ev)) /\ c <> m.
Proof.
  intros cf e ev e' Ea H Hn. unfold step in H. rewrite Ea in H.
  destruct (e_sel e) as [s|]; [|discriminate]. cbn [bind] in H.
  destruct (nth_error (e_clks e) s) as [clk|] eqn:Ek; [|discriminate]. cbn [bind] in H.
  destruct (reconfigure_serves _ _ _ _ Hn H) as [m [-> [L [S1 S2]]]].
  exists s, m. auto.
Qed.
Print Assumptions C50_hotplug.

Example C50_ex :
  match startup (auto 0) [rep 1 1; rep 2 2] None 8 0 good with
  | Some e0 => running e0 = [Some (1, 0); Some (1, 2)]%nat /\
               match run (auto 0) e0 [mkEv 5 (Report 0%nat (rep 9 1)) good] with
               | Some tr => running (last_state e0 tr) = [Some (2, 0); Some (2, 1)]%nat
               | None => False
               end
  | None => False
  end.
Proof. vm_compute. split; reflexivity. Qed.

(** Full statement: reconfiguration is always possible.  False: it ends in a failed assertion
    exactly if the instance names no clock or there are more clocks to discipline than servos
    were created at start-up (the clocks known then and sixteen more). *)
Theorem C50_capacity_refuted :
  (forall e clk tbl, reconfigure e clk tbl = None <->
     clk = None \/ exists m, clk = Some m /\
       (length (e_servos e) < length (filter (fun p => snd p && negb (fst p =? m)%nat) tbl))%nat) /\
  exists cf reports e0 tbl, startup cf reports None (2 + 16) 0 good = Some e0 /\
    NoDup (map fst tbl) /\ step cf e0 (mkEv 1 Hotplug (mkEnv true true true true tbl)) = None.
Proof.
  split.
  - intros e clk tbl. rewrite reconfigure_none. unfold slaves. split; intros [H|[m [E H]]]; auto; right; exists m;
      rewrite map_length in *; auto.
  - exists (auto 0), [rep 1 0; rep 2 1].
    destruct (startup _ _ _ _ _ _) as [e0|] eqn:E0; [|vm_compute in E0; discriminate].
    exists e0, (map (fun c => (c, true)) (seq 0 20)). split; [reflexivity|]. split.
    + rewrite map_map. cbn [fst]. rewrite map_id. apply seq_NoDup.
    + vm_compute in E0. injection E0 as <-. vm_compute. reflexivity.
Qed.
Print Assumptions C50_capacity_refuted.

(** If the message selecting the new instance is lost, the servos go on following the clock
    of the instance that has been deselected. *)
Theorem C50_lost_selection_refuted : exists cf reports e0 evs tr,
  startup cf reports None 8 0 good = Some e0 /\ run cf e0 evs = Some tr /\
  e_sel (last_state e0 tr) = Some 1%nat /\
  nth_error (e_clks (last_state e0 tr)) 1 = Some (Some 2%nat) /\
  e_lrc (last_state e0 tr) = Some 1%nat /\
  running (last_state e0 tr) = [Some (1, 0); Some (1, 2)]%nat.
Proof.
  exists (auto 0), [rep 1 1; rep 2 2].
  destruct (startup _ _ _ _ _ _) as [e0|] eqn:E0; [|vm_compute in E0; discriminate].
  exists e0, [mkEv 5 (Report 0%nat (rep 9 1)) (mkEnv true false true true (clocks good))].
  vm_compute in E0. injection E0 as <-.
  eexists. split; [reflexivity|]. split; [vm_compute; reflexivity|]. repeat split.
Qed.
Print Assumptions C50_lost_selection_refuted.
