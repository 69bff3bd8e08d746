(** Proofs for C75: the start as a whole. *)
Require Import ZArith List Bool Arith Lia Permutation.
From Verif Require Import Base PmcSpec PmcModel PmcProof PmcProof2 PmcProof3 PmcProof4 PmcProof5.
Import ListNotations.
Open Scope Z_scope.

Lemma shares_same l i j : shares l i j <-> same l i j = true.
Proof.
  unfold shares, same. split.
  - intros (c & d & A & B & C & D). rewrite A, B. apply same_if_eq. auto.
  - destruct (nth_error l i) as [c|], (nth_error l j) as [d|]; try discriminate. intro H. apply same_if_eq in H as [A B]. exists c, d. auto.
Qed.
Lemma first_iff l i : first l i <-> In i (firsts l (List.length l)).
Proof.
  rewrite in_firsts, is_first_spec. split; intros [A B]; (split; [exact A|]); intros x Hx; specialize (B x Hx).
  - apply not_true_iff_false. rewrite <- shares_same. exact B.
  - rewrite shares_same. congruence.
Qed.
Lemma first_self l i : first l i -> first_on l i = i.
Proof. intro F. apply first_iff in F. apply first_on_spec; [exact F|]. apply same_refl. apply in_firsts in F. tauto. Qed.
Lemma first_on_first l i : (i < List.length l)%nat -> first l (first_on l i).
Proof. intro H. apply first_iff. apply (first_on_ex l i H). Qed.
Lemma first_on_shares l i a : first l a -> shares l a i -> first_on l i = a.
Proof. intros F S. apply first_on_spec; [apply first_iff, F|apply shares_same, S]. Qed.
Lemma shares_lt l i j : shares l i j -> (i < List.length l)%nat /\ (j < List.length l)%nat.
Proof. intros (c & d & A & B & _). split; apply nth_error_Some; congruence. Qed.

(** Software timestamping. *)
Lemma soft_len l e ns : shape l (List.length l) ns -> forall ms, incl ms ns -> soft_of e ms = Z.of_nat (List.length (filter (fun i => e_soft e (first_on l i)) (all ms))).
Proof.
  intros S. induction ms as [|n ms IH]; intro H; [reflexivity|]. unfold all. cbn [flat_map soft_of fold_right]. rewrite filter_app, app_length, Nat2Z.inj_add. fold (all ms) (soft_of e ms).
  rewrite IH by (intros x Hx; apply H; right; exact Hx).
  assert (Q : forall r, (forall i, In i r -> In i (n_insts n)) -> (if e_soft e (n_rep n) then Z.of_nat (List.length r) else 0) = Z.of_nat (List.length (filter (fun i => e_soft e (first_on l i)) r))).
  { induction r as [|i r IHr]; intro Q; [destruct (e_soft e (n_rep n)); reflexivity|]. cbn [filter]. rewrite <- (inst_rep l ns n i S (H n (or_introl eq_refl)) (Q i (or_introl eq_refl))).
    specialize (IHr (fun i Hi => Q i (or_intror Hi))). destruct (e_soft e (n_rep n)); cbn [List.length] in *; lia. }
  rewrite (Q (n_insts n) (fun i Hi => Hi)). lia.
Qed.
Lemma le1 (l : list nat) : NoDup l -> (Z.of_nat (List.length l) <= 1 <-> forall i j, In i l -> In j l -> i = j).
Proof.
  destruct l as [|x [|y l]]; intro ND; cbn [List.length].
  - split; [intros _ i j []|lia].
  - split; [intros _ i j [<-|[]] [<-|[]]; reflexivity|lia].
  - split; [lia|]. intro H. specialize (H x y (or_introl eq_refl) (or_intror (or_introl eq_refl))). subst. inversion_clear ND. destruct H. left. reflexivity.
Qed.
Lemma soft_iff l e ns : shape l (List.length l) ns -> (soft_of e ns <= 1 <->
  forall i j a b, first l a -> first l b -> shares l a i -> shares l b j -> e_soft e a = true -> e_soft e b = true -> i = j).
Proof.
  intro S. rewrite (soft_len l e ns S ns (incl_refl _)), le1 by (apply NoDup_filter; eapply shape_nodup; eauto). split.
  - intros H i j a b Fa Fb Sa Sb Ea Eb. apply H; apply filter_In; (split; [eapply in_all; eauto; apply shares_lt in Sa, Sb; tauto|]); [rewrite (first_on_shares l i a) by assumption|rewrite (first_on_shares l j b) by assumption]; assumption.
  - intros H i j Hi Hj. apply filter_In in Hi as [Hi Ei], Hj as [Hj Ej]. eapply in_all in Hi; [|exact S|lia]. eapply in_all in Hj; [|exact S|lia].
    apply (H i j (first_on l i) (first_on l j)); auto; try (apply first_on_first; assumption); apply shares_same; apply first_on_ex; assumption.
Qed.

(** The state of a module that has come up. *)
Record running (l : list conf) (e : env) (w : world) : Prop := mkRun {
  ru_good : good w;
  ru_shape : shape l (List.length l) (w_intfs w);
  ru_ok : forall n, In n (w_intfs w) -> n_ok n = true /\ n_ctx n <> None;
  ru_ports : forall x, In x (w_ports w) <-> In x (all (w_intfs w));
  ru_alarm : forall x, In x (w_alarm w) <-> (x < List.length l)%nat /\ e_phys e (first_on l x) = 0 }.

Lemma wf_alloc w : wf w -> wf (alloc OGlob w).
Proof.
  intros [W1 W2 W3 W4 W5 W6 W7 W8 W9]. constructor; cbn [w_intfs w_ports w_ctxs w_live alloc set_live]; auto; try (intros; right; auto; fail).
  - intros n Hn. specialize (W4 n Hn). unfold ok_ctx in *. cbn [w_intfs w_ports w_ctxs w_live alloc set_live]. destruct (n_ctx n); [|exact W4]. destruct W4 as (A & B & C & D & F & H & K). cbn [In]. repeat split; auto; try apply H; auto.
  - intros o [<-|Ho]; [exact Logic.I|]. specialize (W6 o Ho). exact W6.
Qed.

Lemma startup_spec l e w : made l (List.length l) w -> l <> [] ->
  match startup e w with
  | Some (rc, evs, w') => (rc = 0 <-> works l e) /\ (rc = 0 -> running l e w' /\ evs = ups l 0 (groups l (List.length l)))
  | None => ~ works l e
  end /\
  ((forall i, first l i -> e_ctx e i = 0) -> (forall i, (i < List.length l)%nat -> e_port e i = 0) ->
     exists rc evs w', startup e w = Some (rc, evs, w') /\ wf w' /\ (e_init e <> 0 -> ~ In OGlob (w_live w'))).
Proof.
  intros M Nl. pose proof (made_plain l _ w M) as P0. destruct (plain_wf l _ w (Nat.le_refl _) P0) as (W0 & X0 & G0). pose proof P0 as (S0 & _).
  assert (Wk : walk (w_intfs w) <> []). { rewrite (walk_all w W0). intro Q. destruct l as [|c l']; [contradiction|]. assert (In 0%nat (all (w_intfs w))) as H by (eapply in_all; eauto; cbn; lia). rewrite Q in H. destruct H. }
  unfold startup. destruct (walk (w_intfs w)) as [|i0 r0] eqn:Ew; [contradiction|]. rewrite <- Ew in *. clear Ew i0 r0.
  destruct (Z.eqb_spec (e_sub1 e) 0) as [Z1|Z1]; cbn [negb].
  2:{ split; [split; [split; [intro; contradiction|intros (Q & _); contradiction]|intro; contradiction]|]. intros _ _. do 3 eexists. split; [reflexivity|]. split; [exact W0|auto]. }
  destruct (Z.eqb_spec (e_sub2 e) 0) as [Z2|Z2]; cbn [negb].
  2:{ split; [split; [split; [intro; contradiction|intros (_ & Q & _); contradiction]|intro; contradiction]|]. intros _ _. do 3 eexists. split; [reflexivity|]. split; [exact W0|auto]. }
  assert (T0 : st l e w). { destruct M as (M1 & M2 & M3 & M4 & M5 & M6 & M7). split; [exact P0|]. split; [exact M1|]. split; [exact M6|]. intros n Hn A. rewrite M2 in Hn. unfold groups in Hn. apply in_map_iff in Hn as (j & <- & _). discriminate. }
  destruct (start_loop_spec l e (walk (w_intfs w)) w T0) as (rc & w1 & A & P1 & R1 & D1 & _).
  { intros i Hi. rewrite (walk_all w W0) in Hi. eapply in_all; eauto. }
  rewrite A. cbn [bind]. destruct (plain_wf l _ w1 (Nat.le_refl _) P1) as (W1 & X1 & G1).
  assert (R1' : rc = 0 <-> forall i, (i < List.length l)%nat -> e_topo e (first_on l i) = 0 /\ e_stats e i = 0 /\ e_ts e i = 0).
  { rewrite R1. rewrite (walk_all w W0). split; intros Q i Hi; apply Q; [eapply in_all; eauto|eapply in_all in Hi; eauto]. }
  clear R1. assert (Wd : forall rc' evs, rc' <> 0 -> ~ works l e ->
    match (do w <- destroy_instances w1; Some (rc', evs, w)) with
    | Some (rc, evs, w') => (rc = 0 <-> works l e) /\ (rc = 0 -> running l e w' /\ evs = ups l 0 (groups l (List.length l)))
    | None => ~ works l e end /\
    ((forall i, first l i -> e_ctx e i = 0) -> (forall i, (i < List.length l)%nat -> e_port e i = 0) ->
     exists rc evs0 w', (do w <- destroy_instances w1; Some (rc', evs, w)) = Some (rc, evs0, w') /\ wf w' /\ (e_init e <> 0 -> ~ In OGlob (w_live w')))).
  { intros rc' evs Q1 Q2. destruct (destroy_spec w1 W1) as (w2 & B1 & B2 & B3 & B4 & B5 & B6 & B7). rewrite B1. cbn [bind]. split; [split; [split; [intro; contradiction|intro; contradiction]|intro; contradiction]|].
    intros _ _. do 3 eexists. split; [reflexivity|]. split; [exact B7|]. intros _ H. apply G1, B4, H. }
  destruct (Z.eqb_spec rc 0) as [->|Nrc]; cbn [negb].
  2:{ apply Wd; [exact Nrc|]. intros (_ & _ & _ & _ & Q1 & Q2 & _). apply Nrc, R1'. intros i Hi. destruct (Q2 i Hi) as (Q3 & Q4 & _). split; [apply (Q1 (first_on l i)), first_on_first, Hi|auto]. }
  destruct (Z.eqb_spec (e_init e) 0) as [Z3|Z3]; cbn [negb].
  2:{ apply Wd; [exact Z3|]. intros (_ & _ & Q & _). contradiction. }
  clear Wd. destruct (D1 eq_refl) as (T1 & Ok1 & Al1). pose proof (proj1 R1' eq_refl) as Hst. pose proof T1 as (_ & Cf & Cn & _). pose proof P1 as (S1 & Cx & Pp & Ct & Lv).
  assert (Gd : good (alloc OGlob w1)) by (split; [apply wf_alloc, W1|]; split; [exact X1|left; reflexivity]).
  destruct (ctx_spec l e (w_intfs w1) [] (alloc OGlob w1) Gd S1 eq_refl) as (rc & now & soft & evs & w2 & B & R2 & G2 & D2).
  - intros n i Hn Hi. cbn [alloc set_live w_conf]. rewrite Cf. reflexivity.
  - cbn [app]. intros n Hn. pose proof (shape_some _ _ _ _ S1 (Nat.le_refl _) Hn) as Hr. apply (Ok1 (n_rep n)); [|exact Hn|exact Hr]. rewrite (walk_all w W0). eapply in_all; eauto. eapply (in_all l _ (w_intfs w1)); eauto. eapply all_in; eauto.
  - intros n [].
  - exact Cx.
  - intro x. cbn [alloc set_live w_ports]. rewrite Pp. reflexivity.
  - rewrite B. cbn [bind].
    assert (Up : (forall n, In n (w_intfs w1) -> up_ok e n) <-> (forall i, first l i -> e_ctx e i = 0) /\ forall i, (i < List.length l)%nat -> port_ok e i).
    { split.
      - intro H. split.
        + intros i Fi. apply first_iff in Fi. rewrite <- (shape_reps _ _ _ S1) in Fi. apply in_map_iff in Fi as (n & <- & Hn). apply (H n Hn).
        + intros i Hi. apply (in_all l _ _ i S1 (Nat.le_refl _)) in Hi. unfold all in Hi. apply in_flat_map in Hi as (n & Hn & Ii). apply (H n Hn), Ii.
      - intros [H1 H2] n Hn. split; [apply H1, first_iff; eapply shape_in; eauto|]. intros i Hi. apply H2. eapply in_all; eauto. eapply all_in; eauto. }
    assert (Gp : (forall i, first l i -> e_ctx e i = 0) -> (forall i, (i < List.length l)%nat -> e_port e i = 0) -> good w2).
    { intros H1 H2. apply G2. intros n Hn. split; [apply H1, first_iff; eapply shape_in; eauto|]. intros i Hi. apply H2. eapply in_all; eauto. eapply all_in; eauto. }
    assert (Fail : forall rc', rc' <> 0 -> ~ works l e ->
      match (do w <- destroy_instances w2; Some (rc', evs, w)) with
      | Some (rc, evs, w') => (rc = 0 <-> works l e) /\ (rc = 0 -> running l e w' /\ evs = ups l 0 (groups l (List.length l)))
      | None => ~ works l e end /\
      ((forall i, first l i -> e_ctx e i = 0) -> (forall i, (i < List.length l)%nat -> e_port e i = 0) ->
        exists rc evs0 w', (do w <- destroy_instances w2; Some (rc', evs, w)) = Some (rc, evs0, w') /\ wf w' /\ (e_init e <> 0 -> ~ In OGlob (w_live w')))).
    { intros rc' Q1 Q2. split.
      - destruct (destroy_instances w2) as [w3|]; cbn [bind]; [|exact Q2]. split; [split; [intro; contradiction|intro; contradiction]|intro; contradiction].
      - intros H1 H2. destruct (Gp H1 H2) as (Q3 & _). destruct (destroy_spec w2 Q3) as (w3 & B1 & B2 & B3 & B4 & B5 & B6 & B7). rewrite B1. cbn [bind]. do 3 eexists. split; [reflexivity|]. split; [exact B7|]. intro; contradiction. }
    assert (Nw : rc <> 0 -> ~ works l e).
    { intros N (_ & _ & _ & _ & Q1 & Q2 & _). apply N, R2, Up. split; [intros i Hi; apply (Q1 i Hi)|]. intros i Hi. unfold port_ok. apply (Q2 i Hi). }
    destruct (Z.eqb_spec rc 0) as [->|N]; cbn [negb].
    2:{ destruct now; [|apply Fail; auto]. split; [split; [split; [intro; contradiction|intro H; destruct (Nw N H)]|intro; contradiction]|]. intros H1 H2. do 3 eexists. split; [reflexivity|]. split; [apply (Gp H1 H2)|intro; contradiction]. }
    destruct (D2 eq_refl) as (_ & E2 & E3 & E4 & E5 & E6 & E7). destruct (proj1 Up (proj1 R2 eq_refl)) as [U1 U2].
    pose proof (soft_iff l e (w_intfs w1) S1) as Si. rewrite <- E2 in Si.
    destruct (Z.ltb_spec 1 soft) as [L1|L1].
    { apply Fail; [discriminate|]. intros (_ & _ & _ & _ & _ & _ & Q). apply Si in Q. lia. }
    destruct (Z.eqb_spec (e_timer e) 0) as [Z4|Z4]; cbn [negb].
    2:{ apply Fail; [exact Z4|]. intros (_ & _ & _ & Q & _). contradiction. }
    assert (Wo : works l e).
    { split; [exact Z1|]. split; [exact Z2|]. split; [exact Z3|]. split; [exact Z4|]. split; [|split; [|apply Si; exact L1]].
      - intros i Hi. split; [|apply U1, Hi]. rewrite <- (first_self l i Hi). apply Hst. apply Hi.
      - intros i Hi. destruct (Hst i Hi) as (_ & Q1 & Q2), (U2 i Hi) as (Q3 & Q4 & Q5). auto. }
    assert (Gw : good w2) by (apply Gp; [exact U1|intros i Hi; apply (U2 i Hi)]).
    split; [split; [split; [intros _; exact Wo|reflexivity]|]|].
    + intros _. split; [constructor; auto|].
      * intro x. rewrite E4. cbn [alloc set_live w_alarm]. rewrite Al1. rewrite (walk_all w W0). destruct M as (_ & _ & _ & -> & _). rewrite (in_all l _ _ x S0 (Nat.le_refl _)). cbn [In]. tauto.
      * rewrite E3. cbn [alloc set_live w_count]. rewrite Cn. apply ups_shape. rewrite S1. symmetry. apply shape_groups.
    + intros _ _. do 3 eexists. split; [reflexivity|]. split; [apply Gw|intro; contradiction].
Qed.
