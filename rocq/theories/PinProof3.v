(** Proofs about a PTP instance: what single ticks tell. *)
Require Import ZArith QArith Qabs List Bool Lia.
Require Import Verif.Base Verif.QLib Verif.FilterModel Verif.StatsModel Verif.PinSpec Verif.PinModel Verif.PinProof Verif.PinProof2.
Import ListNotations.
Open Scope Z_scope.

Lemma in_if : forall {A} (b : bool) (x y : A), In x (if b then [y] else []) <-> b = true /\ x = y.
Proof. intros A b x y. destruct b; cbn; intuition congruence. Qed.
Ltac parts H := destruct (tick_inv _ _ _ _ H) as (c1 & c2 & b & A & B & K & ->).
Ltac inparts := rewrite !in_app_iff, !in_if.

Lemma state_in : forall i e k z s, step i (Tick e) = Some (k, z) ->
  (In (State s) z <-> (changed i e || n_bond i = true /\ s = report k (n_score k) (d_off (n_snap k)) (k_hw e) (k_caps e))).
Proof.
  intros i e k z s H. parts H. inparts. split.
  - intros [X|[X|[X|[X|X]]]]; destruct X as (X1 & X2); try discriminate X2; [injection X2 as ->; auto|].
    destruct (d_l59 _); [discriminate X2|]. destruct (d_l61 _); discriminate X2.
  - intros (X1 & ->). right. right. left. auto.
Qed.
Lemma cluster_in : forall i e k z c q v, step i (Tick e) = Some (k, z) ->
  (In (Cluster c q v) z <-> (Z.testbit (n_flags i) DETERMINANT = true /\ Qeq_bool (d_off (n_snap k)) (d_off (n_snap i)) = false /\
     c = n_clock k /\ q = d_off (n_snap i) /\ v = negb (Qeq_bool (d_off (n_snap i)) 0))).
Proof.
  intros i e k z c q v H. parts H. inparts. rewrite andb_true_iff, negb_true_iff. split.
  - intros [X|[X|[X|[X|X]]]]; destruct X as (X1 & X2); try discriminate X2; [injection X2 as -> -> ->; tauto|].
    destruct (d_l59 _); [discriminate X2|]. destruct (d_l61 _); discriminate X2.
  - intros (X1 & X2 & -> & -> & ->). left. auto.
Qed.
Lemma leap_in : forall i e k z o, step i (Tick e) = Some (k, z) -> match o with Leap59 _ | Leap61 _ | Cancel => True | _ => False end ->
  (In o z <-> (Z.testbit (n_flags i) SELECTED = true /\ d_state (k_data e) = Slave /\ leap_changed i e = true /\
     o = if d_l59 (k_data e) then Leap59 (2 * d_ann (k_data e)) else if d_l61 (k_data e) then Leap61 (2 * d_ann (k_data e)) else Cancel)).
Proof.
  intros i e k z o H O. parts H. inparts. rewrite !andb_true_iff, is_slave_iff. split.
  - intros [X|[X|[X|[X|X]]]]; destruct X as (X1 & X2); try (subst o; destruct O). tauto.
  - intros X. right. right. right. right. tauto.
Qed.
Lemma leap_changed_iff : forall i e, leap_changed i e = true <-> (d_l59 (k_data e) <> d_l59 (n_snap i) \/ d_l61 (k_data e) <> d_l61 (n_snap i)).
Proof.
  intros i e. unfold leap_changed. destruct (d_l59 (k_data e)), (d_l59 (n_snap i)), (d_l61 (k_data e)), (d_l61 (n_snap i)); cbn; intuition congruence.
Qed.

Lemma snap_tick : forall i e k z, step i (Tick e) = Some (k, z) -> n_snap k = snap_of (k_data e).
Proof. intros i e k z H. parts H. subst k. reflexivity. Qed.
Lemma flags_tick : forall i e k z, step i (Tick e) = Some (k, z) -> n_flags k = n_flags i /\ n_flags0 k = n_flags i.
Proof. intros i e k z H. parts H. subst k. auto. Qed.

Lemma slave_off : forall d, (if is_slave (d_state (snap_of d)) then d_off (snap_of d) else 0%Q) = d_off (snap_of d).
Proof. intro d. cbn. destruct (is_slave _); reflexivity. Qed.

(** Ticks with unchanged leap second flags announce nothing. *)
Lemma no_leap : forall es i k z, Forall (fun e => d_l59 (k_data e) = d_l59 (n_snap i) /\ d_l61 (k_data e) = d_l61 (n_snap i)) es ->
  run i (map Tick es) = Some (k, z) -> forall o, In o z -> match o with Leap59 _ | Leap61 _ | Cancel => False | _ => True end.
Proof.
  induction es as [|e es IH]; intros i k z F H o O; cbn [map run] in H.
  - injection H as _ <-. destruct O.
  - inversion F as [|x y (F1 & F2) F3]; subst. destruct (step i (Tick e)) as [[j w]|] eqn:E; [|discriminate]. cbn [bind fst snd] in H.
    destruct (run j (map Tick es)) as [[k' z']|] eqn:R; [|discriminate]. cbn [bind fst snd] in H. injection H as <- <-.
    apply in_app_or in O as [O|O].
    + pose proof (fun W => proj1 (leap_in _ _ _ _ o E W) O) as P.
      destruct o; try exact I; (destruct (P I) as (_ & _ & L & _); apply leap_changed_iff in L; destruct L; congruence).
    + eapply IH; [|exact R|exact O]. rewrite (snap_tick _ _ _ _ E). cbn [snap_of d_l59 d_l61]. rewrite F1, F2. exact F3.
Qed.
(** Ticks that find no slave tell the clustering nothing, if the last one found none. *)
Lemma no_cluster : forall es i k z, Qeq_bool (d_off (n_snap i)) 0 = true -> Forall (fun e => d_state (k_data e) <> Slave) es ->
  run i (map Tick es) = Some (k, z) -> forall a, clustered a z = a.
Proof.
  induction es as [|e es IH]; intros i k z Z0 F H a; cbn [map run] in H.
  - injection H as _ <-. reflexivity.
  - inversion F as [|x y F1 F3]; subst. destruct (step i (Tick e)) as [[j w]|] eqn:E; [|discriminate]. cbn [bind fst snd] in H.
    destruct (run j (map Tick es)) as [[k' z']|] eqn:R; [|discriminate]. cbn [bind fst snd] in H. injection H as <- <-.
    unfold clustered. rewrite fold_left_app. fold (clustered a w). fold (clustered (clustered a w) z').
    assert (OF : d_off (n_snap j) = 0%Q).
    { rewrite (snap_tick _ _ _ _ E). cbn [snap_of d_off]. destruct (is_slave _) eqn:SL; [apply is_slave_iff in SL; congruence|reflexivity]. }
    rewrite (IH j k' z'); [|rewrite OF; reflexivity|exact F3|exact R].
    destruct (tick_inv _ _ _ _ E) as (c1 & c2 & b & _ & _ & _ & ->). rewrite clustered_parts. rewrite OF.
    assert (X : Qeq_bool 0 (d_off (n_snap i)) = true). { apply Qeq_bool_iff. symmetry. apply Qeq_bool_iff. exact Z0. }
    rewrite X. cbn [negb]. rewrite andb_false_r. reflexivity.
Qed.

(** Ticks leave the threshold alone. *)
Lemma ticks_max : forall es i k z, n_bond i = false -> run i (map Tick es) = Some (k, z) -> c_max (n_conv k) = c_max (n_conv i) /\ n_bond k = false.
Proof.
  induction es as [|e es IH]; intros i k z N H; cbn [map run] in H.
  - injection H as <- _. auto.
  - destruct (step i (Tick e)) as [[j w]|] eqn:E; [|discriminate]. cbn [bind fst snd] in H.
    destruct (run j (map Tick es)) as [[k' z']|] eqn:R; [|discriminate]. cbn [bind fst snd] in H. injection H as <- _.
    destruct (IH j k' z' (step_bond _ _ _ _ E) R) as (I1 & I2). rewrite I1, (step_max _ _ _ _ E), N. auto.
Qed.
Lemma bond_after_link : forall b i k z, existsb is_tick b = false -> n_bond i = true -> run i b = Some (k, z) -> n_bond k = true.
Proof.
  induction b as [|o b IH]; intros i k z N L H; cbn [run] in H.
  - injection H as <- _. exact L.
  - cbn [existsb] in N. apply orb_false_iff in N as (N1 & N2). destruct (step i o) as [[j w]|] eqn:E; [|discriminate]. cbn [bind fst snd] in H.
    destruct (run j b) as [[k' z']|] eqn:R; [|discriminate]. cbn [bind fst snd] in H. injection H as <- _.
    eapply IH; [exact N2| |exact R]. rewrite (step_bond _ _ _ _ E). destruct o; [discriminate N1|exact L|exact L|reflexivity].
Qed.
Lemma thr_run : forall l i k z, run i l = Some (k, z) -> n_thr k = n_thr i.
Proof.
  intros l i k z H. revert H. apply (run_ind (fun l k x => n_thr k = n_thr i) i); [reflexivity|].
  intros l' o j y k' z' _ P Q. rewrite (proj1 (step_cfg _ _ _ _ Q)). exact P.
Qed.
