(** Proofs about a PTP instance: convergence is reached, thresholds, flags, translations. *)
Require Import ZArith QArith Qabs List Bool Lia.
Require Import Verif.Base Verif.QLib Verif.FilterModel Verif.StatsModel Verif.PinSpec Verif.PinModel Verif.PinProof.
Import ListNotations.
Open Scope Z_scope.

(** ** Threshold *)
Lemma set_thr_max : forall thr hw c c', set_thr thr hw c = Some c' -> c_max c' = thr_of thr hw.
Proof. intros thr hw c c' H. unfold set_thr in H. destruct (Qlt_bool 0 _); [|discriminate]. injection H as <-. reflexivity. Qed.
Lemma step_cfg : forall i o k z, step i o = Some (k, z) -> n_thr k = n_thr i /\ n_prio k = n_prio i.
Proof.
  intros i o k z H. destruct o as [e|f m|a|c].
  - destruct (tick_inv _ _ _ _ H) as (c1 & c2 & b & _ & _ & -> & _). auto.
  - cbn [step control] in H. unfold control in H. injection H as <- _. auto.
  - cbn [step] in H. injection H as <- _. auto.
  - cbn [step] in H. injection H as <- _. auto.
Qed.
Lemma step_max : forall i o k z, step i o = Some (k, z) ->
  c_max (n_conv k) = match o with Tick e => if n_bond i then thr_of (n_thr i) (k_hw e) else c_max (n_conv i) | _ => c_max (n_conv i) end.
Proof.
  intros i o k z H. destruct o as [e|f m|a|c].
  - destruct (tick_inv _ _ _ _ H) as (c1 & c2 & b & A & B & -> & _). cbn [n_conv].
    rewrite (proj1 (converge_max _ _ _ _ _ _ _ _ B)). destruct (n_bond i); [eapply set_thr_max; eauto|congruence].
  - cbn [step control] in H. unfold control in H. injection H as <- _. auto.
  - cbn [step] in H. injection H as <- _. auto.
  - cbn [step] in H. injection H as <- _. auto.
Qed.
Lemma step_bond : forall i o k z, step i o = Some (k, z) ->
  n_bond k = match o with Tick _ => false | Link _ => true | _ => n_bond i end.
Proof.
  intros i o k z H. destruct o as [e|f m|a|c].
  - destruct (tick_inv _ _ _ _ H) as (c1 & c2 & b & A & B & -> & _). reflexivity.
  - cbn [step control] in H. unfold control in H. injection H as <- _. auto.
  - cbn [step] in H. injection H as <- _. auto.
  - cbn [step] in H. injection H as <- _. auto.
Qed.

(** ** Defined *)
Lemma conv_update_def : forall c t x, c_min c = 60 -> - 2^62 <= t < 2^62 -> (c_num c = 0 \/ - 2^62 <= c_start c < 2^62) ->
  exists c' b, conv_update c t x = Some (c', b) /\ (c_num c' = 0 \/ - 2^62 <= c_start c' < 2^62).
Proof.
  intros c t x M T SB. unfold conv_update. destruct (_ || _); [eexists _, _; split; [reflexivity|left; reflexivity]|].
  destruct (t <? c_start c) eqn:TS; [eexists _, _; split; [reflexivity|right; exact T]|].
  assert (L : - 2^62 <= (if c_num c =? 0 then t else c_start c) < 2^62).
  { destruct (c_num c =? 0) eqn:Z0; [exact T|]. apply Z.eqb_neq in Z0. destruct SB; [congruence|assumption]. }
  unfold chk_s64. assert (F : fits_s64 ((if c_num c =? 0 then t else c_start c) + c_min c) = true).
  { unfold fits_s64. rewrite M. apply andb_true_iff. split; [apply Z.leb_le|apply Z.ltb_lt]; lia. }
  rewrite F. cbn [bind]. eexists _, _. split; [reflexivity|]. right. exact L.
Qed.
Definition okdef (i : inst) : Prop := (0 <= n_thr i)%Q /\ c_min (n_conv i) = 60 /\ (c_num (n_conv i) = 0 \/ - 2^62 <= c_start (n_conv i) < 2^62).
Lemma set_thr_def : forall thr hw c, (0 <= thr)%Q -> exists c', set_thr thr hw c = Some c'.
Proof.
  intros thr hw c H. unfold set_thr. assert (L : Qlt_bool 0 (if Qeq_bool thr 0 then (if hw then 1000#1 else 100000#1) else thr) = true).
  { unfold Qlt_bool. apply negb_true_iff. destruct (Qle_bool _ 0) eqn:E; [|reflexivity]. exfalso. apply Qle_bool_iff in E.
    destruct (Qeq_bool thr 0) eqn:Z0.
    - destruct hw; revert E; unfold Qle; cbn; lia.
    - assert (thr == 0)%Q by (apply Qle_antisym; assumption). apply Qeq_bool_iff in H0. congruence. }
  rewrite L. eauto.
Qed.
Lemma step_def : forall i o, okdef i -> good_env o -> exists k z, step i o = Some (k, z) /\ okdef k.
Proof.
  intros i o (D1 & D2 & D3) G. destruct o as [e|f m|a|c].
  2-4: eexists _, _; split; [reflexivity|]; repeat split; assumption.
  cbn [step]. unfold update. cbv zeta.
  assert (A : exists c1, (if n_bond i then set_thr (n_thr i) (k_hw e) (n_conv i) else Some (n_conv i)) = Some c1 /\
            c_min c1 = 60 /\ (c_num c1 = 0 \/ - 2^62 <= c_start c1 < 2^62)).
  { destruct (n_bond i).
    - destruct (set_thr_def (n_thr i) (k_hw e) (n_conv i) D1) as (c1 & E). exists c1. split; [exact E|].
      apply set_thr_parts in E as (E1 & E2 & E3). rewrite E1, E2, E3. auto.
    - exists (n_conv i). auto. }
  destruct A as (c1 & -> & A2 & A3). cbn [bind].
  assert (B : exists c2 b, converge c1 (d_state (snap_of (k_data e))) (Z.lor (n_alarms i) (d_alarms (snap_of (k_data e)))) (n_flags i) (k_time e)
             (d_off (snap_of (k_data e))) = Some (c2, b) /\ (c_num c2 = 0 \/ - 2^62 <= c_start c2 < 2^62)).
  { unfold converge. cbn [good_env] in G. destruct (k_time e) as [t|]; [|eexists _, _; split; [reflexivity|left; reflexivity]].
    destruct (is_slave _); [|eexists _, _; split; [reflexivity|left; reflexivity]].
    destruct (_ || _); [eexists _, _; split; [reflexivity|exact A3]|]. apply conv_update_def; assumption. }
  destruct B as (c2 & b & B1 & B2). rewrite B1. cbn [bind fst snd]. eexists _, _. split; [reflexivity|].
  unfold okdef. cbn [n_thr n_conv]. split; [exact D1|]. split; [|exact B2]. rewrite (proj2 (converge_max _ _ _ _ _ _ _ _ B1)). exact A2.
Qed.
Lemma run_def : forall l i, okdef i -> Forall good_env l -> exists k z, run i l = Some (k, z).
Proof.
  induction l as [|o l IH]; intros i D F; [eexists _, _; reflexivity|]. inversion F as [|x y F1 F2]; subst.
  destruct (step_def i o D F1) as (k & z & E & D'). destruct (IH k D' F2) as (k' & z' & E'). cbn [run]. rewrite E. cbn [bind fst snd].
  rewrite E'. cbn [bind fst snd]. eauto.
Qed.

(** ** Convergence is reached *)
Lemma q_in_range : forall m x, (Qabs x <= m)%Q -> Qlt_bool x (- m) || Qlt_bool m x = false.
Proof.
  intros m x H. apply Qabs_Qle_condition in H as (A & B). unfold Qlt_bool. apply Qle_bool_iff in A, B. rewrite A, B. reflexivity.
Qed.
(** The state while ticks stay calm: nothing is pending, the measure has started at [t0]. *)
Definition going (m : Q) (t0 last : Z) (n : Z) (i : inst) : Prop :=
  n_bond i = false /\ n_alarms i = 0 /\ Z.testbit (n_flags i) TIMESTAMPS = true /\ c_max (n_conv i) = m /\ c_min (n_conv i) = 60 /\
  c_start (n_conv i) <= t0 /\ 1 <= c_num (n_conv i) <= n /\ c_start (n_conv i) <= last.
Lemma going_tick : forall m t0 last n i e t k z, going m t0 last n i -> calm m e -> k_time e = Some t -> last <= t -> n + 1 < 2^32 ->
  step i (Tick e) = Some (k, z) -> going m t0 t (n + 1) k /\ n_syn k = (c_start (n_conv i) + 60 <=? t).
Proof.
  intros m t0 last n i e t k z (G1 & G2 & G3 & G4 & G5 & G6 & G7 & G8) (C1 & C2 & C3 & _) T L N H.
  destruct (tick_inv _ _ _ _ H) as (c1 & c2 & b & A & B & -> & _). rewrite G1 in A. injection A as <-.
  unfold converge in B. rewrite T, C1, G2, C2, G3 in B. cbn [is_slave Z.lor Z.eqb negb orb] in B.
  unfold conv_update in B. cbn [snap_of d_off] in B. rewrite C1 in B. cbn [is_slave] in B. rewrite G4, (q_in_range _ _ C3) in B.
  assert (TS : t <? c_start (n_conv i) = false) by (apply Z.ltb_ge; lia). rewrite TS in B.
  assert (NZ : c_num (n_conv i) =? 0 = false) by (apply Z.eqb_neq; lia). rewrite NZ, G5 in B.
  unfold chk_s64 in B. destruct (fits_s64 _); [|discriminate]. cbn [bind] in B. injection B as <- <-.
  split; [|reflexivity]. unfold going. cbn [n_bond n_alarms n_flags n_conv c_max c_min c_start c_num].
  assert (U : u32 (c_num (n_conv i) + 1) = c_num (n_conv i) + 1). { unfold u32. apply Z.mod_small. lia. }
  rewrite U. repeat split; try assumption; lia.
Qed.
Lemma last_time : forall l t e, rising t (l ++ [e]) -> exists u, k_time e = Some u /\ t <= u.
Proof.
  induction l as [|x l IH]; intros t e H; cbn [app rising] in H; destruct (k_time _) as [u|] eqn:E; try contradiction; destruct H as (H1 & H2).
  - eauto.
  - destruct (IH u e H2) as (v & E2 & L). exists v. split; [exact E2|lia].
Qed.
Lemma going_run : forall m t0 l last n i k z e t, going m t0 last n i -> Forall (calm m) (l ++ [e]) -> rising last (l ++ [e]) ->
  n + Z.of_nat (length l) + 1 < 2^32 -> run i (map Tick (l ++ [e])) = Some (k, z) -> k_time e = Some t -> t0 + 60 <= t -> n_syn k = true.
Proof.
  intros m t0 l. induction l as [|x l IH]; intros last n i k z e t G F R N H T L.
  - cbn [app map run rising length] in *. inversion F as [|a b C _]; subst.
    destruct (step i (Tick e)) as [[j y]|] eqn:S; [|discriminate]. cbn [bind fst snd] in H. injection H as <- _. rewrite T in R. destruct R as (R1 & _).
    destruct (going_tick _ _ _ _ _ _ _ _ _ G C T R1 ltac:(lia) S) as (_ & ->). apply Z.leb_le. destruct G as (_ & _ & _ & _ & _ & G6 & _). lia.
  - cbn [app map run rising length] in *. inversion F as [|a b C F']; subst. destruct (k_time x) as [u|] eqn:TX; [|contradiction]. destruct R as (R1 & R2).
    destruct (step i (Tick x)) as [[j y]|] eqn:S; [|discriminate]. cbn [bind fst snd] in H.
    destruct (run j (map Tick (l ++ [e]))) as [[k' z']|] eqn:RR; [|discriminate]. cbn [bind fst snd] in H. injection H as <- _.
    destruct (going_tick _ _ _ _ _ _ _ _ _ G C TX R1 ltac:(lia) S) as (G' & _). eapply (IH u (n + 1)); eauto. lia.
Qed.
Lemma num_le : forall i0 l i x, run i0 l = Some (i, x) -> 0 <= c_num (n_conv i0) -> 0 <= c_num (n_conv i) <= c_num (n_conv i0) + Z.of_nat (length l).
Proof.
  intros i0 l i x H P. revert H. apply (run_ind (fun l i x => 0 <= c_num (n_conv i) <= c_num (n_conv i0) + Z.of_nat (length l)) i0); [cbn; lia|].
  intros l' o j y k z _ IH Q. rewrite app_length. cbn [length]. destruct o as [e|f m|a|c].
  2-4: cbn [step] in Q; try (cbn [control] in Q; unfold control in Q); injection Q as <- _; cbn [n_conv]; lia.
  destruct (tick_inv _ _ _ _ Q) as (c1 & c2 & b & A & B & -> & _). cbn [n_conv].
  assert (E : c_num c1 = c_num (n_conv j)). { destruct (n_bond j); [apply set_thr_parts in A; tauto|congruence]. }
  unfold converge in B. destruct (k_time e); [|injection B as <- _; cbn [conv_reset c_num]; lia].
  destruct (is_slave _); [|injection B as <- _; cbn [conv_reset c_num]; lia]. destruct (_ || _); [injection B as <- _; lia|].
  unfold conv_update in B. destruct (_ || _); [injection B as <- _; cbn [conv_reset c_num]; lia|]. destruct (_ <? _); [injection B as <- _; cbn [c_num]; lia|].
  destruct (chk_s64 _); [|discriminate]. injection B as <- _. cbn [c_num]. unfold u32.
  pose proof (Z.mod_pos_bound (c_num c1 + 1) (2^32) ltac:(lia)). pose proof (Z.mod_le (c_num c1 + 1) (2^32) ltac:(lia) ltac:(lia)). lia.
Qed.
(** The first calm tick starts the measure, or finds it started earlier. *)
Lemma first_tick : forall m i e t k z, n_alarms i = 0 -> Z.testbit (n_flags i) TIMESTAMPS = true -> n_bond i = false -> c_max (n_conv i) = m ->
  c_min (n_conv i) = 60 -> 0 <= c_num (n_conv i) -> c_num (n_conv i) + 1 < 2^32 -> calm m e -> k_time e = Some t ->
  step i (Tick e) = Some (k, z) -> going m t t (c_num (n_conv i) + 1) k.
Proof.
  intros m i e t k z G2 G3 G1 G4 G5 P N (C1 & C2 & C3 & _) T H.
  destruct (tick_inv _ _ _ _ H) as (c1 & c2 & b & A & B & -> & _). rewrite G1 in A. injection A as <-.
  unfold converge in B. rewrite T, C1, G2, C2, G3 in B. cbn [is_slave Z.lor Z.eqb negb orb] in B.
  unfold conv_update in B. cbn [snap_of d_off] in B. rewrite C1 in B. cbn [is_slave] in B. rewrite G4, (q_in_range _ _ C3) in B.
  assert (U : u32 (c_num (n_conv i) + 1) = c_num (n_conv i) + 1). { unfold u32. apply Z.mod_small. lia. }
  destruct (t <? c_start (n_conv i)) eqn:TS.
  - injection B as <- <-. unfold going. cbn [n_bond n_alarms n_flags n_conv c_max c_min c_start c_num]. repeat split; try assumption; lia.
  - apply Z.ltb_ge in TS. unfold chk_s64 in B. destruct (fits_s64 _); [|discriminate]. cbn [bind] in B. injection B as <- <-.
    unfold going. cbn [n_bond n_alarms n_flags n_conv c_max c_min c_start c_num]. rewrite U.
    destruct (c_num (n_conv i) =? 0); repeat split; try assumption; lia.
Qed.

(** ** Flags *)
Lemma control_bits : forall f flags mask n, 0 <= f < 2^32 -> 0 <= n < 32 ->
  Z.testbit (Z.lor (Z.land f (u32 (Z.lnot mask))) (Z.land flags mask)) n = if Z.testbit mask n then Z.testbit flags n else Z.testbit f n.
Proof.
  intros f flags mask n F N. rewrite Z.lor_spec, !Z.land_spec. unfold u32. rewrite Z.mod_pow2_bits_low by lia. rewrite Z.lnot_spec by lia.
  destruct (Z.testbit mask n); cbn [negb]; rewrite ?andb_false_r, ?andb_true_r; cbn [orb]; [reflexivity|apply orb_false_r].
Qed.

(** ** Accuracies *)
Lemma within_iff : forall q z, within (Some q) (Some z) = true <-> (Qabs q <= inject_Z z)%Q.
Proof.
  intros q z. cbn [within]. rewrite andb_true_iff, !Qle_bool_iff. symmetry. apply Qabs_Qle_condition.
Qed.
Definition amap : list (Z * option Z) := map (fun p => (fst p, Some (snd p))) accuracy_table ++ [(254, None); (49, None)].
Lemma amap_eq : accuracy_map = amap. Proof. reflexivity. Qed.
Lemma find_bound : forall (q : Q) (r : list (Z * option Z)) (l : list (Z * Z)),
  (exists a c b t, l = a ++ (c, b) :: t /\ find (fun p => within (Some q) (snd p)) (map (fun p => (fst p, Some (snd p))) l ++ r) = Some (c, Some b) /\
     (Qabs q <= inject_Z b)%Q /\ forall p, In p a -> (inject_Z (snd p) < Qabs q)%Q) \/
  (find (fun p => within (Some q) (snd p)) (map (fun p => (fst p, Some (snd p))) l ++ r) = find (fun p => within (Some q) (snd p)) r /\
     forall p, In p l -> (inject_Z (snd p) < Qabs q)%Q).
Proof.
  intros q r l. induction l as [|(c, b) l IH]; [right; split; [reflexivity|intros p []]|].
  cbn [map app find fst snd]. destruct (within (Some q) (Some b)) eqn:W.
  - left. exists [], c, b, l. repeat split; [|intros p []]. apply within_iff. exact W.
  - assert (B : (inject_Z b < Qabs q)%Q). { apply Qnot_le_lt. intro X. apply within_iff in X. congruence. }
    destruct IH as [(a & c' & b' & t & -> & E & Q1 & Q2)|(E & Q2)].
    + left. exists ((c, b) :: a), c', b', t. repeat split; [exact E|exact Q1|]. intros p [<-|P]; [exact B|auto].
    + right. split; [exact E|]. intros p [<-|P]; [exact B|auto].
Qed.
Lemma acc_to_spec : forall q,
  (exists a c b t, accuracy_table = a ++ (c, b) :: t /\ acc_to (Some q) = c /\ (Qabs q <= inject_Z b)%Q /\
     forall p, In p a -> (inject_Z (snd p) < Qabs q)%Q) \/
  (acc_to (Some q) = 254 /\ forall p, In p accuracy_table -> (inject_Z (snd p) < Qabs q)%Q).
Proof.
  intro q. unfold acc_to. rewrite amap_eq. unfold amap.
  destruct (find_bound q [(254, None); (49, None)] accuracy_table) as [(a & c & b & t & E & -> & Q1 & Q2)|(-> & Q2)].
  - left. exists a, c, b, t. repeat split; assumption.
  - right. split; [reflexivity|exact Q2].
Qed.
Lemma acc_from_spec : forall z b, acc_from z = Some b <-> In (z, b) accuracy_table.
Proof.
  intros z b. split.
  - intro H. unfold acc_from in H. destruct (find _ accuracy_map) as [[c x]|] eqn:F; [|discriminate]. cbn [snd] in H. subst x.
    apply find_some in F as (F1 & F2). cbn [fst] in F2. apply Z.eqb_eq in F2. subst c.
    rewrite amap_eq in F1. unfold amap in F1. apply in_app_or in F1 as [F1|[F1|[F1|[]]]]; try discriminate F1.
    apply in_map_iff in F1 as ((c, y) & E & I1). cbn [fst snd] in E. injection E as -> ->. exact I1.
  - intro H. cbn [In accuracy_table] in H. repeat (destruct H as [H|H]; [injection H as <- <-; reflexivity|]). destruct H.
Qed.
Lemma class_from_spec : forall z c, class_from z = c <-> In (z, c) class_table \/ (c = UnknownClass /\ forall c', ~ In (z, c') class_table).
Proof.
  intros z c. unfold class_from.
  destruct ((z =? 6) || (z =? 13)) eqn:A; [|destruct ((z =? 7) || (z =? 14)) eqn:B; [|destruct (_ || (z =? 255)) eqn:C]].
  - apply orb_true_iff in A. rewrite !Z.eqb_eq in A. split.
    + intros <-. left. destruct A as [->| ->]; cbn; auto.
    + intros [H|(_ & H)].
      * destruct A as [->| ->]; cbn in H; repeat (destruct H as [H|H]; [try discriminate H; injection H as <-; reflexivity|]); destruct H.
      * exfalso. apply (H Locked). destruct A as [->| ->]; cbn; auto.
  - apply orb_true_iff in B. rewrite !Z.eqb_eq in B. split.
    + intros <-. left. destruct B as [->| ->]; cbn; auto.
    + intros [H|(_ & H)].
      * destruct B as [->| ->]; cbn in H; repeat (destruct H as [H|H]; [try discriminate H; injection H as <-; reflexivity|]); destruct H.
      * exfalso. apply (H Holdover). destruct B as [->| ->]; cbn; auto.
  - rewrite !orb_true_iff, !Z.eqb_eq in C. split.
    + intros <-. left. destruct C as [[[[[->| ->]| ->]| ->]| ->]| ->]; cbn; auto 12.
    + intros [H|(_ & H)].
      * destruct C as [[[[[->| ->]| ->]| ->]| ->]| ->]; cbn in H; repeat (destruct H as [H|H]; [try discriminate H; injection H as <-; reflexivity|]); destruct H.
      * exfalso. apply (H Freerunning). destruct C as [[[[[->| ->]| ->]| ->]| ->]| ->]; cbn; auto 12.
  - rewrite !orb_false_iff, !Z.eqb_neq in *.
    assert (N : forall c', ~ In (z, c') class_table).
    { intros c' H. cbn in H. repeat (destruct H as [H|H]; [injection H as H _; lia|]). destruct H. }
    split; [intros <-; right; auto|]. intros [H|(-> & _)]; [destruct (N _ H)|reflexivity].
Qed.
