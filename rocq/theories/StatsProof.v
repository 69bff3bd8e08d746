Require Import ZArith QArith Qabs Lia List Bool Arith Lqa.
Require Import ZifyBool.
Require Import Verif.Base Verif.TimeSpec Verif.TimeModel Verif.QLib Verif.ListLib.
Require Import Verif.FilterModel Verif.FilterProof Verif.StatsSpec Verif.StatsModel.
Import ListNotations.
Open Scope Z_scope.

(** ** Convergence *)
Lemma in_range_iff : forall max x,
  in_range max x = negb (Qlt_bool x (- max) || Qlt_bool max x).
Proof.
  intros max x. apply eq_true_iff_eq. unfold in_range.
  rewrite Qle_bool_iff, Qabs_Qle_condition, negb_true_iff, orb_false_iff, !Qlt_bool_false.
  reflexivity.
Qed.

Definition conv_inv (c : conv) (r : list (Z * Q)) : Prop :=
  (r = [] -> c_num c = 0 /\ c_start c = 0) /\
  (r <> [] -> In (c_start c) (map fst r)) /\
  (Z.of_nat (length r) < 2^32 ->
     0 <= c_num c <= Z.of_nat (length r) /\
     (r <> [] -> 1 <= c_num c /\ forall t, In t (map fst r) -> c_start c <= t)).

Lemma conv_update_inv : forall c r t x, conv_inv c r ->
  in_range (c_max c) x = true -> 0 < c_min c ->
  forall c' b, conv_update c t x = Some (c', b) ->
    conv_inv c' (r ++ [(t, x)]) /\ c_min c' = c_min c /\ c_max c' = c_max c /\
    (b = true -> exists t0 x0, In (t0, x0) r /\ t0 + c_min c <= t) /\
    (Z.of_nat (length r) < 2^32 - 1 ->
      (exists t0 x0, In (t0, x0) r /\ t0 + c_min c <= t) -> b = true).
Proof.
  intros c r t x [I1 [I2 I3]] Hin Hmin c' b H.
  rewrite in_range_iff in Hin. apply negb_true_iff in Hin.
  unfold conv_update in H. rewrite Hin in H.
  assert (Hmap : map fst (r ++ [(t, x)]) = map fst r ++ [t]) by (rewrite map_app; reflexivity).
  assert (Hlen : length (r ++ [(t, x)]) = S (length r)) by (rewrite app_length; cbn; lia).
  destruct (t <? c_start c) eqn:E.
  - injection H as <- <-. cbn [c_min c_max c_num c_start].
    split; [|split; [reflexivity|split; [reflexivity|split; [discriminate|]]]].
    + unfold conv_inv; cbn [c_num c_start]. rewrite Hmap, Hlen.
      split; [intros Z; apply app_eq_nil in Z as [_ Z]; discriminate|].
      split; [intros _; apply in_or_app; right; left; reflexivity|].
      intros HL. split; [lia|]. intros _. split; [lia|].
      intros t' Ht'. apply in_app_or in Ht' as [Ht'|[<-|[]]]; [|lia].
      destruct r as [|p r]; [destruct Ht'|].
      destruct (I3 ltac:(lia)) as [_ J]. destruct J as [_ J]; [discriminate|].
      specialize (J t' Ht'). lia.
    + intros HL [t0 [x0 [Hr Ht]]].
      destruct r as [|p r]; [destruct Hr|].
      destruct (I3 ltac:(lia)) as [_ J]. destruct J as [_ J]; [discriminate|].
      assert (In t0 (map fst (p :: r))) by (apply (in_map fst) in Hr; exact Hr).
      specialize (J t0 ltac:(assumption)). lia.
  - destruct (chk_s64 _) as [lim|] eqn:El in H; [|discriminate]. cbn [bind] in H.
    unfold chk_s64 in El. destruct (fits_s64 _) eqn:Ef in El; [|discriminate].
    injection El as <-. injection H as <- <-. cbn [c_min c_max c_num c_start].
    set (start := if c_num c =? 0 then t else c_start c) in *.
    split; [|split; [reflexivity|split; [reflexivity|split]]].
    + unfold conv_inv; cbn [c_num c_start]. rewrite Hmap, Hlen.
      split; [intros Z; apply app_eq_nil in Z as [_ Z]; discriminate|].
      split.
      { intros _. apply in_or_app. unfold start. destruct (c_num c =? 0) eqn:En.
        - right. left. reflexivity.
        - left. apply I2. intros ->. destruct I1 as [I1 _]; [reflexivity|lia]. }
      intros HL. destruct (I3 ltac:(lia)) as [J1 J2].
      replace (u32 (c_num c + 1)) with (c_num c + 1) by (unfold u32; rewrite Z.mod_small; lia).
      split; [lia|]. intros _. split; [lia|].
      intros t' Ht'. apply in_app_or in Ht'. unfold start. destruct (c_num c =? 0) eqn:En.
      * destruct Ht' as [Ht'|[<-|[]]]; [|lia].
        destruct r as [|p r]; [destruct Ht'|]. destruct J2 as [J2 _]; [discriminate|]. lia.
      * destruct Ht' as [Ht'|[<-|[]]]; [|lia].
        destruct r as [|p r]; [destruct Ht'|]. destruct J2 as [_ J2]; [discriminate|]. auto.
    + intros Hb. unfold start in Hb. destruct (c_num c =? 0) eqn:En; [lia|].
      assert (Hr : r <> []) by (intros ->; destruct I1 as [I1 _]; [reflexivity|lia]).
      apply I2 in Hr. apply in_map_iff in Hr as [[t0 x0] [E1 E2]]. cbn in E1.
      exists t0, x0. split; [assumption|]. lia.
    + intros HL [t0 [x0 [Hr Ht]]].
      destruct r as [|p r]; [destruct Hr|].
      destruct (I3 ltac:(lia)) as [_ J]. destruct J as [J1 J2]; [discriminate|].
      assert (In t0 (map fst (p :: r))) by (apply (in_map fst) in Hr; exact Hr).
      specialize (J2 t0 ltac:(assumption)). unfold start.
      replace (c_num c =? 0) with false by lia. lia.
Qed.

Lemma conv_reset_inv : forall c, conv_inv (conv_reset c) [].
Proof.
  intros. unfold conv_inv, conv_reset; cbn. repeat split; try lia; congruence.
Qed.

Lemma conv_run_inv : forall ops c r c', conv_inv c r -> 0 < c_min c ->
  conv_run c ops = Some c' ->
  conv_inv c' (fold_left (fun r o => match o with
    | CReset => [] | CUpdate t x => if in_range (c_max c) x then r ++ [(t, x)] else [] end) ops r) /\
  c_min c' = c_min c /\ c_max c' = c_max c.
Proof.
  induction ops as [|o ops IH]; intros c r c' Hi Hm H; cbn [conv_run fold_left] in *.
  - injection H as <-. auto.
  - destruct o as [|t x]; cbn [conv_step bind] in H.
    + destruct (IH (conv_reset c) [] c' (conv_reset_inv c) Hm H) as [A [B C]]. auto.
    + destruct (conv_update c t x) as [[c1 b]|] eqn:E; [|discriminate]. cbn [bind fst] in H.
      destruct (in_range (c_max c) x) eqn:Er.
      * destruct (conv_update_inv c r t x Hi Er Hm c1 b E) as [J1 [J2 [J3 _]]].
        rewrite <- J2 in Hm. destruct (IH c1 _ c' J1 Hm H) as [A [B C]].
        rewrite J3 in *. rewrite J2 in *. auto.
      * rewrite in_range_iff in Er. apply negb_false_iff in Er.
        unfold conv_update in E. rewrite Er in E. injection E as <- <-.
        destruct (IH (conv_reset c) [] c' (conv_reset_inv c) Hm H) as [A [B C]]. auto.
Qed.

(** ** Range records *)
Definition range_ok (r : range) (l : list rsample) : Prop :=
  let ql := qualified_samples l in
  range_summary l (rg_num r) (rg_total r) (rg_sq r) (rg_min r) (rg_max r) (rg_qual r)
                (rg_min_time r) (rg_max_time r) /\
  (ql = [] -> rg_min r = limit /\ rg_max r = (- limit)%Q).

Lemma first_min_single : forall s, first_min [s] s.
Proof. intros s. exists [], []. split; [reflexivity|]. split; intros x []. Qed.
Lemma first_max_single : forall s, first_max [s] s.
Proof. intros s. exists [], []. split; [reflexivity|]. split; intros x []. Qed.

Lemma first_min_in : forall l s, first_min l s -> In s l.
Proof. intros l s [a [b [-> _]]]. apply in_or_app. right. left. reflexivity. Qed.
Lemma first_max_in : forall l s, first_max l s -> In s l.
Proof. intros l s [a [b [-> _]]]. apply in_or_app. right. left. reflexivity. Qed.

Lemma first_min_le : forall l s x, first_min l s -> In x l -> (r_val s <= r_val x)%Q.
Proof.
  intros l s x [a [b [-> [A B]]]] H. apply in_app_or in H as [H|[<-|H]].
  - apply Qlt_le_weak. auto. - apply Qle_refl. - auto.
Qed.
Lemma first_max_le : forall l s x, first_max l s -> In x l -> (r_val x <= r_val s)%Q.
Proof.
  intros l s x [a [b [-> [A B]]]] H. apply in_app_or in H as [H|[<-|H]].
  - apply Qlt_le_weak. auto. - apply Qle_refl. - auto.
Qed.

Lemma first_min_merge : forall l l' s s', first_min l s -> first_min l' s' ->
  first_min (l ++ l') (if Qlt_bool (r_val s') (r_val s) then s' else s).
Proof.
  intros l l' s s' H H'. destruct (Qlt_bool (r_val s') (r_val s)) eqn:E.
  - apply Qlt_bool_iff in E. pose proof H' as Hk. destruct H' as [a [b [-> [A B]]]].
    exists (l ++ a), b. split; [rewrite app_assoc; reflexivity|]. split; [|assumption].
    intros x Hx. apply in_app_or in Hx as [Hx|Hx]; [|auto].
    pose proof (first_min_le _ _ _ H Hx). eapply Qlt_le_trans; eauto.
  - apply Qlt_bool_false in E. pose proof H as Hk. destruct H as [a [b [-> [A B]]]].
    exists a, (b ++ l'). split; [rewrite <- app_assoc; reflexivity|]. split; [assumption|].
    intros x Hx. apply in_app_or in Hx as [Hx|Hx]; [auto|].
    pose proof (first_min_le _ _ _ H' Hx). eapply Qle_trans; eauto.
Qed.
Lemma first_max_merge : forall l l' s s', first_max l s -> first_max l' s' ->
  first_max (l ++ l') (if Qlt_bool (r_val s) (r_val s') then s' else s).
Proof.
  intros l l' s s' H H'. destruct (Qlt_bool (r_val s) (r_val s')) eqn:E.
  - apply Qlt_bool_iff in E. destruct H' as [a [b [-> [A B]]]].
    exists (l ++ a), b. split; [rewrite app_assoc; reflexivity|]. split; [|assumption].
    intros x Hx. apply in_app_or in Hx as [Hx|Hx]; [|auto].
    pose proof (first_max_le _ _ _ H Hx). eapply Qle_lt_trans; eauto.
  - apply Qlt_bool_false in E. destruct H as [a [b [-> [A B]]]].
    exists a, (b ++ l'). split; [rewrite <- app_assoc; reflexivity|]. split; [assumption|].
    intros x Hx. apply in_app_or in Hx as [Hx|Hx]; [auto|].
    pose proof (first_max_le _ _ _ H' Hx). eapply Qle_trans; eauto.
Qed.

Lemma qualified_app : forall a b, qualified_samples (a ++ b) = qualified_samples a ++ qualified_samples b.
Proof. intros. apply filter_app. Qed.

Lemma limits_qualified : forall l x, Forall in_limits l -> In x (qualified_samples l) ->
  (- limit < r_val x < limit)%Q.
Proof.
  intros l x H Hx. apply filter_In in Hx as [Hx _]. rewrite Forall_forall in H.
  apply H in Hx. unfold in_limits in Hx. apply Qabs_Qlt_condition in Hx. assumption.
Qed.

Lemma range_init_ok : range_ok range_init [].
Proof.
  unfold range_ok, range_summary, range_init; cbn [rg_num rg_total rg_sq rg_min rg_max rg_qual rg_min_time rg_max_time].
  split; [|split; reflexivity].
  split; [reflexivity|]. split; [reflexivity|]. split; [reflexivity|].
  split; [split; [intros _ s []|reflexivity]|]. intros H; exfalso; apply H; reflexivity.
Qed.

Lemma u64_add_mod : forall a b, u64 (a mod 2^64 + b mod 2^64) = (a + b) mod 2^64.
Proof. intros. unfold u64. rewrite <- Z.add_mod by lia. reflexivity. Qed.

Lemma range_add_ok : forall d s l l', Forall in_limits (l ++ l') ->
  range_ok d l -> range_ok s l' -> range_ok (range_add d s) (l ++ l').
Proof.
  intros d s l l' HL [[A1 [A2 [A3 [A4 A5]]]] A6] [[B1 [B2 [B3 [B4 B5]]]] B6].
  apply Forall_app in HL as [HL1 HL2].
  pose proof (limits_qualified l) as Lq. pose proof (limits_qualified l') as Lq'.
  unfold range_ok, range_summary, range_add.
  cbn [rg_num rg_total rg_sq rg_min rg_max rg_qual rg_min_time rg_max_time].
  rewrite !qualified_app, !map_app.
  split.
  - split. { rewrite A1, B1, u64_add_mod, app_length. f_equal. lia. }
    split. { rewrite A2, B2, Qsum_app. reflexivity. }
    split. { rewrite A3, B3, Qsum_app. reflexivity. }
    split.
    { destruct (rg_qual s) eqn:E.
      - rewrite A4. split.
        + intros H x Hx. apply in_app_or in Hx as [Hx|Hx]; [auto|]. apply B4; auto.
        + intros H x Hx. apply H, in_or_app. auto.
      - split; [discriminate|]. intros H. apply B4. intros x Hx. apply H, in_or_app. auto. }
    intros Hne.
    destruct (qualified_samples l) as [|q ql] eqn:El; destruct (qualified_samples l') as [|q' ql'] eqn:El'.
    + exfalso. apply Hne. reflexivity.
    + destruct B5 as [lo [hi [F1 [F2 [E1 [E2 [E3 E4]]]]]]]; [discriminate|].
      destruct A6 as [Em EM]; [reflexivity|].
      assert (Qlt_bool (rg_min s) (rg_min d) = true).
      { apply Qlt_bool_iff. rewrite E1, Em. apply (Lq' lo HL2), first_min_in; rewrite ?El'; assumption. }
      assert (Qlt_bool (rg_max d) (rg_max s) = true).
      { apply Qlt_bool_iff. rewrite E3, EM. apply (Lq' hi HL2), first_max_in; rewrite ?El'; assumption. }
      rewrite H, H0. exists lo, hi. cbn [app]. auto 10.
    + destruct A5 as [lo [hi [F1 [F2 [E1 [E2 [E3 E4]]]]]]]; [discriminate|].
      destruct B6 as [Em EM]; [reflexivity|].
      assert (Qlt_bool (rg_min s) (rg_min d) = false).
      { apply Qlt_bool_false. rewrite E1, Em. apply Qlt_le_weak. apply (Lq lo HL1), first_min_in; rewrite ?El; assumption. }
      assert (Qlt_bool (rg_max d) (rg_max s) = false).
      { apply Qlt_bool_false. rewrite E3, EM. apply Qlt_le_weak. apply (Lq hi HL1), first_max_in; rewrite ?El; assumption. }
      rewrite H, H0. exists lo, hi. rewrite app_nil_r. auto 10.
    + destruct A5 as [lo [hi [F1 [F2 [E1 [E2 [E3 E4]]]]]]]; [discriminate|].
      destruct B5 as [lo' [hi' [F1' [F2' [E1' [E2' [E3' E4']]]]]]]; [discriminate|].
      pose proof (first_min_merge _ _ _ _ F1 F1') as G1.
      pose proof (first_max_merge _ _ _ _ F2 F2') as G2.
      rewrite E1, E1', E2, E2', E3, E3', E4, E4'.
      eexists _, _. split; [exact G1|]. split; [exact G2|].
      destruct (Qlt_bool (r_val lo') (r_val lo)); destruct (Qlt_bool (r_val hi) (r_val hi')); auto.
  - intros Hn. apply app_eq_nil in Hn as [N1 N2].
    destruct (A6 N1) as [Em EM]. destruct (B6 N2) as [Em' EM'].
    rewrite Em, EM, Em', EM'.
    split; [destruct (Qlt_bool limit limit)|destruct (Qlt_bool (- limit) (- limit))]; reflexivity.
Qed.

Definition range_single (s : rsample) : range := range_update range_init s.

Lemma Qlt_bool_true : forall x y, (x < y)%Q -> Qlt_bool x y = true.
Proof. intros. apply Qlt_bool_iff. assumption. Qed.

Lemma range_single_ok : forall s, in_limits s -> range_ok (range_single s) [s].
Proof.
  intros s H. unfold in_limits in H. apply Qabs_Qlt_condition in H.
  unfold range_single, range_update, range_ok, range_summary, qualified_samples; cbn [filter].
  destruct (r_qual s) eqn:E.
  - unfold range_init; cbn [rg_num rg_total rg_sq rg_min rg_max rg_qual rg_min_time rg_max_time rg_valid].
    change (inject_Z (10^100)) with limit.
    rewrite (Qlt_bool_true (r_val s) limit) by apply H.
    rewrite (Qlt_bool_true (- limit) (r_val s)) by apply H.
    split.
    + split; [reflexivity|]. split; [cbn [map]; rewrite Qsum_cons; change (Qsum []) with 0%Q; ring|].
      split; [cbn [map]; rewrite Qsum_cons; change (Qsum []) with 0%Q; ring|].
      split. { split; [|reflexivity]. intros _ x [<-|[]]. assumption. }
      intros _. exists s, s. split; [apply first_min_single|]. split; [apply first_max_single|]. auto.
    + discriminate.
  - unfold range_init; cbn [rg_num rg_total rg_sq rg_min rg_max rg_qual rg_min_time rg_max_time rg_valid].
    split.
    + split; [reflexivity|]. split; [reflexivity|]. split; [reflexivity|].
      split. { split; [discriminate|]. intros G. rewrite (G s) in E; [discriminate|left; reflexivity]. }
      intros G. exfalso. apply G. reflexivity.
    + split; reflexivity.
Qed.

(** Adding a single sample is merging with a one-sample record, up to [==] on totals. *)
Lemma range_ok_ext : forall r r' l,
  rg_num r = rg_num r' -> (rg_total r == rg_total r')%Q -> (rg_sq r == rg_sq r')%Q ->
  rg_min r = rg_min r' -> rg_max r = rg_max r' -> rg_qual r = rg_qual r' ->
  rg_min_time r = rg_min_time r' -> rg_max_time r = rg_max_time r' ->
  range_ok r l -> range_ok r' l.
Proof.
  intros r r' l E1 E2 E3 E4 E5 E6 E7 E8 [H1 H2]. unfold range_ok, range_summary in *.
  rewrite <- E1, <- E2, <- E3, <- E4, <- E5, <- E6, <- E7, <- E8. auto.
Qed.

Lemma range_num_mod : forall r l, range_ok r l -> 0 <= rg_num r < 2^64.
Proof. intros r l [[H _] _]. rewrite H. apply Z.mod_pos_bound. lia. Qed.

Lemma range_update_ok : forall r l s, Forall in_limits (l ++ [s]) ->
  range_ok r l -> range_ok (range_update r s) (l ++ [s]).
Proof.
  intros r l s HL Hr. pose proof HL as HL0. apply Forall_app in HL0 as [HL1 HL2].
  inversion HL2 as [|? ? Hs _]; subst.
  pose proof (range_add_ok r (range_single s) l [s] HL Hr (range_single_ok s Hs)) as H.
  pose proof (range_num_mod _ _ Hr) as Hn.
  unfold in_limits in Hs. apply Qabs_Qlt_condition in Hs.
  assert (Lm : rg_min r = limit \/ (rg_min r < limit)%Q).
  { destruct (qualified_samples l) as [|q ql] eqn:E.
    - left. apply Hr. assumption.
    - right. destruct Hr as [[_ [_ [_ [_ H5]]]] _]. destruct H5 as [lo [hi [F1 [_ [E1 _]]]]].
      { rewrite E. discriminate. }
      rewrite E1. apply (limits_qualified l); [assumption|]. apply first_min_in. assumption. }
  assert (LM : rg_max r = (- limit)%Q \/ (- limit < rg_max r)%Q).
  { destruct (qualified_samples l) as [|q ql] eqn:E.
    - left. apply Hr. assumption.
    - right. destruct Hr as [[_ [_ [_ [_ H5]]]] _]. destruct H5 as [lo [hi [_ [F2 [_ [_ [E1 _]]]]]]].
      { rewrite E. discriminate. }
      rewrite E1. apply (limits_qualified l); [assumption|]. apply first_max_in. assumption. }
  eapply range_ok_ext; [..|exact H]; clear H;
    unfold range_add, range_single, range_update; destruct (r_qual s) eqn:E;
    unfold range_init; cbn [rg_num rg_total rg_sq rg_min rg_max rg_qual rg_min_time rg_max_time rg_valid];
    change (inject_Z (10^100)) with limit;
    try rewrite (Qlt_bool_true (r_val s) limit) by apply Hs;
    try rewrite (Qlt_bool_true (- limit) (r_val s)) by apply Hs; try reflexivity.
  all: first [ ring | unfold u64; rewrite ?Z.add_0_r, ?Z.mod_small; lia | idtac ].
  all: try (replace (Qlt_bool limit (rg_min r)) with false; [reflexivity|];
    symmetry; apply Qlt_bool_false; destruct Lm as [->|Lm]; [apply Qle_refl|apply Qlt_le_weak; assumption]).
  all: try (replace (Qlt_bool (rg_max r) (- limit)) with false; [reflexivity|];
    symmetry; apply Qlt_bool_false; destruct LM as [->|LM]; [apply Qle_refl|apply Qlt_le_weak; assumption]).
Qed.

Definition Rrange (r : range) (l : list rsample) : Prop := Forall in_limits l -> range_ok r l.

(** ** Count records *)
Definition Rcount (c : count) (l : list Z) : Prop :=
  ct_num c = Z.of_nat (length l) mod 2^64 /\ ct_total c = fold_right Z.add 0 l mod 2^64.

Lemma Zsum_app : forall a b, fold_right Z.add 0 (a ++ b) = fold_right Z.add 0 a + fold_right Z.add 0 b.
Proof. induction a; intros; cbn; [lia|]. rewrite IHa. lia. Qed.

Lemma count_add_ok : forall d s l l', Rcount d l -> Rcount s l' -> Rcount (count_add d s) (l ++ l').
Proof.
  intros d s l l' [A B] [C D]. unfold Rcount, count_add; cbn.
  rewrite A, B, C, D, !u64_add_mod, Zsum_app, app_length. split; f_equal; lia.
Qed.
Lemma count_update_ok : forall d l x, Rcount d l -> Rcount (count_update d x) (l ++ [x]).
Proof.
  intros d l x [A B]. unfold Rcount, count_update; cbn.
  rewrite A, B, Zsum_app, app_length; cbn. unfold u64. split.
  - rewrite Zplus_mod_idemp_l. f_equal. lia.
  - rewrite Zplus_mod_idemp_l. f_equal. lia.
Qed.

(** ** Histories of a measure *)
  Definition wrapb (k L : nat) : bool := ((k + 1) mod L =? 0)%nat.

  Lemma wrap_cases : forall k L, (0 < L)%nat ->
    (wrapb k L = true /\ ((k + 1) / L = k / L + 1)%nat /\ (k + 1 = (k / L + 1) * L)%nat) \/
    (wrapb k L = false /\ ((k + 1) / L = k / L)%nat /\ (k + 1 < (k / L + 1) * L)%nat /\
     ((k + 1) mod L = k mod L + 1)%nat).
  Proof.
    intros k L HL. pose proof (Nat.div_mod k L ltac:(lia)) as D.
    pose proof (Nat.mod_upper_bound k L ltac:(lia)) as B.
    set (q := (k / L)%nat) in *. set (r := (k mod L)%nat) in *.
    destruct (Nat.eq_dec (r + 1) L) as [E|E].
    - left. assert (E1 : (k + 1 = L * (q + 1) + 0)%nat) by lia.
      pose proof (Nat.div_unique (k+1) L (q+1) 0 ltac:(lia) E1).
      pose proof (Nat.mod_unique (k+1) L (q+1) 0 ltac:(lia) E1).
      unfold wrapb. split; [apply Nat.eqb_eq; lia|]. split; lia.
    - right. assert (E1 : (k + 1 = L * q + (r + 1))%nat) by lia.
      pose proof (Nat.div_unique (k+1) L q (r+1) ltac:(lia) E1).
      pose proof (Nat.mod_unique (k+1) L q (r+1) ltac:(lia) E1).
      unfold wrapb. split; [apply Nat.eqb_neq; lia|]. split; [lia|]. split; lia.
  Qed.

  Lemma wrap_one : forall k, wrapb k 1 = true.
  Proof. intros. unfold wrapb. rewrite Nat.mod_1_r. reflexivity. Qed.

Section Hist.
  Context {A S : Type}.
  Variables (zero init : A) (add : A -> A -> A) (upd : A -> S -> A)
            (valid : A -> bool) (R : A -> list S -> Prop).
  Hypothesis R_init : R init [].
  Hypothesis R_add : forall d s l l', R d l -> R s l' -> R (add d s) (l ++ l').
  Hypothesis R_upd : forall d s l, R d l -> R (upd d s) (l ++ [s]).
  Hypothesis V_init : valid init = true.
  Hypothesis V_zero : valid zero = false.
  Hypothesis V_add : forall d s, valid (add d s) = valid d.

  Definition row_ok (L : nat) (M : list (list S)) (row : list A) : Prop :=
    length row = HISTORY /\
    forall j e, nth_error row j = Some e ->
      ((j <= length M / L)%nat -> valid e = true /\ R e (interval_samples M L j)) /\
      ((length M / L < j)%nat -> valid e = false).

  Lemma slice_old : forall (M : list (list S)) x L j q, (1 <= j <= q)%nat -> (q * L <= length M)%nat ->
    firstn L (skipn ((q - j) * L) (M ++ [x])) = firstn L (skipn ((q - j) * L) M).
  Proof.
    intros M x L j q Hj Hq.
    assert (H1 : ((q - j) * L + L <= q * L)%nat) by nia.
    rewrite skipn_app. replace ((q - j) * L - length M)%nat with 0%nat by lia. cbn [skipn].
    rewrite firstn_app, skipn_length.
    replace (L - (length M - (q - j) * L))%nat with 0%nat by lia. cbn [firstn].
    rewrite app_nil_r. reflexivity.
  Qed.

  Lemma slice_cur : forall (M : list (list S)) x L q, (q * L <= length M)%nat -> (length M < (q + 1) * L)%nat ->
    firstn L (skipn (q * L) (M ++ [x])) = firstn L (skipn (q * L) M) ++ [x].
  Proof.
    intros M x L q H1 H2.
    rewrite skipn_app. replace (q * L - length M)%nat with 0%nat by lia. cbn [skipn].
    rewrite !firstn_all2; rewrite ?app_length, ?skipn_length; cbn; try lia. reflexivity.
  Qed.

  Lemma row_tick : forall L M cur act row, (0 < L)%nat -> row_ok L M row -> R act cur ->
    row_ok L (M ++ [cur])
      (if wrapb (length M) L then shift_row init (add_current add act row)
       else add_current add act row).
  Proof.
    intros L M cur act row HL [Hlen Hrow] Hact.
    set (k := length M) in *. set (q := (k / L)%nat).
    assert (HqL : (q * L <= k)%nat) by (unfold q; rewrite Nat.mul_comm; apply Nat.mul_div_le; lia).
    assert (HqL2 : (k < (q + 1) * L)%nat).
    { pose proof (Nat.mul_succ_div_gt k L ltac:(lia)). unfold q. nia. }
    assert (Hk' : length (M ++ [cur]) = (k + 1)%nat) by (rewrite app_length; cbn; lia).
    (* entries of the row after the addition *)
    assert (Hadd : forall j e, nth_error (add_current add act row) j = Some e ->
       ((j <= q)%nat -> valid e = true /\
           R e (concat (firstn L (skipn ((q - j) * L) (M ++ [cur]))))) /\
       ((q < j)%nat -> valid e = false)).
    { intros j e He. destruct row as [|c row']; [discriminate|]. destruct j as [|j]; cbn in He.
      - injection He as <-. destruct (Hrow 0%nat c eq_refl) as [P _].
        destruct (P ltac:(lia)) as [P1 P2]. split; [|lia]. intros _.
        rewrite V_add. split; [assumption|].
        rewrite Nat.sub_0_r, slice_cur by assumption. rewrite concat_app. cbn. rewrite app_nil_r.
        apply R_add; [|assumption]. unfold interval_samples in P2. fold k in P2. fold q in P2.
        rewrite Nat.sub_0_r in P2. assumption.
      - destruct (Hrow (Datatypes.S j) e He) as [P1 P2]. split; [|assumption].
        intros Hj. rewrite slice_old by (fold k; lia). apply P1. assumption. }
    assert (Hlen' : length (add_current add act row) = HISTORY).
    { destruct row; cbn in *; assumption. }
    destruct (wrap_cases k L HL) as [[W [D E]]|[W [D [E _]]]]; rewrite W.
    - split. { unfold shift_row. cbn [length]. rewrite firstn_length, Hlen'. reflexivity. }
      intros j e He. unfold interval_samples. rewrite Hk', D. fold q.
      destruct j as [|j].
      + cbn in He. injection He as <-. split; [|lia]. intros _. split; [assumption|].
        rewrite Nat.sub_0_r. rewrite skipn_all2 by (rewrite Hk'; fold q in E; lia).
        rewrite firstn_nil. cbn. assumption.
      + unfold shift_row in He. cbn [nth_error] in He.
        assert (Hj3 : (j < 3)%nat).
        { assert (Hx : nth_error (firstn (HISTORY - 1) (add_current add act row)) j <> None) by congruence.
          apply nth_error_Some in Hx. rewrite firstn_length in Hx. unfold HISTORY in Hx. lia. }
        assert (He' : nth_error (add_current add act row) j = Some e).
        { rewrite <- (firstn_skipn (HISTORY - 1) (add_current add act row)).
          rewrite nth_error_app1; [assumption|]. rewrite firstn_length, Hlen'. unfold HISTORY. lia. }
        destruct (Hadd j e He') as [P1 P2]. replace (q + 1 - Datatypes.S j)%nat with (q - j)%nat by lia.
        split; intros; [apply P1; lia|apply P2; lia].
    - split; [assumption|]. intros j e He. unfold interval_samples. rewrite Hk', D. fold q.
      apply Hadd. assumption.
  Qed.

  Definition hist_ok (h : hist A) (mc : list (list S) * list S) : Prop :=
    R (h_active h) (snd mc) /\
    exists r0 r1 r2 r3 r4, h_rows h = [r0; r1; r2; r3; r4] /\
      row_ok 1 (fst mc) r0 /\ row_ok 10 (fst mc) r1 /\ row_ok 60 (fst mc) r2 /\
      row_ok (60 * 24) (fst mc) r3 /\ row_ok (60 * 24 * 7) (fst mc) r4.

  Definition hist_tick (k : nat) (h : hist A) : hist A :=
    fold_left (fun h p => if wrapb k (nth p period_minutes 1%nat)
                          then hist_end_period init add h p else h) (seq 0 PERIODS) h.

  Lemma hep_step : forall (w : bool) p a rows row, p <> 0%nat -> nth_error rows p = Some row ->
    (if w then hist_end_period init add (mkHist a rows) p else mkHist a rows) =
    mkHist a (set_nth p (if w then shift_row init row else row) rows).
  Proof.
    intros w p a rows row Hp Hn. unfold hist_end_period. apply Nat.eqb_neq in Hp. rewrite Hp.
    cbn [h_rows h_active]. rewrite Hn. destruct w; [reflexivity|]. f_equal.
    clear - Hn. revert p Hn. induction rows as [|x rows IH]; intros p Hn; [destruct p; discriminate|].
    destruct p; cbn in *; [injection Hn as ->; reflexivity|]. f_equal. apply IH. assumption.
  Qed.

  Lemma hep_zero : forall a r rows,
    hist_end_period init add (mkHist a (r :: rows)) 0 =
    mkHist init (shift_row init (add_current add a r) :: map (add_current add a) rows).
  Proof. reflexivity. Qed.

  Lemma hist_tick_ok : forall h M cur, hist_ok h (M, cur) ->
    hist_ok (hist_tick (length M) h) (M ++ [cur], []).
  Proof.
    intros h M cur [Ha [r0 [r1 [r2 [r3 [r4 [Hr [H0 [H1 [H2 [H3 H4]]]]]]]]]]]. cbn [fst snd] in *.
    apply (row_tick _ _ cur (h_active h)) in H0; [|lia|assumption].
    apply (row_tick _ _ cur (h_active h)) in H1; [|lia|assumption].
    apply (row_tick _ _ cur (h_active h)) in H2; [|lia|assumption].
    apply (row_tick _ _ cur (h_active h)) in H3; [|lia|assumption].
    apply (row_tick _ _ cur (h_active h)) in H4; [|lia|assumption].
    unfold hist_tick. cbn [seq PERIODS fold_left nth period_minutes].
    rewrite wrap_one in *. destruct h as [act rows]. cbn [h_active h_rows] in *. subst rows.
    rewrite hep_zero. cbn [map].
    erewrite (hep_step _ 1); [|discriminate|reflexivity]. cbn [set_nth].
    erewrite (hep_step _ 2); [|discriminate|reflexivity]. cbn [set_nth].
    erewrite (hep_step _ 3); [|discriminate|reflexivity]. cbn [set_nth].
    erewrite (hep_step _ 4); [|discriminate|reflexivity]. cbn [set_nth].
    split; [exact R_init|]. cbn [h_rows fst]. eexists _, _, _, _, _. split; [reflexivity|].
    split; [exact H0|]. split; [exact H1|]. split; [exact H2|]. split; [exact H3|]. exact H4.
  Qed.

  Lemma hist_sample_ok : forall h M cur s, hist_ok h (M, cur) ->
    hist_ok (mkHist (upd (h_active h) s) (h_rows h)) (M, cur ++ [s]).
  Proof. intros h M cur s [Ha Hr]. split; cbn [h_active h_rows fst snd] in *; [apply R_upd; assumption|assumption]. Qed.

  Lemma hist_alloc_ok : hist_ok (hist_alloc zero init) ([], []).
  Proof.
    split; [exact R_init|]. cbn. eexists _, _, _, _, _. split; [reflexivity|].
    assert (G : forall L, (0 < L)%nat -> row_ok L [] [init; zero; zero; zero]).
    { intros L HL. split; [reflexivity|]. intros j e He. cbn [length].
      rewrite Nat.div_0_l by lia. split.
      - intros Hj. replace j with 0%nat in * by lia. cbn in He. injection He as <-.
        split; [assumption|]. unfold interval_samples. cbn [length]. rewrite Nat.div_0_l by lia.
        rewrite skipn_nil, firstn_nil. assumption.
      - intros Hj. destruct j as [|[|[|[|j]]]]; cbn in He; try lia; try (injection He as <-; assumption).
        destruct j; discriminate. }
    split; [apply G; lia|]. split; [apply G; lia|]. split; [apply G; lia|]. split; apply G; lia.
  Qed.
End Hist.

(** ** Collections *)
Definition iv_row_ok (L : nat) (times : list ts) (k : nat) (row : list interval) : Prop :=
  length row = HISTORY /\
  forall j e, nth_error row j = Some e ->
    ((j <= k / L)%nat ->
       iv_seq e = Z.of_nat (k / L - j) /\ iv_sv e = true /\
       nth_error times ((k / L - j) * L) = Some (iv_start e) /\
       (if (j =? 0)%nat then iv_ev e = false
        else iv_ev e = true /\ nth_error times ((k / L - j + 1) * L) = Some (iv_end e))) /\
    ((k / L < j)%nat -> iv_sv e = false).

Definition iv_tick_row (k L : nat) (time : ts) (row : list interval) : list interval :=
  match row with
  | cur :: rest =>
      if wrapb k L then
        mkIv (iv_seq cur + 1) true time false null_time ::
        firstn (HISTORY - 1) (mkIv (iv_seq cur) (iv_sv cur) (iv_start cur) true time :: rest)
      else row
  | [] => []
  end.

Lemma iv_row_tick : forall L times k time row, (0 < L)%nat -> length times = (k + 1)%nat ->
  iv_row_ok L times k row -> iv_row_ok L (times ++ [time]) (k + 1) (iv_tick_row k L time row).
Proof.
  intros L times k time row HL Ht [Hlen Hrow].
  assert (HqL : ((k / L) * L <= k)%nat) by (rewrite Nat.mul_comm; apply Nat.mul_div_le; lia).
  destruct row as [|cur rest]; [discriminate|]. cbn [iv_tick_row].
  assert (Hold : forall i x, (i <= k)%nat -> nth_error times i = Some x ->
                 nth_error (times ++ [time]) i = Some x).
  { intros i x Hi Hx. rewrite nth_error_app1 by lia. assumption. }
  destruct (wrap_cases k L HL) as [[W [D E]]|[W [D [E _]]]]; rewrite W.
  - split. { cbn [length] in *. rewrite firstn_length. cbn [length]. unfold HISTORY in *. lia. }
    rewrite D. set (q := (k / L)%nat) in *.
    destruct (Hrow 0%nat cur eq_refl) as [P0 _]. destruct (P0 ltac:(lia)) as [Q1 [Q2 [Q3 Q4]]].
    rewrite Nat.sub_0_r in Q1, Q3.
    intros j e He. destruct j as [|j].
    + cbn in He. injection He as <-. cbn. split; [|lia]. intros _.
      rewrite Nat.sub_0_r. split; [lia|]. split; [reflexivity|]. split; [|reflexivity].
      rewrite nth_error_app2 by lia. replace ((q + 1) * L - length times)%nat with 0%nat by lia. reflexivity.
    + cbn [nth_error] in He. change (HISTORY - 1)%nat with 3%nat in He. cbn [firstn] in He.
      replace (q + 1 - S j)%nat with (q - j)%nat by lia. destruct j as [|j].
      * cbn in He. injection He as <-. cbn [iv_seq iv_sv iv_start iv_ev iv_end].
        split; [|lia]. intros _. rewrite Nat.sub_0_r. split; [lia|]. split; [assumption|].
        split; [apply Hold; [lia|assumption]|]. cbn [Nat.eqb]. split; [reflexivity|].
        rewrite nth_error_app2 by lia. replace ((q + 1) * L - length times)%nat with 0%nat by lia. reflexivity.
      * cbn [nth_error] in He.
        assert (He' : nth_error (cur :: rest) (S j) = Some e).
        { cbn. destruct rest as [|a [|b rest]]; cbn in He |- *; auto.
          destruct j as [|[|j]]; cbn in He |- *; try assumption. destruct j; discriminate. }
        destruct (Hrow (S j) e He') as [P1 P2]. cbn [Nat.eqb]. split.
        -- intros Hj. destruct (P1 ltac:(lia)) as [S1 [S2 [S3 S4]]]. cbn [Nat.eqb] in S4. destruct S4 as [S4 S5].
           repeat split; auto.
           ++ apply Hold; [nia|assumption].
           ++ apply Hold; [nia|assumption].
        -- intros Hj. apply P2. lia.
  - split; [assumption|]. rewrite D. intros j e He. destruct (Hrow j e He) as [P1 P2].
    split; [|assumption]. intros Hj. destruct (P1 Hj) as [S1 [S2 [S3 S4]]].
    repeat split; auto.
    + apply Hold; [nia|assumption].
    + destruct (j =? 0)%nat eqn:Ej; [assumption|]. destruct S4 as [S4 S5]. split; [assumption|].
      apply Hold; [|assumption]. apply Nat.eqb_neq in Ej. nia.
Qed.

Lemma iv_row_init : forall L now, (0 < L)%nat ->
  iv_row_ok L [now] 0 [mkIv 0 true now false null_time; iv_zero; iv_zero; iv_zero].
Proof.
  intros L now HL. split; [reflexivity|]. intros j e He. rewrite Nat.div_0_l by lia. split.
  - intros Hj. replace j with 0%nat in * by lia. cbn in He. injection He as <-. cbn. auto.
  - intros Hj. destruct j as [|[|[|[|j]]]]; cbn in He; try lia; try (injection He as <-; reflexivity).
    destruct j; discriminate.
Qed.

(** Timing part of a collection after [k] ticks at the given times. *)
Definition timing_ok (c : coll) (times : list ts) (k : nat) : Prop :=
  length times = (k + 1)%nat /\
  co_elapsed c = map (fun L => 60 * Z.of_nat (k mod L)) period_minutes /\
  exists r0 r1 r2 r3 r4, co_iv c = [r0; r1; r2; r3; r4] /\
    iv_row_ok 1 times k r0 /\ iv_row_ok 10 times k r1 /\ iv_row_ok 60 times k r2 /\
    iv_row_ok (60 * 24) times k r3 /\ iv_row_ok (60 * 24 * 7) times k r4.

Lemma elapsed_next : forall k L len, (0 < L)%nat -> len = 60 * Z.of_nat L ->
  (len <=? 60 * Z.of_nat (k mod L) + 60) = wrapb k L /\
  (wrapb k L = false -> 60 * Z.of_nat (k mod L) + 60 = 60 * Z.of_nat ((k + 1) mod L)) /\
  (wrapb k L = true -> 0 = 60 * Z.of_nat ((k + 1) mod L)).
Proof.
  intros k L len HL ->. pose proof (Nat.mod_upper_bound k L ltac:(lia)) as B.
  destruct (wrap_cases k L HL) as [[W [D E]]|[W [D [E F]]]].
  - rewrite W. unfold wrapb in W. apply Nat.eqb_eq in W. rewrite W.
    pose proof (Nat.div_mod k L ltac:(lia)) as Dk.
    assert (k mod L = L - 1)%nat by nia. split; [|split]; try lia; try discriminate.
  - rewrite W. rewrite F. pose proof (Nat.mod_upper_bound (k + 1) L ltac:(lia)).
    split; [|split]; try lia; try discriminate.
Qed.

Definition item_tick (k : nat) (it : item) : item :=
  match it with
  | IRange h => IRange (hist_tick range_init range_add k h)
  | ICount h => ICount (hist_tick count_init count_add k h)
  end.

Lemma item_tick_fold : forall k it,
  fold_left (fun it p => if wrapb k (nth p period_minutes 1%nat) then item_end_period it p else it)
            (seq 0 PERIODS) it = item_tick k it.
Proof.
  intros k [h|h]; cbn [item_tick]; unfold hist_tick.
  - generalize (seq 0 PERIODS). intros l. revert h. induction l as [|p l IH]; intros h; [reflexivity|].
    cbn [fold_left]. destruct (wrapb k (nth p period_minutes 1%nat)); cbn [item_end_period]; apply IH.
  - generalize (seq 0 PERIODS). intros l. revert h. induction l as [|p l IH]; intros h; [reflexivity|].
    cbn [fold_left]. destruct (wrapb k (nth p period_minutes 1%nat)); cbn [item_end_period]; apply IH.
Qed.

Definition opt_step (k p : nat) (items : list (option item)) : list (option item) :=
  if wrapb k (nth p period_minutes 1%nat)
  then map (option_map (fun it => item_end_period it p)) items else items.

(** One period of the loop. *)
Lemma coll_period_spec : forall time k p L len el ivs items cur rest,
  nth_error period_minutes p = Some L -> (0 < L)%nat ->
  nth_error period_secs p = Some len -> len = 60 * Z.of_nat L ->
  nth_error el p = Some (60 * Z.of_nat (k mod L)) ->
  nth_error ivs p = Some (cur :: rest) ->
  coll_period time (mkColl el ivs items) p =
  mkColl (set_nth p (60 * Z.of_nat ((k + 1) mod L)) el)
         (set_nth p (iv_tick_row k L time (cur :: rest)) ivs)
         (opt_step k p items).
Proof.
  intros time k p L len el ivs items cur rest HL L0 Hs Hlen He Hi.
  unfold coll_period. cbn [co_elapsed co_iv co_items]. rewrite He, Hs, Hi.
  destruct (elapsed_next k L len L0 Hlen) as [E1 [E2 E3]]. rewrite E1.
  unfold opt_step. rewrite (nth_error_nth _ _ 1%nat HL).
  unfold iv_tick_row. destruct (wrapb k L).
  - rewrite <- E3 by reflexivity. reflexivity.
  - rewrite E2 by reflexivity. f_equal.
    clear - Hi. revert p Hi. induction ivs as [|x ivs IH]; intros p Hi; [destruct p; discriminate|].
    destruct p; cbn in *; [injection Hi as ->; reflexivity|]. f_equal. apply IH. assumption.
Qed.

Lemma map_opt_fold : forall k ps items,
  fold_left (fun its p => opt_step k p its) ps items =
  map (option_map (fun it => fold_left (fun it p =>
     if wrapb k (nth p period_minutes 1%nat) then item_end_period it p else it) ps it)) items.
Proof.
  induction ps as [|p ps IH]; intros items; cbn [fold_left].
  - rewrite <- (map_id items) at 1. apply map_ext. intros [x|]; reflexivity.
  - rewrite IH. unfold opt_step. destruct (wrapb k (nth p period_minutes 1%nat)).
    + rewrite map_map. apply map_ext. intros [x|]; reflexivity.
    + reflexivity.
Qed.

Lemma iv_row_ne : forall L t k r, iv_row_ok L t k r -> exists c rest, r = c :: rest.
Proof. intros L t k r [H _]. destruct r; [discriminate|eauto]. Qed.

Lemma coll_tick_ok : forall c times k time, timing_ok c times k ->
  timing_ok (coll_end_period c time) (times ++ [time]) (k + 1) /\
  co_items (coll_end_period c time) = map (option_map (item_tick k)) (co_items c).
Proof.
  intros [el ivs items] times k time [Ht [He [r0 [r1 [r2 [r3 [r4 [Hi [H0 [H1 [H2 [H3 H4]]]]]]]]]]]].
  cbn [co_elapsed co_iv co_items] in *. subst el ivs.
  destruct (iv_row_ne _ _ _ _ H0) as [c0 [t0 ->]]. destruct (iv_row_ne _ _ _ _ H1) as [c1 [t1 ->]].
  destruct (iv_row_ne _ _ _ _ H2) as [c2 [t2 ->]]. destruct (iv_row_ne _ _ _ _ H3) as [c3 [t3 ->]].
  destruct (iv_row_ne _ _ _ _ H4) as [c4 [t4 ->]].
  apply (iv_row_tick _ _ _ time) in H0; [|lia|assumption].
  apply (iv_row_tick _ _ _ time) in H1; [|lia|assumption].
  apply (iv_row_tick _ _ _ time) in H2; [|lia|assumption].
  apply (iv_row_tick _ _ _ time) in H3; [|lia|assumption].
  apply (iv_row_tick _ _ _ time) in H4; [|lia|assumption].
  assert (E : coll_end_period
    {| co_elapsed := map (fun L : nat => 60 * Z.of_nat (k mod L)) period_minutes;
       co_iv := [c0 :: t0; c1 :: t1; c2 :: t2; c3 :: t3; c4 :: t4]; co_items := items |} time =
    mkColl (map (fun L : nat => 60 * Z.of_nat ((k + 1) mod L)) period_minutes)
      [iv_tick_row k 1 time (c0 :: t0); iv_tick_row k 10 time (c1 :: t1);
       iv_tick_row k 60 time (c2 :: t2); iv_tick_row k (60 * 24) time (c3 :: t3);
       iv_tick_row k (60 * 24 * 7) time (c4 :: t4)]
      (fold_left (fun its p => opt_step k p its) (seq 0 PERIODS) items)).
  {unfold coll_end_period. cbn [seq PERIODS fold_left].
    unfold period_minutes at 1. cbn [map].
    erewrite (coll_period_spec time k 0); [|reflexivity|lia|reflexivity|reflexivity|reflexivity|reflexivity].
    erewrite (coll_period_spec time k 1); [|reflexivity|lia|reflexivity|reflexivity|reflexivity|reflexivity].
    erewrite (coll_period_spec time k 2); [|reflexivity|lia|reflexivity|reflexivity|reflexivity|reflexivity].
    erewrite (coll_period_spec time k 3); [|reflexivity|lia|reflexivity|reflexivity|reflexivity|reflexivity].
    erewrite (coll_period_spec time k 4); [|reflexivity|lia|reflexivity|reflexivity|reflexivity|reflexivity].
    reflexivity. }
  rewrite E; clear E. cbn [co_items]. split.
  - split; [rewrite app_length; cbn; lia|]. split; [reflexivity|].
    eexists _, _, _, _, _. split; [reflexivity|]. auto.
  - rewrite map_opt_fold. apply map_ext. intros [x|]; [|reflexivity]. cbn [option_map].
    rewrite item_tick_fold. reflexivity.
Qed.

(** ** Creating a collection *)
Definition type_at (c : coll) (id : Z) : option stype :=
  match nth_error (co_items c) (Z.to_nat id) with
  | Some (Some it) => Some (item_type it)
  | _ => None
  end.

Definition fresh_item (it : item) : Prop :=
  it = IRange (hist_alloc range_zero range_init) \/ it = ICount (hist_alloc count_zero count_init).

Definition cinv (now : ts) (c : coll) : Prop :=
  (0 < length (co_items c))%nat /\
  co_elapsed c = repeat 0 PERIODS /\
  co_iv c = repeat (mkIv 0 true now false null_time :: repeat iv_zero (HISTORY - 1)) PERIODS /\
  (forall i it, nth_error (co_items c) i = Some (Some it) -> fresh_item it).

Lemma nth_error_repeat_none : forall n i (x : option item),
  nth_error (repeat (@None item) n) i = Some x -> x = None.
Proof.
  induction n; intros i x H; destruct i; cbn in H; try discriminate; [congruence|eauto].
Qed.

Lemma coll_grow_spec : forall items id, (0 < length items)%nat -> 0 <= id ->
  exists items', coll_grow items id = Some items' /\
    (Z.to_nat id < length items')%nat /\ (length items <= length items')%nat /\
    (forall i, match nth_error items' i with Some (Some it) => Some it | _ => None end =
               match nth_error items i with Some (Some it) => Some it | _ => None end).
Proof.
  intros items id Hl Hid. unfold coll_grow.
  destruct (Z.of_nat (length items) <=? id) eqn:E.
  - replace (id =? 0) with false by lia. eexists. split; [reflexivity|].
    pose proof (Z.log2_spec id ltac:(lia)) as Hlog.
    rewrite <- Z.add_1_r in Hlog.
    rewrite app_length, repeat_length. split; [lia|]. split; [lia|].
    intros i. destruct (Nat.lt_ge_cases i (length items)) as [Hi|Hi].
    + rewrite nth_error_app1 by assumption. reflexivity.
    + rewrite nth_error_app2 by assumption.
      rewrite (proj2 (nth_error_None items i)) by assumption.
      destruct (nth_error (repeat None _) _) as [x|] eqn:Ex; [|reflexivity].
      apply nth_error_repeat_none in Ex. subst. reflexivity.
  - eexists. split; [reflexivity|]. split; [lia|]. split; [lia|]. reflexivity.
Qed.

Lemma coll_add_spec : forall now c id ty, cinv now c -> 0 <= id < 256 ->
  exists c' r, coll_add c id ty = Some (c', r) /\ cinv now c' /\
    match type_at c id with
    | Some _ => r = REExist /\ forall i, type_at c' i = type_at c i
    | None => r = ROk /\ forall i, 0 <= i -> type_at c' i = if i =? id then Some ty else type_at c i
    end.
Proof.
  intros now c id ty [C1 [C2 [C3 C4]]] Hid. unfold coll_add.
  replace (256 <=? id) with false by lia.
  destruct (coll_grow_spec (co_items c) id C1 ltac:(lia)) as [items [G1 [G2 [G3 G4]]]].
  rewrite G1; cbn [bind].
  assert (Hfresh : forall i it, nth_error items i = Some (Some it) -> fresh_item it).
  { intros i it H. specialize (G4 i). rewrite H in G4.
    destruct (nth_error (co_items c) i) as [[x|]|] eqn:E; try discriminate.
    injection G4 as <-. eauto. }
  destruct (nth_error items (Z.to_nat id)) as [o|] eqn:En.
  2:{ apply nth_error_None in En. lia. }
  destruct o as [it|].
  - eexists _, _. split; [reflexivity|]. split.
    { unfold cinv; cbn [co_items co_elapsed co_iv]. split; [lia|]. auto. }
    assert (Ht : type_at c id = Some (item_type it)).
    { unfold type_at. specialize (G4 (Z.to_nat id)). rewrite En in G4.
      destruct (nth_error (co_items c) (Z.to_nat id)) as [[x|]|]; congruence. }
    rewrite Ht. split; [reflexivity|]. intros i. unfold type_at; cbn [co_items].
    specialize (G4 (Z.to_nat i)).
    destruct (nth_error items (Z.to_nat i)) as [[x|]|];
      destruct (nth_error (co_items c) (Z.to_nat i)) as [[y|]|]; congruence.
  - eexists _, _. split; [reflexivity|]. split.
    { unfold cinv; cbn [co_items co_elapsed co_iv]. rewrite set_nth_length. split; [lia|].
      split; [assumption|]. split; [assumption|]. intros i it H.
      destruct (Nat.eq_dec (Z.to_nat id) i) as [<-|Hne].
      - rewrite nth_error_set_nth_same in H by assumption. injection H as <-.
        destruct ty; [left|right]; reflexivity.
      - rewrite nth_error_set_nth_other in H by assumption. eauto. }
    assert (Ht : type_at c id = None).
    { unfold type_at. specialize (G4 (Z.to_nat id)). rewrite En in G4.
      destruct (nth_error (co_items c) (Z.to_nat id)) as [[x|]|]; congruence. }
    rewrite Ht. split; [reflexivity|]. intros i Hi. unfold type_at; cbn [co_items].
    destruct (i =? id) eqn:Ei.
    + assert (i = id) by lia. subst i. rewrite nth_error_set_nth_same by assumption.
      destruct ty; reflexivity.
    + rewrite nth_error_set_nth_other by lia. specialize (G4 (Z.to_nat i)).
      destruct (nth_error items (Z.to_nat i)) as [[x|]|];
        destruct (nth_error (co_items c) (Z.to_nat i)) as [[y|]|]; congruence.
Qed.

Lemma coll_alloc_cinv : forall now, cinv now (coll_alloc now).
Proof.
  intros. unfold cinv, coll_alloc; cbn [co_items co_elapsed co_iv length].
  split; [lia|]. split; [reflexivity|]. split; [reflexivity|].
  intros [|[|i]] it H; discriminate.
Qed.

(** [defs0] are those already in the collection. *)
Lemma coll_create_spec : forall defs now c defs0, cinv now c ->
  Forall (fun d => 0 <= fst d < 256) defs ->
  NoDup (map fst defs0) ->
  (forall id ty, 0 <= id -> (type_at c id = Some ty <-> In (id, ty) defs0)) ->
  exists c' r, coll_create c defs = Some (c', r) /\ cinv now c' /\
    (r = ROk \/ r = REExist) /\ (r = ROk <-> NoDup (map fst (defs0 ++ defs))) /\
    (r = ROk -> forall id ty, 0 <= id -> (type_at c' id = Some ty <-> In (id, ty) (defs0 ++ defs))).
Proof.
  induction defs as [|[id ty] defs IH]; intros now c defs0 Hc HF Hnd Ht.
  - exists c, ROk. rewrite app_nil_r. cbn. split; [reflexivity|]. split; [assumption|].
    split; [auto|]. split; [tauto|]. intros _ id ty Hid. apply Ht. assumption.
  - inversion HF as [|? ? Hid HF']; subst. cbn in Hid.
    destruct (coll_add_spec now c id ty Hc Hid) as [c1 [r [A [Hc1 B]]]].
    cbn [coll_create]. rewrite A; cbn [bind fst snd].
    destruct (type_at c id) as [ty0|] eqn:E.
    + destruct B as [-> B]. exists c1, REExist.
      split; [reflexivity|]. split; [assumption|]. split; [auto|].
      assert (Hin : In (id, ty0) defs0) by (apply Ht; [lia|assumption]).
      split; [split; [discriminate|]|discriminate].
      intros N. exfalso. rewrite map_app in N. cbn in N.
      apply NoDup_remove_2 in N. apply N. apply in_or_app. left.
      apply (in_map fst) in Hin. exact Hin.
    + destruct B as [-> B].
      destruct (IH now c1 (defs0 ++ [(id, ty)]) Hc1 HF') as [c' [r [D1 [D2 [D3 [D4 D5]]]]]].
      { rewrite map_app. cbn. apply NoDup_Add with (a := id) (l := map fst defs0).
        - rewrite <- (app_nil_r (map fst defs0)) at 1. apply Add_app.
        - split; [assumption|]. intros H. apply in_map_iff in H as [[i t] [E1 E2]]. cbn in E1. subst i.
          apply Ht in E2; [|lia]. congruence. }
      { intros i t Hi. rewrite B by assumption. rewrite in_app_iff. cbn.
        destruct (i =? id) eqn:Ei.
        - assert (i = id) by lia. subst i. split.
          + intros X. injection X as ->. auto.
          + intros [X|[X|[]]]; [|congruence]. apply Ht in X; [|assumption]. congruence.
        - rewrite Ht by assumption. split; [auto|]. intros [X|[X|[]]]; [assumption|].
          injection X as -> ->. lia. }
      exists c', r. rewrite <- app_assoc in D4, D5. auto.
Qed.

(** ** Running a collection *)
Definition count_ok := @hist_ok count Z ct_valid Rcount.
Definition range_hist_ok := @hist_ok range rsample rg_valid Rrange.

Definition coll_inv (now : ts) (c : coll) (ops : list kop) : Prop :=
  timing_ok c (now :: tick_times ops) (length (tick_times ops)) /\
  forall i it, nth_error (co_items c) i = Some (Some it) ->
    match it with
    | IRange h => range_hist_ok h (minutes (range_history (Z.of_nat i) ops))
    | ICount h => count_ok h (minutes (count_history (Z.of_nat i) ops))
    end.

Lemma minutes_app : forall S (a : list (hop S)) o,
  minutes (a ++ [o]) = match o with
    | Sample s => (fst (minutes a), snd (minutes a) ++ [s])
    | Tick _ => (fst (minutes a) ++ [snd (minutes a)], [])
    end.
Proof. intros. unfold minutes. rewrite fold_left_app. reflexivity. Qed.

Lemma minutes_length : forall S (a : list (hop S)), length (fst (minutes a)) = length (ticks a).
Proof.
  intros S a. induction a as [|o a IH] using rev_ind; [reflexivity|].
  rewrite minutes_app. unfold ticks in *. rewrite flat_map_app, app_length, <- IH.
  destruct o; cbn; [lia|]. rewrite app_length. cbn. lia.
Qed.

Lemma range_ticks : forall id ops, ticks (range_history id ops) = tick_times ops.
Proof.
  intros id ops. unfold ticks, range_history, tick_times. induction ops as [|o ops IH]; [reflexivity|].
  cbn [flat_map]. rewrite flat_map_app, IH. f_equal. destruct o as [i s|i x|t]; cbn; [|reflexivity|reflexivity].
  destruct (i =? id); reflexivity.
Qed.
Lemma count_ticks : forall id ops, ticks (count_history id ops) = tick_times ops.
Proof.
  intros id ops. unfold ticks, count_history, tick_times. induction ops as [|o ops IH]; [reflexivity|].
  cbn [flat_map]. rewrite flat_map_app, IH. f_equal. destruct o as [i s|i x|t]; cbn; [reflexivity| |reflexivity].
  destruct (i =? id); reflexivity.
Qed.

Lemma range_history_app : forall id a b, range_history id (a ++ b) = range_history id a ++ range_history id b.
Proof. intros. apply flat_map_app. Qed.
Lemma count_history_app : forall id a b, count_history id (a ++ b) = count_history id a ++ count_history id b.
Proof. intros. apply flat_map_app. Qed.
Lemma tick_times_app : forall a b, tick_times (a ++ b) = tick_times a ++ tick_times b.
Proof. intros. apply flat_map_app. Qed.

Lemma Rrange_init : Rrange range_init [].
Proof. intros _. apply range_init_ok. Qed.
Lemma Rrange_add : forall d s l l', Rrange d l -> Rrange s l' -> Rrange (range_add d s) (l ++ l').
Proof. intros d s l l' A B H. apply range_add_ok; auto; apply Forall_app in H; [apply A|apply B]; apply H. Qed.
Lemma Rrange_upd : forall d s l, Rrange d l -> Rrange (range_update d s) (l ++ [s]).
Proof. intros d s l A H. apply range_update_ok; auto. apply Forall_app in H. apply A, H. Qed.
Lemma Rcount_init : Rcount count_init [].
Proof. split; reflexivity. Qed.
Lemma Rcount_upd : forall d s l, Rcount d l -> Rcount (count_update d s) (l ++ [s]).
Proof. intros. apply count_update_ok. assumption. Qed.

Lemma type_check_spec : forall c id ty, 0 <= id < 256 ->
  type_check c id ty = Some (match type_at c id with
    | Some t => if stype_eqb t ty then ROk else REInval
    | None => if Z.of_nat (length (co_items c)) <=? id then RERange else RENoEnt end).
Proof.
  intros c id ty Hid. unfold type_check, type_at. replace (256 <=? id) with false by lia.
  destruct (Z.of_nat (length (co_items c)) <=? id) eqn:E.
  - replace (nth_error (co_items c) (Z.to_nat id)) with (@None (option item)); [reflexivity|].
    symmetry. apply nth_error_None. lia.
  - destruct (nth_error (co_items c) (Z.to_nat id)) as [[it|]|]; reflexivity.
Qed.

Lemma type_at_set : forall c id it it' el iv, nth_error (co_items c) (Z.to_nat id) = Some (Some it) ->
  item_type it = item_type it' ->
  forall i, type_at (mkColl el iv (set_nth (Z.to_nat id) (Some it') (co_items c))) i = type_at c i.
Proof.
  intros c id it it' el iv H He i. unfold type_at; cbn [co_items].
  assert (Z.to_nat id < length (co_items c))%nat by (apply nth_error_Some; congruence).
  destruct (Nat.eq_dec (Z.to_nat id) (Z.to_nat i)) as [E|E].
  - rewrite <- E, nth_error_set_nth_same by assumption. rewrite H, He. reflexivity.
  - rewrite nth_error_set_nth_other by assumption. reflexivity.
Qed.

Lemma coll_step_inv : forall now c ops o, coll_inv now c ops -> op_id_ok o ->
  exists c', coll_step c o = Some c' /\ coll_inv now c' (ops ++ [o]) /\
    (forall i, type_at c' i = type_at c i) /\ length (co_items c') = length (co_items c).
Proof.
  intros now c ops o [HT HI] Ho. destruct o as [id s|id x|t]; cbn [coll_step].
  - (* range update *)
    cbn in Ho.
    assert (TT : tick_times (ops ++ [KRange id s]) = tick_times ops).
    { rewrite tick_times_app. cbn. apply app_nil_r. }
    assert (Hsame : forall i, (Z.of_nat i = id -> forall h, nth_error (co_items c) i <> Some (Some (IRange h))) ->
       forall it, nth_error (co_items c) i = Some (Some it) ->
       match it with
       | IRange h => range_hist_ok h (minutes (range_history (Z.of_nat i) (ops ++ [KRange id s])))
       | ICount h => count_ok h (minutes (count_history (Z.of_nat i) (ops ++ [KRange id s])))
       end).
    { intros i Hn it Hit. specialize (HI i it Hit). destruct it as [h|h].
      - rewrite range_history_app. cbn. destruct (id =? Z.of_nat i) eqn:E.
        + exfalso. apply (Hn ltac:(lia) h). assumption.
        + rewrite app_nil_r. assumption.
      - rewrite count_history_app. cbn. rewrite app_nil_r. assumption. }
    unfold coll_update_range. rewrite type_check_spec by assumption. cbn [bind].
    destruct (nth_error (co_items c) (Z.to_nat id)) as [[[h|h]|]|] eqn:En.
    + (* a range *)
      assert (Ht : type_at c id = Some TRange) by (unfold type_at; rewrite En; reflexivity).
      rewrite Ht. cbn [stype_eqb bind fst].
      eexists. split; [reflexivity|]. cbn [co_items]. rewrite set_nth_length.
      split; [|split; [|reflexivity]].
      * split; [rewrite TT; exact HT|]. cbn [co_items]. intros i it Hit.
        assert (Z.to_nat id < length (co_items c))%nat by (apply nth_error_Some; congruence).
        destruct (Nat.eq_dec (Z.to_nat id) i) as [<-|Hne].
        -- rewrite nth_error_set_nth_same in Hit by assumption. injection Hit as <-.
           specialize (HI _ _ En). cbn in HI. rewrite Z2Nat.id in * by lia.
           rewrite range_history_app. cbn [range_history flat_map]. rewrite Z.eqb_refl. cbn [app]. rewrite minutes_app.
           destruct (minutes (range_history id ops)) as [M cur].
           apply hist_sample_ok; [exact Rrange_upd|exact HI].
        -- rewrite nth_error_set_nth_other in Hit by assumption. apply Hsame; [|assumption].
           intros E h'. exfalso. lia.
      * eapply type_at_set; [eassumption|reflexivity].
    + assert (Ht : type_at c id = Some TCount) by (unfold type_at; rewrite En; reflexivity).
      rewrite Ht. cbn [stype_eqb bind fst]. exists c. split; [reflexivity|]. split; [|auto].
      split; [rewrite TT; exact HT|]. intros i. apply Hsame. intros E h'. subst id.
      rewrite Nat2Z.id in En. congruence.
    + assert (Ht : type_at c id = None) by (unfold type_at; rewrite En; reflexivity).
      rewrite Ht. exists c. split; [destruct (_ <=? _); reflexivity|]. split; [|auto].
      split; [rewrite TT; exact HT|]. intros i. apply Hsame. intros E h'. subst id.
      rewrite Nat2Z.id in En. congruence.
    + assert (Ht : type_at c id = None) by (unfold type_at; rewrite En; reflexivity).
      rewrite Ht. exists c. split; [destruct (_ <=? _); reflexivity|]. split; [|auto].
      split; [rewrite TT; exact HT|]. intros i. apply Hsame. intros E h'. subst id.
      rewrite Nat2Z.id in En. congruence.
  - (* count update *)
    cbn in Ho.
    assert (TT : tick_times (ops ++ [KCount id x]) = tick_times ops).
    { rewrite tick_times_app. cbn. apply app_nil_r. }
    assert (Hsame : forall i, (Z.of_nat i = id -> forall h, nth_error (co_items c) i <> Some (Some (ICount h))) ->
       forall it, nth_error (co_items c) i = Some (Some it) ->
       match it with
       | IRange h => range_hist_ok h (minutes (range_history (Z.of_nat i) (ops ++ [KCount id x])))
       | ICount h => count_ok h (minutes (count_history (Z.of_nat i) (ops ++ [KCount id x])))
       end).
    { intros i Hn it Hit. specialize (HI i it Hit). destruct it as [h|h].
      - rewrite range_history_app. cbn. rewrite app_nil_r. assumption.
      - rewrite count_history_app. cbn. destruct (id =? Z.of_nat i) eqn:E.
        + exfalso. apply (Hn ltac:(lia) h). assumption.
        + rewrite app_nil_r. assumption. }
    unfold coll_update_count. rewrite type_check_spec by assumption. cbn [bind].
    destruct (nth_error (co_items c) (Z.to_nat id)) as [[[h|h]|]|] eqn:En.
    + assert (Ht : type_at c id = Some TRange) by (unfold type_at; rewrite En; reflexivity).
      rewrite Ht. cbn [stype_eqb bind fst]. exists c. split; [reflexivity|]. split; [|auto].
      split; [rewrite TT; exact HT|]. intros i. apply Hsame. intros E h'. subst id.
      rewrite Nat2Z.id in En. congruence.
    + assert (Ht : type_at c id = Some TCount) by (unfold type_at; rewrite En; reflexivity).
      rewrite Ht. cbn [stype_eqb bind fst].
      eexists. split; [reflexivity|]. cbn [co_items]. rewrite set_nth_length.
      split; [|split; [|reflexivity]].
      * split; [rewrite TT; exact HT|]. cbn [co_items]. intros i it Hit.
        assert (Z.to_nat id < length (co_items c))%nat by (apply nth_error_Some; congruence).
        destruct (Nat.eq_dec (Z.to_nat id) i) as [<-|Hne].
        -- rewrite nth_error_set_nth_same in Hit by assumption. injection Hit as <-.
           specialize (HI _ _ En). cbn in HI. rewrite Z2Nat.id in * by lia.
           rewrite count_history_app. cbn [count_history flat_map]. rewrite Z.eqb_refl. cbn [app]. rewrite minutes_app.
           destruct (minutes (count_history id ops)) as [M cur].
           apply hist_sample_ok; [exact Rcount_upd|exact HI].
        -- rewrite nth_error_set_nth_other in Hit by assumption. apply Hsame; [|assumption].
           intros E h'. exfalso. lia.
      * eapply type_at_set; [eassumption|reflexivity].
    + assert (Ht : type_at c id = None) by (unfold type_at; rewrite En; reflexivity).
      rewrite Ht. exists c. split; [destruct (_ <=? _); reflexivity|]. split; [|auto].
      split; [rewrite TT; exact HT|]. intros i. apply Hsame. intros E h'. subst id.
      rewrite Nat2Z.id in En. congruence.
    + assert (Ht : type_at c id = None) by (unfold type_at; rewrite En; reflexivity).
      rewrite Ht. exists c. split; [destruct (_ <=? _); reflexivity|]. split; [|auto].
      split; [rewrite TT; exact HT|]. intros i. apply Hsame. intros E h'. subst id.
      rewrite Nat2Z.id in En. congruence.
  - (* tick *)
    destruct (coll_tick_ok _ _ _ t HT) as [HT' HI']. eexists. split; [reflexivity|].
    split; [|split].
    + split.
      * rewrite tick_times_app. cbn [tick_times flat_map app]. rewrite app_length. exact HT'.
      * rewrite HI'. intros i it Hit. rewrite nth_error_map in Hit.
        destruct (nth_error (co_items c) i) as [[it0|]|] eqn:E; cbn in Hit; try discriminate.
        injection Hit as <-. specialize (HI i it0 E). destruct it0 as [h|h]; cbn [item_tick].
        -- rewrite range_history_app. cbn [range_history flat_map app]. rewrite minutes_app.
           rewrite <- (range_ticks (Z.of_nat i) ops), <- minutes_length.
           destruct (minutes (range_history (Z.of_nat i) ops)) as [M cur].
           unfold range_hist_ok in *. cbn [fst snd].
           apply hist_tick_ok with (upd := range_update); [exact range_zero|exact Rrange_init|exact Rrange_add|exact Rrange_upd|reflexivity|reflexivity|exact HI].
        -- rewrite count_history_app. cbn [count_history flat_map app]. rewrite minutes_app.
           rewrite <- (count_ticks (Z.of_nat i) ops), <- minutes_length.
           destruct (minutes (count_history (Z.of_nat i) ops)) as [M cur].
           unfold count_ok in *. cbn [fst snd].
           apply hist_tick_ok with (upd := count_update); [exact count_zero|exact Rcount_init|exact count_add_ok|exact Rcount_upd|reflexivity|reflexivity|exact HI].
    + intros i. unfold type_at. rewrite HI', nth_error_map.
      destruct (nth_error (co_items c) (Z.to_nat i)) as [[[h|h]|]|]; reflexivity.
    + rewrite HI'. apply map_length.
Qed.

Lemma coll_run_inv : forall more now c ops, coll_inv now c ops -> Forall op_id_ok more ->
  exists c', coll_run c more = Some c' /\ coll_inv now c' (ops ++ more) /\
    (forall i, type_at c' i = type_at c i) /\ length (co_items c') = length (co_items c).
Proof.
  induction more as [|o more IH]; intros now c ops Hi HF; cbn [coll_run].
  - exists c. rewrite app_nil_r. auto.
  - inversion HF as [|? ? Ho HF']; subst.
    destruct (coll_step_inv now c ops o Hi Ho) as [c1 [S1 [S2 [S3 S4]]]]. rewrite S1; cbn [bind].
    destruct (IH now c1 _ S2 HF') as [c' [R1 [R2 [R3 R4]]]].
    exists c'. rewrite <- app_assoc in R2. cbn in R2.
    split; [assumption|]. split; [assumption|]. split; [|congruence].
    intros i. rewrite R3. apply S3.
Qed.

Lemma cinv_coll_inv : forall now c, cinv now c -> coll_inv now c [].
Proof.
  intros now c [C1 [C2 [C3 C4]]]. split.
  - split; [reflexivity|]. split.
    { rewrite C2. unfold period_minutes. cbn [map tick_times flat_map length].
      repeat (rewrite Nat.mod_0_l by (intro; discriminate)). reflexivity. }
    rewrite C3. cbn. eexists _, _, _, _, _. split; [reflexivity|].
    split; [apply iv_row_init; lia|]. split; [apply iv_row_init; lia|].
    split; [apply iv_row_init; lia|]. split; apply iv_row_init; lia.
  - intros i it H. destruct (C4 i it H) as [->| ->].
    + apply hist_alloc_ok with (add := range_add) (upd := range_update);
        first [reflexivity|exact Rrange_init|exact Rrange_add|exact Rrange_upd].
    + apply hist_alloc_ok with (add := count_add) (upd := count_update);
        first [reflexivity|exact Rcount_init|exact count_add_ok|exact Rcount_upd].
Qed.

(** Reading a row. *)
Lemma hist_row : forall A S valid (R : A -> list S -> Prop) h mc p L, hist_ok valid R h mc ->
  nth_error period_minutes p = Some L ->
  exists row, nth_error (h_rows h) p = Some row /\ row_ok valid R L (fst mc) row.
Proof.
  intros A S valid R h mc p L [_ [r0 [r1 [r2 [r3 [r4 [E [H0 [H1 [H2 [H3 H4]]]]]]]]]]] Hp.
  rewrite E. destruct p as [|[|[|[|[|p]]]]]; cbn [nth_error period_minutes] in Hp;
    try (injection Hp as <-; eexists; split; [reflexivity|assumption]).
  destruct p; discriminate.
Qed.

(** The intervals partition the minutes. *)
Lemma intervals_partition : forall S (M : list (list S)) L, (0 < L)%nat ->
  flat_map (fun i => interval_samples M L (length M / L - i)) (seq 0 (length M / L + 1)) = concat M.
Proof.
  intros S M L HL.
  assert (G : forall n, (n <= length M / L + 1)%nat ->
     flat_map (fun i => interval_samples M L (length M / L - i)) (seq 0 n) = concat (firstn (n * L) M)).
  { induction n as [|n IH]; intros Hn; [reflexivity|].
    rewrite seq_S, flat_map_app, IH by lia. cbn [flat_map plus]. rewrite app_nil_r.
    unfold interval_samples. replace (length M / L - (length M / L - n))%nat with n by lia.
    rewrite <- concat_app. f_equal.
    rewrite <- (firstn_skipn (n * L) M) at 3.
    rewrite firstn_app, firstn_length.
    assert ((length M / L) * L <= length M)%nat by (rewrite Nat.mul_comm; apply Nat.mul_div_le; lia).
    rewrite firstn_firstn. replace (Nat.min (Datatypes.S n * L) (n * L)) with (n * L)%nat by nia.
    f_equal. f_equal. nia. }
  rewrite G by lia. f_equal. apply firstn_all2.
  pose proof (Nat.mul_succ_div_gt (length M) L ltac:(lia)). nia.
Qed.
