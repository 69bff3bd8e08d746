(** Proofs about the interval timers. *)
Require Import ZArith QArith List Bool Lia.
Require Import ZifyBool.
Import ListNotations.
From Verif Require Import Base ListLib TmrSpec TmrModel.
Open Scope Z_scope.

Lemma to_ticks_spec : forall q n, to_ticks q = Some n -> n = whole_ticks q.
Proof.
  intros q n T. unfold to_ticks, chk_s32 in T. destruct (fits_s32 _); [|discriminate]. injection T as <-.
  unfold whole_ticks. replace (Qnum q * 1000000) with ((16 * Qnum q) * 62500) by ring.
  change (Z.pos (Qden q * 62500)) with (Z.pos (Qden q) * 62500).
  apply Z.quot_mul_cancel_r; lia.
Qed.

Lemma trun_app : forall h1 h2 ts, trun ts (h1 ++ h2) = do ts' <- trun ts h1; trun ts' h2.
Proof. induction h1 as [|o h1 IH]; intros h2 ts; cbn; [reflexivity|]. destruct (tstep ts o); cbn; auto. Qed.

Lemma trun_snoc : forall h o ts ts', trun ts (h ++ [o]) = Some ts' -> exists t1, trun ts h = Some t1 /\ tstep t1 o = Some ts'.
Proof.
  intros h o ts ts' R. rewrite trun_app in R. destruct (trun ts h) as [t1|]; [|discriminate]. cbn in R.
  exists t1. split; [reflexivity|]. destruct (tstep t1 o); exact R.
Qed.

(** What one operation does to one timer. *)
Definition oper (i : nat) (o : top) (t : timer) (t' : timer) : Prop :=
  match o with
  | Tick => t' = tick1 t
  | Stop j => t' = if (j =? i)%nat then mkTimer 0 (left t) (expire t) else t
  | Poll j => t' = if (j =? i)%nat then mkTimer (interval t) (left t) false else t
  | Start j q => t' = if (j =? i)%nat then mkTimer (period q) (period q) false else t
  | StartRandom j r q => t' = if (j =? i)%nat then mkTimer (period (r * q * 2)) (period (r * q * 2)) false else t
  end.

Lemma set_nth_get : forall A j i (x : A) l, nth_error l j <> None ->
  nth_error (set_nth j x l) i = if (j =? i)%nat then Some x else nth_error l i.
Proof.
  intros A j i x l B. destruct (Nat.eqb_spec j i) as [-> | N].
  - apply nth_error_set_nth_same. apply nth_error_Some. assumption.
  - apply nth_error_set_nth_other. assumption.
Qed.

Lemma start_oper : forall j q i ts ts' t, (i < size)%nat -> length ts = size -> nth_error ts i = Some t -> start j q ts = Some ts' ->
  length ts' = size /\ nth_error ts' i = Some (if (j =? i)%nat then mkTimer (period q) (period q) false else t).
Proof.
  intros j q i ts ts' t I L N H. unfold start in H. destruct (j <? size)%nat eqn:J.
  - apply Nat.ltb_lt in J. destruct (to_ticks q) as [n|] eqn:T; [|discriminate]. cbn [bind] in H. injection H as <-.
    apply to_ticks_spec in T. subst n. fold (period q). rewrite set_nth_length. split; [assumption|].
    rewrite set_nth_get by (apply nth_error_Some; lia). rewrite N. destruct (j =? i)%nat; reflexivity.
  - injection H as <-. split; [assumption|]. apply Nat.ltb_ge in J. replace (j =? i)%nat with false by (symmetry; apply Nat.eqb_neq; lia). assumption.
Qed.

Lemma tstep_oper : forall o i ts ts' t, (i < size)%nat -> length ts = size -> nth_error ts i = Some t -> tstep ts o = Some ts' ->
  length ts' = size /\ exists t', nth_error ts' i = Some t' /\ oper i o t t'.
Proof.
  intros o i ts ts' t I L N H. destruct o as [j q|j r q|j| |j]; cbn in H.
  - destruct (start_oper j q i ts ts' t I L N H) as (A & B). split; [assumption|]. eexists. split; [exact B|reflexivity].
  - destruct (start_oper j _ i ts ts' t I L N H) as (A & B). split; [assumption|]. eexists. split; [exact B|reflexivity].
  - injection H as <-. unfold stop. destruct (nth_error ts j) as [u|] eqn:U.
    + rewrite set_nth_length. split; [assumption|]. rewrite set_nth_get by congruence. eexists. split; [|reflexivity].
      destruct (Nat.eqb_spec j i) as [-> | NE]; [congruence | exact N].
    + split; [assumption|]. exists t. split; [assumption|]. cbn. destruct (Nat.eqb_spec j i); [congruence | reflexivity].
  - injection H as <-. rewrite map_length. split; [assumption|]. eexists. split; [apply map_nth_error; exact N | reflexivity].
  - injection H as <-. unfold poll. destruct (nth_error ts j) as [u|] eqn:U.
    + destruct (expire u) eqn:E; cbn.
      * rewrite set_nth_length. split; [assumption|]. rewrite set_nth_get by congruence. eexists. split; [|reflexivity].
        destruct (Nat.eqb_spec j i) as [-> | NE]; [congruence | exact N].
      * split; [assumption|]. exists t. split; [assumption|]. destruct (Nat.eqb_spec j i) as [-> |]; [|reflexivity].
        assert (u = t) by congruence. subst u. destruct t; cbn in *. congruence.
    + split; [assumption|]. exists t. split; [assumption|]. cbn. destruct (Nat.eqb_spec j i); [congruence | reflexivity].
Qed.

Lemma trun_length : forall h ts ts', length ts = size -> trun ts h = Some ts' -> length ts' = size.
Proof.
  induction h as [|o h IH]; intros ts ts' L R; cbn in R; [congruence|].
  destruct (tstep ts o) as [t1|] eqn:T; [|discriminate]. cbn in R. eapply IH; [|exact R].
  assert (B : (0 < size)%nat) by (unfold size; lia).
  destruct (nth_error ts 0) as [t|] eqn:N; [|apply nth_error_None in N; lia].
  destruct (tstep_oper o 0 ts t1 t B L N T) as (X & _). exact X.
Qed.

Lemma ticks_snoc : forall h o, ticks (h ++ [o]) = ticks h + (match o with Tick => 1 | _ => 0 end).
Proof. intros. unfold ticks. rewrite filter_app, app_length. destruct o; cbn [filter length]; lia. Qed.

Lemma undisturbed_snoc : forall i h o, undisturbed i (h ++ [o]) -> undisturbed i h /\
  match o with Start j _ | StartRandom j _ _ | Stop j => j <> i | _ => True end.
Proof. intros i h o U. split; [intros x I; apply U; apply in_or_app; auto | apply U; apply in_or_app; right; left; reflexivity]. Qed.
Lemma not_started_snoc : forall i h o, not_started i (h ++ [o]) -> not_started i h /\
  match o with Start j _ | StartRandom j _ _ => j <> i | _ => True end.
Proof. intros i h o U. split; [intros x I; apply U; apply in_or_app; auto | apply U; apply in_or_app; right; left; reflexivity]. Qed.

(** A running timer: after [k] ticks since the start, the last of them [last] ticks before
    the latest poll. *)
Definition runs (n k0 k : Z) (t : timer) : Prop :=
  interval t = n /\ left t = n - k mod n /\ 0 <= k0 <= k /\ (expire t = true <-> k0 / n < k / n).

Lemma due_div : forall n k0 k, 0 < n -> (due_between n k0 k <-> k0 / n < k / n).
Proof.
  intros n k0 k N. split.
  - intros (j & H1 & H2). assert (k0 / n < j) by (apply Z.div_lt_upper_bound; lia).
    assert (j <= k / n) by (apply Z.div_le_lower_bound; lia). lia.
  - intros H. exists (k / n). pose proof (Z.div_mod k n ltac:(lia)). pose proof (Z.mod_pos_bound k n N).
    pose proof (Z.div_mod k0 n ltac:(lia)). pose proof (Z.mod_pos_bound k0 n N). nia.
Qed.

Lemma div_succ : forall n k, 0 < n -> (k + 1) / n = if k mod n + 1 =? n then k / n + 1 else k / n.
Proof.
  intros n k N. pose proof (Z.div_mod k n ltac:(lia)) as D. pose proof (Z.mod_pos_bound k n N) as B.
  destruct (k mod n + 1 =? n) eqn:E; symmetry.
  - apply Z.div_unique_pos with (r := 0); lia.
  - apply Z.div_unique_pos with (r := k mod n + 1); lia.
Qed.
Lemma mod_succ : forall n k, 0 < n -> (k + 1) mod n = if k mod n + 1 =? n then 0 else k mod n + 1.
Proof.
  intros n k N. pose proof (Z.div_mod k n ltac:(lia)) as D. pose proof (Z.mod_pos_bound k n N) as B.
  destruct (k mod n + 1 =? n) eqn:E; symmetry.
  - apply Z.mod_unique_pos with (q := k / n + 1); lia.
  - apply Z.mod_unique_pos with (q := k / n); lia.
Qed.

Lemma runs_tick : forall n k0 k t, 0 < n -> runs n k0 k t -> runs n k0 (k + 1) (tick1 t).
Proof.
  intros n k0 k t N (I & L & K & E). unfold tick1. rewrite I, L. replace (0 <? n) with true by lia. cbv zeta.
  unfold runs. rewrite (div_succ n k N), (mod_succ n k N). pose proof (Z.mod_pos_bound k n N) as B.
  assert (M : k0 / n <= k / n) by (apply Z.div_le_mono; lia).
  destruct (n - k mod n - 1 <=? 0) eqn:Z0.
  - replace (k mod n + 1 =? n) with true by lia. cbn [interval left expire]. split; [lia|]. split; [lia|]. split; [lia|]. split; [lia | reflexivity].
  - replace (k mod n + 1 =? n) with false by lia. cbn [interval left expire]. split; [lia|]. split; [lia|]. split; [lia|]. exact E.
Qed.

Lemma runs_poll : forall n k0 k t, runs n k0 k t -> runs n k k (mkTimer (interval t) (left t) false).
Proof. intros n k0 k t (I & L & K & E). unfold runs. cbn [interval left expire]. split; [assumption|]. split; [assumption|]. split; [lia|]. split; [discriminate|lia]. Qed.

(** The ticks of a history up to and including the latest poll of timer [i]. *)
Fixpoint polled_at (i : nat) (h : list top) (k k0 : Z) : Z :=
  match h with
  | [] => k0
  | Tick :: h' => polled_at i h' (k + 1) k0
  | Poll j :: h' => polled_at i h' k (if (j =? i)%nat then k else k0)
  | _ :: h' => polled_at i h' k k0
  end.

Lemma run_running : forall i n h ts ts' t k0 k, (i < size)%nat -> length ts = size -> 0 < n ->
  nth_error ts i = Some t -> runs n k0 k t -> undisturbed i h -> trun ts h = Some ts' ->
  exists t', nth_error ts' i = Some t' /\ runs n (polled_at i h k k0) (k + ticks h) t'.
Proof.
  intros i n. induction h as [|o h IH]; intros ts ts' t k0 k I L N T R U H.
  - cbn in H. injection H as <-. exists t. split; [assumption|]. change (ticks []) with 0. rewrite Z.add_0_r. assumption.
  - cbn in H. destruct (tstep ts o) as [t1|] eqn:ST; [|discriminate]. cbn in H.
    destruct (tstep_oper o i ts t1 t I L T ST) as (L1 & u & T1 & O).
    assert (U' : undisturbed i h) by (intros x X; apply U; right; assumption).
    assert (UO := U o (or_introl eq_refl)).
    assert (NX : forall x, runs n (match o with Poll j => if (j =? i)%nat then k else k0 | _ => k0 end) x u ->
                 x = k + (match o with Tick => 1 | _ => 0 end) ->
                 exists t', nth_error ts' i = Some t' /\ runs n (polled_at i (o :: h) k k0) (k + ticks (o :: h)) t').
    { intros x RX ->. destruct (IH _ _ _ _ _ I L1 N T1 RX U' H) as (t' & A & B). exists t'. split; [assumption|].
      replace (k + ticks (o :: h)) with (k + match o with Tick => 1 | _ => 0 end + ticks h).
      - destruct o; cbn [polled_at]; try rewrite Z.add_0_r in B; exact B || (rewrite Z.add_0_r; exact B).
      - unfold ticks. destruct o; cbn [filter length]; lia. }
    destruct o as [j q|j r q|j| |j]; cbn in O.
    + replace (j =? i)%nat with false in O by (symmetry; apply Nat.eqb_neq; exact UO). subst u. apply (NX k); [assumption|lia].
    + replace (j =? i)%nat with false in O by (symmetry; apply Nat.eqb_neq; exact UO). subst u. apply (NX k); [assumption|lia].
    + replace (j =? i)%nat with false in O by (symmetry; apply Nat.eqb_neq; exact UO). subst u. apply (NX k); [assumption|lia].
    + subst u. apply (NX (k + 1)); [apply runs_tick; assumption | lia].
    + destruct (j =? i)%nat; subst u; (apply (NX k); [|lia]); [eapply runs_poll; eassumption | assumption].
Qed.

Lemma polled_at_none : forall i h k k0, not_polled i h -> polled_at i h k k0 = k0.
Proof.
  intros i. induction h as [|o h IH]; intros k k0 P; [reflexivity|].
  assert (P' : not_polled i h) by (intros x X; apply P; right; assumption).
  destruct o; cbn; auto. rewrite IH by assumption. destruct (Nat.eqb_spec i0 i) as [-> |]; [|reflexivity].
  exfalso. apply (P (Poll i)); [left; reflexivity | reflexivity].
Qed.
Lemma polled_at_split : forall i h1 h2 k k0, not_polled i h2 -> polled_at i (h1 ++ Poll i :: h2) k k0 = k + ticks h1.
Proof.
  intros i. induction h1 as [|o h1 IH]; intros h2 k k0 P.
  - cbn. rewrite polled_at_none by assumption. rewrite Nat.eqb_refl. lia.
  - cbn [app polled_at]. destruct o; rewrite IH by assumption; unfold ticks; cbn [filter length]; lia.
Qed.

(** A stopped timer. *)
Lemma run_stopped : forall i h ts ts' t, (i < size)%nat -> length ts = size ->
  nth_error ts i = Some t -> interval t <= 0 -> not_started i h -> trun ts h = Some ts' ->
  exists t', nth_error ts' i = Some t' /\ interval t' <= 0 /\
    (expire t' = true -> expire t = true /\ not_polled i h) /\
    (expire t = true -> not_polled i h -> expire t' = true).
Proof.
  intros i. induction h as [|o h IH]; intros ts ts' t I L T S U H.
  - cbn in H. injection H as <-. exists t. split; [assumption|]. split; [assumption|]. split; [|auto].
    intros E. split; [assumption|]. intros x [].
  - cbn in H. destruct (tstep ts o) as [t1|] eqn:ST; [|discriminate]. cbn in H.
    destruct (tstep_oper o i ts t1 t I L T ST) as (L1 & u & T1 & O).
    assert (U' : not_started i h) by (intros x X; apply U; right; assumption).
    assert (UO := U o (or_introl eq_refl)).
    assert (NX : interval u <= 0 -> (o <> Poll i -> expire u = expire t) -> (o = Poll i -> expire u = false) ->
      exists t', nth_error ts' i = Some t' /\ interval t' <= 0 /\
        (expire t' = true -> expire t = true /\ not_polled i (o :: h)) /\
        (expire t = true -> not_polled i (o :: h) -> expire t' = true)).
    { intros Su E1 E2. destruct (IH _ _ _ I L1 T1 Su U' H) as (t' & A & B & C & D). exists t'.
      split; [assumption|]. split; [assumption|]. split.
      - intros E. destruct (C E) as (C1 & C2). assert (N : o <> Poll i). { intros X. rewrite (E2 X) in C1. discriminate. }
        rewrite (E1 N) in C1. split; [assumption|]. intros x [<- | X]; [assumption | auto].
      - intros E P. apply D.
        + rewrite E1; [assumption|]. apply P. left. reflexivity.
        + intros x X. apply P. right. assumption. }
    destruct o as [j q|j r q|j| |j]; cbn in O.
    + replace (j =? i)%nat with false in O by (symmetry; apply Nat.eqb_neq; exact UO). subst u. apply NX; [assumption|auto|discriminate].
    + replace (j =? i)%nat with false in O by (symmetry; apply Nat.eqb_neq; exact UO). subst u. apply NX; [assumption|auto|discriminate].
    + destruct (j =? i)%nat; subst u; (apply NX; [first [assumption|cbn; lia]|auto|discriminate]).
    + unfold tick1 in O. replace (0 <? interval t) with false in O by lia. subst u. apply NX; [assumption|auto|discriminate].
    + destruct (Nat.eqb_spec j i) as [-> | NE]; subst u.
      * apply NX; [assumption|congruence|reflexivity].
      * apply NX; [assumption|auto|congruence].
Qed.

Lemma init_length : length init = size. Proof. reflexivity. Qed.

Lemma nth_size : forall (ts : timers) i, length ts = size -> (i < size)%nat -> exists t, nth_error ts i = Some t.
Proof. intros ts i L I. destruct (nth_error ts i) eqn:N; [eauto|]. apply nth_error_None in N. lia. Qed.

Lemma poll_result : forall ts i t, nth_error ts i = Some t -> fst (poll i ts) = expire t.
Proof. intros ts i t N. unfold poll. rewrite N. destruct (expire t); reflexivity. Qed.

Lemma runs_start : forall n, 0 < n -> runs n 0 0 (mkTimer n n false).
Proof. intros n N. unfold runs. cbn [interval left expire]. rewrite Zmod_0_l, Zdiv_0_l. split; [reflexivity|]. split; [lia|]. split; [lia|]. split; [discriminate|lia]. Qed.
