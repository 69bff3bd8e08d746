(** Proofs about the model of leap seconds. *)
Require Import ZArith QArith Qround List Bool Lia.
Import ListNotations.
From Verif Require Import Base SrvSpec LeapSpec LeapModel.
Open Scope Z_scope.

Lemma change_flags_length v ok l : length (change_flags v ok l) = length l.
Proof. unfold change_flags. rewrite map_length, combine_length, seq_length. lia. Qed.
Lemma change_flags_all v ok l : (forall i, ok i = true) -> change_flags v ok l = repeat v (length l).
Proof.
  intros Hok. unfold change_flags. generalize 0%nat.
  induction l as [|b l IH]; intros k; cbn; [reflexivity|]. rewrite Hok. f_equal. apply IH.
Qed.

Lemma lrun_app ctl l a b : lrun ctl l (a ++ b) =
  match lrun ctl l a with
  | Some (l1, o1) => match lrun ctl l1 b with Some (l2, o2) => Some (l2, o1 ++ o2) | None => None end
  | None => None
  end.
Proof.
  revert l. induction a as [|o a IH]; intros l; cbn [lrun app].
  - destruct (lrun ctl l b) as [[? ?]|]; reflexivity.
  - destruct (lstep ctl l o) as [[l1 o1]|]; [|reflexivity]. cbn [fst snd bind]. rewrite IH.
    destruct (lrun ctl l1 a) as [[l2 o2]|]; [|reflexivity]. cbn [fst snd bind].
    destruct (lrun ctl l2 b) as [[l3 o3]|]; [|reflexivity]. cbn. rewrite app_assoc. reflexivity.
Qed.
Lemma lrun_snoc ctl l a o l2 out : lrun ctl l (a ++ [o]) = Some (l2, out) ->
  exists l1 o1 o2, lrun ctl l a = Some (l1, o1) /\ lstep ctl l1 o = Some (l2, o2) /\ out = o1 ++ o2.
Proof.
  rewrite lrun_app. destruct (lrun ctl l a) as [[l1 o1]|]; [|discriminate].
  cbn [lrun]. destruct (lstep ctl l1 o) as [[l3 o3]|] eqn:E; cbn; [|discriminate].
  intros H. injection H as <- <-. exists l1, o1, o3. rewrite app_nil_r. auto.
Qed.

(** * The time of the leap second *)
Lemma leap_time_ok t now : 0 <= now ->
  exists m, is_midnight_after now m /\ leap_time t now = leap_at t m.
Proof.
  intros Hn. exists (now - Z.rem now 86400 + 86400). split; [|destruct t; reflexivity].
  rewrite (Z.rem_mod_nonneg now 86400) by lia. unfold is_midnight_after.
  split; [|pose proof (Z.mod_pos_bound now 86400); lia].
  replace (now - now mod 86400 + 86400) with ((now / 86400 + 1) * 86400)
    by (pose proof (Z.div_mod now 86400); lia).
  apply Z.mod_mul; lia.
Qed.
Lemma guard_units_bounds g : 2 * (1000000000 * 2^32) <= guard_units g <= 10 * (1000000000 * 2^32).
Proof.
  unfold guard_units. cbv zeta.
  set (h := if Qlt_le_dec g 2 then 2%Q else g).
  assert (Hh : (2 <= h)%Q) by (unfold h; destruct (Qlt_le_dec g 2); [apply Qle_refl|assumption]).
  clearbody h.
  set (k := if Qlt_le_dec 10 h then 10%Q else h).
  assert (Hk : (2 <= k <= 10)%Q).
  { unfold k. destruct (Qlt_le_dec 10 h) as [H|H]; split; try assumption; try apply Qle_refl. discriminate. }
  clearbody k. destruct Hk as [H2 H10].
  set (u := 1000000000 * 2 ^ 32). assert (Hu : (0 <= inject_Z u)%Q) by (unfold u; discriminate).
  split.
  - rewrite <- (Qfloor_Z (2 * u)). apply Qfloor_resp_le. rewrite inject_Z_mult.
    apply Qmult_le_compat_r; assumption.
  - rewrite <- (Qfloor_Z (10 * u)). apply Qfloor_resp_le. rewrite inject_Z_mult.
    apply Qmult_le_compat_r; assumption.
Qed.
Lemma arm_s s : arm (units_of_s s) = s * 1000000000.
Proof. unfold arm, units_of_s. rewrite Z.mul_assoc. apply Z.div_mul. lia. Qed.
Lemma arm_before s g : (s - 10) * 1000000000 <= arm (units_of_s s - guard_units g) <= (s - 2) * 1000000000.
Proof.
  pose proof (guard_units_bounds g) as H. unfold arm, units_of_s.
  set (P := 2 ^ 32) in *. assert (HP : 0 < P) by reflexivity. clearbody P.
  split.
  - apply Z.div_le_lower_bound; nia.
  - apply Z.div_le_upper_bound; nia.
Qed.
Lemma arm_after s g : (s + 2) * 1000000000 <= arm (units_of_s s + guard_units g) <= (s + 10) * 1000000000.
Proof.
  pose proof (guard_units_bounds g) as H. unfold arm, units_of_s.
  set (P := 2 ^ 32) in *. assert (HP : 0 < P) by reflexivity. clearbody P.
  split.
  - apply Z.div_le_lower_bound; nia.
  - apply Z.div_le_upper_bound; nia.
Qed.

(** * What each request can do to the phase *)
Lemma cancel_cases l v l2 out : on_cancel l v = (l2, out) ->
  (l2 = l /\ out = [] /\ (l_phase l = ActivePre \/ l_phase l = Idle)) \/
  (l_phase l2 = Idle /\ l_timer l2 = None /\ l_phase l <> Idle /\ l_phase l <> ActivePre /\
   l_proc l2 = change_flags true (proc_ok v) (l_proc l) /\
   l_flag l2 = change_flags false (guard_ok v) (l_flag l) /\
   count is_step out = 0%nat /\ l_kernel l2 = (if match l_phase l with Test => true | _ => false end then l_kernel l else None) /\
   ~ (exists t, In (Kernel (Some t)) out) /\
   l_time l2 = l_time l /\ l_guard l2 = l_guard l /\ l_type l2 = l_type l).
Proof.
  destruct l as [ph ty ti gu tm ke pr fl]. unfold on_cancel; cbn.
  destruct ph; intros H; injection H as <- <-;
    [left; auto| right | left; auto | right | right]; cbn;
    (split; [reflexivity|]); (split; [reflexivity|]); (split; [discriminate|]); (split; [discriminate|]);
    (split; [reflexivity|]); (split; [reflexivity|]); (split; [reflexivity|]); (split; [reflexivity|]);
    (split; [|auto]); intros [t H]; cbn in H; repeat (destruct H as [H|H]; try discriminate); assumption.
Qed.

Definition sched (ctl : ctrl) (t : ltype) : option ltype :=
  match ctl with
  | SLEW_AND_STEP => Some t
  | STEP_FORWARD => match t with Leap61 => Some t | Leap59 => None end
  | _ => None
  end.
Definition stepped (ctl : ctrl) (t : ltype) : bool :=
  match ctl with
  | SLEW_AND_STEP => true
  | STEP_FORWARD => match t with Leap61 => false | Leap59 => true end
  | _ => false
  end.

(** * Counting steps and schedules *)
Definition pending (p : phase) : nat := match p with Scheduled | ActivePre => 1 | _ => 0 end.
Lemma count_app {A} (f : A -> bool) a b : count f (a ++ b) = (count f a + count f b)%nat.
Proof. unfold count. rewrite filter_app, app_length. reflexivity. Qed.

Lemma cancel_pending l v l2 out : on_cancel l v = (l2, out) ->
  count is_step out = 0%nat /\ (pending (l_phase l2) <= pending (l_phase l))%nat.
Proof.
  intros H. destruct (cancel_cases _ _ _ _ H) as [(-> & -> & _)|(P & _ & _ & _ & _ & _ & C & _)].
  - split; [reflexivity|lia].
  - split; [assumption|]. rewrite P. cbn. lia.
Qed.

Lemma step_pending ctl l o l2 out : lstep ctl l o = Some (l2, out) ->
  (count is_step out + pending (l_phase l2) <= pending (l_phase l) + (if is_schedule o then 1 else 0))%nat.
Proof.
  destruct o as [t g v|v|t v| |now v|]; cbn [lstep is_schedule].
  - unfold on_schedule. destruct (Qlt_le_dec 0 g); [|discriminate].
    destruct (l_phase l) eqn:P;
      try (intros H; injection H as <- <-; rewrite ?P; cbn; lia).
    1: destruct (gettime v) as [now|];
         [destruct (timer_ok v)|]; intros H; injection H as <- <-; cbn; rewrite ?P; cbn; try lia.
    1: destruct (match ctl with SLEW_AND_STEP => _ | _ => _ end); cbn; lia.
    all: destruct (on_cancel l v) as [l1 o1] eqn:C;
         destruct (cancel_cases _ _ _ _ C) as [(-> & -> & [E|E])|(P1 & _ & _ & _ & _ & _ & C0 & _)];
         try (rewrite E in P; discriminate);
         destruct (gettime v) as [now|];
         [destruct (timer_ok v)|]; intros H; injection H as <- <-; cbn [l_phase pending];
         rewrite ?count_app, ?C0, ?P1; cbn; try lia;
         destruct (match ctl with SLEW_AND_STEP => _ | _ => _ end); cbn; lia.
  - intros H; injection H as H. pose proof (cancel_pending _ _ _ _ H). lia.
  - unfold on_test. intros H; injection H as H. destruct (l_phase l) eqn:P;
      try (injection H as <- <-; rewrite ?P; cbn; lia).
    1: destruct t as [t|]; [destruct (gettime v) as [now|]; [destruct (timer_ok v)|]|];
       injection H as <- <-; cbn; rewrite ?P; cbn; lia.
    destruct (on_cancel l v) as [l1 o1] eqn:C;
         destruct (cancel_cases _ _ _ _ C) as [(-> & -> & [E|E])|(P1 & _ & _ & _ & _ & _ & C0 & _)];
         try (rewrite E in P; discriminate).
    destruct t as [t|]; [destruct (gettime v) as [now|]; [destruct (timer_ok v)|]|];
      injection H as <- <-; cbn [l_phase pending]; rewrite ?count_app, ?C0, ?P1; cbn; lia.
  - discriminate.
  - destruct (l_timer l) as [d|]; [|intros H; injection H as <- <-; cbn; lia].
    destruct (d <=? now); [|intros H; injection H as <- <-; cbn; lia].
    intros H; injection H as H. unfold on_timer in H. cbn [disarm l_phase l_type l_time l_guard l_timer l_kernel l_proc l_flag] in H.
    destruct (l_phase l) eqn:P.
    + injection H as <- <-. cbn. rewrite P. cbn. lia.
    + destruct (timer_ok v); injection H as <- <-; cbn; lia.
    + assert (Hc : (count is_step (if match ctl with SLEW_AND_STEP => true | STEP_FORWARD => is59 (l_type l) | _ => false end
                                  then match l_type l with Some t => [StepNow t] | None => [] end else []) <= 1)%nat)
        by (destruct (match ctl with SLEW_AND_STEP => _ | _ => _ end); [destruct (l_type l)|]; cbn; lia).
      cbv zeta in H.
      destruct (timer_ok v); injection H as <- <-; rewrite count_app; cbn [l_phase pending count is_step filter length] in *; cbn; lia.
    + pose proof (cancel_pending _ _ _ _ H) as [A B]. cbn in B. rewrite P in B. cbn in *. lia.
    + destruct (on_cancel (disarm l) v) as [l1 o1] eqn:C.
      injection H as <- <-. pose proof (cancel_pending _ _ _ _ C) as [A B]. cbn in B. rewrite P in B.
      change (count is_step (?x :: o1)) with (count is_step o1). cbn in *. unfold count in *. cbn. lia.
  - intros H; injection H as <- <-. destruct (l_phase l); cbn; lia.
Qed.

Lemma steps_bounded ctl n ops l out : lrun ctl (linit n) ops = Some (l, out) ->
  (count is_step out + pending (l_phase l) <= count is_schedule ops)%nat.
Proof.
  revert l out. induction ops as [|o ops IH] using rev_ind; intros l out.
  - cbn. intros H; injection H as <- <-. cbn. lia.
  - intros H. destruct (lrun_snoc _ _ _ _ _ _ H) as (l1 & o1 & o2 & R & St & ->).
    specialize (IH _ _ R). pose proof (step_pending _ _ _ _ _ St).
    rewrite !count_app. change (count is_schedule [o]) with (length (if is_schedule o then [o] else [])).
    destruct (is_schedule o); cbn [length]; lia.
Qed.

(** * A leap second in progress was scheduled and not cancelled *)
Definition planned (ops : list lop) (l : leap) : Prop :=
  match l_phase l with
  | Scheduled => exists pre t g v mid now,
      ops = pre ++ Schedule t g v :: mid /\ count is_schedule mid = 0%nat /\ count is_cancel mid = 0%nat /\
      gettime v = Some now /\ l_type l = Some t /\ l_time l = leap_time t now /\
      l_timer l = Some (arm (units_of_s (l_time l) - guard_units g))
  | ActivePre => exists pre t g v mid now now1 v1 post,
      ops = pre ++ Schedule t g v :: mid ++ Timer now1 v1 :: post /\
      count is_schedule mid = 0%nat /\ count is_cancel mid = 0%nat /\
      gettime v = Some now /\ l_type l = Some t /\ l_time l = leap_time t now /\
      arm (units_of_s (l_time l) - guard_units g) <= now1 /\
      l_timer l = Some (arm (units_of_s (l_time l)))
  | _ => True
  end.

Lemma planned_same ops o l l2 : planned ops l -> is_schedule o = false -> is_cancel o = false ->
  l2 = l -> planned (ops ++ [o]) l2.
Proof.
  intros HP Hs Hc ->. unfold planned in *. destruct (l_phase l); auto.
  - destruct HP as (pre & t & g & v & mid & now & -> & A & B & R).
    exists pre, t, g, v, (mid ++ [o]), now. rewrite <- app_assoc. split; [reflexivity|].
    rewrite !count_app. unfold count in *. cbn. rewrite Hs, Hc. cbn. repeat split; try lia; apply R.
  - destruct HP as (pre & t & g & v & mid & now & now1 & v1 & post & -> & A & B & R).
    exists pre, t, g, v, mid, now, now1, v1, (post ++ [o]).
    split; [rewrite <- !app_assoc; cbn; rewrite <- app_assoc; reflexivity|]. auto.
Qed.
Lemma planned_pre ops o l : planned ops l -> l_phase l = ActivePre -> planned (ops ++ [o]) l.
Proof.
  intros HP E. unfold planned in *. rewrite E in *.
  destruct HP as (pre & t & g & v & mid & now & now1 & v1 & post & -> & A & B & R).
  exists pre, t, g, v, mid, now, now1, v1, (post ++ [o]).
  split; [rewrite <- !app_assoc; cbn; rewrite <- app_assoc; reflexivity|]. auto.
Qed.
Lemma planned_other ops l : l_phase l <> Scheduled -> l_phase l <> ActivePre -> planned ops l.
Proof. intros A B. unfold planned. destruct (l_phase l); auto; contradiction. Qed.

Lemma step_planned ctl ops l o l2 out : planned ops l -> lstep ctl l o = Some (l2, out) ->
  planned (ops ++ [o]) l2.
Proof.
  intros HP. destruct o as [t g v|v|t v| |now v|]; cbn [lstep].
  - unfold on_schedule. destruct (Qlt_le_dec 0 g); [|discriminate].
    destruct (l_phase l) eqn:P.
    + destruct (gettime v) as [now|] eqn:G;
         [destruct (timer_ok v)|]; intros H; injection H as <- <-.
      * unfold planned; cbn. exists ops, t, g, v, [], now. repeat split; auto.
      * apply planned_other; cbn; congruence.
      * apply planned_other; cbn; congruence.
    + destruct (on_cancel l v) as [l1 o1] eqn:C;
         destruct (cancel_cases _ _ _ _ C) as [(-> & -> & [E|E])|(P1 & _ & _ & _ & _ & _ & C0 & _)];
         try (rewrite E in P; discriminate).
      destruct (gettime v) as [now|] eqn:G;
         [destruct (timer_ok v)|]; intros H; injection H as <- <-.
      * unfold planned; cbn. exists ops, t, g, v, [], now. repeat split; auto.
      * apply planned_other; cbn; congruence.
      * apply planned_other; cbn; congruence.
    + intros H; injection H as <- <-. apply planned_pre; assumption.
    + intros H; injection H as <- <-. apply planned_other; congruence.
    + destruct (on_cancel l v) as [l1 o1] eqn:C;
         destruct (cancel_cases _ _ _ _ C) as [(-> & -> & [E|E])|(P1 & _ & _ & _ & _ & _ & C0 & _)];
         try (rewrite E in P; discriminate).
      destruct (gettime v) as [now|] eqn:G;
         [destruct (timer_ok v)|]; intros H; injection H as <- <-.
      * unfold planned; cbn. exists ops, t, g, v, [], now. repeat split; auto.
      * apply planned_other; cbn; congruence.
      * apply planned_other; cbn; congruence.
  - intros H; injection H as H.
    destruct (cancel_cases _ _ _ _ H) as [(-> & -> & [E|E])|(P1 & _)].
    + apply planned_pre; assumption.
    + apply planned_other; rewrite E; discriminate.
    + apply planned_other; rewrite P1; discriminate.
  - intros H; injection H as H. unfold on_test in H. destruct (l_phase l) eqn:P.
    2,3,4: injection H as <- <-; eapply planned_same; eauto.
    + apply planned_other;
        (destruct t as [t|]; [destruct (gettime v) as [now|]; [destruct (timer_ok v)|]|]; injection H as <- <-; cbn; congruence).
    + destruct (on_cancel l v) as [l1 o1] eqn:C;
         destruct (cancel_cases _ _ _ _ C) as [(-> & -> & [E|E])|(P1 & _ & _ & _ & _ & _ & C0 & _)];
         try (rewrite E in P; discriminate).
      apply planned_other;
        (destruct t as [t|]; [destruct (gettime v) as [now|]; [destruct (timer_ok v)|]|]; injection H as <- <-; cbn; congruence).
  - discriminate.
  - destruct (l_timer l) as [d|] eqn:T; [|intros H; injection H as <- <-; eapply planned_same; eauto].
    destruct (d <=? now) eqn:D; [|intros H; injection H as <- <-; eapply planned_same; eauto].
    apply Z.leb_le in D.
    intros H; injection H as H. unfold on_timer in H. cbn [disarm l_phase l_type l_time l_guard l_timer l_kernel l_proc l_flag] in H.
    destruct (l_phase l) eqn:P.
    + injection H as <- <-. apply planned_other; cbn; congruence.
    + destruct (timer_ok v); injection H as <- <-; [|apply planned_other; discriminate].
      unfold planned in HP. rewrite P in HP.
      destruct HP as (pre & t & g & v0 & mid & now0 & -> & A & B & G & Ty & Ti & Tm).
      unfold planned; cbn. exists pre, t, g, v0, mid, now0, now, v, [].
      split; [rewrite <- app_assoc; reflexivity|]. rewrite T in Tm. injection Tm as ->.
      repeat split; auto.
    + cbv zeta in H. destruct (timer_ok v); injection H as <- <-; apply planned_other; discriminate.
    + destruct (cancel_cases _ _ _ _ H) as [(_ & _ & [E|E])|(P1 & _)]; cbn in *;
        try congruence. apply planned_other; rewrite P1; discriminate.
    + destruct (on_cancel (disarm l) v) as [l1 o1] eqn:C. injection H as <- <-.
      destruct (cancel_cases _ _ _ _ C) as [(_ & _ & [E|E])|(P1 & _)]; cbn in *;
        try congruence. apply planned_other; rewrite P1; discriminate.
  - intros H; injection H as <- <-. eapply planned_same; eauto.
Qed.

Lemma run_planned ctl n ops l out : lrun ctl (linit n) ops = Some (l, out) -> planned ops l.
Proof.
  revert l out. induction ops as [|o ops IH] using rev_ind; intros l out.
  - cbn. intros H; injection H as <- <-. exact I.
  - intros H. destruct (lrun_snoc _ _ _ _ _ _ H) as (l1 & o1 & o2 & R & St & ->).
    eapply step_planned; eauto.
Qed.

Lemma step_emits ctl l o l2 out t : lstep ctl l o = Some (l2, out) -> In (StepNow t) out ->
  l_phase l = ActivePre /\ l_type l = Some t /\ stepped ctl t = true /\
  exists now v d, o = Timer now v /\ l_timer l = Some d /\ d <= now.
Proof.
  intros St Hin.
  assert (Hnil : forall x, count is_step x = 0%nat -> ~ In (StepNow t) x).
  { intros x Hx Hi. assert (In (StepNow t) (filter is_step x)) by (apply filter_In; auto).
    unfold count in Hx. destruct (filter is_step x); [contradiction|discriminate]. }
  destruct o as [ty g v|v|ty v| |now v|]; cbn [lstep] in St.
  - exfalso. revert St. unfold on_schedule. destruct (Qlt_le_dec 0 g); [|discriminate].
    destruct (l_phase l) eqn:P;
      try (intros H; injection H as <- <-; contradiction).
    1: destruct (gettime v) as [now|]; [destruct (timer_ok v)|]; intros H; injection H as <- <-; try contradiction;
        revert Hin; apply Hnil; destruct (match ctl with SLEW_AND_STEP => _ | _ => _ end); reflexivity.
    all: destruct (on_cancel l v) as [l1 o1] eqn:C; destruct (cancel_pending _ _ _ _ C) as [C0 _];
         destruct (gettime v) as [now|]; [destruct (timer_ok v)|]; intros H; injection H as <- <-;
         revert Hin; apply Hnil; rewrite ?count_app, ?C0;
         try destruct (match ctl with SLEW_AND_STEP => _ | _ => _ end); reflexivity.
  - exfalso. injection St as H. destruct (cancel_pending _ _ _ _ H) as [C0 _]. exact (Hnil _ C0 Hin).
  - exfalso. injection St as H. unfold on_test in H. destruct (l_phase l) eqn:P;
      try (injection H as <- <-; contradiction).
    1: destruct ty as [ty|]; [destruct (gettime v) as [now|]; [destruct (timer_ok v)|]|];
       injection H as <- <-; revert Hin; apply Hnil; reflexivity.
    destruct (on_cancel l v) as [l1 o1] eqn:C; destruct (cancel_pending _ _ _ _ C) as [C0 _].
    destruct ty as [ty|]; [destruct (gettime v) as [now|]; [destruct (timer_ok v)|]|];
       injection H as <- <-; revert Hin; apply Hnil; rewrite ?count_app, ?C0; reflexivity.
  - discriminate.
  - destruct (l_timer l) as [d|] eqn:T; [|injection St as <- <-; contradiction].
    destruct (d <=? now) eqn:D; [|injection St as <- <-; contradiction].
    apply Z.leb_le in D.
    injection St as H. unfold on_timer in H. cbn [disarm l_phase l_type l_time l_guard l_timer l_kernel l_proc l_flag] in H.
    destruct (l_phase l) eqn:P.
    + injection H as <- <-. contradiction.
    + destruct (timer_ok v); injection H as <- <-; contradiction.
    + cbv zeta in H. set (b := match ctl with SLEW_AND_STEP => true | STEP_FORWARD => is59 (l_type l) | _ => false end) in *.
      assert (Ho : In (StepNow t) (if b then match l_type l with Some t => [StepNow t] | None => [] end else [])).
      { destruct (timer_ok v); injection H as <- <-; apply in_app_or in Hin; destruct Hin as [Hin|[Hin|[]]]; auto; discriminate. }
      destruct b eqn:B; [|contradiction]. destruct (l_type l) as [t0|]; [|contradiction].
      destruct Ho as [Ho|[]]. injection Ho as ->. split; [reflexivity|]. split; [reflexivity|]. split.
      * unfold b in B. unfold stepped. destruct ctl; auto; destruct t; auto.
      * exists now, v, d. auto.
    + exfalso. destruct (cancel_pending _ _ _ _ H) as [C0 _]. exact (Hnil _ C0 Hin).
    + exfalso. destruct (on_cancel (disarm l) v) as [l1 o1] eqn:C. injection H as <- <-.
      destruct (cancel_pending _ _ _ _ C) as [C0 _]. destruct Hin as [Hin|Hin]; [discriminate|]. exact (Hnil _ C0 Hin).
  - injection St as <- <-. destruct (l_phase l); cbn in Hin; exfalso; intuition discriminate.
Qed.

(** * After a cancellation *)
Lemma step_quiet ctl l o l2 out : lstep ctl l o = Some (l2, out) -> is_schedule o = false ->
  pending (l_phase l) = 0%nat -> pending (l_phase l2) = 0%nat /\ count is_step out = 0%nat.
Proof. intros St Ns P. pose proof (step_pending _ _ _ _ _ St) as H. rewrite Ns in H. lia. Qed.
Lemma run_quiet ctl ops : forall l l2 out, lrun ctl l ops = Some (l2, out) -> count is_schedule ops = 0%nat ->
  pending (l_phase l) = 0%nat -> count is_step out = 0%nat /\ pending (l_phase l2) = 0%nat.
Proof.
  induction ops as [|o ops IH]; intros l l2 out.
  - cbn. intros H _ P; injection H as <- <-. auto.
  - cbn [lrun]. intros H Ns P. destruct (lstep ctl l o) as [[l1 o1]|] eqn:E; [|discriminate]. cbn [bind fst snd] in H.
    destruct (lrun ctl l1 ops) as [[l3 o3]|] eqn:R; [|discriminate]. cbn in H. injection H as <- <-.
    unfold count in Ns; cbn in Ns. destruct (is_schedule o) eqn:So; [discriminate|].
    destruct (step_quiet _ _ _ _ _ E So P) as [P1 Q1]. destruct (IH _ _ _ R Ns P1) as [Q2 P2].
    rewrite count_app. lia.
Qed.

(** * When nothing fails *)
Definition good (ctl : ctrl) (n : nat) (l : leap) : Prop :=
  match l_phase l with
  | Idle => l_timer l = None /\ l_kernel l = None /\ l_proc l = repeat true n /\ l_flag l = repeat false n
  | Scheduled => (exists t g, l_type l = Some t /\ l_kernel l = sched ctl t /\ l_guard l = guard_units g /\
                            l_timer l = Some (arm (units_of_s (l_time l) - guard_units g))) /\
                 l_proc l = repeat true n /\ l_flag l = repeat false n
  | ActivePre => (exists t g, l_type l = Some t /\ l_kernel l = sched ctl t /\ l_guard l = guard_units g) /\
                 l_timer l = Some (arm (units_of_s (l_time l))) /\
                 l_proc l = repeat false n /\ l_flag l = repeat true n
  | ActivePost => (exists g, l_guard l = guard_units g /\ l_timer l = Some (arm (units_of_s (l_time l) + guard_units g))) /\
                  l_proc l = repeat false n /\ l_flag l = repeat true n
  | Test => (exists d, l_timer l = Some d) /\ l_kernel l = None /\ l_proc l = repeat true n /\ l_flag l = repeat false n
  end.

Lemma cancel_good ctl n l v l2 out : good ctl n l -> works v -> on_cancel l v = (l2, out) -> good ctl n l2.
Proof.
  intros G (_ & Wg & Wp) H. destruct (cancel_cases _ _ _ _ H) as [(-> & _)|(P & T & N1 & N2 & Pr & Fl & _ & K & _)]; [assumption|].
  unfold good in *. rewrite P, T, K, Pr, Fl, !change_flags_all by assumption.
  destruct (l_phase l); try contradiction.
  - destruct G as (_ & -> & ->). rewrite !repeat_length. auto.
  - destruct G as (_ & -> & ->). rewrite !repeat_length. auto.
  - destruct G as (_ & -> & -> & ->). rewrite !repeat_length. auto.
Qed.
Lemma disarm_good_cancel ctl n l v l2 out : good ctl n l -> works v -> l_phase l = ActivePost \/ l_phase l = Test ->
  on_cancel (disarm l) v = (l2, out) -> good ctl n l2.
Proof.
  intros G (_ & Wg & Wp) Ph H. destruct (cancel_cases _ _ _ _ H) as [(_ & _ & [E|E])|(P & T & N1 & N2 & Pr & Fl & _ & K & _)].
  1,2: cbn in E; rewrite E in Ph; intuition discriminate.
  unfold good in *. rewrite P, T, K, Pr, Fl, !change_flags_all by assumption. cbn.
  destruct Ph as [Ph|Ph]; rewrite Ph in *.
  - destruct G as (_ & -> & ->). rewrite !repeat_length. auto.
  - destruct G as (_ & -> & -> & ->). rewrite !repeat_length. auto.
Qed.
Lemma sched_model ctl t k : (k = None) ->
  (if match ctl with SLEW_AND_STEP => true | STEP_FORWARD => is61 (Some t) | _ => false end then Some t else k) = sched ctl t.
Proof. intros ->. destruct ctl, t; reflexivity. Qed.

Lemma step_good ctl n l o l2 out : good ctl n l -> op_works o -> lstep ctl l o = Some (l2, out) -> good ctl n l2.
Proof.
  intros G W. destruct o as [t g v|v|t v| |now v|]; cbn [lstep op_works] in *.
  - assert (Hs : forall l0 now, good ctl n l0 -> l_phase l0 = Idle ->
        good ctl n (mkLeap Scheduled (Some t) (leap_time t now) (guard_units g)
          (Some (arm (units_of_s (leap_time t now) - guard_units g)))
          (if match ctl with SLEW_AND_STEP => true | STEP_FORWARD => is61 (Some t) | _ => false end then Some t else l_kernel l0)
          (l_proc l0) (l_flag l0))).
    { intros l0 now G0 P0. unfold good in *. rewrite P0 in G0. destruct G0 as (_ & K & Pr & Fl). cbn [l_phase l_type l_time l_guard l_timer l_kernel l_proc l_flag].
      rewrite (sched_model _ _ _ K). split; [|auto]. exists t, g. auto. }
    unfold on_schedule. destruct (Qlt_le_dec 0 g); [|discriminate].
    pose proof W as (Wt & _). rewrite Wt.
    destruct (l_phase l) eqn:P.
    + destruct (gettime v) as [now|]; intros H; injection H as <- <-; [|assumption]. apply Hs; assumption.
    + destruct (on_cancel l v) as [l1 o1] eqn:C. pose proof (cancel_good _ _ _ _ _ _ G W C) as G1.
      destruct (cancel_cases _ _ _ _ C) as [(-> & -> & [E|E])|(P1 & _)]; try (rewrite E in P; discriminate).
      destruct (gettime v) as [now|]; intros H; injection H as <- <-; [|assumption]. apply Hs; assumption.
    + intros H; injection H as <- <-; assumption.
    + intros H; injection H as <- <-; assumption.
    + destruct (on_cancel l v) as [l1 o1] eqn:C. pose proof (cancel_good _ _ _ _ _ _ G W C) as G1.
      destruct (cancel_cases _ _ _ _ C) as [(-> & -> & [E|E])|(P1 & _)]; try (rewrite E in P; discriminate).
      destruct (gettime v) as [now|]; intros H; injection H as <- <-; [|assumption]. apply Hs; assumption.
  - intros H; injection H as H. eapply cancel_good; eauto.
  - intros H; injection H as H. unfold on_test in H. pose proof W as (Wt & _). rewrite Wt in H.
    assert (Ht : forall l0 t0 now, good ctl n l0 -> l_phase l0 = Idle ->
        good ctl n (mkLeap Test (Some t0) (leap_time t0 now) (l_guard l0)
          (Some (arm (units_of_s (leap_time t0 now)))) (l_kernel l0) (l_proc l0) (l_flag l0))).
    { intros l0 t0 now G0 P0. unfold good in *. rewrite P0 in G0. destruct G0 as (_ & K & Pr & Fl). cbn. eauto. }
    destruct (l_phase l) eqn:P; try (injection H as <- <-; assumption).
    + destruct t as [t|]; [destruct (gettime v) as [now|]|]; injection H as <- <-; try assumption. apply Ht; assumption.
    + destruct (on_cancel l v) as [l1 o1] eqn:C. pose proof (cancel_good _ _ _ _ _ _ G W C) as G1.
      destruct (cancel_cases _ _ _ _ C) as [(-> & -> & [E|E])|(P1 & _)]; try (rewrite E in P; discriminate).
      destruct t as [t|]; [destruct (gettime v) as [now|]|]; injection H as <- <-; try assumption. apply Ht; assumption.
  - discriminate.
  - destruct (l_timer l) as [d|] eqn:T; [|intros H; injection H as <- <-; assumption].
    destruct (d <=? now); [|intros H; injection H as <- <-; assumption].
    intros H; injection H as H. unfold on_timer in H. cbn [disarm l_phase l_type l_time l_guard l_timer l_kernel l_proc l_flag] in H.
    pose proof W as (Wt & Wg & Wp). rewrite Wt in H. cbv zeta in H.
    destruct (l_phase l) eqn:P.
    + unfold good in G. rewrite P, T in G. destruct G as [G _]; discriminate.
    + injection H as <- <-. unfold good in *. rewrite P in G. cbn.
      destruct G as ((t & g & Ty & K & Gu & _) & Pr & Fl).
      split; [exists t, g; auto|]. split; [reflexivity|].
      rewrite Pr, Fl, !change_flags_all, !repeat_length by assumption. auto.
    + injection H as <- <-. unfold good in *. rewrite P in G. cbn.
      destruct G as ((t & g & Ty & K & Gu) & _ & Pr & Fl).
      split; [exists g; rewrite Gu; auto|auto].
    + eapply disarm_good_cancel; eauto.
    + destruct (on_cancel (disarm l) v) as [l1 o1] eqn:C. injection H as <- <-. eapply disarm_good_cancel; eauto.
  - intros H; injection H as <- <-. assumption.
Qed.
Lemma run_good ctl n ops : Forall op_works ops -> forall l l2 out, good ctl n l ->
  lrun ctl l ops = Some (l2, out) -> good ctl n l2.
Proof.
  induction 1 as [|o ops W _ IH]; intros l l2 out G; cbn [lrun].
  - intros H; injection H as <- <-; assumption.
  - destruct (lstep ctl l o) as [[l1 o1]|] eqn:E; [|discriminate]. cbn [bind fst snd].
    destruct (lrun ctl l1 ops) as [[l3 o3]|] eqn:R; [|discriminate]. cbn. intros H; injection H as <- <-.
    eapply IH; [|exact R]. eapply step_good; eauto.
Qed.
Lemma init_good ctl n : good ctl n (linit n).
Proof. cbn. auto. Qed.

Lemma step_kernel_none ctl l o l2 out : lstep ctl l o = Some (l2, out) -> is_schedule o = false ->
  l_kernel l = None -> l_kernel l2 = None.
Proof.
  assert (Hc : forall l v l2 out, on_cancel l v = (l2, out) -> l_kernel l = None -> l_kernel l2 = None).
  { intros l0 v l3 o3 H K. destruct (cancel_cases _ _ _ _ H) as [(-> & _)|(_ & _ & _ & _ & _ & _ & _ & E & _)]; [assumption|].
    rewrite E. destruct (l_phase l0); auto. }
  intros St Ns K. destruct o as [t g v|v|t v| |now v|]; cbn [lstep] in St; try discriminate.
  - injection St as H. eauto.
  - injection St as H. unfold on_test in H. destruct (l_phase l) eqn:P; try (injection H as <- <-; assumption).
    + destruct t as [t|]; [destruct (gettime v) as [now|]; [destruct (timer_ok v)|]|]; injection H as <- <-; assumption.
    + destruct (on_cancel l v) as [l1 o1] eqn:C. pose proof (Hc _ _ _ _ C K) as K1.
      destruct t as [t|]; [destruct (gettime v) as [now|]; [destruct (timer_ok v)|]|]; injection H as <- <-; assumption.
  - destruct (l_timer l) as [d|]; [|injection St as <- <-; assumption].
    destruct (d <=? now); [|injection St as <- <-; assumption].
    injection St as H. unfold on_timer in H. cbn [disarm l_phase l_type l_time l_guard l_timer l_kernel l_proc l_flag] in H.
    cbv zeta in H. destruct (l_phase l) eqn:P.
    + injection H as <- <-. assumption.
    + destruct (timer_ok v); injection H as <- <-; assumption.
    + destruct (timer_ok v); injection H as <- <-; assumption.
    + exact (Hc _ _ _ _ H K).
    + destruct (on_cancel (disarm l) v) as [l1 o1] eqn:C. injection H as <- <-. exact (Hc _ _ _ _ C K).
  - injection St as <- <-. assumption.
Qed.
Lemma run_kernel_none ctl ops : forall l l2 out, lrun ctl l ops = Some (l2, out) -> count is_schedule ops = 0%nat ->
  l_kernel l = None -> l_kernel l2 = None.
Proof.
  induction ops as [|o ops IH]; intros l l2 out.
  - cbn. intros H _ P; injection H as <- <-. auto.
  - cbn [lrun]. intros H Ns P. destruct (lstep ctl l o) as [[l1 o1]|] eqn:E; [|discriminate]. cbn [bind fst snd] in H.
    destruct (lrun ctl l1 ops) as [[l3 o3]|] eqn:R; [|discriminate]. cbn in H. injection H as <- <-.
    unfold count in Ns; cbn in Ns. destruct (is_schedule o) eqn:So; [discriminate|].
    eapply IH; eauto. eapply step_kernel_none; eauto.
Qed.

(** Requests that neither schedule nor test. *)
Definition passive (o : lop) : Prop := match o with Cancel _ | Timer _ _ | Sync => True | _ => False end.
Lemma passive_stuck ctl ops : Forall passive ops -> forall l, l_phase l = Idle -> l_timer l = None ->
  exists out, lrun ctl l ops = Some (l, out).
Proof.
  induction 1 as [|o ops P _ IH]; intros l Ph T; cbn [lrun]; [eauto|].
  assert (exists out, lstep ctl l o = Some (l, out)) as [o1 ->].
  { destruct o; try contradiction; cbn [lstep].
    - unfold on_cancel. rewrite Ph. destruct l; cbn in *; subst. eauto.
    - rewrite T. eauto.
    - eauto. }
  cbn [bind fst snd]. destruct (IH l Ph T) as [o2 ->]. cbn. eauto.
Qed.

(** The whole sequence when nothing fails. *)
Lemma whole ctl n l now1 now2 now3 v1 v2 v3 : good ctl n l -> l_phase l = Scheduled ->
  works v1 -> works v2 -> works v3 ->
  (l_time l - 2) * 1000000000 <= now1 -> l_time l * 1000000000 <= now2 -> (l_time l + 10) * 1000000000 <= now3 ->
  exists t l1 l2 l3 out,
    l_type l = Some t /\ l_kernel l = sched ctl t /\
    lstep ctl l (Timer now1 v1) = Some (l1, []) /\ l_phase l1 = ActivePre /\
    lstep ctl l1 (Timer now2 v2) = Some (l2, (if stepped ctl t then [StepNow t] else []) ++ [Tell None]) /\ l_phase l2 = ActivePost /\
    lstep ctl l2 (Timer now3 v3) = Some (l3, out) /\ l_phase l3 = Idle /\ good ctl n l3.
Proof.
  intros G P W1 W2 W3 H1 H2 H3. pose proof G as G0. unfold good in G. rewrite P in G.
  destruct G as ((t & g & Ty & K & Gu & Tm) & Pr & Fl).
  pose proof (arm_before (l_time l) g) as Hb. pose proof (arm_after (l_time l) g) as Ha. pose proof (arm_s (l_time l)) as Hs.
  destruct W1 as (T1 & G1 & Q1). destruct W2 as (T2 & G2 & Q2).
  exists t.
  eexists (mkLeap ActivePre _ _ _ _ _ _ _), (mkLeap ActivePost _ _ _ _ _ _ _).
  assert (S1 : lstep ctl l (Timer now1 v1) = Some (mkLeap ActivePre (Some t) (l_time l) (l_guard l) (Some (arm (units_of_s (l_time l))))
     (sched ctl t) (repeat false n) (repeat true n), [])).
  { cbn [lstep]. rewrite Tm. replace (_ <=? now1) with true by (symmetry; apply Z.leb_le; lia).
    unfold on_timer. cbn [disarm l_phase l_type l_time l_guard l_timer l_kernel l_proc l_flag]. rewrite P, T1.
    rewrite !change_flags_all by assumption. rewrite Pr, Fl, !repeat_length, Ty, K. reflexivity. }
  assert (S2 : lstep ctl (mkLeap ActivePre (Some t) (l_time l) (l_guard l) (Some (arm (units_of_s (l_time l))))
     (sched ctl t) (repeat false n) (repeat true n)) (Timer now2 v2) =
     Some (mkLeap ActivePost None (l_time l) (l_guard l) (Some (arm (units_of_s (l_time l) + guard_units g)))
     (sched ctl t) (repeat false n) (repeat true n), (if stepped ctl t then [StepNow t] else []) ++ [Tell None])).
  { cbn [lstep l_timer]. rewrite Hs. replace (_ <=? now2) with true by (symmetry; apply Z.leb_le; lia).
    unfold on_timer. cbn [disarm l_phase l_type l_time l_guard l_timer l_kernel l_proc l_flag]. rewrite T2, Gu. cbv zeta.
    do 2 f_equal; destruct ctl, t; reflexivity. }
  set (l2 := mkLeap ActivePost None (l_time l) (l_guard l) (Some (arm (units_of_s (l_time l) + guard_units g)))
     (sched ctl t) (repeat false n) (repeat true n)) in *.
  destruct (on_cancel (disarm l2) v3) as [l3 o3] eqn:C.
  exists l3, o3.
  split; [exact Ty|]. split; [exact K|]. split; [exact S1|]. split; [reflexivity|]. split; [exact S2|]. split; [reflexivity|].
  assert (Gl2 : good ctl n l2) by (unfold good; cbn; split; [exists g; auto|auto]).
  split.
  { change (lstep ctl l2 (Timer now3 v3) = Some (l3, o3)). cbn [lstep].
    change (l_timer l2) with (Some (arm (units_of_s (l_time l) + guard_units g))).
    cbv iota beta.
    assert (E : (arm (units_of_s (l_time l) + guard_units g) <=? now3) = true) by (apply Z.leb_le; lia).
    rewrite E. unfold on_timer. cbn [disarm l2 l_phase]. change (mkLeap ActivePost _ _ _ None _ _ _) with (disarm l2).
    rewrite C. reflexivity. }
  split.
  { destruct (cancel_cases _ _ _ _ C) as [(_ & _ & [E|E])|(E & _)]; cbn in E; congruence. }
  eapply disarm_good_cancel; eauto.
Qed.
