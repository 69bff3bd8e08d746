(** C38: leap seconds. *)
Require Import ZArith QArith List Bool Lia.
Import ListNotations.
From Verif Require Import Base SrvSpec LeapSpec LeapModel LeapProof.
Open Scope Z_scope.

(** Everything below is for any clock control setting [ctl], any number [n] of instances, any
    sequence of requests and, unless said otherwise, any failures of the calls made. *)

(** The other clocks are stepped only by the timer, for a leap second that was scheduled and
    neither cancelled nor replaced until the guard interval began, not before the guard
    interval has started (at most 10 s before), and not before the leap second itself, which
    is at the end of the UTC day in which it was scheduled. *)
Theorem C38_step_only_scheduled : forall ctl n ops o l l2 out0 out t,
  lrun ctl (linit n) ops = Some (l, out0) -> lstep ctl l o = Some (l2, out) -> In (StepNow t) out ->
  exists pre g v mid now1 v1 post now2 v2 now,
    ops = pre ++ Schedule t g v :: mid ++ Timer now1 v1 :: post /\
    (forall x, In x mid -> is_schedule x = false /\ is_cancel x = false) /\
    o = Timer now2 v2 /\ gettime v = Some now /\
    (0 <= now -> exists m, is_midnight_after now m /\
       (leap_at t m - 10) * 1000000000 <= now1 /\ leap_at t m * 1000000000 <= now2).
Proof.
  intros ctl n ops o l l2 out0 out t R St Hin.
  destruct (step_emits _ _ _ _ _ _ St Hin) as (P & Ty & _ & now2 & v2 & d & -> & T & D).
  pose proof (run_planned _ _ _ _ _ R) as HP. unfold planned in HP. rewrite P in HP.
  destruct HP as (pre & t' & g & v & mid & now & now1 & v1 & post & -> & Ns & Nc & G & Ty' & Ti & H1 & Tm).
  rewrite Ty in Ty'. injection Ty' as <-.
  exists pre, g, v, mid, now1, v1, post, now2, v2, now.
  split; [reflexivity|]. split.
  { intros x Hx. unfold count in *. split.
    - destruct (is_schedule x) eqn:E; [|reflexivity].
      assert (In x (filter is_schedule mid)) by (apply filter_In; auto). destruct (filter is_schedule mid); [contradiction|discriminate].
    - destruct (is_cancel x) eqn:E; [|reflexivity].
      assert (In x (filter is_cancel mid)) by (apply filter_In; auto). destruct (filter is_cancel mid); [contradiction|discriminate]. }
  split; [reflexivity|]. split; [assumption|]. intros Hn.
  destruct (leap_time_ok t now Hn) as (m & Hm & E). exists m. split; [assumption|].
  rewrite Ti, E in *. pose proof (arm_before (leap_at t m) g). rewrite arm_s in Tm.
  rewrite T in Tm. injection Tm as ->. lia.
Qed.
Print Assumptions C38_step_only_scheduled.

(** Each scheduled leap second is applied at most once. *)
Theorem C38_at_most_once : forall ctl n ops l out,
  lrun ctl (linit n) ops = Some (l, out) -> (count is_step out <= count is_schedule ops)%nat.
Proof. intros. pose proof (steps_bounded _ _ _ _ _ H). lia. Qed.
Print Assumptions C38_at_most_once.

(** A leap second cancelled before its guard interval begins does not happen: until another
    is scheduled no clock is stepped, and the system clock, if it had been told to insert or
    delete a second, has been told not to. *)
Theorem C38_cancel : forall ctl n ops l out0 v l1 out1 later l2 out,
  lrun ctl (linit n) ops = Some (l, out0) -> l_phase l <> ActivePre ->
  lstep ctl l (Cancel v) = Some (l1, out1) ->
  lrun ctl l1 later = Some (l2, out) -> count is_schedule later = 0%nat ->
  (forall t, ~ In (StepNow t) (out1 ++ out)) /\
  (l_phase l = Scheduled -> l_kernel l2 = None).
Proof.
  intros ctl n ops l out0 v l1 out1 later l2 out R P St R2 Ns.
  cbn [lstep] in St. injection St as C. destruct (cancel_pending _ _ _ _ C) as [C0 _].
  assert (P1 : pending (l_phase l1) = 0%nat).
  { destruct (cancel_cases _ _ _ _ C) as [(-> & _ & [E|E])|(E & _)].
    - contradiction.
    - rewrite E. reflexivity.
    - rewrite E. reflexivity. }
  destruct (run_quiet _ _ _ _ _ R2 Ns P1) as [C1 _]. split.
  - intros t Hin. assert (H : In (StepNow t) (filter is_step (out1 ++ out))) by (apply filter_In; auto).
    pose proof (count_app is_step out1 out) as E. rewrite C0, C1 in E. unfold count in E at 1.
    destruct (filter is_step (out1 ++ out)); [contradiction|discriminate].
  - intros Sc. eapply run_kernel_none; eauto.
    destruct (cancel_cases _ _ _ _ C) as [(-> & _ & [E|E])|(_ & _ & _ & _ & _ & _ & _ & E & _)]; try congruence.
    rewrite E, Sc. reflexivity.
Qed.
Print Assumptions C38_cancel.

(** Full statement: timestamp processing is disabled exactly from the start of the guard
    interval before a leap second to the end of the one after it, in every instance, and so
    is always re-enabled afterwards; the system clock has no leap second pending outside.
    Proved when no call fails; see the refutations below. *)
Theorem C38_window_partial : forall ctl n ops l out,
  lrun ctl (linit n) ops = Some (l, out) -> Forall op_works ops ->
  (around (l_phase l) -> l_proc l = repeat false n /\ l_flag l = repeat true n) /\
  (~ around (l_phase l) -> l_proc l = repeat true n /\ l_flag l = repeat false n) /\
  (l_phase l = Idle \/ l_phase l = Test -> l_kernel l = None).
Proof.
  intros ctl n ops l out R W. pose proof (run_good _ _ _ W _ _ _ (init_good ctl n) R) as G.
  unfold good, around in *. destruct (l_phase l).
  all: split; [|split]; intros H; try (intuition discriminate); try tauto.
  all: exfalso; tauto.
Qed.
Print Assumptions C38_window_partial.

(** When nothing fails a scheduled leap second runs its course: once the timer has been
    served 2 s before, at and 10 s after the leap second, the instances have gone through
    the guard intervals, everything is back to normal, and if clocks are always allowed to
    be stepped, or never, then all of them take the leap second or none does: the system
    clock (told in advance) and the others (stepped). *)
Theorem C38_course_partial : forall ctl n ops l out0 now1 now2 now3 v1 v2 v3,
  lrun ctl (linit n) ops = Some (l, out0) -> Forall op_works ops -> l_phase l = Scheduled ->
  works v1 -> works v2 -> works v3 ->
  (l_time l - 2) * 1000000000 <= now1 -> l_time l * 1000000000 <= now2 ->
  (l_time l + 10) * 1000000000 <= now3 ->
  exists t l1 l2 l3 out2 out3,
    l_type l = Some t /\
    lstep ctl l (Timer now1 v1) = Some (l1, []) /\ l_phase l1 = ActivePre /\
    lstep ctl l1 (Timer now2 v2) = Some (l2, out2) /\ l_phase l2 = ActivePost /\
    lstep ctl l2 (Timer now3 v3) = Some (l3, out3) /\ l_phase l3 = Idle /\
    l_proc l3 = repeat true n /\ l_flag l3 = repeat false n /\ l_kernel l3 = None /\
    (ctl <> STEP_FORWARD ->
       (l_kernel l = Some t <-> In (StepNow t) out2) /\ (l_kernel l = Some t <-> ctl = SLEW_AND_STEP)).
Proof.
  intros ctl n ops l out0 now1 now2 now3 v1 v2 v3 R W P W1 W2 W3 H1 H2 H3.
  pose proof (run_good _ _ _ W _ _ _ (init_good ctl n) R) as G.
  destruct (whole _ _ _ _ _ _ _ _ _ G P W1 W2 W3 H1 H2 H3)
    as (t & l1 & l2 & l3 & out & Ty & K & S1 & P1 & S2 & P2 & S3 & P3 & G3).
  exists t, l1, l2, l3, ((if stepped ctl t then [StepNow t] else []) ++ [Tell None]), out.
  split; [exact Ty|]. split; [exact S1|]. split; [exact P1|]. split; [exact S2|]. split; [exact P2|].
  split; [exact S3|]. split; [exact P3|]. unfold good in G3. rewrite P3 in G3.
  destruct G3 as (_ & K3 & Pr & Fl). split; [exact Pr|]. split; [exact Fl|]. split; [exact K3|].
  intros N. rewrite K. unfold sched, stepped. destruct ctl; try contradiction; cbn;
    (split; split; intros E; try discriminate; auto; exfalso; intuition discriminate).
Qed.
Print Assumptions C38_course_partial.

(** Slave clocks are not disciplined in the guard intervals, and are otherwise. *)
Theorem C38_servos : forall ctl l l2 out, lstep ctl l Sync = Some (l2, out) ->
  l2 = l /\ (around (l_phase l) -> out = []) /\ (~ around (l_phase l) -> out = [Servos]).
Proof.
  intros ctl l l2 out H. cbn in H. injection H as <- <-. unfold around.
  destruct (l_phase l); split; auto; split; intros H; try reflexivity; exfalso; intuition discriminate.
Qed.
Print Assumptions C38_servos.

Definition fine (now : option Z) : lenv := mkLenv now true (fun _ => true) (fun _ => true).
Definition no_timer : lenv := mkLenv None false (fun _ => true) (fun _ => true).
(** 2026-11-16 12:00:00 UTC, the following midnight, and the guard interval asked for. *)
Definition noon : Z := 1794830400.
Definition mid : Z := 1794873600.
Definition ns (s : Z) : Z := s * 1000000000.

(** A leap second that runs its course, with slewing and stepping allowed. *)
Example C38_ex :
  match lrun SLEW_AND_STEP (linit 2)
    [Schedule Leap61 12 (fine (Some noon)); Timer (ns (mid - 10)) (fine None); Sync; Cancel (fine None);
     Timer (ns mid) (fine None); Timer (ns (mid + 10)) (fine None); Sync] with
  | Some (l, out) => out = [Kernel (Some Leap61); Tell (Some Leap61); StepNow Leap61; Tell None; Kernel None; Tell None; Servos]
      /\ l_proc l = [true; true] /\ l_phase l = Idle /\ l_time l = mid
  | None => False
  end.
Proof. vm_compute. auto. Qed.
Example C38_cancel_ex :
  match lrun SLEW_AND_STEP (linit 2)
    [Schedule Leap59 3 (fine (Some noon)); Cancel (fine None); Timer (ns (mid + 1)) (fine None)] with
  | Some (l, out) => out = [Kernel (Some Leap59); Tell (Some Leap59); Kernel None; Tell None] /\ l_kernel l = None
  | None => False
  end.
Proof. vm_compute. auto. Qed.

(** Refuted: if arming the timer fails at the leap second, timestamp processing stays disabled
    in every instance and the guard flag stays set, whatever is then cancelled, waited for or
    synchronised. *)
Theorem C38_always_reenabled_refuted : exists ops,
  forall later, Forall passive later ->
  exists l out, lrun SLEW_AND_STEP (linit 2) (ops ++ later) = Some (l, out) /\
    l_phase l = Idle /\ l_proc l = [false; false] /\ l_flag l = [true; true].
Proof.
  exists [Schedule Leap61 10 (fine (Some noon)); Timer (ns (mid - 10)) (fine None); Timer (ns mid) no_timer].
  intros later HL. rewrite lrun_app.
  destruct (lrun SLEW_AND_STEP (linit 2) _) as [[l o]|] eqn:E; [|vm_compute in E; discriminate].
  assert (HE : l_phase l = Idle /\ l_timer l = None /\ l_proc l = [false; false] /\ l_flag l = [true; true]).
  { vm_compute in E. injection E as <- <-. vm_compute. auto. }
  destruct HE as (P & T & A & B). destruct (passive_stuck SLEW_AND_STEP _ HL l P T) as [o2 ->].
  exists l, (o ++ o2). auto.
Qed.
Print Assumptions C38_always_reenabled_refuted.

(** Refuted: an instance the control message does not reach at the end of the guard interval
    keeps its timestamp processing disabled. *)
Theorem C38_lost_message_refuted : exists ops,
  forall later, Forall passive later ->
  exists l out, lrun SLEW_AND_STEP (linit 2) (ops ++ later) = Some (l, out) /\
    l_phase l = Idle /\ l_proc l = [true; false].
Proof.
  exists [Schedule Leap61 10 (fine (Some noon)); Timer (ns (mid - 10)) (fine None); Timer (ns mid) (fine None);
          Timer (ns (mid + 10)) (mkLenv None true (fun _ => true) (fun i => (i =? 0)%nat))].
  intros later HL. rewrite lrun_app.
  destruct (lrun SLEW_AND_STEP (linit 2) _) as [[l o]|] eqn:E; [|vm_compute in E; discriminate].
  assert (HE : l_phase l = Idle /\ l_timer l = None /\ l_proc l = [true; false]).
  { vm_compute in E. injection E as <- <-. vm_compute. auto. }
  destruct HE as (P & T & A). destruct (passive_stuck SLEW_AND_STEP _ HL l P T) as [o2 ->].
  exists l, (o ++ o2). auto.
Qed.
Print Assumptions C38_lost_message_refuted.

(** Refuted: if arming the timer fails at the start of the guard interval the leap second is
    abandoned, yet the system clock will still insert a second at midnight and cancelling
    does not stop it. *)
Theorem C38_abandoned_refuted : exists ops,
  forall later, Forall passive later ->
  exists l out, lrun SLEW_AND_STEP (linit 2) (ops ++ later) = Some (l, out) /\
    l_phase l = Idle /\ l_kernel l = Some Leap61.
Proof.
  exists [Schedule Leap61 10 (fine (Some noon)); Timer (ns (mid - 10)) no_timer].
  intros later HL. rewrite lrun_app.
  destruct (lrun SLEW_AND_STEP (linit 2) _) as [[l o]|] eqn:E; [|vm_compute in E; discriminate].
  assert (HE : l_phase l = Idle /\ l_timer l = None /\ l_kernel l = Some Leap61).
  { vm_compute in E. injection E as <- <-. vm_compute. auto. }
  destruct HE as (P & T & A). destruct (passive_stuck SLEW_AND_STEP _ HL l P T) as [o2 ->].
  exists l, (o ++ o2). auto.
Qed.
Print Assumptions C38_abandoned_refuted.

(** Refuted: when clocks may only be stepped forward, an inserted second is applied to the
    system clock but to no other clock, and a deleted second to every clock but the system
    clock, so that they end up one second apart. *)
Theorem C38_all_or_none_refuted : forall t, exists ops,
  match lrun STEP_FORWARD (linit 1) ops with
  | Some (l, out) => In (Tell (Some t)) out /\ l_phase l = Idle /\
      (In (Kernel (Some t)) out <-> t = Leap61) /\ (In (StepNow t) out <-> t = Leap59)
  | None => False
  end.
Proof.
  intros t. exists [Schedule t 10 (fine (Some noon)); Timer (ns (mid - 10)) (fine None); Timer (ns mid) (fine None);
          Timer (ns (mid + 10)) (fine None)].
  destruct t; vm_compute; intuition discriminate.
Qed.
Print Assumptions C38_all_or_none_refuted.

(** Refuted: the test request that should cancel a locally scheduled leap second aborts the
    daemon by a failing assertion, in every state. *)
Theorem C38_local_cancel_refuted : forall ctl l, lstep ctl l TestLocalCancel = None.
Proof. reflexivity. Qed.
Print Assumptions C38_local_cancel_refuted.

(** The other requests never abort the daemon (a guard interval being positive). *)
Theorem C38_no_abort : forall ctl l o, o <> TestLocalCancel ->
  (forall t g v, o = Schedule t g v -> (0 < g)%Q) -> lstep ctl l o <> None.
Proof.
  intros ctl l o N G. destruct o as [t g v|v|t v| |now v|]; cbn [lstep]; try discriminate; try congruence.
  - unfold on_schedule. destruct (Qlt_le_dec 0 g) as [_|H].
    2: exfalso; apply (Qlt_not_le _ _ (G _ _ _ eq_refl) H).
    destruct (l_phase l); try discriminate.
    1: destruct (gettime v); [destruct (timer_ok v)|]; discriminate.
    all: destruct (on_cancel l v); destruct (gettime v); [destruct (timer_ok v)|]; discriminate.
  - destruct (l_timer l) as [d|]; [destruct (d <=? now)|]; discriminate.
Qed.
Print Assumptions C38_no_abort.
