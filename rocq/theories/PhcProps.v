(** C73: the comparison of a hardware clock with the system clock. *)
Require Import ZArith QArith List Bool String Lia.
From Verif Require Import Base TimeSpec TimeModel FltModel PhcSpec PhcModel PhcProof PhcProof2 PhcProof3 PhcProof4.
Import ListNotations.
Open Scope string_scope.
Open Scope list_scope.
Open Scope Z_scope.

(** The bracketed readings a method takes, and how it can fail to take them. *)
Definition took (e : env) (m : method) (l : list tri) : Prop :=
  List.length l = 4%nat /\
  match m with
  | READ => forall j x, nth_error l j = Some x -> e_read e j = inr x
  | EXT => exists f, e_ext e = inr f /\ forall j x, nth_error l j = Some x -> x = f j
  | SYS => exists f, e_sys e = inr f /\ forall j x, nth_error l j = Some x ->
             x = mkTri (f (2 * j)%nat) (f (2 * j + 1)%nat) (f (2 * j + 2)%nat)
  | _ => False
  end.
Definition failed (e : env) (m : method) (rc : Z) : Prop :=
  match m with
  | READ => exists j, (j < 4)%nat /\ e_read e j = inl rc
  | EXT => e_ext e = inl rc
  | SYS => e_sys e = inl rc
  | _ => False
  end.

(** A comparison by readings returns the error of the failing call, or the offset of the
    hardware clock from the middle of the tightest of four brackets, or EAGAIN if no bracket has
    positive width. *)
Theorem C73_readings : forall rd order es f p d, double_like rd -> world_ok (es f) ->
  p_state p <> NOT_READY -> In (p_meth p) [READ; EXT; SYS] ->
  exists rc d' p', compare rd order es (S f) p d = Some (rc, d', p') /\ p_meth p' = p_meth p /\
  (failed (es f) (p_meth p) rc \/
   exists l, took (es f) (p_meth p) l /\ measured l d rc d' /\ (rc = 0 -> p_diff p' = d')).
Proof.
  intros rd order es f p d D (W1 & W2 & W3 & W4 & W5 & W6 & W7 & W8) Ns Hm. rewrite compare_S.
  assert (Sc : second_chance order (e_now (es f)) p = Some p) by (unfold second_chance; destruct (p_state p); try reflexivity; contradiction).
  rewrite Sc. cbn [bind].
  assert (Nm : forall g j x, nth_error (map g (seq 0 4)) j = Some x -> x = (g j : tri)).
  { intros g [|[|[|[|[|j]]]]] x; cbn; try congruence. }
  destruct (p_meth p) eqn:Em; cbn in Hm; try (exfalso; intuition discriminate); unfold by_method; rewrite Em.
  - unfold extended_n. destruct (e_ext (es f)) as [er|g] eqn:Ee.
    + exists er, d, p. split; [reflexivity|]. split; [exact Em|]. left. exact Ee.
    + destruct (kernel_n_spec rd g SAMPLES p d D) as (rc & d' & E & M); [intros j _; eapply W6; reflexivity|].
      rewrite E. exists rc, d'. eexists. split; [reflexivity|]. split; [destruct (rc =? 0); exact Em|]. right.
      exists (map g (seq 0 4)). split; [|split; [exact M|intros ->; reflexivity]].
      split; [reflexivity|]. exists g. split; [exact Ee|]. apply Nm.
  - unfold sys_offset_n. destruct (e_sys (es f)) as [er|g] eqn:Ee.
    + exists er, d, p. split; [reflexivity|]. split; [exact Em|]. left. exact Ee.
    + destruct (kernel_n_spec rd (overlapping g) SAMPLES p d D) as (rc & d' & E & M); [intros j _; apply W7; reflexivity|].
      rewrite E. exists rc, d'. eexists. split; [reflexivity|]. split; [destruct (rc =? 0); exact Em|]. right.
      exists (map (overlapping g) (seq 0 4)). split; [|split; [exact M|intros ->; reflexivity]].
      split; [reflexivity|]. exists g. split; [exact Ee|]. apply (Nm (overlapping g)).
  - destruct (read_time_spec rd (e_read (es f)) SAMPLES p d D) as [(j & er & d' & A & B & _ & E)|(g & rc & d' & A & E & B)].
    + intros j x _. apply W4.
    + rewrite E. exists er, d', p. split; [reflexivity|]. split; [exact Em|]. left. exists j. auto.
    + rewrite E. exists rc, d'. eexists. split; [reflexivity|]. split; [destruct (rc =? 0); exact Em|]. right.
      exists (map g (seq 0 4)). split; [|split; [exact B|intros ->; reflexivity]].
      split; [reflexivity|]. intros j x Hj. rewrite (Nm _ _ _ Hj). apply A.
      assert (L : (j < List.length (map g (seq 0 4)))%nat) by (apply nth_error_Some; congruence). exact L.
Qed.
Print Assumptions C73_readings.

(** The world of the examples: the system clock at 100 s, the hardware clock 0.5 s ahead, the
    tightest bracket 2000 ns wide; an event of the PPS output half a second into a system second. *)
Definition at_ns (s n : Z) : ts := mkTs s n 0.
Definition wide (w : Z) : tri := mkTri (at_ns 100 0) (at_ns 100 500000000) (at_ns 100 w).
Definition no_pps : pps_env := mkPpsEnv None None (inr []) (fun _ => -2) 0.
Definition some_pps : pps_env :=
  mkPpsEnv None None (inr [mkEntry "pps0" (Some (Some "ptp1")); mkEntry "pps1" (Some (Some "ptp0"))])
    (fun _ => 7) 0.
Definition ex_env (fetch : Z + Z * Z) (mono : ts) : env :=
  mkEnv mono mono fetch
    (fun i => inr (wide match i with O => 9000 | S O => 2000 | S (S O) => 2000 | _ => 0 end))
    (inl 95) (inl 95) (inl 95) (inl 95) 95 95 95 some_pps "ptp0".

Lemma ex_world fetch mono : clock_time mono -> (forall s n, fetch = inr (s, n) -> 0 <= n < 1000000000) ->
  world_ok (ex_env fetch mono).
Proof.
  intros C F. split; [exact C|]. split; [exact C|]. split; [exact F|]. split.
  - intros i x E. injection E as <-. unfold reading, clock_time, wide, at_ns; cbn [t_before t_dev t_after sec nsec frac].
    destruct i as [|[|[|i]]]; lia.
  - split; [discriminate|]. split; [discriminate|]. split; [discriminate|].
    intros en t H E. cbn in H. destruct H as [<-|[<-|[]]]; injection E as <-; cbn; lia.
Qed.

Definition read_phc : phc := set_meth (phc_new false false false) READ.
Example C73_readings_ex :
  world_ok (ex_env (inl 1) (at_ns 5 0)) /\ p_state read_phc <> NOT_READY /\ In (p_meth read_phc) [READ; EXT; SYS] /\
  option_map fst (compare rd_double default_methods (fun _ => ex_env (inl 1) (at_ns 5 0)) 1 read_phc null_time)
    = Some (0, at_ns 0 499999000).
Proof.
  split; [apply ex_world; [unfold clock_time; cbn; lia|discriminate]|]. split; [discriminate|].
  split; [left; reflexivity|]. vm_compute. reflexivity.
Qed.

(** What doubles satisfy: the conversion leaves a multiple of 2^-31 alone. *)
Example C73_double_ex : (rd_double (inject_Z 12345678901 / inject_Z (2^31)) == inject_Z 12345678901 / inject_Z (2^31))%Q.
Proof. vm_compute. reflexivity. Qed.

(** Accuracy: whenever a comparison by readings succeeds, there is one of the readings such that,
    if the system clock showed a time inside that bracket when the hardware clock was read, the
    result is wrong by at most half the width of the bracket; and no bracket of positive width
    was tighter. *)
Theorem C73_accuracy : forall rd order es f p d d' p', double_like rd -> world_ok (es f) ->
  p_state p <> NOT_READY -> In (p_meth p) [READ; EXT; SYS] -> ~ failed (es f) (p_meth p) 0 ->
  compare rd order es (S f) p d = Some (0, d', p') ->
  exists l x, took (es f) (p_meth p) l /\ In x l /\ 0 < width x /\
  (forall y, In y l -> 0 < width y -> width x <= width y) /\
  forall s, instant (t_before x) <= s <= instant (t_after x) ->
    2 * Z.abs (instant d' - (instant (t_dev x) - s)) <= width x.
Proof.
  intros rd order es f p d d' p' D W Ns Hm Nf E.
  destruct (C73_readings rd order es f p d D W Ns Hm) as (rc & d1 & p1 & E1 & _ & C). rewrite E in E1. injection E1 as <- <- <-.
  destruct C as [C|(l & T & [(X & _)|(_ & _ & i & x & Tx & Ex)] & _)]; [contradiction|discriminate|].
  destruct Tx as (T1 & T2 & T3 & _). exists l, x. split; [exact T|]. split; [eapply nth_error_In; exact T1|]. split; [exact T2|].
  split. { intros y Hy Py. apply In_nth_error in Hy as [j Hj]. eauto. }
  intros s Hs. apply middle_accuracy; assumption.
Qed.
Print Assumptions C73_accuracy.
Example C73_accuracy_ex : ~ failed (ex_env (inl 1) (at_ns 5 0)) READ 0.
Proof. intros (j & _ & E). discriminate. Qed.

(** The precise method: the exact difference of the two times the kernel took together. *)
Theorem C73_precise : forall rd order es f p d dev sys, world_ok (es f) ->
  p_state p <> NOT_READY -> p_meth p = PRECISE -> e_precise (es f) = inr (dev, sys) ->
  exists d' p', compare rd order es (S f) p d = Some (0, d', p') /\ normal d' /\
    instant d' = instant dev - instant sys /\ p_diff p' = d'.
Proof.
  intros rd order es f p d dev sys (W1 & W2 & W3 & W4 & W5 & W6 & W7 & W8) Ns Em Ep. rewrite compare_S.
  assert (Sc : second_chance order (e_now (es f)) p = Some p) by (unfold second_chance; destruct (p_state p); try reflexivity; contradiction).
  rewrite Sc. cbn [bind]. rewrite Em. unfold by_method. rewrite Em, Ep. destruct (W5 _ _ Ep) as [A B].
  destruct (sub_times _ _ A B) as (c & E & N & I). unfold precise. rewrite E. cbn [bind]. eauto 8.
Qed.
Print Assumptions C73_precise.
Example C73_precise_ex :
  option_map fst (compare rd_double default_methods
    (fun _ => mkEnv (at_ns 5 0) (at_ns 5 0) (inl 1) (fun _ => inl 1) (inr (at_ns 200 250, at_ns 100 500)) (inl 1) (inl 1) (inl 1)
                0 0 0 no_pps "ptp0") 1 (phc_new true false false) null_time) = Some (0, at_ns 99 999999750).
Proof. vm_compute. reflexivity. Qed.

(** PPS.  Full statement: when the PPS output reported a new event at [ns] nanoseconds into a
    second of the system clock, the comparison returns the difference at that event exactly,
    whatever the accuracy of the readings that determine the whole seconds.
    Proved: it does if the difference is further from a half second than the error of the
    readings.  [k * s_unit - ns * ns_unit] is the difference: the hardware clock was at a whole
    second.  Missing: near half a second (see [C73_pps_half_refuted]). *)
Theorem C73_pps_partial : forall rd order l es f p d ev d' p', double_like rd -> is_order order l -> world_ok (es f) ->
  inv l p -> p_meth p = MPPS -> p_state p <> NOT_READY -> (forall j, e_read (es f) j <> inl 0) ->
  too_soon (e_mono (es f)) (p_mono p) = false -> e_fetch (es f) = inr ev -> ev <> p_prev p ->
  compare rd order es (S f) p d = Some (0, d', p') ->
  p_diff p' = d' /\ p_prev p' = ev /\ p_stepped p' = false /\
  exists l approx, took (es f) READ l /\ measured l null_time 0 approx /\
  forall k M, let D := k * s_unit - snd ev * ns_unit in
    2 * (Z.abs (D - M * s_unit) + Z.abs (instant approx - D)) < s_unit -> instant d' = D.
Proof.
  intros rd order l es f p d [es0 ns] d' p' D O W V M Ns Ne0 Ts Ef Nv E. rewrite compare_S in E.
  assert (Sc : second_chance order (e_now (es f)) p = Some p) by (unfold second_chance; destruct (p_state p); try reflexivity; contradiction).
  rewrite Sc in E. cbn [bind] in E. rewrite M in E.
  assert (Nm : forall g j x, nth_error (map g (seq 0 4)) j = Some x -> x = (g j : tri)).
  { intros g [|[|[|[|[|j]]]]] x; cbn; try congruence. }
  destruct (compare_pps_spec rd order l (compare rd order es f) (es f) p d D O W V M)
    as [(X & _)|(_ & [(er & X & _)|[(X & Y & _)|[(X & _)|(ev & X & _ & H)]]])]; try congruence.
  rewrite Ef in X. injection X as <-. cbv zeta in H. destruct H as [(er & Z1 & Z2)|[(g & a & G1 & G2 & G3)|(j & a & _ & J & _)]].
  - rewrite E in Z2. injection Z2 as Z2 _ _. congruence.
  - rewrite E in G3. injection G3 as -> ->. split; [reflexivity|]. split; [reflexivity|]. split; [reflexivity|].
    exists (map g (seq 0 4)), a. split.
    { split; [reflexivity|]. intros j x Hj. rewrite (Nm _ _ _ Hj). apply G1.
      assert (L : (j < List.length (map g (seq 0 4)))%nat) by (apply nth_error_Some; congruence). exact L. }
    split; [exact G2|]. intros k N. cbv zeta. apply pps_exact.
    + destruct G2 as [(G2 & _)|(_ & G2 & _)]; [discriminate|exact G2].
    + cbn [snd]. pose proof W as (_ & _ & W3 & _). eapply W3. exact Ef.
  - exfalso. apply (Ne0 j J).
Qed.
Print Assumptions C73_pps_partial.

Definition pps_phc : phc :=
  mkPhc MPPS 2 7 (99, 0) (at_ns 3 0) null_time false GOOD false false true.
Lemma default_order : is_order default_methods [PRECISE; EFX; MPPS; EXT; SYS; READ].
Proof.
  split; [repeat constructor; cbn; intuition discriminate|]. split; [cbn; intuition discriminate|].
  exists []. split; [reflexivity|]. split; [intros []|reflexivity].
Qed.
Lemma pps_phc_inv : inv [PRECISE; EFX; MPPS; EXT; SYS; READ] pps_phc.
Proof.
  split; [unfold clock_time; cbn; lia|]. intros _. exists [PRECISE; EFX], [EXT; SYS; READ].
  split; [reflexivity|]. split; [cbn; intuition discriminate|]. reflexivity.
Qed.
(** The hardware clock is 99.5 s behind: its seconds start 0.499999700 s into system seconds. *)
Example C73_pps_ex : let e := ex_env (inr (100, 499999700)) (at_ns 5 0) in
  world_ok e /\ too_soon (e_mono e) (p_mono pps_phc) = false /\
  option_map fst (compare rd_double default_methods (fun _ => e) 1 pps_phc null_time) = Some (0, at_ns (-1) 500000300).
Proof.
  cbv zeta. split.
  { apply ex_world; [unfold clock_time; cbn; lia|]. intros s n E. injection E as <- <-. lia. }
  split; vm_compute; reflexivity.
Qed.

(** Refuted: the clocks differ by exactly half a second at the event and at every reading, every
    bracket contains the time at which the hardware clock was read, the widths are 9000 ns and
    less, and the comparison, reporting success, is wrong by a whole second. *)
Theorem C73_pps_half_refuted : exists e p',
  world_ok e /\ e_fetch e = inr (99, 500000000) /\
  (forall i, exists x, e_read e i = inr x /\ instant (t_dev x) - instant (t_before x) = s_unit / 2 /\ 0 <= width x <= 9000 * ns_unit) /\
  compare rd_double default_methods (fun _ => e) 1 pps_phc null_time = Some (0, at_ns (-1) 500000000, p') /\
  instant (at_ns (-1) 500000000) = s_unit / 2 - s_unit.
Proof.
  exists (ex_env (inr (99, 500000000)) (at_ns 5 0)). eexists.
  split. { apply ex_world; [unfold clock_time; cbn; lia|]. intros s n E. injection E as <- <-. lia. }
  split; [reflexivity|]. split.
  { intros i. eexists. split; [reflexivity|]. split; [reflexivity|].
    unfold width, wide, at_ns, instant, ns_unit; cbn [t_before t_after sec nsec frac]. destruct i as [|[|[|i]]]; lia. }
  split; [vm_compute; reflexivity|reflexivity].
Qed.
Print Assumptions C73_pps_half_refuted.

(** Refuted as well: an event at the very start of a system second gives a difference whose
    nanoseconds are 1000000000, which is not a well-formed timestamp. *)
Theorem C73_pps_normal_refuted : exists e d' p', world_ok e /\
  compare rd_double default_methods (fun _ => e) 1 pps_phc null_time = Some (0, d', p') /\
  nsec d' = 1000000000 /\ ~ normal d'.
Proof.
  exists (ex_env (inr (100, 0)) (at_ns 5 0)). eexists. eexists.
  split. { apply ex_world; [unfold clock_time; cbn; lia|]. intros s n E. injection E as <- <-. lia. }
  split; [vm_compute; reflexivity|]. split; [reflexivity|]. intros (_ & X & _). cbn in X. lia.
Qed.
Print Assumptions C73_pps_normal_refuted.

(** A step of a clock: from then on the PPS method reports success only with an event other than
    the last one, which was fetched after the step. *)
Theorem C73_step : forall rd order l es f p d d' p', double_like rd -> is_order order l -> (forall n, world_ok (es n)) ->
  inv l p -> p_meth p = MPPS -> p_state p <> NOT_READY -> (forall j, e_read (es f) j <> inl 0) -> e_fetch (es f) <> inl 0 ->
  compare rd order es (S f) (record_step p) d = Some (0, d', p') ->
  (exists ev, e_fetch (es f) = inr ev /\ ev <> p_prev p /\ p_prev p' = ev /\ p_diff p' = d' /\ p_stepped p' = false) \/
  (e_fetch (es f) = inr (0, 0) /\ p_prev p = (0, 0)).
Proof.
  intros rd order l es f p d d' p' D O W V M Ns Ne0 Nf E. rewrite compare_S in E.
  assert (Sc : second_chance order (e_now (es f)) (record_step p) = Some (record_step p)) by (unfold second_chance; cbn; destruct (p_state p); try reflexivity; contradiction).
  rewrite Sc in E. cbn [bind] in E. change (p_meth (record_step p)) with (p_meth p) in E. rewrite M in E.
  destruct (compare_pps_spec rd order l (compare rd order es f) (es f) (record_step p) d D O (W f) V M)
    as [(_ & X)|(_ & [(er & X & Y)|[(X & Y & _)|[(_ & _ & X)|(ev & X & X' & H)]]])].
  - rewrite E in X. discriminate.
  - rewrite E in Y. injection Y as <- _ _. contradiction.
  - right. auto.
  - rewrite E in X. discriminate.
  - left. exists ev. split; [exact X|]. split; [exact X'|].
    cbv zeta in H. destruct H as [(er & Z1 & Z2)|[(g & a & G1 & G2 & G3)|(j & a & _ & J & _)]].
    + rewrite E in Z2. injection Z2 as Z2 _ _. congruence.
    + rewrite E in G3. injection G3 as -> ->. auto.
    + exfalso. apply (Ne0 j J).
Qed.
Print Assumptions C73_step.
Example C73_step_ex : let run fetch := option_map fst (compare rd_double default_methods
    (fun _ => ex_env fetch (at_ns 5 0)) 1 (record_step pps_phc) null_time) in
  run (inr (99, 0)) = Some (EAGAIN, null_time) /\ run (inr (100, 400000000)) = Some (0, at_ns (-1) 600000000).
Proof. vm_compute. auto. Qed.

(** Refuted: "a difference reported with success describes the clocks of the last few seconds".
    If the PPS output stops, the old difference is reported with success for ever, whatever the
    clocks and the readings say. *)
Theorem C73_frozen_refuted : forall rd order es f p d, p_meth p = MPPS -> p_state p = GOOD -> p_stepped p = false ->
  p_prev p <> (0, 0) -> e_fetch (es f) = inr (p_prev p) ->
  compare rd order es (S f) p d = Some (0, p_diff p, p).
Proof.
  intros rd order es f p d M G St Np Ef. rewrite compare_S. unfold second_chance. rewrite G. cbn [bind]. rewrite M.
  unfold compare_pps. rewrite St. destruct (too_soon (e_mono (es f)) (p_mono p)); [reflexivity|]. rewrite Ef.
  rewrite (proj2 (same_event_spec _ _) eq_refl). destruct (no_event (p_prev p)) eqn:Ne; [|reflexivity].
  apply no_event_spec in Ne. contradiction.
Qed.
Print Assumptions C73_frozen_refuted.
Example C73_frozen_ex :
  compare rd_double default_methods (fun _ => ex_env (inr (99, 0)) (at_ns 86403 0)) 1 pps_phc null_time
    = Some (0, p_diff pps_phc, pps_phc).
Proof. vm_compute. reflexivity. Qed.

(** Configuration: a list is accepted exactly if it lists methods by name, each at most once; it
    then becomes the order in which methods are tried. *)
Theorem C73_config : forall arr params, List.length arr = 7%nat ->
  ((exists o, parse_diff_methods arr params = inr o) <->
   (exists ms, params = map method_text ms /\ NoDup ms /\ ~ In MMAX ms)) /\
  (forall o, parse_diff_methods arr params = inr o ->
   exists ms order, params = map method_text ms /\ set_diff_methods methods0 o 7 = Some (0, order) /\ is_order order ms).
Proof.
  intros arr params La. destruct (parse_diff_spec arr params La) as [A B]. split; [exact A|].
  intros o E. destruct (B o E) as (ms & B1 & B2 & B3 & -> & _).
  destruct (installed ms (skipn (S (List.length ms)) arr) B2 B3) as (order & C1 & C2). eauto 8.
Qed.
Print Assumptions C73_config.
Example C73_config_ex :
  parse_diff_methods default_methods ["pps"; "read-time"]%string = inr [MPPS; READ; MMAX; EXT; SYS; READ; MMAX] /\
  set_diff_methods methods0 [MPPS; READ; MMAX; EXT; SYS; READ; MMAX] 7 = Some (0, [MPPS; READ; MMAX; PRECISE; PRECISE; PRECISE; PRECISE]) /\
  parse_diff_methods default_methods ["pps"; "pps"]%string = inl EINVAL /\
  parse_diff_methods default_methods ["none"]%string = inl EINVAL /\
  set_diff_methods methods0 default_methods 7 = Some (0, default_methods).
Proof. vm_compute. auto. Qed.

(** The start: the first method of the list that works is used; if none works the start fails
    and so does every comparison.  A PPS device that is opened starts with no event known.  Full statement: for every listing of the PPS devices.
    Proved: for all but the empty one (see [C73_empty_refuted]). *)
Theorem C73_start_partial : forall order l e p, is_order order l -> names_fit (w_pps e) -> errnos (w_pps e) ->
  exists rc q, start order e p = Some (rc, q) /\ (p_state p <> INIT -> p_state q = INIT -> p_prev q = (0, 0)) /\
  ((rc = 0 /\ first_of (available e (c_cross p) (c_pps p) (p_efx p)) l (p_meth q)) \/
   (rc = EOPNOTSUPP /\ p_meth q = MMAX /\ forall m, In m l -> ~ available e (c_cross p) (c_pps p) (p_efx p) m)).
Proof.
  intros order l e p O F N. destruct (start_spec order l e p O F) as (rc & q & E & _ & A & C). exists rc, q. split; [exact E|].
  split. { intros N1 N2. destruct A as [(A1 & _)|[(A1 & _)|(_ & _ & _ & A1)]]; [congruence|congruence|exact A1]. }
  pose proof (fun m => usable_available e (c_cross p) (c_pps p) (p_efx p) m F N) as U.
  destruct C as [(C1 & C2 & _)|(C1 & C2 & C3)]; [left|right].
  - split; [exact C1|]. eapply first_of_ext; [exact U|exact C2].
  - split; [exact C1|]. split; [exact C2|]. intros m Hm X. apply (C3 m Hm). apply U. exact X.
Qed.
Print Assumptions C73_start_partial.
Example C73_start_ex : let e := ex_env (inl 1) (at_ns 5 0) in
  names_fit (w_pps e) /\ errnos (w_pps e) /\
  option_map (fun x => (fst x, p_meth (snd x), p_fd (snd x))) (start default_methods e (phc_new false true false)) = Some (0, MPPS, 7) /\
  option_map (fun x => (fst x, p_meth (snd x))) (start default_methods e (phc_new false false true)) = Some (0, READ) /\
  option_map (fun x => (fst x, p_meth (snd x))) (start [EFX; MMAX; PRECISE; PRECISE; PRECISE; PRECISE; PRECISE] e (phc_new false false true)) = Some (EOPNOTSUPP, MMAX).
Proof.
  cbv zeta. split. { apply (ex_world (inl 1) (at_ns 5 0)); [unfold clock_time; cbn; lia|discriminate]. }
  split. { unfold errnos; cbn. repeat split; discriminate. }
  vm_compute. auto.
Qed.

(** Refuted: if no PPS device is listed, fts_children returns NULL and leaves errno 0, the PPS
    method is taken to be configured, with no device behind it, and every comparison fails. *)
Theorem C73_empty_refuted : exists e q, v_list (w_pps e) = inl 0 /\ names_fit (w_pps e) /\
  start default_methods e (phc_new false true false) = Some (0, q) /\ p_meth q = MPPS /\ p_fd q = -1 /\
  ~ available e false true false MPPS /\ available e false true false READ.
Proof.
  exists (mkEnv (at_ns 5 0) (at_ns 5 0) (inl 9) (fun _ => inl 1) (inl 1) (inl 1) (inl 1) (inl 1) 95 95 95
           (mkPpsEnv None None (inl 0) (fun _ => -2) 0) "ptp0").
  eexists. split; [reflexivity|]. split; [exact Logic.I|]. split; [vm_compute; reflexivity|]. split; [reflexivity|]. split; [reflexivity|].
  split; [|exact Logic.I]. intros (_ & _ & _ & l & l1 & en & l2 & X & _). discriminate.
Qed.
Print Assumptions C73_empty_refuted.

(** Histories: starting, comparing and steps of clocks, in any order, whatever the outside world
    returns. *)
Inductive op := OStart (e : env) | OCompare (es : nat -> env) (d : ts) | OStep.
Definition op_ok (o : op) : Prop :=
  match o with OStart e => names_fit (w_pps e) | OCompare es _ => forall n, world_ok (es n) | OStep => True end.
(** A comparison is given three levels of recursion. *)
Definition op_step (rd : Q -> Q) (order : list method) (p : phc) (o : op) : option phc :=
  match o with
  | OStart e => option_map snd (start order e p)
  | OCompare es d => option_map snd (compare rd order es 3 p d)
  | OStep => Some (record_step p)
  end.
Fixpoint run (rd : Q -> Q) (order : list method) (p : phc) (ops : list op) : option phc :=
  match ops with
  | [] => Some p
  | o :: r => do q <- op_step rd order p o; run rd order q r
  end.

Lemma run_inv rd order l ops : forall p, double_like rd -> is_order order l -> inv l p -> (forall o, In o ops -> op_ok o) ->
  exists q, run rd order p ops = Some q /\ inv l q.
Proof.
  induction ops as [|o r IH]; intros p D O V K; cbn [run]; [eauto|].
  assert (S1 : exists q, op_step rd order p o = Some q /\ inv l q).
  { specialize (K o (or_introl eq_refl)). destruct o as [e|es d|]; cbn [op_step op_ok] in *.
    - destruct (inv_start order l e p O K V) as (rc & q & E & Vq). exists q. rewrite E. split; [reflexivity|exact Vq].
    - destruct (level3 rd order l es 0 p d D O K V) as (rc & d' & q & E & Vq). exists q. rewrite E. split; [reflexivity|exact Vq].
    - eauto. }
  destruct S1 as (q & E & Vq). rewrite E. cbn [bind]. apply IH; auto. intros o' Ho. apply K. right. exact Ho.
Qed.

(** No assertion fails, no arithmetic overflows and a comparison needs no more than three
    levels of recursion, in every history and for every configured list.  Every state of a
    history meets [inv], which the theorems here assume: the time of the last event is a clock
    time, and if PPS is in use or waiting then it is in the list, before reading of time. *)
Theorem C73_defined : forall rd order l a b c ops, double_like rd -> is_order order l -> (forall o, In o ops -> op_ok o) ->
  exists p, run rd order (phc_new a b c) ops = Some p /\ inv l p /\
  forall es d, (forall n, world_ok (es n)) -> exists rc d' q, compare rd order es 3 p d = Some (rc, d', q).
Proof.
  intros rd order l a b c ops D O K. destruct (run_inv rd order l ops (phc_new a b c) D O (inv_new l a b c) K) as (p & E & V).
  exists p. split; [exact E|]. split; [exact V|]. intros es d W. destruct (level3 rd order l es 0 p d D O W V) as (rc & d' & q & E' & _). eauto.
Qed.
Print Assumptions C73_defined.
(** Three levels are reached: no event, the world stops for three seconds, no event. *)
Example C73_defined_ex :
  let es n := ex_env (inr (0, 0)) (match n with O => at_ns 10 0 | S O => at_ns 9 0 | _ => at_ns 5 0 end) in
  option_map (fun p => (p_meth p, p_state p)) (run rd_double default_methods (phc_new false true false) [OStart (es 2%nat); OCompare es null_time])
    = Some (READ, BAD).
Proof. vm_compute. reflexivity. Qed.

(** Once a method other than PPS is in use and PPS is not waiting for its second chance, the
    method never changes again, until the next start. *)
Theorem C73_settled : forall rd order l ops p q, double_like rd -> is_order order l -> inv l p ->
  p_meth p <> MPPS -> p_state p <> NOT_READY ->
  (forall o, In o ops -> op_ok o /\ forall e, o <> OStart e) ->
  run rd order p ops = Some q -> p_meth q = p_meth p.
Proof.
  intros rd order l ops. induction ops as [|o r IH]; intros p q D O V M Ns K E; cbn [run] in E; [congruence|].
  destruct (K o (or_introl eq_refl)) as [Ko Ks].
  destruct (op_step rd order p o) as [p1|] eqn:E1; [|discriminate]. cbn [bind] in E.
  assert (H : p_meth p1 = p_meth p /\ p_state p1 = p_state p /\ inv l p1).
  { destruct o as [e|es d|]; cbn [op_step op_ok] in *.
    - exfalso. apply (Ks e). reflexivity.
    - destruct (direct rd order l es 2 p d D O (Ko 2%nat) V M Ns) as (rc & d' & p2 & E2 & _ & G). rewrite E2 in E1. injection E1 as <-.
      destruct G as [->| ->]; auto.
    - injection E1 as <-. auto. }
  destruct H as (H1 & H2 & H3). rewrite <- H1. apply (IH p1 q); auto; try congruence. intros o' Ho. apply K. right. exact Ho.
Qed.
Print Assumptions C73_settled.
Example C73_settled_ex : inv [PRECISE; EFX; MPPS; EXT; SYS; READ] (set_state (set_meth pps_phc READ) BAD).
Proof. split; [unfold clock_time; cbn; lia|]. intros [X|X]; discriminate. Qed.

(** No data yet: the PPS method was configured and has not reported an event.  The comparison is
    made at once by the next method of the list that works, and PPS gets a second chance. *)
Theorem C73_no_data : forall rd order l es f p d, double_like rd -> is_order order l -> (forall n, world_ok (es n)) ->
  inv l p -> p_meth p = MPPS -> p_state p = INIT -> p_prev p = (0, 0) -> errnos (w_pps (es (S f))) ->
  too_soon (e_mono (es (S f))) (p_mono p) = false -> e_fetch (es (S f)) = inr (0, 0) ->
  instant (e_now (es f)) < instant (e_mono (es (S f))) + instant RETRY ->
  exists rc d' p', compare rd order es (S (S f)) p d = Some (rc, d', p') /\ p_state p' = NOT_READY /\
    p_mono p' = e_mono (es (S f)) /\
    exists l1 l2, l = l1 ++ MPPS :: l2 /\
    ((first_of (available (es (S f)) (c_cross p) (c_pps p) (p_efx p)) l2 (p_meth p') /\
      exists q, p_meth q = p_meth p' /\ p_efx q = p_efx p /\ by_method rd (es f) q d = Some (rc, d', p')) \/
     (rc = EOPNOTSUPP /\ p_meth p' = MMAX)).
Proof.
  intros rd order l es f p d D O W V M St Pv En Ts Ef Late. rewrite compare_S.
  assert (Sc : second_chance order (e_now (es (S f))) p = Some p) by (unfold second_chance; rewrite St; reflexivity).
  rewrite Sc. cbn [bind]. rewrite M. unfold compare_pps. rewrite Ts, Ef.
  assert (Se : same_event (0, 0) (p_prev p) = true) by (apply same_event_spec; congruence). rewrite Se. cbn [no_event fst snd Z.eqb andb].
  rewrite St. destruct V as (V1 & V2). destruct (V2 (or_introl M)) as (l1 & l2 & L1 & L2 & L3). specialize (L3 M).
  set (p1 := set_state (set_mono p (e_mono (es (S f)))) NOT_READY).
  pose proof (W (S f)) as (_ & Wm & _ & _ & _ & _ & _ & Wf).
  destruct (fallback_pps order l l1 l2 (es (S f)) p1 O Wf L1 L2 L3) as (rc & q & F1 & F2 & F3 & F4 & F5 & F6 & F7).
  rewrite F1. cbn [bind fst snd]. destruct F2 as (G1 & G2 & G3 & G4 & G5).
  destruct F7 as [(-> & F7)|(-> & F7 & _)].
  - cbn [Z.eqb negb].
    assert (Vq : inv l q). { split; [rewrite F4; exact Wm|]. intros [X|X]; [contradiction|]. exists l1, l2. split; [exact L1|]. split; [exact L2|]. intros Y; contradiction. }
    assert (E : match p_meth q with MPPS => None | _ => compare rd order es (S f) q d end = by_method rd (es f) q d).
    { transitivity (compare rd order es (S f) q d); [destruct (p_meth q); try reflexivity; contradiction|].
      rewrite compare_S. pose proof (W f) as (Wn & _).
      destruct (second_chance_spec order l (e_now (es f)) q O Vq Wn) as (q1 & S1 & _ & _ & _ & _ & _ & [(_ & X & _)|(_ & ->)]).
      - rewrite F4 in X. change (p_mono p1) with (e_mono (es (S f))) in X. lia.
      - rewrite S1. cbn [bind]. destruct (p_meth q); try reflexivity; contradiction. }
    rewrite E. destruct (by_method_defined rd (es f) q d D (W f)) as (rc & d' & q' & B & G). exists rc, d', q'.
    split; [exact B|].
    assert (Eq : p_state q' = p_state q /\ p_mono q' = p_mono q /\ p_meth q' = p_meth q) by (destruct G as [->| ->]; auto).
    destruct Eq as (E1 & E2 & E3). split; [rewrite E1, F3; reflexivity|]. split; [rewrite E2, F4; reflexivity|].
    exists l1, l2. split; [exact L1|]. left. rewrite E3. split.
    + eapply first_of_ext; [|exact F7]. intros m. apply (usable_available (es (S f)) (c_cross p) (c_pps p) (p_efx p) m Wf En).
    + exists q. split; [reflexivity|]. split; [rewrite G3; reflexivity|exact B].
  - cbn [Z.eqb EOPNOTSUPP negb]. exists EOPNOTSUPP, d, q. split; [reflexivity|]. split; [exact F3|]. split; [exact F4|].
    exists l1, l2. split; [exact L1|]. right. auto.
Qed.
Print Assumptions C73_no_data.
Example C73_no_data_ex :
  let es n := ex_env (inr (0, 0)) (at_ns 5 (Z.of_nat (9 - n))) in
  option_map (fun r => (fst r, p_meth (snd r), p_state (snd r)))
    (match start default_methods (es 2%nat) (phc_new false true false) with
     | Some (_, p) => compare rd_double default_methods es 2 p null_time | None => None end)
    = Some ((0, at_ns 0 499999000), READ, NOT_READY).
Proof. vm_compute. reflexivity. Qed.

(** The second chance: 2.2 seconds later PPS is asked again, not earlier.  If there is data now
    it is used from then on; if not, never again. *)
Theorem C73_second_chance : forall rd order l es f p d, double_like rd -> is_order order l -> (forall n, world_ok (es n)) ->
  inv l p -> p_meth p <> MPPS -> p_state p = NOT_READY -> p_prev p = (0, 0) -> (forall j, e_read (es (S f)) j <> inl 0) ->
  exists rc d' p', compare rd order es (S (S f)) p d = Some (rc, d', p') /\
  let due := instant (p_mono p) + instant RETRY <= instant (e_now (es (S f))) in
  (~ due -> by_method rd (es (S f)) p d = Some (rc, d', p') /\ p_meth p' = p_meth p /\ p_state p' = NOT_READY) /\
  (due -> too_soon (e_mono (es (S f))) (p_mono p) = false ->
   forall ev, e_fetch (es (S f)) = inr ev ->
   (ev <> (0, 0) -> p_meth p' = MPPS /\ p_state p' = GOOD) /\
   (ev = (0, 0) -> p_meth p' <> MPPS /\ p_state p' = BAD)).
Proof.
  intros rd order l es f p d D O W V M St Pv Nr. rewrite compare_S. pose proof (W (S f)) as (Wn & _).
  destruct (second_chance_spec order l (e_now (es (S f))) p O V Wn) as (p1 & S1 & V1 & Sr1 & St1 & Mo1 & Pv1 & C).
  rewrite S1. cbn [bind]. cbv zeta. destruct C as [(_ & Due & M1)|(Nd & ->)].
  - rewrite M1.
    destruct (compare_pps_spec rd order l (compare rd order es (S f)) (es (S f)) p1 d D O (W _) V1 M1)
      as [(X & E)|(_ & [(er & X & E)|[(X & Y & rc & q & _ & _ & Nm & Vq & Sq & _ & _ & Z)|[(X & Y & E)|(ev & X & Y & H)]]])].
    + rewrite E. do 3 eexists. split; [reflexivity|]. split; [contradiction|]. intros _ T. rewrite Mo1 in X. congruence.
    + rewrite E. do 3 eexists. split; [reflexivity|]. split; [contradiction|]. intros _ _ ev Ev. congruence.
    + assert (Sb : p_state q = BAD) by (rewrite Sq; unfold no_data; rewrite St1, St; reflexivity).
      destruct Z as [(_ & _ & E)|(_ & E)]; rewrite E.
      * do 3 eexists. split; [reflexivity|]. split; [contradiction|]. intros _ _ ev Ev. split; [congruence|]. auto.
      * destruct (direct rd order l es f q d D O (W f) Vq Nm) as (rc' & d' & q' & E' & _ & G); [congruence|].
        rewrite E'. do 3 eexists. split; [reflexivity|]. split; [contradiction|]. intros _ _ ev Ev. split; [congruence|].
        intros _. destruct G as [->| ->]; auto.
    + rewrite Pv1 in Y. contradiction.
    + cbv zeta in H. destruct H as [(er & _ & E)|[(g & a & _ & _ & E)|(j & a & _ & J & _)]]; [| |exfalso; apply (Nr j J)]; rewrite E;
        do 3 eexists; (split; [reflexivity|]); (split; [contradiction|]); intros _ _ ev' Ev; rewrite Pv1, Pv in Y;
        (split; [intros _; split; [exact M1|reflexivity]|congruence]).
  - destruct (by_method_defined rd (es (S f)) p d D (W _)) as (rc & d' & q & E & G). exists rc, d', q.
    split; [rewrite <- E; destruct (p_meth p); try reflexivity; contradiction|]. split.
    + intros _. split; [exact E|]. destruct G as [->| ->]; auto.
    + intros X. exfalso. apply Nd. auto.
Qed.
Print Assumptions C73_second_chance.
Definition waiting : phc := set_prev (set_state (set_meth pps_phc READ) NOT_READY) (0, 0).
Example C73_second_chance_ex :
  inv [PRECISE; EFX; MPPS; EXT; SYS; READ] waiting /\
  let res fetch t := option_map (fun r => (p_meth (snd r), p_state (snd r)))
    (compare rd_double default_methods (fun _ => ex_env fetch t) 2 waiting null_time) in
  res (inr (7, 8)) (at_ns 5 200000000) = Some (READ, NOT_READY) /\
  res (inr (7, 8)) (at_ns 5 200000001) = Some (MPPS, GOOD) /\
  res (inr (0, 0)) (at_ns 5 200000001) = Some (READ, BAD).
Proof.
  split. { split; [unfold clock_time; cbn; lia|]. intros _. exists [PRECISE; EFX], [EXT; SYS; READ].
    split; [reflexivity|]. split; [cbn; intuition discriminate|]. discriminate. }
  vm_compute. auto.
Qed.

(** The external PPS input.  Full statement: the device found is the PPS input of this clock.
    Proved: it is named after the clock, or is an "sfc" or "xlnx" device listed behind the
    device of the clock with no other such between; and the device found is the right one where
    it directly follows the device of the clock. *)
Theorem C73_ext_pps_partial : forall name ext l dev, discover name ext SEARCHING l = Some (Some dev) ->
  exists l1 en l2, l = l1 ++ en :: l2 /\ en_dev en = dev /\
  (en_name en = Some (Some ext) \/
   exists t, en_name en = Some (Some t) /\ (t = "sfc" \/ t = "xlnx")%string /\
     exists r1 a r2, l1 = r1 ++ a :: r2 /\ en_name a = Some (Some name) /\
       forall x, In x r2 -> exists t, en_name x = Some (Some t) /\ t <> "sfc"%string /\ t <> "xlnx"%string).
Proof.
  intros name ext l dev H. destruct (discover_sound name ext l [] SEARCHING dev Logic.I H) as (l1 & en & l2 & A & B & C).
  exists l1, en, l2. split; [exact A|]. split; [exact B|]. destruct C as [C|(t & C1 & C2 & r1 & a & r2 & C3 & C4 & C5)]; [left; exact C|right].
  exists t. split; [exact C1|]. split; [exact C2|]. exists r1, a, r2. split; [exact C3|]. split; [exact C4|].
  intros x Hx. destruct (C5 x Hx) as (u & U1 & U2). exists u. unfold external in U2. split; [exact U1|]. tauto.
Qed.
Print Assumptions C73_ext_pps_partial.
Theorem C73_ext_pps_adjacent : forall name ext l1 a b l2 t,
  (forall x s, In x (l1 ++ [a; b]) -> en_name x = Some (Some s) -> (String.length s < 16)%nat) ->
  (forall x, In x l1 -> en_name x <> Some (Some name) /\ en_name x <> Some (Some ext)) ->
  en_name a = Some (Some name) -> name <> ext -> en_name b = Some (Some t) -> (t = "sfc" \/ t = "xlnx")%string ->
  discover name ext SEARCHING (l1 ++ a :: b :: l2) = Some (Some (en_dev b)).
Proof. exact discover_adjacent. Qed.
Print Assumptions C73_ext_pps_adjacent.
Definition dev (d n : string) : entry := mkEntry d (Some (Some n)).
Example C73_ext_pps_ex :
  discover "ptp1" "ptp1.ext" SEARCHING [dev "pps0" "ptp0"; dev "pps1" "sfc"; dev "pps2" "ptp1"; dev "pps3" "sfc"] = Some (Some "pps3"%string) /\
  discover "ptp2" "ptp2.ext" SEARCHING [dev "pps0" "ptp0"; dev "pps1" "ptp2.ext"] = Some (Some "pps1"%string).
Proof. vm_compute. auto. Qed.

(** Refuted: a clock without PPS input, listed before another clock and that clock's input, is
    given that input. *)
Theorem C73_ext_pps_refuted : exists l, 
  l = [dev "pps0" "ptp0"; dev "pps1" "ptp1"; dev "pps2" "sfc"] /\
  discover "ptp1" "ptp1.ext" SEARCHING l = Some (Some "pps2"%string) /\
  discover "ptp0" "ptp0.ext" SEARCHING l = Some (Some "pps2"%string).
Proof. eexists. split; [reflexivity|]. vm_compute. auto. Qed.
Print Assumptions C73_ext_pps_refuted.

(** The way the external input is read: the first of the configured ways that works. *)
Theorem C73_pps_method : forall order n path opens m, discover_pps order n path opens = m -> m <> PPS_MAX ->
  exists l1 l2, order = l1 ++ m :: l2 /\
  let ok x := match x with DEV_PTP => 1 <= n | DEV_PPS => path <> None /\ opens = true | PPS_MAX => False end in
  ok m /\ forall x, In x l1 -> ~ ok x /\ x <> PPS_MAX.
Proof.
  intros order n path opens m E Nm. revert E. induction order as [|x r IH]; intros E; cbn [discover_pps] in E; [congruence|].
  assert (Go : (let ok x := match x with DEV_PTP => 1 <= n | DEV_PPS => path <> None /\ opens = true | PPS_MAX => False end in ~ ok x) -> x <> PPS_MAX ->
     discover_pps r n path opens = m -> exists l1 l2, x :: r = l1 ++ m :: l2 /\
     let ok x := match x with DEV_PTP => 1 <= n | DEV_PPS => path <> None /\ opens = true | PPS_MAX => False end in
     ok m /\ forall x, In x l1 -> ~ ok x /\ x <> PPS_MAX).
  { intros Nx Nx' H. destruct (IH H) as (l1 & l2 & -> & A & B). exists (x :: l1), l2. split; [reflexivity|]. split; [exact A|].
    intros y [<-|Hy]; [auto|apply B; exact Hy]. }
  destruct x.
  - destruct (Z.leb_spec 1 n).
    + subst m. exists [], r. split; [reflexivity|]. split; [assumption|intros y []].
    + apply Go; [cbn; lia|discriminate|exact E].
  - destruct path as [pa|]; [destruct opens|].
    + subst m. exists [], r. split; [reflexivity|]. split; [split; [discriminate|reflexivity]|intros y []].
    + apply Go; [cbn; intros [_ X]; discriminate|discriminate|exact E].
    + apply Go; [cbn; intros [X _]; congruence|discriminate|exact E].
  - congruence.
Qed.
Print Assumptions C73_pps_method.
Example C73_pps_method_ex :
  discover_pps [DEV_PPS; DEV_PTP] 1 (Some "pps1"%string) false = DEV_PTP /\
  discover_pps [DEV_PPS; PPS_MAX] 1 None true = PPS_MAX.
Proof. vm_compute. auto. Qed.

(** Events read through a PPS device: each fetch that gives the same event as the fetch before
    is EAGAIN, every other event is reported, once, with its time and sequence number. *)
Theorem C73_events : forall l i f, nth_error l i = Some f ->
  match f with
  | inl e => nth_error (events devpps0 l) i = Some (inl e)
  | inr k => (k = last_fetched devpps0 (firstn i l) -> nth_error (events devpps0 l) i = Some (inl EAGAIN)) /\
             (k <> last_fetched devpps0 (firstn i l) ->
              nth_error (events devpps0 l) i = Some (inr (mkTs (k_sec k) (k_nsec k) 0, k_seq k)))
  end.
Proof. intros l i f. apply events_spec. Qed.
Print Assumptions C73_events.
Example C73_events_ex :
  events devpps0 [inr (mkKinfo 5 6 1); inr (mkKinfo 5 6 1); inl 5; inr (mkKinfo 6 7 2)] =
  [inr (mkTs 5 6 0, 1); inl EAGAIN; inl 5; inr (mkTs 6 7 0, 2)].
Proof. reflexivity. Qed.
(** Events read through the clock device: those of pin 0, others are skipped. *)
Theorem C73_pin_events : forall reads r, devptp_event reads = Some r ->
  exists l1 x l2, reads = l1 ++ x :: l2 /\ (forall y, In y l1 -> exists pin t, y = inr (pin, t) /\ pin <> 0) /\
    match r with inl e => x = inl e | inr (t, q) => x = inr (0, t) /\ q = 2^32 - 1 end.
Proof. exact devptp_spec. Qed.
Print Assumptions C73_pin_events.
Example C73_pin_events_ex : devptp_event [inr (1, mkTs 1 0 0); inr (0, mkTs 2 0 0)] = Some (inr (mkTs 2 0 0, 2^32 - 1)).
Proof. reflexivity. Qed.

(** Refuted: "no event is reported before one has happened".  The kernel gives time 0 and
    sequence number 0 then, which is not what the last event is initialised to. *)
Theorem C73_no_event_refuted : events devpps0 [inr (mkKinfo 0 0 0)] = [inr (mkTs 0 0 0, 0)].
Proof. reflexivity. Qed.
Print Assumptions C73_no_event_refuted.
