(** C75: creation, start, running and end of the PTP module. *)
Require Import ZArith List Bool Arith Lia Permutation.
From Verif Require Import Base PmcSpec PmcModel PmcProof PmcProof2 PmcProof3 PmcProof4 PmcProof5 PmcProof6 PmcProof7.
Import ListNotations.
Open Scope Z_scope.

(** Three instances: two on one interface with different domains, one on another. *)
Definition inst (i d : Z) : conf := mkConf i 4 d UNDEF false 1 true true false false.
Definition three := [inst 1 0; inst 1 1; inst 2 0].
Definition fine : env :=
  mkEnv 0 0 0 0 (fun _ => 0) (fun _ => 1) (fun _ => 0) (fun _ => 0) 0 (fun _ => 0) (fun _ => false) (fun _ => 0) (fun _ => 0) (fun _ => 0) 0.
(** As [fine], but the context of the interface of the instance [i], the port of the instance [p] or the timer fails. *)
Definition faulty (i p : nat) (timer : Z) : env :=
  mkEnv 0 0 0 0 (fun _ => 0) (fun _ => 1) (fun _ => 0) (fun _ => 0) 0 (fun k => if Nat.eqb k i then 12 else 0) (fun _ => false) (fun k => if Nat.eqb k p then 12 else 0) (fun _ => 0) (fun _ => 0) timer.

(** The module comes up if and only if no two instances use the same domain on the same
    interface, everything the system is asked for works and at most one instance is on an
    interface with software timestamps. *)
Theorem C75_create : forall l e entries, l <> [] ->
  (exists evs info w, module_create l e entries = Some (0, evs, info, w)) <->
  e_table e = 0 /\ no_clash l /\ e_thread e = 0 /\ works l e.
Proof.
  intros l e entries Nl. destruct (module_spec l e entries Nl) as [Q _]. destruct (module_create l e entries) as [[[[rc evs] info] w]|].
  - destruct Q as [Q _]. rewrite <- Q. split; [intros (a & b & c & E); congruence|intros ->; eauto].
  - split; [intros (a & b & c & E); discriminate|intro H; destruct (Q H)].
Qed.
Print Assumptions C75_create.
Example C75_create_ex : exists evs w, module_create three fine 5 = Some (0, evs, [Some 2; Some 1; Some 0; None; None]%nat, w) /\
  evs = [Up 2 2 true; Port 2 1; Up 0 0 false; Port 1 2; Port 0 3]%nat.
Proof. eexists. eexists. split; vm_compute; reflexivity. Qed.

(** Two instances with the same domain on the same interface are refused, with nothing left
    behind. *)
Theorem C75_clash : forall l e entries, e_table e = 0 -> ~ no_clash l ->
  exists w, module_create l e entries = Some (EBUSY, [], [], w) /\ w_live w = [].
Proof.
  intros l e entries T N. unfold module_create. rewrite T. cbn [Z.eqb negb]. destruct (create_spec l) as (rc & w & C & D). rewrite C. cbn [bind]. destruct D as [(_ & Q & _)|(-> & _ & _ & L)]; [contradiction|].
  exists w. split; [reflexivity|exact L].
Qed.
Print Assumptions C75_clash.
Example C75_clash_ex : ~ no_clash [inst 1 0; inst 2 0; inst 1 0].
Proof. intro H. specialize (H 0%nat 2%nat _ _ eq_refl eq_refl eq_refl eq_refl eq_refl). discriminate. Qed.

(** Creation gives an instance without a profile the default one for its delay mechanism, takes
    the communication capabilities TLV from PTP version 2.0 and changes nothing else. *)
Theorem C75_defaults : forall l w, create_instances l = Some (0, w) -> forall i,
  nth_error (w_conf w) i = option_map (fun c =>
    mkConf (f_if c) (f_af c) (f_dom c)
      (match f_prof c, f_p2p c with UNDEF, true => DEFAULT_P2P | UNDEF, false => DEFAULT_E2E | p, _ => p end)
      (f_p2p c) (f_minor c) (f_tlv c && (1 <=? f_minor c)) (f_sync_mc c) (f_resp_mc c) (f_needed c)) (nth_error l i).
Proof.
  intros l w H i. destruct (create_spec l) as (rc & w1 & C & D). rewrite H in C. injection C as <- <-. destruct D as [(_ & _ & M)|(Q & _)]; [|discriminate]. destruct M as (M & _). rewrite M, nth_conf_at.
  destruct (nth_error l i) as [c|] eqn:E; [|reflexivity]. destruct (Nat.ltb_spec i (List.length l)) as [L|L]; [|apply nth_error_None in L; congruence]. cbn. f_equal. unfold defaults. f_equal.
  all: destruct (f_prof c), (f_p2p c), (Z.ltb_spec (f_minor c) 1), (Z.leb_spec 1 (f_minor c)), (f_tlv c); try reflexivity; lia.
Qed.
Print Assumptions C75_defaults.
Example C75_defaults_ex : exists w, create_instances three = Some (0, w) /\ option_map f_prof (nth_error (w_conf w) 1) = Some DEFAULT_E2E.
Proof. eexists. split; vm_compute; reflexivity. Qed.

(** Once up: the context of every interface has come up once, with the options of the first
    instance on it; every instance has exactly one port, brought up right after its own
    interface; the ports are numbered from 1 in the order in which they came up; the caller's
    buffer has as many of the instances, in that order, as fit, then empty entries; the alarm for a
    missing interface is on exactly for the instances without any physical interface. *)
Theorem C75_started : forall l e entries evs info w, l <> [] -> module_create l e entries = Some (0, evs, info, w) ->
  NoDup (ups_of evs) /\ (forall i, In i (ups_of evs) <-> first l i) /\ (forall i o m, In (Up i o m) evs -> o = i) /\
  Permutation (map fst (ports_of evs)) (seq 0 (List.length l)) /\ map snd (ports_of evs) = map Z.of_nat (seq 1 (List.length l)) /\
  (forall i j, In (i, j) (ports_on None evs) -> exists k, j = Some k /\ first l k /\ shares l k i) /\
  info = map Some (firstn entries (map fst (ports_of evs))) ++ repeat None (entries - List.length l) /\
  (forall i, In i (w_alarm w) <-> exists k, first l k /\ shares l k i /\ e_phys e k = 0).
Proof. exact started. Qed.
Print Assumptions C75_started.

(** The interfaces of the module: one for each name and transport, with exactly the instances
    that are configured for it, each once. *)
Theorem C75_interfaces : forall l e entries evs info w, l <> [] -> module_create l e entries = Some (0, evs, info, w) ->
  NoDup (map n_rep (w_intfs w)) /\ (forall i, first l i <-> exists n, In n (w_intfs w) /\ n_rep n = i) /\
  forall n, In n (w_intfs w) -> NoDup (n_insts n) /\ forall i, In i (n_insts n) <-> shares l (n_rep n) i.
Proof.
  intros l e entries evs info w Nl H. destruct (created _ _ _ _ _ _ Nl H) as (R & _ & _). pose proof (ru_shape _ _ _ R) as S. split; [rewrite (shape_reps _ _ _ S); apply nodup_firsts|]. split; [apply rep_first, S|].
  intros n Hn. destruct (shape_in _ _ _ _ S Hn) as [_ M]. rewrite M. split; [apply nodup_members|]. intro i. rewrite in_members, shares_same. split; [tauto|]. intro Q. split; [|exact Q]. apply shares_same, shares_lt in Q. tauto.
Qed.
Print Assumptions C75_interfaces.

(** An interface should join the multicast groups if and only if one of its instances takes
    multicast messages.  So it is for an interface with a single instance.  Missing: the others. *)
Theorem C75_multicast_partial : forall l e entries evs info w i o m c, l <> [] -> module_create l e entries = Some (0, evs, info, w) ->
  In (Up i o m) evs -> nth_error l i = Some c -> (forall k, shares l i k -> k = i) -> m = wants_multicast c.
Proof. intros l e entries evs info w i o m c Nl H Hi Ec. exact (proj1 (multicast_one _ _ _ _ _ _ _ _ _ _ Nl H Hi Ec)). Qed.
Print Assumptions C75_multicast_partial.
(** An interface with two instances or more never joins them, whatever the instances want. *)
Theorem C75_multicast_refuted :
  (forall l e entries evs info w i o m c, l <> [] -> module_create l e entries = Some (0, evs, info, w) ->
     In (Up i o m) evs -> nth_error l i = Some c -> (exists k, k <> i /\ shares l i k) -> f_needed c = false -> m = false) /\
  exists evs info w, module_create three fine 5 = Some (0, evs, info, w) /\ In (Up 0 0 false) evs /\ forall c, In c three -> wants_multicast c = true.
Proof.
  split.
  - intros l e entries evs info w i o m c Nl H Hi Ec K F. rewrite <- F. exact (proj2 (multicast_one _ _ _ _ _ _ _ _ _ _ Nl H Hi Ec) K).
  - do 3 eexists. split; [vm_compute; reflexivity|]. split; [right; right; left; reflexivity|]. intros c [<-|[<-|[<-|[]]]]; reflexivity.
Qed.
Print Assumptions C75_multicast_refuted.

(** A start that fails should end in an error with everything released.  So it does if contexts
    and ports can be created, except for the global context; and all is released if not even that
    could be created.  Missing: see the refutations. *)
Theorem C75_clean_partial : forall l e entries, l <> [] ->
  (forall i, first l i -> e_ctx e i = 0) -> (forall i, (i < List.length l)%nat -> e_port e i = 0) ->
  exists rc evs info w, module_create l e entries = Some (rc, evs, info, w) /\
    (rc <> 0 -> (forall o, In o (w_live w) -> o = OGlob) /\ w_intfs w = [] /\ (e_init e <> 0 -> w_live w = [])).
Proof. intros l e entries Nl. exact (proj2 (module_spec l e entries Nl)). Qed.
Print Assumptions C75_clean_partial.
Example C75_clean_ex : exists evs w, module_create three (faulty 9 9 5) 5 = Some (5, evs, [], w) /\ List.length evs = 5%nat.
Proof. eexists. eexists. split; vm_compute; reflexivity. Qed.
(** The global context is leaked if the start fails after it was created. *)
Theorem C75_leak_refuted : exists evs w, module_create three (faulty 9 9 5) 5 = Some (5, evs, [], w) /\ w_live w = [OGlob].
Proof. eexists. eexists. split; vm_compute; reflexivity. Qed.
Print Assumptions C75_leak_refuted.
(** If the context of the second interface to come up cannot be created, the first is taken down
    through a list that still has the one that was freed. *)
Theorem C75_ctx_refuted : no_clash three /\ module_create three (faulty 0 9 0) 5 = None.
Proof.
  split; [|vm_compute; reflexivity].
  intros i j c d A B C D E. destruct i as [|[|[|i]]]; [..|destruct i; discriminate]; (destruct j as [|[|[|j]]]; [..|destruct j; discriminate]); cbn in A, B; injection A as <-; injection B as <-; try reflexivity; discriminate.
Qed.
Print Assumptions C75_ctx_refuted.
(** So too if the port of an instance cannot be created. *)
Theorem C75_port_refuted : module_create three (faulty 9 0 0) 5 = None.
Proof. vm_compute. reflexivity. Qed.
Print Assumptions C75_port_refuted.

(** The end of a module that came up releases everything. *)
Theorem C75_shutdown : forall l e entries evs info w, l <> [] -> module_create l e entries = Some (0, evs, info, w) ->
  exists w', shutdown w = Some w' /\ w_live w' = [].
Proof. exact shutdown_spec. Qed.
Print Assumptions C75_shutdown.

(** Running adds to the thread every socket of every interface, and no other.  Missing: what a
    failure to add one does. *)
Theorem C75_run_partial : forall l e entries evs info w add socks, l <> [] -> module_create l e entries = Some (0, evs, info, w) ->
  (forall i fd, first l i -> fd = fst (socks i) \/ fd = snd (socks i) -> fd <> -1 -> add fd = 0) ->
  exists fds, on_run add socks w = Some fds /\
    forall fd, In fd fds <-> fd <> -1 /\ exists i, first l i /\ (fd = fst (socks i) \/ fd = snd (socks i)).
Proof.
  intros l e entries evs info w add socks Nl H A. destruct (created _ _ _ _ _ _ Nl H) as (R & _ & _). pose proof (rep_first l w (ru_shape _ _ _ R)) as F.
  destruct (run_ok add socks (w_intfs w) (ru_ok _ _ _ R)) as (fds & B1 & B2). { intros n fd Hn. apply A, F. eauto. }
  exists fds. split; [exact B1|]. intro fd. rewrite B2. split; intros (Q1 & x & Q2 & Q3); (split; [exact Q1|]).
  - exists (n_rep x). split; [apply F; eauto|exact Q3].
  - apply F in Q2 as (n & Hn & <-). exists n. auto.
Qed.
Print Assumptions C75_run_partial.
(** A failure to add any of them is a NULL dereference in the report of it. *)
Theorem C75_run_refuted : forall l e entries evs info w add socks i fd, l <> [] -> module_create l e entries = Some (0, evs, info, w) ->
  first l i -> fd = fst (socks i) \/ fd = snd (socks i) -> fd <> -1 -> add fd <> 0 -> on_run add socks w = None.
Proof.
  intros l e entries evs info w add socks i fd Nl H Fi Q1 Q2 Q3. destruct (created _ _ _ _ _ _ Nl H) as (R & _ & _). apply (rep_first l w (ru_shape _ _ _ R)) in Fi as (n & Hn & <-).
  unfold on_run. eapply run_bad; eauto. intros m Hm. apply (ru_ok _ _ _ R m Hm).
Qed.
Print Assumptions C75_run_refuted.
Example C75_run_ex : exists evs info w, module_create three fine 5 = Some (0, evs, info, w) /\
  on_run (fun _ => 0) (fun i => (Z.of_nat i + 10, if Nat.eqb i 2 then -1 else Z.of_nat i + 20)) w = Some [12; 10; 20] /\
  on_run (fun fd => if fd =? 20 then 22 else 0) (fun i => (Z.of_nat i + 10, if Nat.eqb i 2 then -1 else Z.of_nat i + 20)) w = None.
Proof. do 3 eexists. split; [vm_compute; reflexivity|]. split; vm_compute; reflexivity. Qed.

(** A change of the servo constants reaches every instance once if it is meant for PTP, no
    instance otherwise. *)
Theorem C75_pid : forall l e entries evs info w mask, l <> [] -> module_create l e entries = Some (0, evs, info, w) ->
  exists done freed, pid_adjust mask w = Some (done, freed) /\ freed = Z.testbit mask 1 /\
    Permutation done (if Z.testbit mask 1 then seq 0 (List.length l) else []).
Proof.
  intros l e entries evs info w mask Nl H. destruct (created _ _ _ _ _ _ Nl H) as (R & _ & _). unfold pid_adjust.
  assert (T : (Z.land mask 2 =? 0) = negb (Z.testbit mask 1)).
  { destruct (Z.testbit mask 1) eqn:Eb; cbn [negb].
    - apply Z.eqb_neq. intro Q. apply (f_equal (fun z => Z.testbit z 1)) in Q. rewrite Z.land_spec, Eb in Q. discriminate.
    - apply Z.eqb_eq. apply Z.bits_inj. intro k. rewrite Z.land_spec, Z.bits_0. destruct (Z.eq_dec k 1) as [->|N]; [rewrite Eb; reflexivity|]. change 2 with (2 ^ 1). rewrite Z.pow2_bits_false by congruence. apply andb_false_r. }
  rewrite T. destruct (Z.testbit mask 1); cbn [negb]; [|do 2 eexists; split; [reflexivity|]; split; [reflexivity|constructor]].
  rewrite (walk_all w (proj1 (ru_good _ _ _ R))). replace (forallb _ _) with true.
  - do 2 eexists. split; [reflexivity|]. split; [reflexivity|]. apply all_perm, R.
  - symmetry. apply forallb_forall. intros i Hi. apply mem_In. apply (ru_ports _ _ _ R), Hi.
Qed.
Print Assumptions C75_pid.
(** The message should be released in any case; it is not if it is meant for others only. *)
Theorem C75_pid_refuted : exists evs info w, module_create three fine 5 = Some (0, evs, info, w) /\ pid_adjust 4 w = Some ([], false).
Proof. do 3 eexists. split; [vm_compute; reflexivity|]. vm_compute. reflexivity. Qed.
Print Assumptions C75_pid_refuted.

(** ENOENT, which the caller takes for a module that is not needed, is never returned. *)
Theorem C75_code : forall l e entries rc evs info w, module_create l e entries = Some (rc, evs, info, w) -> rc <> ENOENT.
Proof.
  intros l e entries rc evs info w H.
  assert (F : forall x, (if x =? ENOENT then EINVAL else x) <> ENOENT) by (intro x; destruct (Z.eqb_spec x ENOENT); [discriminate|assumption]).
  unfold module_create in H. destruct (negb (e_table e =? 0)); [injection H as <- _ _ _; apply F|].
  destruct (create_instances l) as [[r1 w1]|]; [|discriminate]. cbn [bind] in H. destruct (negb (r1 =? 0)); [injection H as <- _ _ _; apply F|].
  destruct (negb (e_thread e =? 0)); [destruct (destroy_instances w1); [|discriminate]; cbn [bind] in H; injection H as <- _ _ _; apply F|].
  destruct (startup e w1) as [[[r2 t2] w2]|]; [|discriminate]. cbn [bind] in H. destruct (negb (r2 =? 0)); [destruct (destroy_instances w2); [|discriminate]; cbn [bind] in H; injection H as <- _ _ _; apply F|].
  injection H as <- _ _ _. discriminate.
Qed.
Print Assumptions C75_code.
Example C75_code_ex : exists w, module_create three (mkEnv 0 ENOENT 0 0 (fun _ => 0) (fun _ => 1) (fun _ => 0) (fun _ => 0) 0 (fun _ => 0) (fun _ => false) (fun _ => 0) (fun _ => 0) (fun _ => 0) 0) 5 = Some (EINVAL, [], [], w).
Proof. eexists. vm_compute. reflexivity. Qed.
