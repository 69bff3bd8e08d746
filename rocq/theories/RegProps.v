(** C74: the clocks of the machine. *)
Require Import ZArith QArith List Bool String Lia Permutation Sorting.Sorted.
From Verif Require Import Base TimeSpec TimeModel RegSpec RegModel RegProof RegProof2 RegProof3 RegProof4.
Import ListNotations.
Open Scope string_scope.
Open Scope list_scope.
Open Scope Z_scope.

(** The keys of the clocks, in the order of the list. *)
Definition clocks (w : world) : list key := map k_key (w_clks w).
(** Histories: the interface snapshots have a PHC device exactly when they have its index, and a
    device that does not open gives an errno. *)
Definition sound_snap (snap : list intf) : Prop := forall i, In i snap -> i_phc i = (0 <=? i_dev i).
Definition sound_env (e : renv) : Prop := forall d err, x_open e d = Some err -> err <> 0.
Definition sound (o : op) : Prop :=
  match o with ORescan e _ _ snap => sound_snap snap /\ sound_env e | _ => True end.
(** A world reached from the start of the daemon. *)
Definition reached (g : config) (w : world) : Prop :=
  exists maxf e evs0 w0 l evs, initialise g maxf e = Some (evs0, w0) /\ Forall sound l /\ run g l w0 = Some (evs, w).
Lemma reached_ok g w : reached g w -> ok g w.
Proof.
  intros (maxf & e & evs0 & w0 & l & evs & I0 & W & R). destruct (initialise_ok _ _ _ _ _ I0) as (O & _). exact (proj1 (run_ok g l w0 evs w O W R)).
Qed.

(** Concrete cases. *)
Definition g0 : config := mkConfig false [] true [] true false true true false (1000000#1) false [1;2;3;4;5;6;7;8].
Definition quick : cenv := mkCenv (Some (5#1)) 0 (inr 0) (0, mkTs (-1700000000) 0 0) 0.
Definition env0 : renv := mkRenv (fun _ => None) (fun _ => 0) (fun _ => 500000) (fun n => if n =? 1 then ["phc0"; "nic1"] else ["phc1"; "nic2"]) (fun d => if d =? 0 then ["eth0"] else ["eth1"]).
Definition eth0 := mkIntf 2 1 SFC true true 0 true [2;0;0;0;0;1].
Definition eth1 := mkIntf 3 2 XNET true true 1 true [2;0;0;0;0;2].
Definition start : list op := [ORescan env0 env0 (fun _ => quick) [eth0; eth1]; OFixup (x_ifs env0) (fun _ => quick)].
Definition unplug : op := ORescan env0 env0 (fun _ => quick) [eth0].
Definition replug : op := ORescan env0 env0 (fun _ => quick) [eth0; eth1].
Definition after (l : list op) : option (list ev * world) :=
  match initialise g0 (500000#1) quick with Some (_, w) => run g0 l w | None => None end.
Lemma sound_start : Forall sound start.
Proof.
  assert (S : sound_snap [eth0; eth1]) by (intros i [<-|[<-|[]]]; reflexivity). assert (E : sound_env env0) by (intros d err X; discriminate).
  repeat constructor; auto.
Qed.
Lemma sound_unplug : sound unplug /\ sound replug.
Proof. repeat split; try (intros i [<-|[<-|[]]]; reflexivity); try (intros i [<-|[]]; reflexivity); intros d err X; discriminate. Qed.

Definition world_after (l : list op) : world := match after l with Some (_, w) => w | None => mkWorld [] [] end.
Definition w_first : world := Eval vm_compute in world_after [].
Definition w_start : world := Eval vm_compute in world_after start.
Definition w_unplug : world := Eval vm_compute in world_after (start ++ [unplug]).
Definition w_block : world := Eval vm_compute in world_after [replug; OBlock (Some 1) true].
Lemma reached_after l w : Forall sound l -> (exists evs, after l = Some (evs, w)) -> reached g0 w.
Proof.
  intros S (evs & A). unfold after in A. destruct (initialise g0 (500000#1) quick) as [[ei wi]|] eqn:I0; [|discriminate].
  exists (500000#1), quick, ei, wi, l, evs. auto.
Qed.
Lemma reached_first : reached g0 w_first.
Proof. apply (reached_after []); [constructor|]. eexists. vm_compute. reflexivity. Qed.
Lemma reached_start : reached g0 w_start.
Proof. apply (reached_after start); [exact sound_start|]. eexists. vm_compute. reflexivity. Qed.
Lemma reached_unplug : reached g0 w_unplug.
Proof. apply (reached_after (start ++ [unplug])); [apply Forall_app; split; [exact sound_start|repeat constructor; apply sound_unplug]|]. eexists. vm_compute. reflexivity. Qed.
Lemma reached_block : reached g0 w_block.
Proof. apply (reached_after [replug; OBlock (Some 1) true]); [repeat constructor; apply sound_unplug|]. eexists. vm_compute. reflexivity. Qed.

(** The system clock is there from the start, once, at the end of the list, and never deleted; no
    two clocks have the same adapter; no clock is ever lost; a deleted clock has no device; a
    clock of another make is there only if such adapters are allowed. *)
Theorem C74_registry : forall g maxf e evs0 w0 l evs w, initialise g maxf e = Some (evs0, w0) -> Forall sound l -> run g l w0 = Some (evs, w) ->
  clocks w0 = [None] /\ (exists new, clocks w = new ++ clocks w0) /\ NoDup (clocks w) /\
  (exists s, get None w = Some s /\ k_del s = false) /\
  forall c, In c (w_clks w) ->
    (k_del c = true -> k_phc c = None) /\
    (k_key c <> None -> k_kind c = OTHER -> g_non_sfc g = true).
Proof.
  intros g maxf e evs0 w0 l evs w I0 W R. destruct (initialise_ok _ _ _ _ _ I0) as (O & K & _). destruct (run_ok g l w0 evs w O W R) as (O' & (m & M) & _).
  split; [exact K|]. split; [exists m; exact M|]. split; [apply O'|]. split.
  - destruct (get_none_in g w O') as (s & A & _ & B). eauto.
  - intros c H. destruct O' as (_ & _ & C). rewrite Forall_forall in C. destruct (C _ H) as (A & B & _). split; [intro D; apply B, D|].
    intros N Q. apply A; [|exact Q]. unfold is_sys. destruct (k_key c); [reflexivity|congruence].
Qed.
Print Assumptions C74_registry.
Example C74_registry_case : exists evs w, after (start ++ [unplug; replug]) = Some (evs, w) /\ clocks w = [Some 2; Some 1; None] /\ Forall sound (start ++ [unplug; replug]).
Proof. do 2 eexists. split; [vm_compute; reflexivity|]. split; [reflexivity|]. apply Forall_app. split; [apply sound_start|]. repeat constructor; apply sound_unplug. Qed.

(** The full statement about hot plug: a rescan always completes; afterwards the clock of an
    adapter is active exactly if the adapter has an interface with a PHC device, and it works on
    the device of the first such interface, with its identity; every interface is linked to the
    clock of its adapter if it can be used for PTP and to the system clock if not.

    All of it holds but for the device: *)
Theorem C74_rescan_partial : forall g w e e2 ce snap, reached g w -> sound_snap snap -> sound_env e ->
  NoDup (map i_index snap) ->
  exists evs w', rescan g e e2 ce snap w = Some (evs, w') /\
    (forall nic c, get (Some nic) w' = Some c ->
      (k_del c = false <-> exists i, In i snap /\ i_nic i = nic /\ i_phc i = true) /\
      (forall p i q, snap = p ++ i :: q -> i_nic i = nic -> i_phc i = true ->
         (forall x, In x p -> i_nic x = nic -> i_phc x = false) -> x_open e2 (i_dev i) = None ->
         k_id c = hw_id g (i_mac i) /\ k_idx c = i_dev i /\ k_sync c = negb (g_avoid_efx g) /\
         (k_phc c = Some (i_dev i) \/ exists c0 d, get (Some nic) w = Some c0 /\ k_phc c0 = Some d /\ k_phc c = Some d))) /\
    (forall i, In i snap -> supports_ptp g i = false -> link_of w' (i_index i) = Some None) /\
    (forall i, In i snap -> supports_ptp g i = true -> i_phc i = true -> In (Some (i_nic i)) (clocks w') ->
       link_of w' (i_index i) = Some (Some (i_nic i))) /\
    (forall i, In i snap -> supports_ptp g i = true -> i_phc i = true ->
       (forall d, x_open e d = None /\ x_start e d = 0) -> In (Some (i_nic i)) (clocks w')) /\
    (forall k, In k (clocks w') -> In k (clocks w) \/ exists i, In i snap /\ k = Some (i_nic i)).
Proof.
  intros g w e e2 ce snap Rw Sn En ND. apply reached_ok in Rw as O. destruct (rescan_ok g e e2 ce snap w O Sn En) as (evs & w' & w1 & E & O' & _ & I1 & _ & Ew & (m & K1 & K2 & Km) & _).
  exists evs, w'. split; [exact E|]. split; [|split; [|split; [|split]]].
  - intros nic c G. destruct (rescan_get g e e2 ce snap w evs w' O Sn En E _ _ G) as (c1 & -> & Kc & Src). split.
    + destruct (find (nic_phc nic) snap) as [i|] eqn:F.
      * rewrite (renew_some _ _ _ _ _ _ Kc F). destruct (find_phc _ _ _ F) as (A & B & C). split; [eauto|]. intros _.
        destruct (k_phc c1); [|destruct (x_open e2 (i_dev i))]; reflexivity.
      * rewrite (renew_none _ _ _ _ _ Kc F). split; [discriminate|]. intros (i & A & B & C). pose proof (find_none _ _ F _ A) as N. unfold nic_phc in N. rewrite B, C, Z.eqb_refl in N. discriminate.
    + intros p i q Es Ni Ph First Op.
      assert (F : find (nic_phc nic) snap = Some i).
      { subst snap. clear - First Ni Ph. induction p as [|x p IH]; cbn; unfold nic_phc at 1.
        - rewrite Ni, Ph, Z.eqb_refl. reflexivity.
        - destruct (i_nic x =? nic) eqn:Q; cbn; [apply Z.eqb_eq in Q; rewrite (First x (or_introl eq_refl) Q)|]; apply IH; intros y Y; apply First; right; exact Y. }
      rewrite (renew_some _ _ _ _ _ _ Kc F), Op. destruct (k_phc c1) as [dev|] eqn:P1; cbn.
      * repeat (split; [reflexivity|]). destruct Src as [(c0 & G0 & S)|(_ & n & j & X & Y & Z)].
        -- right. exists c0, dev. split; [exact G0|]. split; [|reflexivity]. destruct S as (_ & _ & _ & S & _). congruence.
        -- left. injection X as <-. rewrite F in Y. injection Y as <-. congruence.
      * repeat (split; [reflexivity|]). left. reflexivity.
  - intros i X Y. exact (proj1 (rescan_links g e e2 ce snap w evs w' O Sn En ND E i X) Y).
  - intros i X. exact (proj2 (rescan_links g e e2 ce snap w evs w' O Sn En ND E i X)).
  - intros i X Y P Al. apply (rescan_creates g e e2 ce snap w evs w' i O Sn En E X Y P).
    destruct (find (nic_phc (i_nic i)) snap) as [j|] eqn:F; [exists j; split; [exact F|apply Al]|].
    pose proof (find_none _ _ F _ X) as N. unfold nic_phc in N. rewrite P, Z.eqb_refl in N. discriminate.
  - intros k H. change (clocks w') with (keys w') in H. rewrite K1 in H. apply in_app_or in H as [H|H]; [right; exact (Km _ H)|left; exact H].
Qed.
Print Assumptions C74_rescan_partial.
Example C74_rescan_case : exists evs w, after (start ++ [unplug]) = Some (evs, w) /\
  map (fun c => (k_key c, k_del c, k_phc c)) (w_clks w) = [(Some 2, true, None); (Some 1, false, Some 0); (None, false, None)] /\
  link_of w 2 = Some (Some 1).
Proof. do 2 eexists. split; [vm_compute; reflexivity|]. split; reflexivity. Qed.
(** The device of an adapter that was never away is not opened again, although its index has
    changed: the clock goes on working on the old device. *)
Theorem C74_rescan_refuted : exists g w snap e e2 ce evs w' c, reached g w /\ sound_snap snap /\ sound_env e /\ NoDup (map i_index snap) /\
  rescan g e e2 ce snap w = Some (evs, w') /\ get (Some 1) w' = Some c /\ k_del c = false /\
  (exists i, snap = [i] /\ i_nic i = 1 /\ k_idx c = i_dev i /\ k_phc c <> Some (i_dev i)).
Proof.
  exists g0, w_start, [mkIntf 2 1 SFC true true 7 true [2;0;0;0;0;1]], env0, env0, (fun _ => quick). do 3 eexists. split; [exact reached_start|].
  split; [intros i [<-|[]]; reflexivity|]. split; [intros d err X; discriminate|]. split; [constructor; [intros []|constructor]|].
  split; [vm_compute; reflexivity|]. split; [vm_compute; reflexivity|]. split; [reflexivity|].
  eexists. split; [reflexivity|]. split; [reflexivity|]. split; [reflexivity|]. vm_compute. discriminate.
Qed.
Print Assumptions C74_rescan_refuted.

(** A clock that may not be written is never written to, whatever happens: not stepped, not
    slewed, no status, no sync status. *)
Theorem C74_readonly : forall g w l evs w' k c, reached g w -> get k w = Some c -> k_ro c = true -> Forall sound l ->
  run g l w = Some (evs, w') ->
  Forall (fun e => ~ writes_to k e) evs /\ exists c', get k w' = Some c' /\ k_ro c' = true.
Proof.
  intros g w l evs w' k c Rw G Ro W R. destruct (run_ok g l w evs w' (reached_ok _ _ Rw) W R) as (_ & _ & Q & _).
  destruct (Q k) as [A B]; [exists c; auto|]. split; [exact B|exact A].
Qed.
Print Assumptions C74_readonly.
(** With clock-control no-adjust no clock is written to at all; the system clock is not if it is
    among the read-only clocks. *)
Theorem C74_no_adjust : forall g maxf e evs0 w0 l evs w, initialise g maxf e = Some (evs0, w0) -> Forall sound l -> run g l w0 = Some (evs, w) ->
  (g_no_adjust g = true -> forall c, In c (w_clks w) -> k_ro c = true) /\
  (g_no_adjust g = true \/ In "system" (g_readonly g) -> Forall (fun x => ~ writes_to None x) (evs0 ++ evs)).
Proof.
  intros g maxf e evs0 w0 l evs w I0 W R. destruct (initialise_ok _ _ _ _ _ I0) as (O & K & Q0). destruct (run_ok g l w0 evs w O W R) as (O' & _ & Q & _). split.
  - intros N c H. destruct O' as (_ & _ & C). rewrite Forall_forall in C. destruct (C _ H) as (_ & _ & _ & A). auto.
  - intro H. destruct (Q0 H) as [A B]. destruct (Q None A) as [_ D]. apply Forall_app. auto.
Qed.
Print Assumptions C74_no_adjust.
Example C74_no_adjust_case : exists evs0 w0 evs w,
  let g := mkConfig true [] true [] true false true true false (1000000#1) false [1;2;3;4;5;6;7;8] in
  initialise g (500000#1) quick = Some (evs0, w0) /\ run g (start ++ [OStep (Some 1) (mkTs 1 0 0) 0; OFreq None (3#1) 0; OLeap L_61 0]) w0 = Some (evs, w) /\ evs0 ++ evs = [].
Proof. do 4 eexists. cbv zeta. split; [vm_compute; reflexivity|]. split; [vm_compute; reflexivity|]. reflexivity. Qed.
Example C74_readonly_case : exists evs w, after (start ++ [OStep (Some 1) (mkTs 1 0 0) 0; OFreq None (3#1) 0]) = Some (evs, w) /\
  In (Step (Some 1) (mkTs 1 0 0)) evs /\ In (Freq None (3#1)) evs.
Proof. do 2 eexists. split; [vm_compute; reflexivity|]. split; cbn; auto 20. Qed.

(** A new clock is read-only exactly if nothing is to be adjusted or it is named among the
    read-only clocks; it is disciplined exactly if it is not read-only, of an allowed make, and
    all are or it is named in the list.  It is named by a name of its own or of an interface
    with its device. *)
Theorem C74_configured : forall g ifs c, k_disc c = false -> let c' := snd (configure_new g ifs c) in
  (k_ro c' = true <-> k_ro c = true \/ exists n, In n (g_readonly g) /\ named ifs c n) /\
  (k_disc c' = true <-> k_ro c' = false /\ (is_sys c = true \/ k_kind c <> OTHER \/ g_non_sfc g = true) /\
     (g_all g = true \/ exists n, In n (g_list g) /\ named ifs c n)) /\
  k_ro (fresh g (k_key c) (k_kind c)) = g_no_adjust g /\ k_disc (fresh g (k_key c) (k_kind c)) = false.
Proof. intros g ifs c D. destruct (configure_spec g ifs c D) as [A B]. split; [exact A|]. split; [exact B|]. split; reflexivity. Qed.
Print Assumptions C74_configured.
Example C74_configured_case : let g := mkConfig false ["eth1"] false ["eth0"; "system"] true false true true false (1000000#1) false [] in
  exists e0 w0 evs w, initialise g (500000#1) quick = Some (e0, w0) /\ run g start w0 = Some (evs, w) /\
  map (fun c => (k_key c, k_ro c, k_disc c)) (w_clks w) = [(Some 2, true, false); (Some 1, false, true); (None, false, true)].
Proof. cbv zeta. do 4 eexists. split; [vm_compute; reflexivity|]. split; [vm_compute; reflexivity|]. reflexivity. Qed.

(** The full statement about steps: a clock that may be written to can always be stepped.

    It can if and only if every clock of an adapter has its device open; then all of them are told
    that a clock was stepped.  The kernel's error in stepping it or setting its frequency is returned. *)
Theorem C74_step_partial : forall g w k c off, get k w = Some c -> k_ro c = false -> k_blk c <= 0 ->
  is_sys c = true \/ k_phc c <> None ->
  (adjust_time g k off 0 w <> None <-> forall x, In x (w_clks w) -> is_sys x = true \/ k_phc x <> None) /\
  forall rc evs w', adjust_time g k off 0 w = Some (rc, evs, w') ->
    rc = 0 /\ In (Step k off) evs /\ (forall j t, In (Step j t) evs -> j = k /\ t = off) /\
    (forall x, In x (w_clks w') -> is_sys x = true \/ k_told x = true) /\
    forall err f, (err <> 0 -> exists evs1, adjust_time g k off err w = Some (err, evs1, w) /\ In (Step k off) evs1) /\
      exists evs2, adjust_frequency g k f err w = Some (err, evs2, w) /\ In (Freq k f) evs2.
Proof.
  intros g w k c off G Ro Bl D. pose proof (record_defined w) as Rec. unfold adjust_time. rewrite G. cbn [bind].
  assert (Rf : refused c = None).
  { unfold refused. rewrite (ready_dev c D), Ro. replace (0 <? k_blk c) with false by (symmetry; apply Z.ltb_ge, Bl). reflexivity. }
  rewrite Rf. cbn [Z.eqb]. rewrite Forall_forall in Rec. split.
  - destruct (record_step w); cbn [bind]; split; intro H; try discriminate; [apply Rec; discriminate|congruence|]. apply Rec in H. congruence.
  - intros rc evs w' H. destruct (record_step w) as [w1|] eqn:E; cbn [bind] in H; [|discriminate]. injection H as <- <- <-. split; [reflexivity|]. split; [left; reflexivity|]. split.
    + intros j t [X|X]; [injection X as <- <-; auto|]. unfold with_status in X. destruct (_ && _); [destruct X as [X|[]]; discriminate|destruct X].
    + split; [pose proof (record_told _ _ E) as T; rewrite Forall_forall in T; exact T|]. intros err f. split.
      * intro N. apply Z.eqb_neq in N. rewrite N. eexists. split; [reflexivity|left; reflexivity].
      * unfold adjust_frequency. rewrite G. cbn [bind]. rewrite Rf. eexists. split; [reflexivity|left; reflexivity].
Qed.
Print Assumptions C74_step_partial.
(** Once an adapter has been taken away, the next step of any clock ends the daemon (assertion in
    src/sfptpd_phc.c:1349, from src/sfptpd_clock.c:1091-1103). *)
Theorem C74_step_refuted : exists g w c, reached g w /\ get None w = Some c /\ k_ro c = false /\ k_blk c = 0 /\
  (forall off, adjust_time g None off 0 w = None) /\
  exists c1, get (Some 1) w = Some c1 /\ k_del c1 = false /\ k_phc c1 = Some 0 /\ forall off, adjust_time g (Some 1) off 0 w = None.
Proof.
  exists g0, w_unplug. eexists. split; [exact reached_unplug|].
  split; [vm_compute; reflexivity|]. split; [reflexivity|]. split; [reflexivity|]. split; [intro off; vm_compute; reflexivity|].
  eexists. split; [vm_compute; reflexivity|]. split; [reflexivity|]. split; [reflexivity|]. intro off. vm_compute. reflexivity.
Qed.
Print Assumptions C74_step_refuted.
Example C74_step_case : exists evs w, after start = Some (evs, w) /\ forall x, In x (w_clks w) -> is_sys x = true \/ k_phc x <> None.
Proof. do 2 eexists. split; [vm_compute; reflexivity|]. cbn. intros x [<-|[<-|[<-|[]]]]; [right; discriminate|right; discriminate|left; reflexivity]. Qed.

(** Refusals: a clock without its device gives an error, a read-only or blocked clock gives
    success, and in each case nothing is done. *)
Theorem C74_refusal : forall g w k c off f os, get k w = Some c ->
  (k_key c <> None -> k_phc c = None -> adjust_time g k off os w = Some (ENODEV, [], w) /\ adjust_frequency g k f os w = Some (ENODEV, [], w)) /\
  (k_key c = None \/ k_phc c <> None -> k_ro c = true \/ 0 < k_blk c ->
     adjust_time g k off os w = Some (0, [], w) /\ adjust_frequency g k f os w = Some (0, [], w)).
Proof.
  intros g w k c off f os G. unfold adjust_time, adjust_frequency. rewrite G. cbn [bind]. split.
  - intros N P. unfold refused, is_sys. rewrite P. destruct (k_key c); [|congruence]. split; reflexivity.
  - intros D R. unfold refused.
    rewrite ready_dev by (destruct D as [D|D]; [left; unfold is_sys; rewrite D; reflexivity|right; exact D]).
    destruct (k_ro c); [split; reflexivity|]. destruct R as [R|R]; [discriminate|]. apply Z.ltb_lt in R. rewrite R. split; reflexivity.
Qed.
Print Assumptions C74_refusal.
Example C74_refusal_case : exists evs w c, after (start ++ [unplug; OBlock (Some 1) true]) = Some (evs, w) /\ get (Some 2) w = Some c /\ k_phc c = None /\
  exists c1, get (Some 1) w = Some c1 /\ k_blk c1 = 1.
Proof. do 3 eexists. split; [vm_compute; reflexivity|]. split; [vm_compute; reflexivity|]. split; [reflexivity|]. eexists. split; [vm_compute; reflexivity|reflexivity]. Qed.

(** Blocking counts: each block is undone by one unblocking, no other clock is touched, and a
    clock may be written exactly if it is disciplined, not read-only and blocked by nobody. *)
Theorem C74_blocking : forall k w c b, get k w = Some c -> - 2^31 < k_blk c < 2^31 - 1 ->
  (exists w1 c1, set_blocked k b w = Some (0 <? k_blk c1, w1) /\ get k w1 = Some c1 /\ k_blk c1 = k_blk c + (if b then 1 else -1) /\
     (forall j, j <> k -> get j w1 = get j w) /\
     exists w2 c2, set_blocked k (negb b) w1 = Some (0 <? k_blk c, w2) /\ get k w2 = Some c2 /\ k_blk c2 = k_blk c) /\
  (writable c = true <-> k_disc c = true /\ k_ro c = false /\ k_blk c <= 0).
Proof.
  intros k w c b G R. split.
  - unfold set_blocked. rewrite G. cbn [bind]. set (n := k_blk c + (if b then 1 else -1)).
    assert (X : forall z, - 2^31 <= z < 2^31 -> chk_s32 z = Some z).
    { intros z Hz. unfold chk_s32. replace (fits_s32 z) with true; [reflexivity|]. symmetry. unfold fits_s32. lia. }
    assert (Hn : - 2^31 <= n < 2^31) by (unfold n; destruct b; lia).
    rewrite (X n Hn). cbn [bind]. eexists. exists (set_blk c n). split; [reflexivity|].
    pose proof (get_upd k (fun c => set_blk c n) w c G eq_refl) as G1. split; [exact G1|]. split; [reflexivity|].
    split. { intros j N. apply get_upd_other; [exact N|reflexivity]. }
    rewrite G1. cbn [bind]. change (k_blk (set_blk c n)) with n.
    assert (En : n + (if negb b then 1 else -1) = k_blk c) by (unfold n; destruct b; cbn [negb]; lia). rewrite En, X by lia. cbn [bind].
    eexists. eexists. split; [reflexivity|]. split; [exact (get_upd k (fun c0 => set_blk c0 (k_blk c)) _ _ G1 eq_refl)|]. reflexivity.
  - unfold writable. destruct (k_disc c), (k_ro c); cbn; rewrite ?Z.ltb_lt; split; intros H; try discriminate; try (destruct H as (A & B & _); discriminate); [split; [reflexivity|]; split; [reflexivity|lia]|lia].
Qed.
Print Assumptions C74_blocking.
Example C74_blocking_case : exists evs w c, after (start ++ [OBlock (Some 1) true; OBlock (Some 1) true; OBlock (Some 1) false]) = Some (evs, w) /\
  get (Some 1) w = Some c /\ k_blk c = 1 /\ writable c = false.
Proof. do 3 eexists. split; [vm_compute; reflexivity|]. split; [vm_compute; reflexivity|]. split; reflexivity. Qed.

(** The full statement about initial corrections: a clock of an adapter whose time has never been
    set (or any, if so configured) is stepped to the system time once, when it comes up.

    It is when sfptpd_clock_correct_new runs while its device is open, the clock may be written
    and is not blocked; never twice. *)
Theorem C74_initial_partial : forall g w k c ce, reached g w -> get k w = Some c -> correctable g c = true ->
  (k_del c = false -> k_phc c <> None -> (forall x, In x (w_clks w) -> is_sys x = true \/ k_phc x <> None) ->
   k_ro c = false -> k_blk c <= 0 -> k_init c = false ->
   forall s d, x_time ce = inr s -> s < VALID \/ g_always g = true -> x_cmp ce = (0, d) -> normal d -> - 2^62 <= sec d < 2^62 -> x_oss ce = 0 ->
   exists evs1 evs2 off w' c', correct_new g k ce w = Some (evs1 ++ Step k off :: evs2, w') /\ instant off = - instant d /\
     (forall t j, ~ In (Step j t) (evs1 ++ evs2)) /\ get k w' = Some c' /\ k_init c' = true) /\
  (k_init c = true \/ (exists s, x_time ce = inr s /\ VALID <= s /\ g_always g = false) ->
   exists evs w', correct_new g k ce w = Some (evs, w') /\ forall t j, ~ In (Step j t) evs) /\
  (k_init c = true -> forall l evs w', Forall sound l -> run g l w = Some (evs, w') -> exists c', get k w' = Some c' /\ k_init c' = true).
Proof.
  intros g w k c ce Rw G Cr. apply reached_ok in Rw as O. split; [|split].
  - intros De P Al Ro Bl In0 s d Ts Sv Cm Nd Rg Os. eapply correct_steps; eauto.
    + apply Forall_forall. exact Al.
    + split; [exact De|right; exact P].
  - intro H. eapply correct_no_step; eauto. destruct H as [H|H]; auto.
  - intros H l evs w' W R. destruct (run_ok g l w evs w' O W R) as (_ & _ & _ & K). destruct (K _ _ G) as (c' & A & _ & B). eauto.
Qed.
Print Assumptions C74_initial_partial.
(** The system clock and the clocks of both adapters after the start: each adapter was stepped. *)
Example C74_initial_case : exists evs w, after start = Some (evs, w) /\
  filter (fun e => match e with Step _ _ => true | _ => false end) evs = [Step (Some 2) (mkTs 1700000000 0 0); Step (Some 1) (mkTs 1700000000 0 0)].
Proof. do 2 eexists. split; [vm_compute; reflexivity|]. reflexivity. Qed.
(** But nothing is stepped or slewed in any rescan: the clock of an adapter that is plugged in
    while the daemon runs, for the first time or again, stays at the time it comes up with, and
    keeps whatever frequency it had. *)
Theorem C74_plugged_refuted : forall g w e e2 ce snap, reached g w -> sound_snap snap -> sound_env e ->
  exists evs w', rescan g e e2 ce snap w = Some (evs, w') /\ Forall (fun x => exists k, x = Unlink k) evs.
Proof.
  intros g w e e2 ce snap Rw Sn En. destruct (rescan_ok g e e2 ce snap w (reached_ok _ _ Rw) Sn En) as (evs & w' & w1 & E & _ & U & _). eauto.
Qed.
Print Assumptions C74_plugged_refuted.
Example C74_plugged_case : exists evs0 w0 evs w c, after (start ++ [unplug]) = Some (evs0, w0) /\ rescan g0 env0 env0 (fun _ => quick) [eth0; eth1] w0 = Some (evs, w) /\
  get (Some 2) w = Some c /\ k_del c = false /\ k_phc c = Some 1 /\ evs = [].
Proof. do 5 eexists. split; [vm_compute; reflexivity|]. split; [vm_compute; reflexivity|]. split; [vm_compute; reflexivity|]. repeat split. Qed.
(** And a clock that is blocked counts as corrected although nothing was written to it. *)
Theorem C74_initial_refuted : exists g w w' c' evs, reached g w /\ set_time g (Some 1) None None true (0, null_time) (0, mkTs (-5) 0 0) 0 w = Some (0, evs, w') /\
  (forall t j, ~ In (Step j t) evs) /\ get (Some 1) w' = Some c' /\ k_init c' = true /\
  exists c, get (Some 1) w = Some c /\ k_init c = false /\ k_ro c = false.
Proof.
  exists g0, w_block. do 3 eexists. split; [exact reached_block|].
  split; [vm_compute; reflexivity|]. split; [intros t j [X|[]]; discriminate|]. split; [vm_compute; reflexivity|]. split; [reflexivity|].
  eexists. split; [vm_compute; reflexivity|]. split; reflexivity.
Qed.
Print Assumptions C74_initial_refuted.

(** Setting a clock with a threshold: the full statement would be that it is stepped when it is
    off by at least the threshold.  It is not when it is ahead of the reference: the signed
    difference is compared. *)
Theorem C74_threshold_refuted : exists g w evs w', reached g w /\
  set_time g (Some 1) None (Some (mkTs 1 0 0)) false (0, null_time) (0, mkTs 10 0 0) 0 w = Some (0, evs, w') /\ (forall t j, ~ In (Step j t) evs).
Proof.
  exists g0, w_start. do 2 eexists. split; [exact reached_start|]. split; [vm_compute; reflexivity|]. intros t j [X|[]]; discriminate.
Qed.
Print Assumptions C74_threshold_refuted.

(** A comparison that fails, or one that is below the threshold, sets nothing; the error of the
    failed comparison is returned. *)
Theorem C74_set_not : forall g to from thr initial r1 r2 os w c rc d e1 w1, get to w = Some c -> compare from to r1 r2 w = Some (rc, d, e1, w1) ->
  rc <> 0 \/ (exists t, thr = Some t /\ normal t /\ normal d /\ instant d < instant t) ->
  exists rc' evs w', set_time g to from thr initial r1 r2 os w = Some (rc', evs, w') /\ (forall j t, ~ In (Step j t) evs) /\
    (to <> from -> initial = false \/ k_init c = false -> rc' = rc).
Proof.
  intros g to from thr initial r1 r2 os w c rc d e1 w1 G C H. unfold set_time. rewrite G, C. cbn [bind].
  destruct (key_eqb to from || (initial && k_init c)) eqn:K.
  { do 3 eexists. split; [reflexivity|]. split; [intros j t []|]. intros N I0. exfalso. apply orb_true_iff in K as [K|K].
    - apply N. revert K. unfold key_eqb. destruct to, from; try discriminate; try reflexivity. intro K. apply Z.eqb_eq in K. congruence.
    - apply andb_prop in K as [K1 K2]. destruct I0; congruence. }
  assert (X : (rc =? 0) && match thr with None => true | Some t => 0 <=? cmp d t end = false).
  { destruct H as [H|(t & -> & Nt & Nd & L)]. { apply Z.eqb_neq in H. rewrite H. reflexivity. }
    apply andb_false_iff. right. rewrite (TimeProof.cmp_spec d t Nd Nt). apply Z.compare_lt_iff in L. rewrite L. reflexivity. }
  rewrite X. do 3 eexists. split; [reflexivity|]. split; [|auto]. eapply compare_no_step, C.
Qed.
Print Assumptions C74_set_not.
Example C74_set_not_case : exists evs w e1 w1 e2 w2 c, after start = Some (evs, w) /\ get (Some 1) w = Some c /\
  compare None (Some 1) (0, null_time) (5, null_time) w = Some (5, null_time, e1, w1) /\
  set_time g0 (Some 1) None None false (0, null_time) (5, null_time) 0 w = Some (5, e2, w2).
Proof. do 7 eexists. split; [vm_compute; reflexivity|]. split; [vm_compute; reflexivity|]. split; [vm_compute; reflexivity|]. vm_compute; reflexivity. Qed.

(** Two clocks that are there compare as the exact difference of what they read against the
    system clock; a deleted clock or one without a device gives an error and nothing else. *)
Theorem C74_compare : forall a b r1 r2 w ca cb, get a w = Some ca -> get b w = Some cb ->
  (k_del ca = true \/ k_del cb = true -> compare a b r1 r2 w = Some (ENOENT, null_time, [], w)) /\
  (k_del ca = false -> k_del cb = false -> ~ has_device ca \/ ~ has_device cb -> compare a b r1 r2 w = Some (ENOSYS, null_time, [], w)) /\
  (ready ca -> ready cb -> fst (reading ca r1) = 0 -> fst (reading cb r2) = 0 -> normal (snd r1) -> normal (snd r2) ->
   - 2^62 <= sec (snd (reading ca r1)) < 2^62 -> - 2^62 <= sec (snd (reading cb r2)) < 2^62 ->
   exists d evs w', compare a b r1 r2 w = Some (0, d, evs, w') /\
     instant d = instant (snd (reading ca r1)) - instant (snd (reading cb r2)) /\ normal d /\
     evs = (if is_sys ca then [] else [SyncFail a 0]) ++ (if is_sys cb then [] else [SyncFail b 0])).
Proof.
  intros a b r1 r2 w ca cb Ga Gb. split; [|split].
  - intro D. unfold compare. rewrite Ga, Gb. cbn [bind]. replace (k_del ca || k_del cb) with true; [reflexivity|]. symmetry. apply orb_true_iff, D.
  - intros D1 D2 H. unfold compare. rewrite Ga, Gb. cbn [bind]. rewrite D1, D2. cbn [orb]. cbv zeta.
    assert (X : forall c, ~ has_device c -> (negb (is_sys c) && match k_phc c with None => true | Some _ => false end) = true).
    { intros c N. unfold has_device in N. destruct (is_sys c); [destruct N; auto|]. destruct (k_phc c); [destruct N; right; discriminate|reflexivity]. }
    destruct H as [H|H]; rewrite (X _ H); [|rewrite orb_true_r]; reflexivity.
  - intros R1 R2 F1 F2 N1 N2 B1 B2. apply compare_good; auto. intros x y -> ->. auto.
Qed.
Print Assumptions C74_compare.
(** If a reading fails, its error is returned (no method of comparison at all ends the daemon),
    the first clock counts a failure, and there is a warning exactly if the clock that failed had
    fewer than sixteen good readings since its last failure. *)
Theorem C74_compare_fails : forall a b r1 r2 w ca cb, get a w = Some ca -> get b w = Some cb -> ready ca -> ready cb -> a <> b ->
  let bad := if fst (reading ca r1) =? 0 then b else a in
  let rc := if fst (reading ca r1) =? 0 then fst (reading cb r2) else fst (reading ca r1) in
  rc <> 0 ->
  exists d evs w' cx, compare a b r1 r2 w = Some (if rc =? EOPNOTSUPP then ENOTRECOVERABLE else rc, d, evs, w') /\
    (In (Exit rc) evs <-> rc = EOPNOTSUPP) /\ In (SyncFail a 1) evs /\
    (In (Warn bad) evs <-> exists c, get bad w = Some c /\ k_good c < 16) /\
    get bad w' = Some cx /\ k_good cx = 0.
Proof. intros a b r1 r2 w ca cb Ga Gb Ra Rb N bad rc Rc. exact (compare_bad a b r1 r2 w ca cb Ga Gb Ra Rb Rc N). Qed.
Print Assumptions C74_compare_fails.
Example C74_compare_case : exists evs w e1 w1 e2 w2, after start = Some (evs, w) /\
  compare (Some 1) (Some 2) (0, mkTs 3 0 0) (0, mkTs 1 999999999 0) w = Some (0, mkTs 1 1 0, e1, w1) /\
  compare None (Some 2) (0, null_time) (EOPNOTSUPP, null_time) w = Some (ENOTRECOVERABLE, null_time, e2, w2) /\ e2 = [SyncFail None 1; Warn (Some 2); Exit EOPNOTSUPP].
Proof. do 6 eexists. split; [vm_compute; reflexivity|]. split; [vm_compute; reflexivity|]. split; [vm_compute; reflexivity|]. reflexivity. Qed.
(** The statistic "sync-failures" of the system clock as the clock that is compared: each failure
    counts, no success does. *)
Theorem C74_statistics_refuted : forall b r1 r2 w rc d evs w', compare None b r1 r2 w = Some (rc, d, evs, w') -> b <> None -> ~ In (SyncFail None 0) evs.
Proof.
  intros b r1 r2 w rc d evs w' H N. unfold compare in H. destruct (get None w) as [ca|] eqn:G; cbn [bind] in H; [|discriminate]. destruct (get b w) as [cb|]; cbn [bind] in H; [|discriminate].
  assert (Y : is_sys ca = true) by (apply (sys_key _ _ _ G); reflexivity).
  assert (En : forall r e x y, cmp_end r e x y = Some (rc, d, evs, w') -> ~ In (SyncFail None 0) e -> ~ In (SyncFail None 0) evs).
  { intros r e x y X Q. unfold cmp_end in X. destruct (r =? EOPNOTSUPP); injection X as <- <- <- <-; [|exact Q]. intro Z. apply in_app_or in Z as [Z|[Z|[]]]; [auto|discriminate]. }
  destruct (_ || _) in H; [injection H as <- <- <- <-; intros []|]. cbv zeta in H. destruct (_ || _) in H; [injection H as <- <- <- <-; intros []|].
  rewrite Y in H. cbn [Z.eqb negb] in H. destruct (is_sys cb); [eapply En; [exact H|intros []]|].
  destruct (get b w) as [cb'|]; cbn [bind] in H; [|discriminate]. destruct (fst r2 =? 0).
  - destruct (subtract _ _); cbn [bind] in H; [|discriminate]. eapply En; [exact H|]. intros [X|[]]. congruence.
  - unfold cmp_fail in H. eapply En; [exact H|]. intros [X|X]; [discriminate|]. destruct (_ <? _) in X; [destruct X as [X|[]]; discriminate|destruct X].
Qed.
Print Assumptions C74_statistics_refuted.

(** Scheduling a leap second writes to the system clock a status word with exactly the bit asked
    for, never both, and no other bit changed. *)
Theorem C74_leap_partial : forall t os w c, get None w = Some c -> k_ro c = false -> exists rc f w',
  schedule_leap t os w = Some (rc, [Status f], w') /\
  (Z.testbit f 4 = true <-> t = L_61) /\ (Z.testbit f 5 = true <-> t = L_59) /\
  (forall n, 0 <= n -> n <> 4 -> n <> 5 -> Z.testbit f n = Z.testbit (k_status c) n) /\
  (exists c', get None w' = Some c' /\ k_status c' = f) /\ (rc = 0 <-> os = 0).
Proof.
  intros t os w c G R. unfold schedule_leap. rewrite G. cbn [bind]. rewrite R. do 3 eexists. split; [reflexivity|].
  destruct (leap_bit_ins (k_status c) t) as [A B]. rewrite A, B. split; [destruct t; split; congruence|]. split; [destruct t; split; congruence|].
  split; [intros n X Y Z; apply leap_bit_other; assumption|]. split.
  - eexists. split; [eapply (get_upd None (fun c0 => set_status c0 _)); [exact G|reflexivity]|reflexivity].
  - destruct (os <? 0) eqn:Q; [apply Z.ltb_lt in Q|]; lia.
Qed.
Print Assumptions C74_leap_partial.
Example C74_leap_case : exists evs w, after [OSync None true 5 0; OLeap L_61 0; OLeap L_59 0; OLeap L_NONE 0] = Some (evs, w) /\ evs = [Status 16; Status 32; Status 0].
Proof. do 2 eexists. split; [vm_compute; reflexivity|]. reflexivity. Qed.
(** The full statement would be that success is reported as such.  The state of the clock that the
    kernel returns on success (5 is TIME_ERROR: not synchronised) is taken for an errno; and a
    failure leaves the bit in the status word, to be written with the next adjustment. *)
Theorem C74_leap_refuted : exists g w, reached g w /\
  (exists evs w', schedule_leap L_61 5 w = Some (5, evs, w')) /\
  (exists evs w', schedule_leap L_61 (-1) w = Some (1, evs, w') /\
     exists evs' w'', adjust_frequency g None (0#1) 0 w' = Some (0, evs', w'') /\ exists f, In (Status f) evs' /\ Z.testbit f 4 = true).
Proof.
  exists g0, w_first. split; [exact reached_first|]. split.
  - do 2 eexists. vm_compute. reflexivity.
  - do 2 eexists. split; [vm_compute; reflexivity|]. do 2 eexists. split; [vm_compute; reflexivity|]. eexists. split; [right; left; reflexivity|reflexivity].
Qed.
Print Assumptions C74_leap_refuted.
(** A leap second now: exactly the clocks of adapters that may be written and are not blocked are
    stepped, by one second forward for a deleted second and back for an inserted one. *)
Theorem C74_leap_now : forall g w t, NoDup (clocks w) -> (forall x, In x (w_clks w) -> is_sys x = true \/ k_phc x <> None) -> t <> L_NONE -> exists evs w',
  leap_now g t (fun _ => 0) w = Some (0, evs, w') /\
  forall e, In e evs <-> exists c off, e = Step (k_key c) off /\ In c (w_clks w) /\ k_key c <> None /\
     (k_kind c <> OTHER \/ g_non_sfc g = true) /\ k_ro c = false /\ k_blk c <= 0 /\
     instant off = (if match t with L_59 => true | _ => false end then s_unit else - s_unit) /\ off = mkTs (sec off) 0 0.
Proof.
  intros g w t ND D T.
  assert (X : forall step, exists w', leap_clocks g step (fun _ => 0) (w_clks w) w = Some (map (fun c => Step (k_key c) step) (filter (fun c => correctable g c && match refused c with None => true | Some _ => false end) (w_clks w)), w')).
  { intro step. apply leap_clocks_exact; [apply Forall_forall; exact D|]. apply Forall_forall. intros c H. exists c. split; [apply get_of_in; assumption|]. auto. }
  assert (Fin : forall step sgn, instant step = sgn -> step = mkTs (sec step) 0 0 -> forall e, In e (map (fun c => Step (k_key c) step) (filter (fun c => correctable g c && match refused c with None => true | Some _ => false end) (w_clks w))) <->
    exists c off, e = Step (k_key c) off /\ In c (w_clks w) /\ k_key c <> None /\ (k_kind c <> OTHER \/ g_non_sfc g = true) /\ k_ro c = false /\ k_blk c <= 0 /\ instant off = sgn /\ off = mkTs (sec off) 0 0).
  { intros step sgn Is Ns e. split.
    - intro H. apply in_map_iff in H as (c & <- & H). apply filter_In in H as [H F]. apply andb_true_iff in F as [F1 F2]. exists c, step. split; [reflexivity|]. split; [exact H|].
      unfold correctable, is_sys in F1. destruct (k_key c); [|discriminate]. split; [discriminate|]. cbn in F1. split; [destruct (k_kind c); [left; discriminate|left; discriminate|right; exact F1]|].
      unfold refused in F2. destruct (_ && _); [discriminate|]. destruct (k_ro c); [discriminate|]. destruct (0 <? k_blk c) eqn:B; [discriminate|]. apply Z.ltb_ge in B. auto.
    - intros (c & off & -> & H & K & Kd & Ro & Bl & Io & No). replace off with step.
      2:{ rewrite Ns, No. f_equal. rewrite Ns in Is. rewrite No in Io. unfold instant in *. cbn [sec nsec frac] in *. lia. }
      apply in_map_iff. exists c. split; [reflexivity|]. apply filter_In. split; [exact H|]. apply andb_true_iff. split.
      + unfold correctable, is_sys. destruct (k_key c); [|congruence]. cbn. destruct (k_kind c); auto. destruct Kd as [Kd|Kd]; [congruence|exact Kd].
      + unfold refused. rewrite (ready_dev c (D c H)), Ro. apply Z.ltb_ge in Bl. rewrite Bl. reflexivity. }
  destruct t; [congruence| |].
  - destruct (X (mkTs (-1) 0 0)) as (w' & E). unfold leap_now. rewrite E. cbn [bind fst snd]. do 2 eexists. split; [reflexivity|]. apply Fin; reflexivity.
  - destruct (X (mkTs 1 0 0)) as (w' & E). unfold leap_now. rewrite E. cbn [bind fst snd]. do 2 eexists. split; [reflexivity|]. apply Fin; reflexivity.
Qed.
Print Assumptions C74_leap_now.
Example C74_leap_now_case : exists e0 w0 evs w, after start = Some (e0, w0) /\ leap_now g0 L_61 (fun _ => 0) w0 = Some (0, evs, w) /\
  evs = [Step (Some 2) (mkTs (-1) 0 0); Step (Some 1) (mkTs (-1) 0 0)].
Proof. do 4 eexists. split; [vm_compute; reflexivity|]. split; [vm_compute; reflexivity|]. reflexivity. Qed.

(** Sync status: a Solarflare or Xilinx adapter is told, unless its clock is read-only; once it
    says it cannot be told it is not asked again until it is found anew; for the system clock the
    bit "not synchronised" follows when the RTC is kept. *)
Theorem C74_sync : forall g k b tm os w c, get k w = Some c -> k_ro c = false ->
  (k_key c <> None -> k_kind c <> OTHER -> k_sync c = true -> exists w', sync_status g k b tm os w = Some (os, [SyncStatus k b tm], w') /\
     (os = EOPNOTSUPP -> forall b2 tm2 os2, sync_status g k b2 tm2 os2 w' = Some (EOPNOTSUPP, [], w'))) /\
  (k_key c <> None -> k_kind c = OTHER -> sync_status g k b tm os w = Some (ENOSYS, [], w)) /\
  (k_key c = None -> g_rtc g = false -> sync_status g k b tm os w = Some (ENOSYS, [], w)) /\
  (k_key c = None -> g_rtc g = true -> exists w' c', sync_status g k b tm os w = Some (0, [], w') /\ get k w' = Some c' /\
     Z.testbit (k_status c') 6 = negb b /\ forall n, 0 <= n -> n <> 6 -> Z.testbit (k_status c') n = Z.testbit (k_status c) n).
Proof.
  intros g k b tm os w c G R. unfold sync_status. rewrite G. cbn [bind]. rewrite R. unfold is_sys. split; [|split; [|split]].
  - intros K Kd Sy. destruct (k_key c) eqn:Kc; [|congruence]. cbn [andb orb]. replace (match k_kind c with OTHER => true | _ => false end) with false by (destruct (k_kind c); congruence).
    rewrite Sy. cbn [negb]. eexists. split; [reflexivity|]. intros -> b2 tm2 os2. cbn [Z.eqb EOPNOTSUPP Pos.eqb].
    assert (G2 : get k (upd k (fun c0 => set_sync c0 false) w) = Some (set_sync c false)) by (apply (get_upd k (fun c0 => set_sync c0 false)); [exact G|reflexivity]).
    rewrite G2. cbn [bind]. cbn [k_ro set_sync]. rewrite R. unfold is_sys. cbn [k_key set_sync]. rewrite Kc. cbn [andb orb k_kind k_sync set_sync negb]. replace (match k_kind c with OTHER => true | _ => false end) with false by (destruct (k_kind c); congruence). reflexivity.
  - intros K Kd. destruct (k_key c); [|congruence]. rewrite Kd. reflexivity.
  - intros K Rt. rewrite K, Rt. reflexivity.
  - intros K Rt. rewrite K, Rt. cbn [andb]. do 2 eexists. split; [reflexivity|]. split; [eapply (get_upd k (fun c0 => set_status c0 _)); [exact G|reflexivity]|]. cbn [k_status set_status]. split.
    + destruct b; cbn [negb]; [rewrite Z.land_spec; apply andb_false_r|rewrite Z.lor_spec; apply orb_true_r].
    + intros n N0 N6. change UNSYNC with (2^6). destruct b.
      * rewrite Z.land_spec, Z.lnot_spec, Z.pow2_bits_eqb by lia. replace (6 =? n) with false by (symmetry; apply Z.eqb_neq; lia). apply andb_true_r.
      * rewrite Z.lor_spec, Z.pow2_bits_eqb by lia. replace (6 =? n) with false by (symmetry; apply Z.eqb_neq; lia). apply orb_false_r.
Qed.
Print Assumptions C74_sync.
Example C74_sync_case : exists evs w, after (start ++ [OSync (Some 1) true 60 EOPNOTSUPP; OSync (Some 1) false 60 0; replug; OSync (Some 1) false 60 0]) = Some (evs, w) /\
  filter (fun e => match e with SyncStatus _ _ _ => true | _ => false end) evs = [SyncStatus (Some 1) true 60; SyncStatus (Some 1) false 60].
Proof. do 2 eexists. split; [vm_compute; reflexivity|]. reflexivity. Qed.

(** Enumeration and lookup: the snapshot is the active clocks, sorted by address; first and next
    go through the active clocks in the order of the list; a name finds the first clock with it. *)
Theorem C74_lookup : forall w, NoDup (clocks w) ->
  let act := map k_key (filter (fun c => negb (k_del c)) (w_clks w)) in
  (forall addr, Permutation (snapshot addr w) act /\ StronglySorted (fun a b => addr a <= addr b) (snapshot addr w)) /\
  first_active w = hd_error act /\ total w = Z.of_nat (List.length (clocks w)) /\
  (forall p k q, act = p ++ k :: q -> next_active k (w_clks w) = hd_error q) /\
  forall n, match find_by_name n w with
    | Some k => exists p c q, w_clks w = p ++ c :: q /\ k_key c = k /\ In n (k_names c) /\ forall x, In x p -> ~ In n (k_names x)
    | None => forall c, In c (w_clks w) -> ~ In n (k_names c) end.
Proof.
  intros w ND. cbv zeta. split; [intro addr; exact (snapshot_spec addr w)|]. split; [apply find_active|]. split; [unfold total, clocks; rewrite map_length; reflexivity|]. split; [intros p k q H; eapply next_active_spec; [exact ND|exact H]|].
  intro n. exact (find_name_spec n w).
Qed.
Print Assumptions C74_lookup.
Example C74_lookup_case : exists evs w, after (start ++ [unplug]) = Some (evs, w) /\ snapshot (fun k => match k with None => 1 | Some n => 10 - n end) w = [None; Some 1] /\
  first_active w = Some (Some 1) /\ find_by_name "phc0" w = Some (Some 1).
Proof. do 2 eexists. split; [vm_compute; reflexivity|]. repeat split. Qed.
(** But no identity ever finds a clock: the comparison with zero is written inside the arguments
    of memcmp, src/sfptpd_clock.c:1348-1350. *)
Theorem C74_lookup_refuted : forall id w, find_by_hw_id id w = None.
Proof. exact hw_id_none. Qed.
Print Assumptions C74_lookup_refuted.
Example C74_lookup_refuted_case : exists evs w c, after start = Some (evs, w) /\ In c (w_clks w) /\ k_id c = [2;0;0;0;0;1;7;8] /\ find_by_hw_id [2;0;0;0;0;1;7;8] w = None.
Proof. do 3 eexists. split; [vm_compute; reflexivity|]. split; [right; left; reflexivity|]. split; reflexivity. Qed.

(** The identity of a clock: that of a MAC address, as configured; two addresses never give the
    same. *)
Theorem C74_identity : forall g m1 m2, List.length m1 = 6%nat -> List.length m2 = 6%nat -> List.length (g_unique g) = 8%nat ->
  hw_id g m1 = identity (g_legacy g) (g_unique g) m1 /\ (hw_id g m1 = hw_id g m2 -> m1 = m2).
Proof. intros g m1 m2 A B U. split; [apply hw_id_spec; assumption|apply hw_id_inj; assumption]. Qed.
Print Assumptions C74_identity.
Example C74_identity_case : hw_id g0 [2;0;0;0;0;1] = [2;0;0;0;0;1;7;8] /\ hw_id (mkConfig false [] true [] true false true true false (1#1) true [1;2;3;4;5;6;7;8]) [2;3;4;5;6;7] = [2;3;4;255;254;5;6;7].
Proof. split; reflexivity. Qed.

(** Saved corrections: what is within the limits of the clock is saved, to six decimals, and what
    is loaded is what was saved; what is not is refused, and dropped if it was in the file. *)
Theorem C74_correction : forall g six k x w c file osf, get k w = Some c -> k_spec c = true -> k_ro c = false -> k_blk c <= 0 -> is_sys c = true \/ k_phc c <> None ->
  (~ (- k_max c <= x /\ x <= k_max c)%Q -> save_correction six k x 0 file w = Some (ERANGE, file, w)) /\
  ((- k_max c <= x /\ x <= k_max c)%Q -> exists w', save_correction six k x 0 file w = Some (0, Some (six x), w') /\ exists c', get k w' = Some c' /\ k_corr c' = x) /\
  (g_persistent g = true -> (- k_max c <= x /\ x <= k_max c)%Q -> exists evs w' c', load_correction g k (Some x) osf w = Some (0, evs, w') /\ In (Freq k x) evs /\ get k w' = Some c' /\ k_corr c' = x) /\
  (g_persistent g = true -> ~ (- k_max c <= x /\ x <= k_max c)%Q -> exists evs w', load_correction g k (Some x) osf w = Some (ENODATA, evs, w') /\ In (Freq k 0%Q) evs /\ In (Unlink k) evs) /\
  (g_persistent g = false -> exists rc evs w', load_correction g k file osf w = Some (rc, evs, w') /\ In (Freq k 0%Q) evs).
Proof.
  intros g six k x w c file osf G Sp Ro Bl D.
  assert (Rf : refused c = None). { unfold refused. rewrite (ready_dev c D), Ro. replace (0 <? k_blk c) with false by (symmetry; apply Z.ltb_ge, Bl). reflexivity. }
  pose proof (outside_spec (k_max c) x) as Ou. unfold save_correction, load_correction. rewrite G. cbn [bind]. rewrite Sp. cbn [negb].
  assert (Ld : forall y, adjust_frequency g k y osf (upd k (fun c => set_corr c y) w) = Some (osf, Freq k y :: with_status g (set_corr c y), upd k (fun c => set_corr c y) w) /\ get k (upd k (fun c => set_corr c y) w) = Some (set_corr c y)).
  { intro y. assert (X : get k (upd k (fun c => set_corr c y) w) = Some (set_corr c y)) by (apply (get_upd k (fun c => set_corr c y)); [exact G|reflexivity]). split; [|exact X].
    unfold adjust_frequency. rewrite X. cbn [bind]. replace (refused (set_corr c y)) with (@None Z) by (symmetry; exact Rf). reflexivity. }
  split; [|split; [|split; [|split]]].
  - intro N. destruct (outside (k_max c) x); [reflexivity|]. destruct N. apply Ou. reflexivity.
  - intro N. apply Ou in N. rewrite N. cbn [Z.eqb]. eexists. split; [reflexivity|]. eexists. split; [apply Ld|reflexivity].
  - intros P N. apply Ou in N. rewrite P, N. rewrite (proj1 (Ld x)). cbn [bind]. do 3 eexists. split; [reflexivity|]. split; [left; reflexivity|]. split; [apply Ld|reflexivity].
  - intros P N. rewrite P. destruct (outside (k_max c) x) eqn:E; [|destruct N; apply Ou; reflexivity]. rewrite (proj1 (Ld 0%Q)). cbn [bind]. do 2 eexists. split; [reflexivity|]. split; [right; left; reflexivity|left; reflexivity].
  - intro P. rewrite P. destruct (outside (k_max c) 0); rewrite (proj1 (Ld 0%Q)); cbn [bind]; do 3 eexists; (split; [reflexivity|]); [right; left; reflexivity|left; reflexivity].
Qed.
Print Assumptions C74_correction.
Example C74_correction_case : exists evs w, after start = Some (evs, w) /\ In (Freq (Some 1) (5#1)) evs /\
  save_correction (fun q => q) (Some 1) (600000#1) 0 (Some (5#1)) w = Some (ERANGE, Some (5#1), w).
Proof. do 2 eexists. split; [vm_compute; reflexivity|]. split; [cbn; auto 20|vm_compute; reflexivity]. Qed.
