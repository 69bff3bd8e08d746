(** C71: a PTP interface follows its bond: interface, timestamps, servos, alarms. *)
Require Import ZArith List Bool Lia Arith.
Require Import Verif.Base Verif.ListLib Verif.PtiSpec Verif.PtiModel Verif.PtiProof Verif.PtiProof2 Verif.PtiProof3 Verif.PtiProps.
Require Import Verif.PbcSpec Verif.PbcModel Verif.PbcProof Verif.PbcProof2.
Import ListNotations.
Open Scope Z_scope.

(** The bond is gone: no error, nothing is changed, all ports have the alarm.  (A comment at 1741 says it is
    fatal.) *)
Theorem C71_missing : forall w net en t x, short (b_bond (i_bond x)) -> (forall l, In l t -> l_name l <> b_bond (i_bond x)) ->
  exists y, handle w net en t x = Some (0, false, [], y) /\ i_bond y = i_bond x /\ i_ts y = i_ts x /\
    Forall2 (fun p q => pt_phys q = pt_phys p /\ pt_clock q = pt_clock p /\ pt_alarm q = true) (i_ports x) (i_ports y).
Proof.
  intros w net en t x Sh N. unfold handle. pose proof (link_by_name_spec t _ Sh) as L. destruct (link_by_name t (b_bond (i_bond x))) as [l|]; [destruct (last_such_in _ _ _ _ L) as [I E]; exfalso; exact (N l I E)|].
  eexists. split; [reflexivity|]. cbn [i_bond i_ts i_ports]. split; [reflexivity|]. split; [reflexivity|].
  eapply Forall2_impl; [|apply alarm_ports]. cbn. tauto.
Qed.
Print Assumptions C71_missing.
Definition x_info md act : binfo := match topology e_w 1 (e_t md act) (e_name 3) zero_info with Some r => snd r | None => zero_info end.
Definition x_port phys := mkPt phys (match phys with Some i => i | None => 0%nat end) 0 Auto false.
Definition x_st md act ts phys := mkI (x_info md act) ts Own (map x_port phys).
Definition yes (_ : nat) := true.
Example C71_missing_ex : exists y, handle e_w yes yes [e_plain 1 0 true] (x_st Lacp 0 Hw [Some 2%nat]) = Some (0, false, [], y) /\ map pt_alarm (i_ports y) = [true].
Proof. eexists. split; vm_compute; reflexivity. Qed.

(** A link of that name that can no longer be used, because of its mode or because the kind of timestamps asked for
    is impossible: an error, and nothing is changed but the alarms. *)
Theorem C71_refused : forall w net en t x l prc nb, short (b_bond (i_bond x)) -> named t (b_bond (i_bond x)) l -> probe w t l (i_bond x) = Some (prc, nb) ->
  (prc <> 0 -> prc <> ENOENT -> prc <> ENODEV -> exists y, handle w net en t x = Some (5, false, [], y) /\ i_bond y = i_bond x /\ i_ts y = i_ts x /\ Forall (fun p => pt_alarm p = true) (i_ports y)) /\
  (prc = 0 \/ prc = ENOENT \/ prc = ENODEV -> fst (determine w (map pt_pref (i_ports x)) (b_active nb)) <> 0 ->
     exists y, handle w net en t x = Some (fst (determine w (map pt_pref (i_ports x)) (b_active nb)), false, [], y) /\ i_bond y = i_bond x /\ i_ts y = i_ts x /\ Forall (fun p => pt_alarm p = true) (i_ports y)).
Proof.
  intros w net en t x l prc nb Sh N P. unfold handle. rewrite (link_by_name_of _ _ _ Sh N), P. cbn [bind].
  assert (Al : forall ps, Forall (fun p => pt_alarm p = true) (map (with_alarm true) ps)) by (induction ps; constructor; auto).
  split.
  - intros N1 N2 N3. apply Z.eqb_neq in N1, N2, N3. rewrite N1, N2, N3. cbn [negb andb]. eexists. split; [reflexivity|]. split; [reflexivity|]. split; [reflexivity|apply Al].
  - intros R D. replace (negb (prc =? 0) && negb (prc =? ENOENT) && negb (prc =? ENODEV)) with false by (destruct R as [-> |[-> | ->]]; reflexivity).
    pose proof (determine_ok w (map pt_pref (i_ports x)) (b_active nb)) as DO.
    destruct (determine w (map pt_pref (i_ports x)) (b_active nb)) as [rc2 nts] eqn:Dt. cbn [fst] in *. apply Z.eqb_neq in D. rewrite D. cbn [negb].
    assert (RE : (rc2 =? ENOENT) = false).
    { apply Z.eqb_neq. intros ->. unfold determine in Dt. destruct (existsb _ _ && existsb _ _); [discriminate|]. destruct (existsb _ _ && _); [discriminate|]. destruct (existsb _ _ && _); discriminate. }
    eexists. split; [unfold finish; rewrite RE, D; cbn [andb negb]; reflexivity|]. split; [reflexivity|]. split; [reflexivity|apply Al].
Qed.
Print Assumptions C71_refused.
Example C71_refused_ex : exists y, handle e_w yes yes (e_t OtherMode 0) (x_st Lacp 0 Hw [Some 2%nat]) = Some (5, false, [], y).
Proof. eexists. vm_compute. reflexivity. Qed.

(** After a change without error the kind of timestamps is that of the active interface of the bond. *)
Theorem C71_kind : forall w net en t x ch e y, handle w net en t x = Some (0, ch, e, y) -> short (b_bond (i_bond x)) -> (exists l, named t (b_bond (i_bond x)) l) -> i_ports x <> [] ->
  (i_ts y = Hw <-> stamps w (b_active (i_bond y)) /\ ~ In WantSw (map pt_pref (i_ports x))).
Proof.
  intros w net en t x ch e y H Sh [l N] NP. destruct (handle_cases _ _ _ _ _ _ _ _ _ H) as [(_ & _ & _ & [[L _]|[_ R]])|(l' & prc & nb & nts & L & P & _ & D & C)].
  - rewrite (link_by_name_of _ _ _ Sh N) in L. discriminate.
  - congruence.
  - cbv zeta in C. destruct C as (_ & _ & _ & ->). cbn [i_ts i_bond]. rewrite each_ts. replace (match i_ports x with [] => i_ts x | _ => nts end) with nts by (destruct (i_ports x); congruence).
    destruct (determine_ok w (map pt_pref (i_ports x)) (b_active nb)) as (D1 & D2 & D3 & D4 & D5). rewrite D in *. cbn [fst] in *.
    destruct (want_iff (map pt_pref (i_ports x))) as [Wi _].
    set (sw := existsb _ (map pt_pref (i_ports x))) in Wi.
    assert (Sdec : In WantSw (map pt_pref (i_ports x)) \/ ~ In WantSw (map pt_pref (i_ports x))) by (destruct sw; [left; apply Wi; reflexivity|right; intros Q; apply Wi in Q; discriminate]).
    destruct (want_iff (map pt_pref (i_ports x))) as [_ Wh]. set (hw := existsb _ (map pt_pref (i_ports x))) in Wh.
    assert (Hdec : In WantHw (map pt_pref (i_ports x)) \/ ~ In WantHw (map pt_pref (i_ports x))) by (destruct hw; [left; apply Wh; reflexivity|right; intros Q; apply Wh in Q; discriminate]).
    assert (Tdec : stamps w (b_active nb) \/ ~ stamps w (b_active nb)).
    { unfold stamps. destruct (b_active nb) as [i|]; [|right; intros (j & Q & _); discriminate]. destruct (w_ptp w i) eqn:E; [left; exists i; auto|right; intros (j & Q & Z0); injection Q as <-; congruence]. }
    split.
    + intros ->. destruct Sdec as [S1|S1]; destruct Hdec as [S2|S2]; destruct Tdec as [S3|S3]; try (split; assumption); exfalso.
      * specialize (D1 S2 S1). discriminate. 
      * specialize (D1 S2 S1). discriminate.
      * specialize (D4 S2 (or_introl S1)). discriminate.
      * specialize (D4 S2 (or_introl S1)). discriminate.
      * specialize (D2 S2 S1 S3). discriminate.
      * specialize (D4 S2 (or_intror S3)). discriminate.
    + intros [S3 S1]. destruct Hdec as [S2|S2]; [specialize (D3 S2 S1 S3)|specialize (D5 S2 S1 S3)]; congruence.
Qed.
Print Assumptions C71_kind.
Example C71_kind_ex : exists ch e y, handle e_w yes yes (e_t ActiveBackup 1) (x_st ActiveBackup 2 Hw [Some 2%nat; Some 1%nat]) = Some (0, ch, e, y) /\ i_ts y = Sw.
Proof. eexists _, _, _. split; vm_compute; reflexivity. Qed.
(** "Hardware timestamps are used on an interface that can make them" is false: the kind is that of the active
    interface of the bond, the ports may use another. *)
Theorem C71_kind_interface_refuted : exists w t x e y p i, handle w yes yes t x = Some (0, true, e, y) /\ i_ts y = Hw /\ In p (i_ports y) /\ pt_phys p = Some i /\ w_ptp w i = false.
Proof.
  exists e_w, (e_t Lacp 0), (mkI (x_info Lacp 0) Sw Own [mkPt (Some 2%nat) 2 1 Auto false]). eexists _, _, _, 1%nat. split; [vm_compute; reflexivity|]. split; [vm_compute; reflexivity|]. split; [left; vm_compute; reflexivity|]. split; vm_compute; reflexivity.
Qed.
Print Assumptions C71_kind_interface_refuted.

(** The interface of each port is the one chosen in the set of before the change. *)
Theorem C71_choice : forall w net en t x rc ch e y, handle w net en t x = Some (rc, ch, e, y) ->
  Forall2 (fun p q => pt_last q = pt_last p /\ pt_pref q = pt_pref p) (i_ports x) (i_ports y) /\
  (Forall2 (fun p q => pt_phys q = pt_phys p) (i_ports x) (i_ports y) /\ i_bond y = i_bond x \/
   Forall2 (fun p q => pt_phys q = active_intf w (pt_last p) (pt_clock p) (i_bond x)) (i_ports x) (i_ports y)) /\
  Forall2 (fun p q => pt_phys q <> pt_phys p -> pt_clock q = match pt_phys q with Some i => w_clock w i | None => 0%nat end) (i_ports x) (i_ports y).
Proof.
  intros w net en t x rc ch e y H. destruct (handle_cases _ _ _ _ _ _ _ _ _ H) as [(_ & _ & -> & _)|(l' & prc & nb & nts & L & P & _ & D & C)].
  - cbn [i_ports i_bond]. split; [|split; [left; split; [|reflexivity]|]]; (eapply Forall2_impl; [|apply alarm_ports]; cbn; tauto).
  - cbv zeta in C. destruct C as (_ & _ & _ & ->). cbn [i_ports i_bond].
    pose proof (each_ports w net (i_bond x) nts (negb (eqts nts (i_ts x))) (i_ports x) 0 (i_ts x) 0) as F.
    set (o := each w net (i_bond x) nts (negb (eqts nts (i_ts x))) 0 (i_ports x) (i_ts x) 0) in *. clearbody o.
    assert (G : Forall2 (moved w (i_bond x)) (i_ports x) (lp_ports o) -> forall a (R : port -> port -> Prop), (forall p q, moved w (i_bond x) p q -> R p (with_alarm a q)) -> Forall2 R (i_ports x) (map (with_alarm a) (lp_ports o))).
    { clear. intros F a R HR. induction F; constructor; auto. }
    split; [|split; [right|]]; apply (G F); intros p q (M1 & M2 & M3 & M4 & M5); cbn; auto.
Qed.
Print Assumptions C71_choice.
(** "After a change the ports use interfaces of the bond" is false: the interface stays one that left. *)
Theorem C71_choice_refuted : exists w t x e y p, handle w yes yes t x = Some (0, false, e, y) /\ In p (i_ports y) /\ pt_phys p = Some 2%nat /\ map p_intf (set_of (i_bond y)) = [Some 1%nat].
Proof.
  exists (mkW (w_index e_w) (w_name e_w) (w_deleted e_w) (w_text e_w) (w_ifindex e_w) (w_clock e_w) (fun _ => true) (fun _ => true) (w_link e_w)), [e_plain 1 3 true; e_plain 2 0 true; e_bond Lacp 0], (x_st Lacp 0 Hw [Some 2%nat]). eexists _, _, _. split; [vm_compute; reflexivity|]. split; [left; vm_compute; reflexivity|]. split; vm_compute; reflexivity.
Qed.
Print Assumptions C71_choice_refuted.
(** What holds: after the table is handled once more, the ports use interfaces of the set found the first time
    (none if it was empty). *)
Theorem C71_settles_partial : forall w net en t x ch e y w' net' t' ch' e' z p,
  handle w net en t x = Some (0, ch, e, y) -> handle w' net' en t' y = Some (0, ch', e', z) ->
  short (b_bond (i_bond y)) -> (exists l, named t' (b_bond (i_bond y)) l) -> In p (i_ports z) ->
  (set_of (i_bond y) = [] -> pt_phys p = None) /\ (set_of (i_bond y) <> [] -> exists q, In q (set_of (i_bond y)) /\ pt_phys p = p_intf q).
Proof.
  intros w net en t x ch e y w' net' t' ch' e' z p _ H Sh [l N] I. destruct (handle_cases _ _ _ _ _ _ _ _ _ H) as [(_ & _ & _ & [[L _]|[_ R]])|(l' & prc & nb & nts & L & P & _ & D & C)].
  - rewrite (link_by_name_of _ _ _ Sh N) in L. discriminate.
  - congruence.
  - cbv zeta in C. destruct C as (_ & _ & _ & ->). cbn [i_ports] in I. apply in_map_iff in I as (q & <- & I).
    pose proof (each_ports w' net' (i_bond y) nts (negb (eqts nts (i_ts y))) (i_ports y) 0 (i_ts y) 0) as F.
    apply In_nth_error in I as [k Ik]. pose proof (Forall2_len _ _ _ _ _ F) as Ln. destruct (nth_error (i_ports y) k) as [p0|] eqn:E0.
    + pose proof (Forall2_nth _ _ _ _ _ F k p0 q E0 Ik) as (M & _). cbn [pt_phys with_alarm]. rewrite M. apply select_member.
    + apply nth_error_None in E0. assert (nth_error (lp_ports (each w' net' (i_bond y) nts (negb (eqts nts (i_ts y))) 0 (i_ports y) (i_ts y) 0)) k <> None) as X by congruence. apply nth_error_Some in X. lia.
Qed.
Print Assumptions C71_settles_partial.
Example C71_settles_ex : exists ch e y ch' e' z, let t := [e_plain 1 3 true; e_plain 2 0 true; e_bond Lacp 0] in
  handle e_w yes yes t (x_st Lacp 0 Hw [Some 2%nat]) = Some (0, ch, e, y) /\ map pt_phys (i_ports y) = [Some 2%nat] /\
  handle e_w yes yes t y = Some (0, ch', e', z) /\ map pt_phys (i_ports z) = [Some 1%nat].
Proof. eexists _, _, _, _, _, _. cbv zeta. split; [vm_compute; reflexivity|]. split; [vm_compute; reflexivity|]. split; vm_compute; reflexivity. Qed.

(** The servo of a port is told to steer a clock exactly if its interface changed, and that of the new interface. *)
Theorem C71_steer : forall w net en t x rc ch e y k c, handle w net en t x = Some (rc, ch, e, y) ->
  (In (Steer k c) e <-> exists p q, nth_error (i_ports x) k = Some p /\ nth_error (i_ports y) k = Some q /\ pt_phys q <> pt_phys p /\ c = match pt_phys q with Some i => w_clock w i | None => 0%nat end).
Proof.
  intros w net en t x rc ch e y k c H. destruct (handle_cases _ _ _ _ _ _ _ _ _ H) as [(_ & -> & -> & _)|(l' & prc & nb & nts & L & P & _ & D & C)].
  - cbn [i_ports In]. split; [intros []|]. intros (p & q & E1 & E2 & N & _). rewrite nth_error_map, E1 in E2. cbn in E2. injection E2 as <-. cbn in N. congruence.
  - cbv zeta in C. destruct C as (_ & _ & -> & ->). cbn [i_ports]. rewrite in_app_iff. split.
    + intros [I|I].
      * apply each_effs in I. destruct I as (p & q & _ & E1 & E2 & N & ->). rewrite Nat.sub_0_r in *. exists p, (with_alarm (negb ((lp_rc (each w net (i_bond x) nts (negb (eqts nts (i_ts x))) 0 (i_ports x) (i_ts x) 0) =? 0) && negb (b_num nb =? 0)%nat)) q).
        split; [exact E1|]. split; [rewrite nth_error_map, E2; reflexivity|]. cbn [pt_phys with_alarm]. split; [exact N|].
        pose proof (Forall2_nth _ _ _ _ _ (each_ports w net (i_bond x) nts (negb (eqts nts (i_ts x))) (i_ports x) 0 (i_ts x) 0) k p q E1 E2) as (_ & _ & _ & _ & M). apply (M N).
      * destruct (_ || _ || _); [|destruct I]. unfold reconfigure in I. apply in_app_or in I. destruct I as [I|I]; apply in_flat_map in I as (p & _ & I); destruct (p_intf p); try (destruct I; fail).
        -- destruct (existsb _ _); [destruct I|]. destruct (w_deleted w n); [destruct I|]. destruct (is_hw _ _ _); [|destruct I]. destruct I as [I|[]]. discriminate.
        -- destruct (is_hw _ _ _); [|destruct I]. unfold configure in I. destruct (en n); destruct I as [I|[]]; discriminate.
    + intros (p & q & E1 & E2 & N & ->). left. rewrite nth_error_map in E2. destruct (nth_error (lp_ports _) k) as [q'|] eqn:E3; [|discriminate]. cbn in E2. injection E2 as <-. cbn [pt_phys with_alarm] in *.
      pose proof (Forall2_nth _ _ _ _ _ (each_ports w net (i_bond x) nts (negb (eqts nts (i_ts x))) (i_ports x) 0 (i_ts x) 0) k p q' E1 E3) as (_ & _ & _ & _ & M).
      pose proof (each_steers w net (i_bond x) nts (negb (eqts nts (i_ts x))) (i_ports x) 0 (i_ts x) 0 k p q' E1 E3 N) as G. cbn [plus] in G. rewrite (M N) in G. exact G.
Qed.
Print Assumptions C71_steer.
Example C71_steer_ex : exists ch e y, handle e_w yes yes (e_t Lacp 0) (x_st Lacp 0 Hw [Some 2%nat; Some 1%nat]) = Some (0, ch, e, y) /\ In (Steer 1 2) e.
Proof. eexists _, _, _. split; [vm_compute; reflexivity|]. vm_compute. auto. Qed.
(** Full statement, false (below): if the kind of timestamps changes every servo of the interface is reset.  The
    first is; the others are not, nor any if the kind stays. *)
Theorem C71_reset_partial : forall w net en t x rc ch e y k, handle w net en t x = Some (rc, ch, e, y) -> (In (Reset k) e <-> i_ts y <> i_ts x /\ k = 0%nat /\ i_ports x <> []).
Proof.
  intros w net en t x rc ch e y k H. destruct (handle_cases _ _ _ _ _ _ _ _ _ H) as [(_ & -> & -> & _)|(l' & prc & nb & nts & L & P & _ & D & C)].
  - cbn [i_ts In]. tauto.
  - cbv zeta in C. destruct C as (_ & _ & -> & ->). cbn [i_ts]. rewrite each_ts, in_app_iff. split.
    + intros [I|I].
      * destruct (eqts nts (i_ts x)) eqn:E.
        -- apply eqts_iff in E. subst nts. apply each_no_reset in I. destruct I.
        -- pose proof (each_effs _ _ _ _ _ _ _ _ _ _ I eq_refl) as [-> NE]. destruct (i_ports x) eqn:EP; [destruct I|]. repeat split; congruence.
      * exfalso. destruct (_ || _ || _); [|destruct I]. unfold reconfigure in I. apply in_app_or in I. destruct I as [I|I]; apply in_flat_map in I as (p & _ & I); destruct (p_intf p); try (destruct I; fail).
        -- destruct (existsb _ _); [destruct I|]. destruct (w_deleted w n); [destruct I|]. destruct (is_hw _ _ _); [|destruct I]. destruct I as [I|[]]. discriminate.
        -- destruct (is_hw _ _ _); [|destruct I]. unfold configure in I. destruct (en n); destruct I as [I|[]]; discriminate.
    + intros (NE & -> & NP). left. destruct (i_ports x) as [|p ps] eqn:EP; [congruence|]. destruct (eqts nts (i_ts x)) eqn:E; [apply eqts_iff in E; congruence|]. cbn [negb].
      apply each_reset_first; [congruence|discriminate].
Qed.
Print Assumptions C71_reset_partial.
Theorem C71_reset_refuted : exists w t x e y, handle w yes yes t x = Some (0, true, e, y) /\ i_ts x = Hw /\ i_ts y = Sw /\ List.length (i_ports y) = 2%nat /\ ~ In (Reset 1) e.
Proof.
  exists e_w, (e_t ActiveBackup 1), (x_st ActiveBackup 2 Hw [Some 2%nat; Some 2%nat]). eexists _, _. split; [vm_compute; reflexivity|]. split; [vm_compute; reflexivity|]. split; [vm_compute; reflexivity|]. split; [vm_compute; reflexivity|].
  cbn. intros H. repeat (destruct H as [H|H]; [discriminate|]). destruct H.
Qed.
Print Assumptions C71_reset_refuted.

(** Whatever the history of link tables, while hardware timestamps are used timestamping is on for every interface of
    the set that can make them, provided it can be switched on. *)
Theorem C71_stamps_on : forall en h w x s e y, i_ports x <> [] -> (forall j, en j = true) -> (forall v, In v h -> w_ptp (v_w v) = w_ptp w) ->
  run en h x = Some (e, y) -> (i_ts x = Hw -> forall i, has (set_of (i_bond x)) i -> w_ptp w i = true -> s i = true) ->
  i_ts y = Hw -> forall i, has (set_of (i_bond y)) i -> w_ptp w i = true -> stamping s e i = true.
Proof. intros en h w x s e y A B C D L. exact (run_lit en h w x s e y A B C D L). Qed.
Print Assumptions C71_stamps_on.
Example C71_stamps_on_ex : exists e y, run yes [mkEnv e_w yes (e_t ActiveBackup 1); mkEnv e_w yes (e_t ActiveBackup 2)] (x_st ActiveBackup 1 Sw [Some 1%nat]) = Some (e, y) /\ i_ts y = Hw /\ In (On 2) e.
Proof. eexists _, _. split; [vm_compute; reflexivity|]. split; [vm_compute; reflexivity|]. vm_compute. auto 20. Qed.
(** Full statement, false (below): timestamping is switched off on interfaces that leave.  It is, if hardware
    timestamps are still used then. *)
Theorem C71_removed_partial : forall w net en t x rc ch e y s i, (forall j, en j = true) -> i_ports x <> [] -> handle w net en t x = Some (rc, ch, e, y) -> i_ts y = Hw ->
  has (set_of (i_bond x)) i -> ~ has (set_of (i_bond y)) i -> w_deleted w i = false -> w_ptp w i = true -> stamping s e i = false.
Proof.
  intros w net en t x rc ch e y s i En NP H T Hx Ny Dl Pt. destruct (handle_cases _ _ _ _ _ _ _ _ _ H) as [(_ & _ & -> & _)|(l' & prc & nb & nts & L & P & _ & D & C)]; [contradiction|].
  cbv zeta in C. destruct C as (_ & _ & -> & ->). cbn [i_ts i_bond] in *. rewrite stamping_app. rewrite (stamping_none (lp_effs _)) by (intros e' I'; apply each_effs in I'; destruct e'; auto).
  destruct (_ || _ || _) eqn:X.
  - apply stamping_off; [rewrite reconf_on; tauto|right; apply reconf_off; auto].
  - apply orb_false_iff in X as [X _]. apply orb_false_iff in X as [X _]. apply set_changed_false in X as [_ X]. exfalso. rewrite X in Ny. contradiction.
Qed.
Print Assumptions C71_removed_partial.
Example C71_removed_ex : exists ch e y, handle e_w yes yes [e_plain 1 0 true; e_plain 2 3 true; e_bond Lacp 0] (x_st Lacp 0 Hw [Some 2%nat]) = Some (0, ch, e, y) /\ i_ts y = Hw /\ map p_intf (set_of (i_bond y)) = [Some 2%nat].
Proof. eexists _, _, _. repeat (match goal with |- _ /\ _ => split end); vm_compute; reflexivity. Qed.
Theorem C71_removed_refuted : exists w t x e y, handle w yes yes t x = Some (0, true, e, y) /\ w_ptp w 2 = true /\ has (set_of (i_bond x)) 2 /\ ~ has (set_of (i_bond y)) 2 /\
  w_deleted w 2 = false /\ forall s, s 2%nat = true -> stamping s e 2 = true.
Proof.
  exists e_w, [e_plain 1 3 true; e_plain 2 0 true; e_bond Lacp 0], (x_st Lacp 0 Hw [Some 2%nat]). eexists _, _. split; [vm_compute; reflexivity|]. split; [vm_compute; reflexivity|].
  split; [exists (mkP (Some 2%nat) true false true); split; [vm_compute; auto|reflexivity]|]. split; [intros (p & I & E); vm_compute in I; destruct I as [<-|[]]; discriminate|]. split; [reflexivity|]. intros s Hs. exact Hs.
Qed.
Print Assumptions C71_removed_refuted.

(** The alarm is the same for all ports.  It is set if an error is returned, if the bond is gone and if the set is
    empty, ... *)
Theorem C71_alarm : forall w net en t x rc ch e y p, handle w net en t x = Some (rc, ch, e, y) -> In p (i_ports y) ->
  (forall q, In q (i_ports y) -> pt_alarm q = pt_alarm p) /\
  (rc <> 0 -> pt_alarm p = true) /\
  (short (b_bond (i_bond x)) -> (forall l, In l t -> l_name l <> b_bond (i_bond x)) -> pt_alarm p = true) /\
  (b_num (i_bond y) = 0%nat -> pt_alarm p = true).
Proof.
  intros w net en t x rc ch e y p H I. destruct (handle_cases _ _ _ _ _ _ _ _ _ H) as [(_ & _ & -> & _)|(l' & prc & nb & nts & L & P & _ & D & C)].
  - cbn [i_ports] in *. assert (A : forall q, In q (map (with_alarm true) (i_ports x)) -> pt_alarm q = true) by (intros q Iq; apply in_map_iff in Iq as (q0 & <- & _); reflexivity).
    rewrite (A p I). auto.
  - cbv zeta in C. destruct C as (R & _ & _ & ->). cbn [i_ports i_bond] in *. set (o := each _ _ _ _ _ _ _ _ _) in *. set (a := negb ((lp_rc o =? 0) && negb (b_num nb =? 0)%nat)) in *.
    assert (A : forall q, In q (map (with_alarm a) (lp_ports o)) -> pt_alarm q = a) by (intros q Iq; apply in_map_iff in Iq as (q0 & <- & _); reflexivity).
    rewrite (A p I). split; [exact A|]. split; [|split].
    + intros N. unfold a. destruct (lp_rc o =? 0) eqn:Z0; [|reflexivity]. apply Z.eqb_eq in Z0. rewrite Z0 in R. cbn in R. congruence.
    + intros Sh N. pose proof (link_by_name_spec t _ Sh) as S0. rewrite L in S0. destruct (last_such_in _ _ _ _ S0) as [I0 E0]. exfalso. exact (N _ I0 E0).
    + intros Z0. unfold a. rewrite Z0. apply Bool.negb_true_iff, andb_false_r.
Qed.
Print Assumptions C71_alarm.
Example C71_alarm_ex : exists ch e y, handle e_w yes yes [e_bond Lacp 0] (x_st Lacp 0 Sw [Some 1%nat]) = Some (0, ch, e, y) /\ map pt_alarm (i_ports y) = [true].
Proof. eexists _, _, _. split; vm_compute; reflexivity. Qed.
(** ... but "a port without the alarm has an interface" is false: when members come back the choice is made in the
    empty set of before, *)
Theorem C71_alarm_interface_refuted : exists w t x e y p, handle w yes yes t x = Some (0, false, e, y) /\ In p (i_ports y) /\ pt_phys p = None /\ pt_alarm p = false.
Proof.
  exists e_w, [e_plain 1 3 true; e_bond Lacp 0], (mkI (mkB (e_name 3) (e_name 3) Lacp false 0 (repeat zero_phys 16) None) Sw Own [mkPt None 0 0 Auto true]). eexists _, _, _. split; [vm_compute; reflexivity|]. split; [left; vm_compute; reflexivity|]. split; vm_compute; reflexivity.
Qed.
Print Assumptions C71_alarm_interface_refuted.
(** and "an error opening sockets is reported" is false: only that of the last port is; ports are made faulty
    without alarm or error. *)
Theorem C71_open_error_refuted : exists w net t x e y, handle w net yes t x = Some (0, true, e, y) /\ In Faulty e /\ Forall (fun p => pt_alarm p = false) (i_ports y).
Proof.
  exists e_w, (fun k => negb (k =? 0)%nat), (e_t Lacp 0), (x_st Lacp 0 Hw [Some 1%nat; Some 2%nat]). eexists _, _. split; [vm_compute; reflexivity|]. split; [vm_compute; auto 10|repeat constructor].
Qed.
Print Assumptions C71_open_error_refuted.

(** The transport's pointer to the description of the bond ends up at a variable that is gone exactly if some port
    was changed, now or before: "the description the transport reads is valid" is false after any change. *)
Theorem C71_pointer : forall w net en t x rc ch e y, handle w net en t x = Some (rc, ch, e, y) -> (i_bp y = Dead <-> i_bp x = Dead \/ ch = true).
Proof.
  intros w net en t x rc ch e y H. destruct (handle_cases _ _ _ _ _ _ _ _ _ H) as [(-> & _ & -> & _)|(l' & prc & nb & nts & L & P & _ & D & C)].
  - cbn [i_bp]. intuition discriminate.
  - cbv zeta in C. destruct C as (_ & -> & _ & ->). cbn [i_bp]. destruct (lp_changed _); intuition discriminate.
Qed.
Print Assumptions C71_pointer.
Theorem C71_pointer_refuted : exists w t x e y, handle w yes yes t x = Some (0, true, e, y) /\ i_bp x = Own /\ i_bp y = Dead /\ In (Open 2) e.
Proof. exists e_w, (e_t Lacp 0), (x_st Lacp 0 Hw [Some 1%nat]). eexists _, _. split; [vm_compute; reflexivity|]. split; [reflexivity|]. split; [reflexivity|]. vm_compute. auto 10. Qed.
Print Assumptions C71_pointer_refuted.

(** A table that changes nothing: if the set found, the kind of timestamps and the choice of each port are as
    before, nothing is done. *)
Theorem C71_quiet : forall w net en t x l prc nb, short (b_bond (i_bond x)) -> named t (b_bond (i_bond x)) l -> probe w t l (i_bond x) = Some (prc, nb) -> prc = 0 \/ prc = ENOENT \/ prc = ENODEV ->
  b_num nb = b_num (i_bond x) -> set_of nb = set_of (i_bond x) -> determine w (map pt_pref (i_ports x)) (b_active nb) = (0, i_ts x) ->
  Forall (fun p => active_intf w (pt_last p) (pt_clock p) (i_bond x) = pt_phys p) (i_ports x) ->
  exists y, handle w net en t x = Some (0, false, [], y) /\ i_bp y = i_bp x /\ i_ts y = i_ts x /\ map pt_phys (i_ports y) = map pt_phys (i_ports x).
Proof.
  intros w net en t x l prc nb Sh N P R B1 B2 D F. unfold handle. rewrite (link_by_name_of _ _ _ Sh N), P. cbn [bind].
  replace (negb (prc =? 0) && negb (prc =? ENOENT) && negb (prc =? ENODEV)) with false by (destruct R as [-> |[-> | ->]]; reflexivity). rewrite D. cbn [negb Z.eqb].
  replace (eqts (i_ts x) (i_ts x)) with true by (destruct (i_ts x); reflexivity). cbn [negb].
  rewrite (proj2 (set_changed_false nb (i_bond x)) (conj B1 B2)).
  assert (E : forall ps k, Forall (fun p => active_intf w (pt_last p) (pt_clock p) (i_bond x) = pt_phys p) ps -> each w net (i_bond x) (i_ts x) false k ps (i_ts x) 0 = mkLp ps (i_ts x) 0 false false []).
  { induction ps as [|p ps IH]; intros k Fp; [reflexivity|]. inversion Fp as [|? ? E Fr]; subst. cbn [each]. rewrite E. replace (eqo (pt_phys p) (pt_phys p)) with true by (symmetry; apply eqo_iff; reflexivity). cbn [negb orb]. rewrite IH by exact Fr. reflexivity. }
  rewrite (E _ 0%nat F). cbn [lp_active lp_changed lp_effs lp_rc lp_ports lp_ts orb app]. eexists. split; [reflexivity|]. cbn [i_bp i_ts i_ports]. split; [reflexivity|]. split; [reflexivity|]. rewrite map_map. reflexivity.
Qed.
Print Assumptions C71_quiet.
Example C71_quiet_ex : exists y, handle e_w yes yes (e_t Lacp 0) (x_st Lacp 0 Hw [Some 2%nat]) = Some (0, false, [], y).
Proof. eexists. vm_compute. reflexivity. Qed.

(** A link table: interfaces are handled in order up to the first with an error, with which the thread ends.  The
    table is given back exactly if there was none: "every table is given back" is false. *)
Theorem C71_table : forall w net en t l k rc rel es ys, on_table w net en t k l = Some (rc, rel, es, ys) ->
  List.length ys = List.length l /\ (rel = true <-> rc = 0) /\
  exists n, (n <= List.length l)%nat /\ (rc = 0 -> n = List.length l) /\ List.length es = (if rc =? 0 then n else S n) /\
    (forall j x, (j < n)%nat -> nth_error l j = Some x -> exists ch e y, handle w (net (k + j)%nat) en t x = Some (0, ch, e, y) /\ nth_error es j = Some (ch, e) /\ nth_error ys j = Some y) /\
    (rc <> 0 -> exists x ch e y, nth_error l n = Some x /\ handle w (net (k + n)%nat) en t x = Some (rc, ch, e, y) /\ nth_error ys n = Some y /\ skipn (S n) ys = skipn (S n) l).
Proof.
  intros w net en t. induction l as [|x l IH]; intros k rc rel es ys H; cbn [on_table] in H.
  - injection H as <- <- <- <-. split; [reflexivity|]. split; [tauto|]. exists 0%nat. split; [cbn; lia|]. split; [reflexivity|]. split; [reflexivity|]. split; [intros j x L; lia|congruence].
  - destruct (handle w (net k) en t x) as [[[[r c] e] y]|] eqn:Hx; [|discriminate]. cbn [bind] in H. destruct (r =? 0) eqn:Z0; cbn [negb] in H.
    + apply Z.eqb_eq in Z0. subst r. destruct (on_table w net en t (S k) l) as [[[[rc' rel'] es'] ys']|] eqn:Q; [|discriminate]. cbn [bind] in H. injection H as <- <- <- <-.
      destruct (IH _ _ _ _ _ Q) as (A & B & n & C1 & C2 & C3 & C4 & C5). split; [cbn; congruence|]. split; [exact B|]. exists (S n). split; [cbn; lia|]. split; [intros Z0; cbn; rewrite (C2 Z0); reflexivity|].
      split; [cbn [List.length]; rewrite C3; destruct (rc' =? 0); reflexivity|]. split.
      * intros [|j] x0 L E; cbn [nth_error] in *.
        -- injection E as <-. rewrite Nat.add_0_r. exists c, e, y. auto.
        -- replace (k + S j)%nat with (S k + j)%nat by lia. apply C4; [lia|exact E].
      * intros N. destruct (C5 N) as (x0 & c0 & e0 & y0 & D1 & D2 & D3 & D4). exists x0, c0, e0, y0. replace (k + S n)%nat with (S k + n)%nat by lia. auto.
    + apply Z.eqb_neq in Z0. injection H as <- <- <- <-. split; [reflexivity|]. split; [split; [discriminate|congruence]|]. exists 0%nat. split; [lia|]. split; [congruence|].
      split; [rewrite (proj2 (Z.eqb_neq _ _) Z0); reflexivity|]. split; [intros j x0 L; lia|]. intros _. exists x, c, e, y. rewrite Nat.add_0_r. auto.
Qed.
Print Assumptions C71_table.
Theorem C71_table_returned_refuted : exists w t l ys es, on_table w (fun _ => yes) yes t 0 l = Some (5, false, es, ys).
Proof. exists e_w, (e_t OtherMode 0), [x_st Lacp 0 Hw [Some 2%nat]]. eexists _, _. reflexivity. Qed.
Print Assumptions C71_table_returned_refuted.
Example C71_table_ex : exists ys es, on_table e_w (fun _ => yes) yes (e_t Lacp 0) 0 [x_st Lacp 0 Hw [Some 2%nat]; x_st Lacp 0 Hw [Some 1%nat]] = Some (0, true, es, ys).
Proof. eexists _, _. vm_compute. reflexivity. Qed.
