(** C70: the physical interfaces of a PTP instance, the one it uses and the kind of timestamps. *)
Require Import ZArith List Bool Lia Permutation Sorted Arith.
Require Import Verif.Base Verif.ListLib Verif.PtiSpec Verif.PtiModel Verif.PtiProof Verif.PtiProof2 Verif.PtiProof3.
Import ListNotations.
Open Scope Z_scope.

(** Example machine: links 1 eth1, 2 eth2, 3 bond of them, 4 VLAN on the bond, 5 VLAN on that. *)
Definition e_name (n : Z) : list Z := [101; 48 + n].
Definition e_plain n m up := mkL n (e_name n) Plain 0 (0 <? m) m NoMode 0 up.
Definition e_bond md act := mkL 3 (e_name 3) Bond 0 false 0 md act true.
Definition e_vlan n on := mkL n (e_name n) Vlan on false 0 NoMode 0 true.
Definition e_t md act := [e_plain 1 3 true; e_plain 2 3 true; e_bond md act; e_vlan 4 3; e_vlan 5 4].
Definition e_w : world := mkW (fun i => if (1 <=? i) && (i <=? 2) then Some (Z.to_nat i) else None)
  (fun n => if list_eq_dec Z.eq_dec n (e_name 1) then Some 1%nat else if list_eq_dec Z.eq_dec n (e_name 2) then Some 2%nat else None)
  (fun _ => false) (fun i => e_name (Z.of_nat i)) (fun i => Z.of_nat i) (fun i => i) (fun i => (i =? 2)%nat) (fun i => (i =? 2)%nat) (fun i => Some (i =? 2)%nat).

(** An interface that is physical, or VLANs on one: the set is that interface if it is known and was not deleted;
    else the set is empty and the answer is that there is no such device. *)
Theorem C70_plain : forall w t name x l b, name <> [] -> short name -> named t name l -> base t l b -> fit x -> l_kind b = Plain ->
  exists n, forall m, (n <= m)%nat ->
    (forall i, usable w (w_name w (l_name b)) i -> exists y, topology w m t name x = Some (0, y) /\ map p_intf (set_of y) = [Some i] /\ b_active y = Some i) /\
    ((forall i, ~ usable w (w_name w (l_name b)) i) -> exists y, topology w m t name x = Some (ENODEV, y) /\ set_of y = []).
Proof.
  intros w t name x l b NE Sh N B F K. destruct (topology_base w t name x l b NE Sh N B) as (n & T). exists n. intros m L. rewrite (T m L).
  destruct (probe_plain w t b (renamed name x) F K) as [P1 P2]. split.
  - intros i U. destruct (P1 i U) as (y & -> & A & C & _). exists y. auto.
  - intros U. destruct (P2 U) as (y & -> & A & _). exists y. auto.
Qed.
Print Assumptions C70_plain.
Example C70_plain_ex : let t := [e_plain 1 0 true; e_vlan 4 1; e_vlan 5 4] in
  named t (e_name 5) (e_vlan 5 4) /\ base t (e_vlan 5 4) (e_plain 1 0 true) /\ fit zero_info /\ usable e_w (w_name e_w (e_name 1)) 1.
Proof.
  split; [exists [e_plain 1 0 true; e_vlan 4 1], []; split; [reflexivity|]; split; [reflexivity|intros y []]|]. split; [|split; [reflexivity|split; reflexivity]].
  apply Bvlan with (i := e_vlan 4 1); [reflexivity|reflexivity| |].
  - exists [e_plain 1 0 true], [e_vlan 5 4]. split; [reflexivity|]. split; [reflexivity|]. intros y [<-|[]]. discriminate.
  - apply Bvlan with (i := e_plain 1 0 true); [reflexivity|reflexivity| |apply Bself; discriminate].
    exists [], [e_vlan 4 1; e_vlan 5 4]. split; [reflexivity|]. split; [reflexivity|]. intros y [<-|[<-|[]]]; discriminate.
Qed.

(** A macvlan: the interface it is on if usable, else its own. *)
Theorem C70_macvlan : forall w t name x l b, name <> [] -> short name -> named t name l -> base t l b -> fit x -> l_kind b = Macvlan ->
  exists n, forall m, (n <= m)%nat ->
    (forall i, usable w (w_index w (l_under b)) i \/ (forall j, ~ usable w (w_index w (l_under b)) j) /\ usable w (w_index w (l_index b)) i ->
       exists y, topology w m t name x = Some (0, y) /\ map p_intf (set_of y) = [Some i] /\ b_active y = Some i) /\
    ((forall i, ~ usable w (w_index w (l_under b)) i) -> (forall i, ~ usable w (w_index w (l_index b)) i) ->
       exists y, topology w m t name x = Some (ENODEV, y) /\ set_of y = []).
Proof.
  intros w t name x l b NE Sh N B F K. destruct (topology_base w t name x l b NE Sh N B) as (n & T). exists n. intros m L. rewrite (T m L).
  destruct (probe_macvlan w t b (renamed name x) F K) as [P1 P2]. split.
  - intros i U. destruct (P1 i U) as (y & -> & A & C & _). exists y. auto.
  - intros U U2. destruct (P2 U U2) as (y & -> & A & _). exists y. auto.
Qed.
Print Assumptions C70_macvlan.
Example C70_macvlan_ex : exists y, topology e_w 1 [mkL 7 [109] Macvlan 2 false 0 NoMode 0 true] [109] zero_info = Some (0, y) /\ map p_intf (set_of y) = [Some 2%nat].
Proof. eexists. split; reflexivity. Qed.

(** An active-backup bond or team: the set is what is behind its members ([found]: in the order of the table, a
    team by name, at most 16).  The interface is the active member if that is known and in the set; without groups
    in the group there is otherwise none, and that is no error; what is chosen is always in the set. *)
Theorem C70_active_backup : forall w t name x l b, name <> [] -> short name -> named t name l -> base t l b -> fit x ->
  l_kind b = Bond \/ l_kind b = Team -> l_mode b = ActiveBackup ->
  exists n y, (forall m, (n <= m)%nat -> topology w m t name x = Some (0, y)) /\ found w t b (set_of y) /\
    (forall i, 0 < l_active b -> w_index w (l_active b) = Some i -> (exists p, In p (set_of y) /\ p_intf p = Some i) -> b_active y = Some i) /\
    (~ hidden w t b -> (forall i, 0 < l_active b -> w_index w (l_active b) = Some i -> ~ exists p, In p (set_of y) /\ p_intf p = Some i) -> b_active y = None) /\
    (forall i, b_active y = Some i -> exists p, In p (set_of y) /\ p_intf p = Some i).
Proof.
  intros w t name x l b NE Sh N B F K M. destruct (topology_base w t name x l b NE Sh N B) as (n & T).
  destruct (probe_ab w t b (renamed name x) F K M) as (rc & y & P & _ & Fo & _ & A1 & A2 & A3).
  assert (RC : rc = 0 \/ rc = ENOENT).
  { unfold probe in P. destruct (b_active y) as [i|] eqn:E; [left; apply (A3 i), eq_refl|].
    destruct K as [K|K]; rewrite K in P; unfold parse_team, parse_bond in P; rewrite M in P; cbn [is_ab] in P.
    - destruct (bond_rows _ _ _ _ _) as [a|]; [|discriminate]. cbn [bind] in P. cbn [b_mode b_num is_ab andb Z.eqb ENOENT] in P.
      destruct (a_num a =? 0)%nat; cbn [negb andb Z.eqb ENOENT b_active] in P; destruct (a_active a); try (destruct (existsb _ _)); injection P as <- <-; auto.
    - destruct (bond_rows _ _ _ _ _) as [a|]; [|discriminate]. cbn [bind Z.eqb] in P. cbn [b_mode b_num is_ab andb Z.eqb ENOENT] in P.
      destruct (a_num a =? 0)%nat; cbn [negb andb Z.eqb ENOENT b_active] in P; destruct (a_active a); try (destruct (existsb _ _)); injection P as <- <-; auto. }
  exists n, y. split.
  - intros m L. rewrite (T m L), P. cbn [bind fst snd]. destruct RC as [-> | ->]; reflexivity.
  - split; [exact Fo|]. split; [intros i Z0 Z1 Z2; apply (A1 i Z0 Z1 Z2)|]. split; [intros H1 H2; apply (A2 H1 H2)|intros i E; apply (A3 i E)].
Qed.
Print Assumptions C70_active_backup.
Example C70_active_backup_ex : exists y, topology e_w 3 (e_t ActiveBackup 2) (e_name 5) zero_info = Some (0, y) /\
  map p_intf (set_of y) = [Some 1%nat; Some 2%nat] /\ b_active y = Some 2%nat /\ b_bond y = e_name 3 /\ b_logical y = e_name 5.
Proof. eexists. repeat split. Qed.

(** An LACP bond or team, or a bridge: the interface is the first in the set that has a link, which is no error
    then; if none has one it is the first.  An empty set is no error. *)
Theorem C70_all_members : forall w t name x l b, name <> [] -> short name -> named t name l -> base t l b -> fit x ->
  (l_kind b = Bond \/ l_kind b = Team) /\ l_mode b = Lacp \/ l_kind b = Bridge /\ l_mode b <> ActiveBackup ->
  exists n rc y, (forall m, (n <= m)%nat -> topology w m t name x = Some (rc, y)) /\ found w t b (set_of y) /\
    (forall p, first_such (linked w) (set_of y) p -> rc = 0 /\ b_active y = p_intf p) /\
    (forall p r, set_of y = p :: r -> none_of (linked w) (set_of y) -> b_active y = p_intf p /\ (Forall (told w) (set_of y) -> rc = 0)) /\
    (set_of y = [] -> rc = 0).
Proof.
  intros w t name x l b NE Sh N B F K. destruct (topology_base w t name x l b NE Sh N B) as (n & T).
  destruct (probe_all w t b (renamed name x) F K) as (rc & y & P & _ & Fo & A1 & A2 & A3).
  exists n, (if rc =? ENOENT then 0 else rc), y. split; [intros m L; rewrite (T m L), P; reflexivity|]. split; [exact Fo|]. split; [|split].
  - intros p H. destruct (A1 p H) as [-> E]. auto.
  - intros p r E1 E2. destruct (A2 p r E1 E2) as [E3 E4]. split; [exact E3|]. intros G. rewrite (E4 G). reflexivity.
  - intros E. rewrite (A3 E). reflexivity.
Qed.
Print Assumptions C70_all_members.
Example C70_all_members_ex : exists y, topology e_w 3 (e_t Lacp 0) (e_name 5) zero_info = Some (0, y) /\
  map p_intf (set_of y) = [Some 1%nat; Some 2%nat] /\ b_active y = Some 2%nat.
Proof. eexists. repeat split. Qed.

(** "With no interfaces there is no active interface" is false of LACP bonds and bridges: an empty set has the
    interface that stood first when the set was last used. *)
Theorem C70_empty_inactive_refuted : exists w t name x y, fit x /\ topology w 1 t name x = Some (0, y) /\ set_of y = [] /\ b_active y = Some 1%nat.
Proof.
  exists e_w, [e_bond Lacp 0], (e_name 3).
  destruct (topology e_w 1 [e_plain 1 3 true; e_bond Lacp 0] (e_name 3) zero_info) as [[rc x]|] eqn:E; [|discriminate].
  exists x. vm_compute in E. injection E as _ <-. eexists. repeat split.
Qed.
Print Assumptions C70_empty_inactive_refuted.

(** A bond or team in another mode is refused ... *)
Theorem C70_other_mode_partial : forall w t name x l b, name <> [] -> short name -> named t name l -> base t l b -> fit x ->
  l_kind b = Bond \/ l_kind b = Team -> ~ supported (l_mode b) ->
  exists T, behind w t (members t b) T /\ (T <> [] -> (List.length T <= 16)%nat -> exists n y, forall m, (n <= m)%nat -> topology w m t name x = Some (EINVAL, y)).
Proof.
  intros w t name x l b NE Sh N B F K M. destruct (topology_base w t name x l b NE Sh N B) as (n & T).
  destruct (probe_other w t b (renamed name x) F K M) as (S & BS & H). exists S. split; [exact BS|]. intros NS LE.
  destruct (proj1 (H LE) NS) as (y & P). exists n, y. intros m L. rewrite (T m L), P. reflexivity.
Qed.
Print Assumptions C70_other_mode_partial.
Example C70_other_mode_ex : exists y, topology e_w 2 (e_t OtherMode 0) (e_name 4) zero_info = Some (EINVAL, y).
Proof. eexists. reflexivity. Qed.
(** ... but "any bond has an answer" is false: one in another mode without members ends the daemon (an
    assertion). *)
Theorem C70_empty_mode_refuted : forall w n, topology w n [e_bond OtherMode 0] (e_name 3) zero_info = None.
Proof.
  intros w n. destruct n; [reflexivity|]. unfold topology. cbn [e_name link_by_name fold_left].
  replace (same_name _ _) with true by reflexivity. reflexivity.
Qed.
Print Assumptions C70_empty_mode_refuted.

(** Errors: no name; a name that no link has; a VLAN on a link that is not there. *)
Theorem C70_errors : forall w t name x, short name ->
  (name = [] -> forall n, topology w n t name x = Some (ENODEV, x)) /\
  (name <> [] -> (forall l, In l t -> l_name l <> name) -> forall n, topology w n t name x = Some (ENOENT, x)) /\
  (forall l, name <> [] -> named t name l -> broken t l -> exists n, forall m, (n <= m)%nat -> exists y, topology w m t name x = Some (EINVAL, y)).
Proof. exact topology_error. Qed.
Print Assumptions C70_errors.
Example C70_errors_ex : let t := [e_vlan 4 1; e_vlan 5 4] in broken t (e_vlan 5 4) /\ named t (e_name 5) (e_vlan 5 4).
Proof.
  split; [|exists [e_vlan 4 1], []; split; [reflexivity|]; split; [reflexivity|intros y []]].
  apply Xbelow with (i := e_vlan 4 1); [reflexivity|reflexivity| |].
  - exists [], [e_vlan 5 4]. split; [reflexivity|]. split; [reflexivity|]. intros y [<-|[]]. discriminate.
  - apply Xhere; [reflexivity|]. right. intros y [<-|[<-|[]]]; discriminate.
Qed.

(** "The search always ends" is false: VLANs that name each other, which a link table put together from
    several namespaces or moments can show, are followed for ever. *)
Theorem C70_vlan_cycle_refuted : exists w t name x, (exists l, named t name l) /\ forall n, topology w n t name x = None.
Proof.
  exists e_w, [e_vlan 4 5; e_vlan 5 4], (e_name 5), zero_info. split.
  - exists (e_vlan 5 4), [e_vlan 4 5], []. split; [reflexivity|]. split; [reflexivity|intros y []].
  - assert (R : forall n, resolve n [e_vlan 4 5; e_vlan 5 4] (e_vlan 5 4) = None /\ resolve n [e_vlan 4 5; e_vlan 5 4] (e_vlan 4 5) = None).
    { induction n as [|n [I1 I2]]; [split; reflexivity|]. split; [exact I2|exact I1]. }
    intros n. unfold topology. cbn [e_name]. replace (link_by_name _ _) with (Some (e_vlan 5 4)) by reflexivity. rewrite (proj1 (R n)). reflexivity.
Qed.
Print Assumptions C70_vlan_cycle_refuted.
(** It ends exactly if the VLANs lead to a link that is none or to one that is missing; what is left out is the
    cycle. *)
Theorem C70_vlan_answers_partial : forall t l, (exists n r, resolve n t l = Some r) <-> broken t l \/ exists b, base t l b.
Proof.
  intros t l. split.
  - intros (n & r & R). apply resolve_inv in R. destruct r as [e|b]; [left; apply R|right; exists b; exact R].
  - intros [B|[b B]]; [destruct (resolve_broken t l B) as (n & R)|destruct (resolve_base t l b B) as (n & R)]; eauto.
Qed.
Print Assumptions C70_vlan_answers_partial.
Example C70_vlan_answers_ex : resolve 3 (e_t Lacp 0) (e_vlan 5 4) = Some (inr (e_bond Lacp 0)).
Proof. reflexivity. Qed.

(** The interface used is one of the set; there is none if the set is empty. *)
Theorem C70_select_member : forall w last clk b, (set_of b = [] -> active_intf w last clk b = None) /\
  (set_of b <> [] -> exists p, In p (set_of b) /\ active_intf w last clk b = p_intf p).
Proof. exact select_member. Qed.
Print Assumptions C70_select_member.

(** Full statement, false (below): for every set, the interface used is the one of [preferred].  Proved if the
    first is up or has no hardware timestamps and none is marked as the active one of the bond. *)
Theorem C70_select_partial : forall w last clk b f r, set_of b = f :: r -> (p_up f = true \/ p_hwts f = false) -> Forall (fun p => p_primary p = false) (f :: r) ->
  exists x, preferred w last clk (f :: r) x /\ active_intf w last clk b = p_intf x.
Proof. exact select_ok. Qed.
Print Assumptions C70_select_partial.
Definition e_b (l : list phys) : binfo := mkB [] [] Lacp false (List.length l) l None.
Definition e_p i up hw := mkP (Some i) up false hw.
Example C70_select_ex :
  active_intf e_w 0 3 (e_b [e_p 1 true true; e_p 2 false true; e_p 3 true true; e_p 4 true false])%nat = Some 3%nat /\
  active_intf e_w 4 3 (e_b [e_p 1 true true; e_p 2 false true; e_p 3 true true; e_p 4 true false])%nat = Some 4%nat /\
  active_intf e_w 0 9 (e_b [e_p 1 true false; e_p 2 false true; e_p 3 true false])%nat = Some 3%nat.
Proof. repeat split. Qed.
(** "A member that is down is not used while one is up" is false: the first, with hardware timestamps, is. *)
Theorem C70_select_up_refuted : exists w last clk b p q, set_of b = [p; q] /\ p_up p = false /\ p_up q = true /\ p_hwts q = true /\
  active_intf w last clk b = p_intf p /\ p_intf p <> p_intf q.
Proof. exists e_w, 0, 9%nat, (e_b [e_p 1 false true; e_p 2 true true]), (e_p 1 false true), (e_p 2 true true). repeat split. discriminate. Qed.
Print Assumptions C70_select_up_refuted.
(** "In an active-backup bond the active member is used" is false: what marks it is read from the member, not
    from the bond, so members that are no bonds are never marked; *)
Theorem C70_primary_refuted : exists w t name y, topology w 1 t name zero_info = Some (0, y) /\ b_mode y = ActiveBackup /\ b_active y = Some 2%nat /\
  Forall (fun p => p_up p = true) (set_of y) /\ active_intf w 0 3 y = Some 1%nat.
Proof.
  exists (mkW (w_index e_w) (w_name e_w) (w_deleted e_w) (w_text e_w) (w_ifindex e_w) (w_clock e_w) (fun _ => true) (fun _ => true) (w_link e_w)), (e_t ActiveBackup 2), (e_name 3).
  eexists. split; [reflexivity|]. repeat split; repeat constructor.
Qed.
Print Assumptions C70_primary_refuted.
(** a member is marked exactly if it names itself its active member. *)
Theorem C70_primary : forall w t b p, source w t b p -> p_primary p = true <-> exists m, In m t /\ p = noted w m (match p_intf p with Some i => i | None => 0%nat end) /\ l_active m = l_index m.
Proof.
  intros w t b p (m & i & I & W & -> & H). split.
  - intros E. exists m. split; [exact I|]. split; [reflexivity|]. apply Z.eqb_eq, E.
  - intros (m' & I' & E & A). rewrite E. apply Z.eqb_eq, A.
Qed.
Print Assumptions C70_primary.
Example C70_primary_ex : p_primary (noted e_w (mkL 8 [1] Bond 0 true 3 ActiveBackup 8 true) 1) = true.
Proof. reflexivity. Qed.

(** Timestamps: hardware if the active interface has a PTP clock and no instance asks for software; instances that
    ask for both are refused, as is hardware where there is none. *)
Theorem C70_timestamps : forall w prefs o,
  (In WantHw prefs -> In WantSw prefs -> fst (determine w prefs o) = EINVAL) /\
  (In WantHw prefs -> ~ In WantSw prefs -> ~ stamps w o -> fst (determine w prefs o) = ENOTSUP) /\
  (In WantHw prefs -> ~ In WantSw prefs -> stamps w o -> determine w prefs o = (0, Hw)) /\
  (~ In WantHw prefs -> In WantSw prefs \/ ~ stamps w o -> determine w prefs o = (0, Sw)) /\
  (~ In WantHw prefs -> ~ In WantSw prefs -> stamps w o -> determine w prefs o = (0, Hw)).
Proof. exact determine_ok. Qed.
Print Assumptions C70_timestamps.
Example C70_timestamps_ex : determine e_w [Auto; WantSw] (Some 2%nat) = (0, Sw) /\ determine e_w [WantHw] (Some 1%nat) = (ENOTSUP, Sw) /\ stamps e_w (Some 2%nat).
Proof. split; [reflexivity|]. split; [reflexivity|]. exists 2%nat. auto. Qed.
