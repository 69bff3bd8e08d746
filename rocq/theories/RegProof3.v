(** Proofs about the clocks of the machine: presence, links, steps, configuration and comparison. *)
Require Import ZArith QArith List Bool String Lia.
From Verif Require Import Base TimeSpec TimeModel TimeProof RegSpec RegModel RegProof RegProof2.
Import ListNotations.
Open Scope Z_scope.

(** Presence after a rescan. *)
Lemma rescan_get g e e2 ce snap w evs w' : ok g w -> wf_snap snap -> wf_env e ->
  rescan g e e2 ce snap w = Some (evs, w') -> forall k c', get k w' = Some c' ->
  exists c1, c' = snd (renew g e2 snap c1) /\ k_key c1 = k /\
    ((exists c, get k w = Some c /\ same c c1) \/
     (get k w = None /\ exists nic i, k = Some nic /\ find (nic_phc nic) snap = Some i /\ k_phc c1 = Some (i_dev i))).
Proof.
  intros O Sn En R k c' G'. 
  assert (New : forall l w0, (forall i, In i l -> In i snap) -> ok g w0 -> forall evs0 w1, init_interfaces g e ce snap l w0 = Some (evs0, w1) ->
    forall k c1, get k w1 = Some c1 -> (exists c, get k w0 = Some c /\ same c c1) \/
     (get k w0 = None /\ exists nic i, k = Some nic /\ find (nic_phc nic) snap = Some i /\ k_phc c1 = Some (i_dev i))).
  { induction l as [|i l IH]; cbn; intros w0 Sub O0 evs0 w1 H k1 c1 G1; [injection H as <- <-; left; exists c1; split; [exact G1|apply same_refl]|].
    destruct (init_intf g e ce snap i w0 O0 Sn En (Sub i (or_introl eq_refl))) as (ea & wa & Ea & Oa & _ & _ & Ga).
    rewrite Ea in H. cbn [bind fst snd] in H. destruct (init_interfaces g e ce snap l wa) as [[eb wb]|] eqn:Eb; cbn [bind fst snd] in H; [|discriminate].
    injection H as <- <-. destruct (IH wa (fun x X => Sub x (or_intror X)) Oa _ _ Eb _ _ G1) as [(ca & A & B)|(A & B)].
    - destruct (get k1 w0) as [c0|] eqn:G0.
      + destruct (Ga _ _ G0) as (x & X & Y). rewrite A in X. injection X as ->. left. exists c0. split; [reflexivity|eapply same_trans; eassumption].
      + right. split; [reflexivity|]. unfold init_interface in Ea.
        assert (No : forall w2 lk, get k1 (mkWorld (w_clks w2) lk) = get k1 w2) by reflexivity.
        destruct (supports_ptp g i); [|injection Ea as <- <-; rewrite No in A; congruence].
        destruct (get (Some (i_nic i)) w0) as [cc|] eqn:Gc.
        * destruct (k_del cc); [|injection Ea as <- <-; rewrite No in A; congruence].
          destruct (correct_new g (k_key cc) (ce (k_key cc)) w0) as [[x y]|] eqn:Cn; cbn [bind] in Ea; [|discriminate]. injection Ea as <- <-.
          destruct (correct_fr _ _ _ _ _ _ Cn) as [F _]. rewrite No in A. exfalso. apply get_none in G0. apply G0. rewrite <- (fr_keys _ _ F).
          apply get_key in A as [<- A]. apply in_map, A.
        * destruct (i_dev i <? 0) eqn:Dv; [injection Ea as <- <-; rewrite No in A; congruence|].
          assert (Ph : i_phc i = true) by (rewrite (Sn _ (Sub i (or_introl eq_refl))); apply Z.leb_le; apply Z.ltb_ge in Dv; exact Dv).
          destruct (find (nic_phc (i_nic i)) snap) as [j|] eqn:Fd.
          2:{ pose proof (find_none _ _ Fd _ (Sub i (or_introl eq_refl))) as N. unfold nic_phc in N. rewrite Z.eqb_refl, Ph in N. discriminate. }
          rewrite (renew_some g e snap (fresh g (Some (i_nic i)) (i_kind i)) (i_nic i) j eq_refl Fd) in Ea. cbn [k_phc fresh] in Ea.
          destruct (x_open e (i_dev j)) as [err|] eqn:Op.
          { replace (err =? 0) with false in Ea by (symmetry; apply Z.eqb_neq; exact (En _ _ Op)). cbn in Ea. injection Ea as <- <-. congruence. }
          destruct (x_start e (i_dev j) =? 0); cbn [negb] in Ea; [|injection Ea as <- <-; congruence].
          set (c0 := found _ _ _ _ _ _) in Ea. destruct (configure_new g (x_ifs e) c0) as [rc cx] eqn:Cf.
          destruct (negb (rc =? 0)); [discriminate|]. injection Ea as <- <-.
          pose proof (configure_same g (x_ifs e) c0) as S. rewrite Cf in S. cbn [snd] in S.
          assert (Kx : k_key cx = Some (i_nic i)) by apply S.
          unfold get in A, G0. cbn in A. rewrite Kx in A. destruct (key_eqb (Some (i_nic i)) k1) eqn:Q; [|rewrite G0 in A; discriminate].
          apply key_eqb_eq in Q. exists (i_nic i), j. split; [auto|]. split; [exact Fd|]. injection A as <-.
          transitivity (k_phc cx); [apply B|]. transitivity (k_phc c0); [apply S|reflexivity].
    - destruct B as (nic & j & B1 & B2 & B3). right. split; [|eauto 10]. destruct (get k1 w0) eqn:G0; [|reflexivity]. destruct (Ga _ _ G0) as (x & X & _). congruence. }
  destruct (rescan_ok g e e2 ce snap w O Sn En) as (evs0 & w0 & w1 & E & _ & _ & I1 & _ & -> & _ & _). rewrite E in R. injection R as <- <-.
  assert (G1 : exists c1, get k w1 = Some c1 /\ c' = snd (renew g e2 snap c1)).
  { unfold get in *. cbn in G'. rewrite get_map in G' by (intro; apply renew_key). destruct (find _ (w_clks w1)) as [c1|]; [|discriminate]. injection G' as <-. eauto. }
  destruct G1 as (c1 & G1 & ->). exists c1. split; [reflexivity|]. split; [apply (get_key _ _ _ G1)|].
  exact (New snap w (fun i X => X) O _ _ I1 _ _ G1).
Qed.

(** Links. *)
Definition link_of (w : world) (x : Z) : option key :=
  option_map snd (find (fun p => fst p =? x) (w_links w)).
Definition opens (e : renv) (snap : list intf) (nic : Z) : Prop :=
  exists j, find (nic_phc nic) snap = Some j /\ x_open e (i_dev j) = None /\ x_start e (i_dev j) = 0.
Lemma init_link g e ce snap i w evs w' : ok g w -> wf_snap snap -> wf_env e -> In i snap ->
  init_interface g e ce snap i w = Some (evs, w') ->
  (forall n, In (Some n) (keys w') -> In (Some n) (keys w) \/ opens e snap n) /\
  (w_links w' = w_links w \/ exists k, w_links w' = (i_index i, k) :: w_links w) /\
  (supports_ptp g i = false -> w_links w' = (i_index i, None) :: w_links w) /\
  (supports_ptp g i = true -> i_phc i = true -> In (Some (i_nic i)) (keys w) \/ opens e snap (i_nic i) ->
     w_links w' = (i_index i, Some (i_nic i)) :: w_links w).
Proof.
  intros O Sn En I0 H. unfold init_interface in H.
  destruct (supports_ptp g i) eqn:SP.
  2:{ injection H as <- <-. split; [auto|]. split; [right; eexists; reflexivity|]. split; [reflexivity|discriminate]. }
  destruct (get (Some (i_nic i)) w) as [c|] eqn:G.
  - pose proof (get_key _ _ _ G) as [Ke _]. destruct (k_del c).
    + destruct (correct_new g (k_key c) (ce (k_key c)) w) as [[x y]|] eqn:Cn; cbn [bind] in H; [|discriminate]. injection H as <- <-.
      destruct (correct_fr _ _ _ _ _ _ Cn) as [F _]. pose proof (fr_keys _ _ F) as K. destruct F as [_ L]. cbn [w_links]. rewrite L, Ke.
      split; [unfold keys; cbn [w_clks]; rewrite K; auto|]. split; [right; eexists; reflexivity|]. split; [discriminate|auto].
    + injection H as <- <-. cbn [w_links]. rewrite Ke. split; [auto|]. split; [right; eexists; reflexivity|]. split; [discriminate|auto].
  - pose proof (proj1 (get_none _ _) G) as NG.
    destruct (i_dev i <? 0) eqn:Dv.
    + injection H as <- <-. split; [auto|]. split; [right; eexists; reflexivity|]. split; [discriminate|].
      intros _ Ph. rewrite (Sn _ I0) in Ph. apply Z.leb_le in Ph. apply Z.ltb_lt in Dv. lia.
    + assert (Ph : i_phc i = true) by (rewrite (Sn _ I0); apply Z.leb_le; apply Z.ltb_ge in Dv; exact Dv).
      destruct (find (nic_phc (i_nic i)) snap) as [j|] eqn:Fd.
      2:{ pose proof (find_none _ _ Fd _ I0) as N. unfold nic_phc in N. rewrite Z.eqb_refl, Ph in N. discriminate. }
      rewrite (renew_some g e snap (fresh g (Some (i_nic i)) (i_kind i)) (i_nic i) j eq_refl Fd) in H. cbn [k_phc fresh] in H.
      assert (NO : ~ (x_open e (i_dev j) = None /\ x_start e (i_dev j) = 0) -> ~ opens e snap (i_nic i)).
      { intros A (j' & B & C). rewrite Fd in B. injection B as <-. auto. }
      destruct (x_open e (i_dev j)) as [err|] eqn:Op.
      { replace (err =? 0) with false in H by (symmetry; apply Z.eqb_neq; exact (En _ _ Op)). cbn in H. injection H as <- <-.
        split; [auto|]. split; [auto|]. split; [discriminate|]. intros _ _ [X|X]; [contradiction|]. exfalso. apply NO in X; [exact X|]. intros [Y _]. discriminate. }
      destruct (x_start e (i_dev j) =? 0) eqn:Xs; cbn [negb] in H.
      * set (c0 := found _ _ _ _ _ _) in H. destruct (configure_new g (x_ifs e) c0) as [rc cx] eqn:Cf.
        destruct (negb (rc =? 0)); [discriminate|]. injection H as <- <-.
        pose proof (configure_same g (x_ifs e) c0) as S. rewrite Cf in S. cbn [snd] in S.
        assert (Kx : k_key cx = Some (i_nic i)) by apply S.
        split; [|split; [right; eexists; reflexivity|split; [discriminate|reflexivity]]].
        intros n X. unfold keys in X. cbn in X. rewrite Kx in X. destruct X as [X|X]; [|auto]. injection X as <-. right. exists j. apply Z.eqb_eq in Xs. auto.
      * injection H as <- <-. split; [auto|]. split; [auto|]. split; [discriminate|]. intros _ _ [X|X]; [contradiction|]. exfalso. apply NO in X; [exact X|].
        intros [_ Y]. apply Z.eqb_neq in Xs. contradiction.
Qed.
Lemma link_cons x k w : link_of (mkWorld (w_clks w) ((x, k) :: w_links w)) x = Some k.
Proof. unfold link_of. cbn. rewrite Z.eqb_refl. reflexivity. Qed.
Lemma init_links g e ce snap : wf_snap snap -> wf_env e -> forall l w evs w', ok g w -> (forall i, In i l -> In i snap) -> NoDup (map i_index l) ->
  init_interfaces g e ce snap l w = Some (evs, w') ->
  (forall n, In (Some n) (keys w') -> In (Some n) (keys w) \/ opens e snap n) /\
  (forall x, ~ In x (map i_index l) -> link_of w' x = link_of w x) /\
  forall i, In i l ->
    (supports_ptp g i = false -> link_of w' (i_index i) = Some None) /\
    (supports_ptp g i = true -> i_phc i = true -> In (Some (i_nic i)) (keys w') -> link_of w' (i_index i) = Some (Some (i_nic i))).
Proof.
  intros Sn En. induction l as [|i l IH]; cbn; intros w evs w' O Sub ND H; [injection H as <- <-; repeat split; auto; contradiction|].
  destruct (init_intf g e ce snap i w O Sn En (Sub i (or_introl eq_refl))) as (ea & wa & Ea & Oa & _ & (m & Ka & _) & _).
  rewrite Ea in H. cbn [bind fst snd] in H. destruct (init_interfaces g e ce snap l wa) as [[eb wb]|] eqn:Eb; cbn [bind fst snd] in H; [|discriminate]. injection H as <- <-.
  destruct (init_link _ _ _ _ _ _ _ _ O Sn En (Sub i (or_introl eq_refl)) Ea) as (L1 & L2 & L3 & L4).
  inversion ND; subst. destruct (IH _ _ _ Oa (fun x X => Sub x (or_intror X)) H2 Eb) as (J1 & J2 & J3).
  assert (KK : forall n, In (Some n) (keys wb) -> In (Some n) (keys w) \/ opens e snap n).
  { intros n X. destruct (J1 _ X) as [Y|Y]; [apply L1, Y|auto]. }
  split; [exact KK|]. split.
  - intros x X. rewrite J2 by intuition. unfold link_of. destruct L2 as [->|(k & ->)]; [reflexivity|]. cbn.
    destruct (i_index i =? x) eqn:Q; [|reflexivity]. apply Z.eqb_eq in Q. exfalso. apply X. auto.
  - intros j [<-|X]; [|auto]. rewrite J2 by assumption. split.
    + intro A. unfold link_of. rewrite (L3 A). cbn. rewrite Z.eqb_refl. reflexivity.
    + intros A B C. unfold link_of. rewrite (L4 A B (KK _ C)). cbn. rewrite Z.eqb_refl. reflexivity.
Qed.
Lemma rescan_links g e e2 ce snap w evs w' : ok g w -> wf_snap snap -> wf_env e -> NoDup (map i_index snap) ->
  rescan g e e2 ce snap w = Some (evs, w') -> forall i, In i snap ->
    (supports_ptp g i = false -> link_of w' (i_index i) = Some None) /\
    (supports_ptp g i = true -> i_phc i = true -> In (Some (i_nic i)) (keys w') -> link_of w' (i_index i) = Some (Some (i_nic i))).
Proof.
  intros O Sn En ND R i X. destruct (rescan_ok g e e2 ce snap w O Sn En) as (evs0 & w0 & w1 & E & _ & _ & I1 & _ & -> & (m & K1 & K2 & _) & _). rewrite E in R. injection R as <- <-.
  destruct (init_links g e ce snap Sn En _ _ _ _ O (fun i X => X) ND I1) as (_ & _ & J). destruct (J _ X) as [A B]. split; [exact A|].
  intros P Q N. apply B; auto. rewrite K2, <- K1. exact N.
Qed.
(** A new adapter whose device opens gets a clock. *)
Lemma init_creates g e ce snap : wf_snap snap -> wf_env e -> forall l w evs w', ok g w -> (forall i, In i l -> In i snap) ->
  init_interfaces g e ce snap l w = Some (evs, w') -> forall i, In i l -> supports_ptp g i = true -> i_phc i = true -> opens e snap (i_nic i) ->
  In (Some (i_nic i)) (keys w').
Proof.
  intros Sn En. induction l as [|x l IH]; cbn; intros w evs w' O Sub H i I0 SP Ph Op; [contradiction|].
  destruct (init_intf g e ce snap x w O Sn En (Sub x (or_introl eq_refl))) as (ea & wa & Ea & Oa & _ & (m & Ka & _) & _).
  rewrite Ea in H. cbn [bind fst snd] in H. destruct (init_interfaces g e ce snap l wa) as [[eb wb]|] eqn:Eb; cbn [bind fst snd] in H; [|discriminate]. injection H as <- <-.
  destruct I0 as [->|I0]; [|eapply IH; eauto].
  destruct (init_intfs g e ce snap Sn En l wa (fun y Y => Sub y (or_intror Y)) Oa) as (e3 & w3 & E3 & _ & _ & (m3 & K3 & _) & _). rewrite Eb in E3. injection E3 as <- <-.
  rewrite K3. apply in_or_app. right. unfold init_interface in Ea. rewrite SP in Ea.
  destruct (get (Some (i_nic i)) w) as [c|] eqn:G.
  - rewrite Ka. apply in_or_app. right. apply get_key in G as [<- G]. apply in_map, G.
  - assert (Dv : 0 <= i_dev i) by (rewrite (Sn _ (Sub i (or_introl eq_refl))) in Ph; apply Z.leb_le, Ph). apply Z.ltb_ge in Dv. rewrite Dv in Ea.
    destruct Op as (j & Fd & A & B). rewrite (renew_some g e snap (fresh g (Some (i_nic i)) (i_kind i)) (i_nic i) j eq_refl Fd) in Ea. cbn [k_phc fresh] in Ea. rewrite A, B in Ea. cbn [Z.eqb negb] in Ea.
    set (c0 := found _ _ _ _ _ _) in Ea. destruct (configure_new g (x_ifs e) c0) as [rc cx] eqn:Cf. destruct (negb (rc =? 0)); [discriminate|]. injection Ea as <- <-.
    pose proof (configure_same g (x_ifs e) c0) as S. rewrite Cf in S. left. apply S.
Qed.
Lemma rescan_creates g e e2 ce snap w evs w' i : ok g w -> wf_snap snap -> wf_env e -> rescan g e e2 ce snap w = Some (evs, w') ->
  In i snap -> supports_ptp g i = true -> i_phc i = true -> opens e snap (i_nic i) -> In (Some (i_nic i)) (keys w').
Proof.
  intros O Sn En R I0 SP Ph Op. destruct (rescan_ok g e e2 ce snap w O Sn En) as (evs0 & w0 & w1 & E & _ & _ & I1 & _ & -> & (m & K1 & K2 & _) & _). rewrite E in R. injection R as <- <-.
  rewrite K1, <- K2. eapply init_creates; eauto.
Qed.

(** Steps. *)
Definition has_device (c : clk) : Prop := is_sys c = true \/ k_phc c <> None.
Lemma record_defined w : record_step w <> None <-> Forall has_device (w_clks w).
Proof.
  unfold record_step. destruct (forallb _ _) eqn:E.
  - split; [intros _|discriminate]. rewrite forallb_forall in E. apply Forall_forall. intros c H. specialize (E c H). unfold has_device.
    destruct (is_sys c); [auto|]. destruct (k_phc c); [right; discriminate|discriminate].
  - split; [congruence|]. intro F. exfalso. assert (X : forallb (fun c => is_sys c || match k_phc c with Some _ => true | None => false end) (w_clks w) = true).
    { apply forallb_forall. intros c H. rewrite Forall_forall in F. destruct (F c H) as [->|N]; [reflexivity|]. destruct (k_phc c); [apply orb_true_r|congruence]. }
    congruence.
Qed.
Lemma record_told w w' : record_step w = Some w' -> Forall (fun c => is_sys c = true \/ k_told c = true) (w_clks w').
Proof.
  unfold record_step. destruct (forallb _ _); [|discriminate]. intro E. injection E as <-. cbn. apply Forall_forall. intros c H. apply in_map_iff in H as (x & <- & _).
  destruct (is_sys x) eqn:Y; auto.
Qed.

(** Configuration. *)
Definition named (ifs : Z -> list string) (c : clk) (n : string) : Prop :=
  In n (k_names c) \/ (is_sys c = false /\ In n (ifs (k_idx c))).
Lemma existsb_str n l : existsb (String.eqb n) l = true <-> In n l.
Proof. rewrite existsb_exists. split; [intros (x & A & B); apply String.eqb_eq in B; congruence|]. intro H. exists n. split; [exact H|apply String.eqb_refl]. Qed.
Lemma in_config_named ifs c n : in_config ifs c n = true <-> named ifs c n.
Proof.
  unfold in_config, named. rewrite orb_true_iff, andb_true_iff, negb_true_iff, !existsb_str. reflexivity.
Qed.
Lemma conf_ro_spec g ifs c : k_ro (conf_readonly g ifs c) = true <-> k_ro c = true \/ exists n, In n (g_readonly g) /\ named ifs c n.
Proof.
  unfold conf_readonly. destruct (existsb _ _) eqn:E.
  - split; [|reflexivity]. intros _. right. apply existsb_exists in E as (n & A & B). exists n. split; [exact A|apply in_config_named, B].
  - split; [auto|]. intros [H|(n & A & B)]; [exact H|]. exfalso. apply in_config_named in B.
    assert (X : existsb (in_config ifs c) (g_readonly g) = true) by (apply existsb_exists; eauto). congruence.
Qed.
Definition allowed (g : config) (c : clk) : Prop := is_sys c = true \/ k_kind c <> OTHER \/ g_non_sfc g = true.
Lemma same_named ifs c c' n : same c c' -> named ifs c' n <-> named ifs c n.
Proof. intro S. unfold named. rewrite (same_sys _ _ S). destruct S as (_ & _ & _ & _ & -> & _ & _ & _ & -> & _). reflexivity. Qed.
Lemma set_flags_named ifs c a b n : named ifs (set_flags c a b) n <-> named ifs c n.
Proof. reflexivity. Qed.
Lemma conf_list_disc g ifs : forall l rc c, k_ro c = false ->
  let c' := snd (conf_list g ifs l rc c) in
  k_ro c' = false /\ (k_disc c' = true <-> k_disc c = true \/ (allowed g c /\ exists n, In n l /\ named ifs c n)).
Proof.
  induction l as [|n l IH]; cbn; intros rc c R; [split; [exact R|]; split; [auto|intros [H|(_ & n & [] & _)]; exact H]|].
  rewrite R. cbn [negb andb]. destruct (in_config ifs c n) eqn:N; cbn [andb].
  - destruct (k_disc c) eqn:D; cbn [negb].
    + destruct (IH 0 c R) as [A B]. split; [exact A|]. split; [auto|]. intros _. apply B. auto.
    + apply in_config_named in N. destruct (negb (is_sys c) && _) eqn:E.
      * assert (NA : ~ allowed g c).
        { apply andb_true_iff in E as [E1 E2]. intros [X|[X|X]]; [rewrite X in E1; discriminate|destruct (k_kind c); congruence|].
          rewrite X in E2. destruct (k_kind c); discriminate. }
        destruct (IH EINVAL c R) as [A B]. split; [exact A|]. rewrite B. rewrite D. split; intros [X|(X & _)]; try discriminate; contradiction.
      * assert (Al : allowed g c).
        { unfold allowed. destruct (is_sys c); [auto|]. cbn in E. right. destruct (k_kind c); [left; discriminate|left; discriminate|].
          right. destruct (g_non_sfc g); [reflexivity|discriminate]. }
        destruct (IH 0 (set_flags c true false) eq_refl) as [A B]. split; [exact A|]. rewrite B. cbn [k_disc set_flags]. split; [|auto].
        intros _. right. split; [exact Al|]. exists n. auto.
  - assert (N' : ~ named ifs c n) by (intro X; apply in_config_named in X; congruence).
    destruct (IH 0 c R) as [A B]. split; [exact A|]. rewrite B. split; (intros [X|(X & m & Y & Z)]; [auto|]).
    + right. split; [exact X|]. exists m. auto.
    + destruct Y as [->|Y]; [contradiction|]. right. split; [exact X|]. exists m. auto.
Qed.
Lemma configure_spec g ifs c : k_disc c = false -> let c' := snd (configure_new g ifs c) in
  (k_ro c' = true <-> k_ro c = true \/ exists n, In n (g_readonly g) /\ named ifs c n) /\
  (k_disc c' = true <-> k_ro c' = false /\ allowed g c /\ (g_all g = true \/ exists n, In n (g_list g) /\ named ifs c n)).
Proof.
  intros D c'. subst c'. unfold configure_new. pose proof (conf_ro_spec g ifs c) as R. pose proof (conf_ro_same g ifs c) as S.
  assert (D1 : k_disc (conf_readonly g ifs c) = false) by (unfold conf_readonly; destruct (existsb _ _); [reflexivity|exact D]).
  set (c1 := conf_readonly g ifs c) in *.
  assert (Al : allowed g c1 <-> allowed g c) by (unfold allowed; rewrite (same_sys _ _ S); destruct S as (_ & -> & _); reflexivity).
  destruct (k_ro c1) eqn:R1; [cbn [snd]; rewrite R1; split; [exact R|]; split; [congruence|intros [X _]; congruence]|].
  destruct (g_all g) eqn:GA.
  - cbn [snd]. destruct (is_sys c1 || _) eqn:E.
    + cbn [k_ro k_disc set_flags]. split; [exact R|]. split; [|auto]. intros _. split; [reflexivity|]. split; [|auto]. apply Al. unfold allowed.
      destruct (is_sys c1); [auto|]. cbn in E. destruct (k_kind c1); [right; left; discriminate|right; left; discriminate|auto].
    + rewrite R1, D1. split; [exact R|]. split; [discriminate|]. intros (_ & X & _). apply Al in X. apply orb_false_iff in E as [E1 E2]. destruct X as [X|[X|X]]; [congruence| |].
      * destruct (k_kind c1); congruence.
      * rewrite X in E2. destruct (k_kind c1); discriminate.
  - destruct (conf_list_disc g ifs (g_list g) 0 c1 R1) as [A B]. cbv zeta in A, B. rewrite A. split; [exact R|]. rewrite B, D1, Al.
    split.
    + intros [X|(X & n & Y & Z)]; [discriminate|]. split; [reflexivity|]. split; [exact X|]. right. exists n. split; [exact Y|]. apply (same_named _ _ _ _ S), Z.
    + intros (_ & X & [Y|(n & Y & Z)]); [discriminate|]. right. split; [exact X|]. exists n. split; [exact Y|]. apply (same_named _ _ _ _ S), Z.
Qed.

(** Comparison. *)
Definition ready (c : clk) : Prop := k_del c = false /\ has_device c.
(** What is read of a clock against the system clock. *)
Definition reading (c : clk) (r : Z * ts) : Z * ts := if is_sys c then (0, null_time) else r.
Definition seen (rc : Z) : Z := if rc =? EOPNOTSUPP then ENOTRECOVERABLE else rc.
Lemma ready_dev c : has_device c -> (negb (is_sys c) && match k_phc c with None => true | Some _ => false end) = false.
Proof. intros [->|N]; [reflexivity|]. destruct (k_phc c); [apply andb_false_r|congruence]. Qed.
Lemma get_good k j w c n : get j w = Some c -> exists c', get j (upd k (fun c => set_good c n) w) = Some c'.
Proof.
  intro G. assert (F : fr w (upd k (fun c => set_good c n) w)) by (apply fr_upd; same_t). destruct (fr_get _ _ _ _ F G) as (c' & A & _). eauto.
Qed.
Lemma subtract_null t : normal t -> - 2^63 < sec t -> exists d, subtract null_time t = Some d.
Proof.
  intros N L. apply subtract_defined; auto; [repeat split; vm_compute; congruence|]. destruct N as (A & B & C).
  unfold representable, instant, null_time, s_unit. cbn [sec nsec frac]. lia.
Qed.
Lemma normal_null : normal null_time.
Proof. repeat split; vm_compute; congruence. Qed.

Lemma compare_good a b r1 r2 w ca cb : get a w = Some ca -> get b w = Some cb -> ready ca -> ready cb ->
  fst (reading ca r1) = 0 -> fst (reading cb r2) = 0 -> normal (snd r1) -> normal (snd r2) ->
  (forall x y, sec x = sec (snd (reading ca r1)) -> sec y = sec (snd (reading cb r2)) -> - 2^62 <= sec x < 2^62 /\ - 2^62 <= sec y < 2^62) ->
  exists d evs w', compare a b r1 r2 w = Some (0, d, evs, w') /\
    instant d = instant (snd (reading ca r1)) - instant (snd (reading cb r2)) /\ normal d /\
    evs = (if is_sys ca then [] else [SyncFail a 0]) ++ (if is_sys cb then [] else [SyncFail b 0]).
Proof.
  intros Ga Gb (Da & Ha) (Db & Hb) F1 F2 N1 N2 Rg. unfold compare. rewrite Ga, Gb. cbn [bind]. rewrite Da, Db. cbn [orb].
  cbv zeta. rewrite (ready_dev _ Ha), (ready_dev _ Hb). cbn [orb]. unfold reading in *.
  specialize (Rg _ _ eq_refl eq_refl).
  destruct (is_sys ca) eqn:Ya.
  - cbn [Z.eqb negb snd]. destruct (is_sys cb) eqn:Yb.
    + do 3 eexists. split; [reflexivity|]. cbn [snd]. split; [vm_compute; reflexivity|]. split; [apply normal_null|reflexivity].
    + rewrite Gb. cbn [bind]. cbn [fst] in F2. rewrite F2. cbn [Z.eqb]. destruct (proj2 (subtract_defined null_time (snd r2) normal_null N2)) as (d & D).
      { destruct N2 as (A & B & C). unfold representable, instant, null_time, s_unit. cbn [sec nsec frac] in *. lia. }
      rewrite D. cbn [bind]. destruct (subtract_exact _ _ _ normal_null N2 D) as [Nd Id]. do 3 eexists. split; [reflexivity|]. auto.
  - cbn [fst] in F1. rewrite F1. cbn [Z.eqb negb]. destruct (is_sys cb) eqn:Yb.
    + do 3 eexists. split; [reflexivity|]. cbn [snd]. split; [change (instant null_time) with 0; lia|]. split; [exact N1|reflexivity].
    + assert (F : fr w (upd a (fun c => set_good c (u32 (k_good c + 1))) w)) by (apply fr_upd; same_t). destruct (fr_get _ _ _ _ F Gb) as (cb' & Gb' & _). rewrite Gb'. cbn [bind].
      cbn [fst] in F2. rewrite F2. cbn [Z.eqb]. destruct (proj2 (subtract_defined (snd r1) (snd r2) N1 N2)) as (d & D).
      { cbn [snd] in *. destruct N1 as (A1 & B1 & C1), N2 as (A & B & C). unfold representable, instant, s_unit. lia. }
      rewrite D. cbn [bind]. destruct (subtract_exact _ _ _ N1 N2 D) as [Nd Id]. do 3 eexists. split; [reflexivity|]. auto.
Qed.
Lemma compare_bad a b r1 r2 w ca cb : get a w = Some ca -> get b w = Some cb -> ready ca -> ready cb ->
  let bad := if fst (reading ca r1) =? 0 then b else a in
  let rc := if fst (reading ca r1) =? 0 then fst (reading cb r2) else fst (reading ca r1) in
  rc <> 0 -> a <> b ->
  exists d evs w' cx, compare a b r1 r2 w = Some (seen rc, d, evs, w') /\
    (In (Exit rc) evs <-> rc = EOPNOTSUPP) /\ In (SyncFail a 1) evs /\
    (In (Warn bad) evs <-> exists c, get bad w = Some c /\ k_good c < 16) /\
    get bad w' = Some cx /\ k_good cx = 0.
Proof.
  intros Ga Gb (Da & Ha) (Db & Hb) bad rc Rc Nab. unfold compare. rewrite Ga, Gb. cbn [bind]. rewrite Da, Db. cbn [orb].
  cbv zeta. rewrite (ready_dev _ Ha), (ready_dev _ Hb). cbn [orb]. unfold reading, seen in *.
  assert (End : forall k evs w1 d c, get k w = Some c -> forall rc0, rc0 <> 0 -> rc0 = rc -> k = bad ->
     (forall x, In x evs -> x = SyncFail a 0) -> (exists cx, get k w1 = Some cx /\ k_good cx = 0) ->
     exists d1 evs1 w' cx, cmp_end rc0 (evs ++ SyncFail a 1 :: (if k_good c <? WARN_THRESHOLD then [Warn k] else [])) d w1 = Some (if rc =? EOPNOTSUPP then ENOTRECOVERABLE else rc, d1, evs1, w') /\
      (In (Exit rc) evs1 <-> rc = EOPNOTSUPP) /\ In (SyncFail a 1) evs1 /\
      (In (Warn bad) evs1 <-> exists c, get bad w = Some c /\ k_good c < 16) /\ get bad w' = Some cx /\ k_good cx = 0).
  { intros k evs w1 d c G rc0 R0 -> Kb Ev (cx & G1 & Gd). unfold cmp_end. rewrite Kb in *.
    assert (W : (exists c0, get bad w = Some c0 /\ k_good c0 < 16) <-> (k_good c <? WARN_THRESHOLD) = true).
    { rewrite Z.ltb_lt. unfold WARN_THRESHOLD. rewrite G. split; [intros (x & A & B); injection A as <-; exact B|eauto]. }
    assert (NX : forall l, ~ In (Exit rc) evs /\ ~ In (Warn l) evs) by (intro; split; intro X; apply Ev in X; discriminate).
    destruct (rc =? EOPNOTSUPP) eqn:Q; (do 4 eexists; split; [reflexivity|]); (split; [|split; [|split; [|split; [exact G1|exact Gd]]]]).
    - apply Z.eqb_eq in Q. split; [auto|]. intros _. apply in_or_app. right. left. reflexivity.
    - apply in_or_app. left. apply in_or_app. right. left. reflexivity.
    - rewrite W. destruct (k_good c <? WARN_THRESHOLD); split; intro X; try reflexivity; try discriminate.
      + apply in_or_app. left. apply in_or_app. right. right. left. reflexivity.
      + exfalso. apply in_app_or in X as [X|[X|[]]]; [|discriminate]. apply in_app_or in X as [X|[X|[]]]; [|discriminate]. exact (proj2 (NX bad) X).
    - apply Z.eqb_neq in Q. split; [|congruence]. intro X. apply in_app_or in X as [X|[X|X]]; [destruct (proj1 (NX bad) X)|discriminate|]. destruct (k_good c <? WARN_THRESHOLD); [destruct X as [X|[]]; discriminate|destruct X].
    - apply in_or_app. right. left. reflexivity.
    - rewrite W. destruct (k_good c <? WARN_THRESHOLD); split; intro X; try reflexivity; try discriminate.
      + apply in_or_app. right. right. left. reflexivity.
      + exfalso. apply in_app_or in X as [X|[X|[]]]; [|discriminate]. exact (proj2 (NX bad) X). }
  destruct (is_sys ca) eqn:Ya.
  - cbn [fst Z.eqb] in *. cbn [negb]. destruct (is_sys cb) eqn:Yb; [subst rc; cbn in Rc; congruence|]. rewrite Gb. cbn [bind].
    subst rc. cbn in Rc. destruct (fst r2 =? 0) eqn:Q; [apply Z.eqb_eq in Q; contradiction|].
    unfold cmp_fail. apply (End b []); auto; [intros ? []|]. exists (set_good cb 0). split; [|reflexivity]. apply (get_upd b (fun c => set_good c 0)); [exact Gb|reflexivity].
  - cbn [fst] in *. destruct (fst r1 =? 0) eqn:Q1.
    + cbn [Z.eqb negb]. destruct (is_sys cb) eqn:Yb; [subst rc; cbn in Rc; congruence|].
      rewrite (get_upd_other a b) by (auto; reflexivity). rewrite Gb. cbn [bind].
      subst rc. destruct (fst r2 =? 0) eqn:Q; [apply Z.eqb_eq in Q; contradiction|].
      unfold cmp_fail. apply (End b [SyncFail a 0]); auto; [intros ? [<-|[]]; reflexivity|]. exists (set_good cb 0). split; [|reflexivity]. apply (get_upd b (fun c => set_good c 0)); [|reflexivity].
      rewrite (get_upd_other a b) by (auto; reflexivity). exact Gb.
    + unfold cmp_fail. cbv beta iota zeta. rewrite Q1. cbn [negb]. apply (End a [] _ _ ca Ga); auto; [intros ? []|].
      exists (set_good ca 0). split; [|reflexivity]. apply (get_upd a (fun c => set_good c 0)); [exact Ga|reflexivity].
Qed.
