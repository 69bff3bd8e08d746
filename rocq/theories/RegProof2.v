(** Proofs about the clocks of the machine: hot plug and histories. *)
Require Import ZArith QArith List Bool String Lia.
From Verif Require Import Base TimeSpec TimeModel TimeProof RegSpec RegModel RegProof.
Import ListNotations.
Open Scope Z_scope.

Definition keys (w : world) : list key := map k_key (w_clks w).
Definition clk_ok (g : config) (c : clk) : Prop :=
  (is_sys c = false -> k_kind c = OTHER -> g_non_sfc g = true) /\
  (k_del c = true -> k_phc c = None /\ is_sys c = false) /\ k_spec c = true /\
  (g_no_adjust g = true -> k_ro c = true).
Definition ok (g : config) (w : world) : Prop :=
  NoDup (keys w) /\ (exists l, keys w = l ++ [None]) /\ Forall (clk_ok g) (w_clks w).
Definition wf_snap (snap : list intf) : Prop := forall i, In i snap -> i_phc i = (0 <=? i_dev i).
Definition wf_env (e : renv) : Prop := forall d err, x_open e d = Some err -> err <> 0.
Definition wf_op (o : op) : Prop :=
  match o with ORescan e e2 ce snap => wf_snap snap /\ wf_env e | _ => True end.

Lemma same_sys c c' : same c c' -> is_sys c' = is_sys c.
Proof. intros (A & _). unfold is_sys. rewrite A. reflexivity. Qed.
Lemma ok_same g c c' : same c c' -> clk_ok g c -> clk_ok g c'.
Proof.
  intros S (A & B & C & D). pose proof (same_sys _ _ S) as Y. destruct S as (_ & K & De & P & _ & _ & Sp & _ & _ & R & _).
  unfold clk_ok. rewrite Y, K, De, P, Sp. repeat split; auto; apply B; assumption.
Qed.
Lemma ok_fr g w w' : fr w w' -> ok g w -> ok g w'.
Proof.
  intros F (A & B & C). pose proof (fr_keys _ _ F) as K. unfold ok, keys. rewrite K. split; [exact A|]. split; [exact B|].
  rewrite Forall_forall in *. intros c' I'. destruct (fr_in _ _ _ F I') as (c & I0 & S). eapply ok_same; eauto.
Qed.

Definition nic_phc (nic : Z) (i : intf) : bool := (i_nic i =? nic) && i_phc i.
Lemma primary_some nic : forall l f i, (match f with Some x => i_phc x = false | None => True end) ->
  find (nic_phc nic) l = Some i -> primary nic l f = Some i.
Proof.
  induction l as [|x l IH]; cbn; intros f i P H; [discriminate|]. unfold nic_phc in H at 1.
  destruct (i_nic x =? nic) eqn:E; cbn in H.
  - destruct (i_phc x) eqn:Q.
    + injection H as <-. destruct f as [f|]; [rewrite P|]; destruct l; cbn; rewrite ?Q; reflexivity.
    + destruct f as [f|]; [rewrite P|]; apply IH; auto.
  - destruct f as [f|]; [rewrite P|]; apply IH; auto.
Qed.
Lemma primary_none nic : forall l f, (match f with Some x => i_phc x = false | None => True end) ->
  find (nic_phc nic) l = None -> match primary nic l f with Some x => i_phc x = false | None => True end.
Proof.
  induction l as [|x l IH]; cbn; intros f P H; [exact P|]. unfold nic_phc in H at 1.
  destruct (i_nic x =? nic) eqn:E; cbn in H.
  - destruct (i_phc x) eqn:Q; [discriminate|]. destruct f as [f|]; [rewrite P|]; apply IH; auto.
  - destruct f as [f|]; [rewrite P|]; apply IH; auto.
Qed.

Definition gone (c : clk) : clk :=
  set_id (set_dev c true None (-1) false) (repeat 0 8) ["(deleted)"; "(deleted)"; "0000:0000:0000:0000"]%string.
Definition found (g : config) (e : renv) (nic : Z) (i : intf) (dev : Z) (c : clk) : clk :=
  set_max (set_id (set_dev c false (Some dev) (i_dev i) (negb (g_avoid_efx g))) (hw_id g (i_mac i)) (x_names e nic))
          (dev_max g (x_devmax e dev)).
Lemma renew_sys g e snap c : is_sys c = true -> renew g e snap c = (0, c).
Proof. unfold is_sys, renew. destruct (k_key c); [discriminate|reflexivity]. Qed.
Lemma renew_none g e snap c nic : k_key c = Some nic -> find (nic_phc nic) snap = None -> renew g e snap c = (0, gone c).
Proof.
  intros K F. unfold renew. rewrite K. pose proof (primary_none nic snap None Logic.I F) as P.
  destruct (primary nic snap None) as [i|]; [rewrite P|]; reflexivity.
Qed.
Lemma find_phc nic snap i : find (nic_phc nic) snap = Some i -> In i snap /\ i_nic i = nic /\ i_phc i = true.
Proof.
  intro H. apply find_some in H as [A B]. unfold nic_phc in B. apply andb_true_iff in B as [B C]. apply Z.eqb_eq in B. auto.
Qed.
Lemma renew_some g e snap c nic i : k_key c = Some nic -> find (nic_phc nic) snap = Some i ->
  renew g e snap c = match k_phc c with
    | Some dev => (0, found g e nic i dev c)
    | None => match x_open e (i_dev i) with
      | None => (x_start e (i_dev i), found g e nic i (i_dev i) c)
      | Some err => (err, set_names (set_dev c false None (-1) (negb (g_avoid_efx g))) (firstn 1 (x_names e nic) ++ skipn 1 (k_names c)))
      end end.
Proof.
  intros K F. unfold renew. rewrite K. rewrite (primary_some nic snap None i Logic.I F).
  destruct (find_phc _ _ _ F) as (_ & _ & ->). reflexivity.
Qed.
Lemma renew_keep g e snap c : let c' := snd (renew g e snap c) in
  k_key c' = k_key c /\ k_kind c' = k_kind c /\ k_ro c' = k_ro c /\ k_disc c' = k_disc c /\ k_init c' = k_init c /\
  k_blk c' = k_blk c /\ (k_spec c = true -> k_spec c' = true).
Proof.
  destruct (k_key c) as [nic|] eqn:K.
  - destruct (find (nic_phc nic) snap) eqn:F.
    + cbv zeta. rewrite (renew_some _ _ _ _ _ _ K F). destruct (k_phc c); [|destruct (x_open e (i_dev i))]; cbn; auto 10.
    + cbv zeta. rewrite (renew_none _ _ _ _ _ K F). cbn. auto 10.
  - unfold renew. cbv zeta. rewrite K. cbn. rewrite K. auto 10.
Qed.

Lemma conf_list_rc g ifs : forall l rc c, (is_sys c = false -> k_kind c = OTHER -> g_non_sfc g = true) -> rc = 0 -> fst (conf_list g ifs l rc c) = 0.
Proof.
  induction l as [|n l IH]; cbn; intros rc c K ->; [reflexivity|].
  destruct (_ && _ && _); [|auto]. destruct (negb (is_sys c) && _) eqn:E; [|apply IH; auto].
  exfalso. apply andb_true_iff in E as [E1 E2]. destruct (is_sys c) eqn:Y; [discriminate|]. destruct (k_kind c) eqn:Q; try discriminate. rewrite K in E2; auto. discriminate.
Qed.
Lemma configure_rc g ifs c : (is_sys c = false -> k_kind c = OTHER -> g_non_sfc g = true) -> fst (configure_new g ifs c) = 0.
Proof.
  intro K. unfold configure_new. pose proof (conf_ro_same g ifs c) as S. destruct (k_ro _); [reflexivity|]. destruct (g_all g); [reflexivity|].
  apply conf_list_rc; [|reflexivity]. intros A B. pose proof (same_sys _ _ S) as Y. destruct S as (_ & Kd & _). rewrite Y in A. rewrite Kd in B. auto.
Qed.
Lemma configure_same g ifs c : same c (snd (configure_new g ifs c)).
Proof.
  unfold configure_new. pose proof (conf_ro_same g ifs c) as S. destruct (k_ro (conf_readonly g ifs c)) eqn:R; [exact S|].
  destruct (g_all g); cbn [snd].
  - eapply same_trans; [exact S|]. destruct (_ || _); [|apply same_refl]. repeat split; auto. cbn. congruence.
  - eapply same_trans; [exact S|]. apply conf_list_same.
Qed.

(** A clock without a device: the initial correction does nothing but drop a bad file. *)
Lemma correct_nodev g k ce w c : get k w = Some c -> k_phc c = None -> is_sys c = false -> k_spec c = true ->
  exists evs w', correct_new g k ce w = Some (evs, w') /\ fr w w' /\ (evs = [] \/ evs = [Unlink k]).
Proof.
  intros G P Y Sp. unfold correct_new, load_correction. rewrite G. cbn [bind]. rewrite Sp. cbn [negb].
  destruct (if g_persistent g then _ else _) as [rc0 x0].
  destruct (if outside (k_max c) x0 then _ else _) as [[rc1 x1] e1] eqn:O.
  unfold adjust_frequency.
  assert (G1 : get k (upd k (fun c => set_corr c x1) w) = Some (set_corr c x1)) by (apply (get_upd k (fun c => set_corr c x1)); [exact G|reflexivity]).
  rewrite G1. cbn [bind]. unfold refused. cbn [k_phc set_corr]. rewrite P. replace (is_sys (set_corr c x1)) with false by (symmetry; exact Y).
  cbn [negb andb bind]. rewrite G1. cbn [bind]. cbn [k_phc set_corr]. rewrite P.
  assert (F : fr w (upd k (fun c => set_corr c x1) w)) by (apply fr_upd; same_t).
  assert (Ev : e1 ++ [] = [] \/ e1 ++ [] = [Unlink k]) by (destruct (outside _ _); injection O as <- <- <-; auto).
  destruct (correctable g (set_corr c x1)); do 2 eexists; (split; [reflexivity|]); auto.
Qed.

Definition unlinks (evs : list ev) : Prop := Forall (fun e => exists k, e = Unlink k) evs.
Lemma unlinks_quiet j evs : unlinks evs -> quiet j evs.
Proof. intro H. eapply Forall_impl; [|exact H]. intros e (k & ->). cbn. tauto. Qed.

(** One interface. *)
Lemma init_intf g e ce snap i w : ok g w -> wf_snap snap -> wf_env e -> In i snap ->
  exists evs w', init_interface g e ce snap i w = Some (evs, w') /\ ok g w' /\ unlinks evs /\
    (exists l, keys w' = l ++ keys w /\ forall k, In k l -> k = Some (i_nic i)) /\
    (forall k c, get k w = Some c -> exists c', get k w' = Some c' /\ same c c').
Proof.
  intros O Sn En In0. pose proof O as (ND & (ks & KS) & Cl). unfold init_interface.
  assert (L : forall k w', ok g w' -> ok g (mkWorld (w_clks w') ((i_index i, k) :: w_links w'))) by (intros; assumption).
  assert (Self : forall k, exists evs w', Some ([] : list ev, mkWorld (w_clks w) ((i_index i, k) :: w_links w)) = Some (evs, w') /\ ok g w' /\ unlinks evs /\
    (exists l, keys w' = l ++ keys w /\ forall k, In k l -> k = Some (i_nic i)) /\
    (forall k c, get k w = Some c -> exists c', get k w' = Some c' /\ same c c')).
  { intro k. do 2 eexists. split; [reflexivity|]. split; [exact O|]. split; [constructor|]. split; [exists []; split; [reflexivity|intros ? []]|].
    intros j c H. exists c. split; [exact H|apply same_refl]. }
  destruct (supports_ptp g i) eqn:SP; [|apply Self].
  destruct (get (Some (i_nic i)) w) as [c|] eqn:G.
  - destruct (k_del c) eqn:De; [|apply Self]. pose proof (get_key _ _ _ G) as [Ke Ic]. rewrite Forall_forall in Cl.
    pose proof (Cl _ Ic) as (_ & D & Sp & _). destruct (D De) as [P Y].
    rewrite <- Ke in G. destruct (correct_nodev g (k_key c) (ce (k_key c)) w c G P Y Sp) as (evs & w' & E & F & Ev). rewrite E. cbn [bind].
    do 2 eexists. split; [reflexivity|]. split; [exact (ok_fr _ _ _ F O)|]. split; [destruct Ev as [->| ->]; repeat constructor; eauto|].
    split; [exists []; split; [exact (fr_keys _ _ F)|intros ? []]|].
    intros j x H. exact (fr_get _ _ _ _ F H).
  - destruct (i_dev i <? 0) eqn:Dv; [apply Self|]. apply Z.ltb_ge in Dv.
    assert (Ph : i_phc i = true) by (rewrite (Sn _ In0); apply Z.leb_le; exact Dv).
    assert (Fd : exists j, find (nic_phc (i_nic i)) snap = Some j).
    { destruct (find (nic_phc (i_nic i)) snap) eqn:F; [eauto|]. pose proof (find_none _ _ F _ In0) as N. unfold nic_phc in N. rewrite Z.eqb_refl, Ph in N. discriminate. }
    destruct Fd as (j & Fd). rewrite (renew_some g e snap (fresh g (Some (i_nic i)) (i_kind i)) (i_nic i) j eq_refl Fd).
    cbn [k_phc fresh].
    assert (Nop : exists evs w', Some ([] : list ev, w) = Some (evs, w') /\ ok g w' /\ unlinks evs /\
      (exists l, keys w' = l ++ keys w /\ forall k, In k l -> k = Some (i_nic i)) /\
      (forall k c, get k w = Some c -> exists c', get k w' = Some c' /\ same c c')).
    { do 2 eexists. split; [reflexivity|]. split; [exact O|]. split; [constructor|]. split; [exists []; split; [reflexivity|intros ? []]|].
      intros ? x H. exists x. split; [exact H|apply same_refl]. }
    destruct (x_open e (i_dev j)) as [err|] eqn:Op.
    + replace (err =? 0) with false by (symmetry; apply Z.eqb_neq; exact (En _ _ Op)). exact Nop.
    + destruct (x_start e (i_dev j) =? 0); [|exact Nop]. cbn [negb].
      set (c0 := found _ _ _ _ _ _). destruct (configure_new g (x_ifs e) c0) as [rc c1] eqn:Cf.
      assert (K0 : is_sys c0 = false -> k_kind c0 = OTHER -> g_non_sfc g = true).
      { intros _ Q. cbn in Q. unfold supports_ptp in SP. rewrite Q in SP. destruct (g_non_sfc g); [reflexivity|discriminate]. }
      pose proof (configure_rc g (x_ifs e) c0 K0) as Rc. pose proof (configure_same g (x_ifs e) c0) as S. rewrite Cf in Rc, S. cbn in Rc, S. subst rc. cbn [Z.eqb negb].
      assert (K1 : k_key c1 = Some (i_nic i)) by apply S.
      do 2 eexists. split; [reflexivity|]. cbn [w_clks w_links]. split.
      { unfold ok, keys. cbn. rewrite K1. apply get_none in G. split; [constructor; assumption|]. split; [exists (Some (i_nic i) :: ks); cbn; f_equal; exact KS|].
        constructor; [|exact Cl]. apply (ok_same g _ _ S). unfold clk_ok. split; [exact K0|]. cbn. split; [discriminate|]. auto. }
      split; [constructor|]. split; [exists [Some (i_nic i)]; split; [unfold keys; cbn; rewrite K1; reflexivity|intros ? [<-|[]]; reflexivity]|].
      intros k x H. exists x. split; [|apply same_refl]. unfold get in *. cbn. rewrite K1. destruct (key_dec (Some (i_nic i)) k) as [<-|N]; [congruence|].
      rewrite key_eqb_neq by exact N. exact H.
Qed.
Lemma init_intfs g e ce snap : wf_snap snap -> wf_env e -> forall l w, (forall i, In i l -> In i snap) -> ok g w ->
  exists evs w', init_interfaces g e ce snap l w = Some (evs, w') /\ ok g w' /\ unlinks evs /\
    (exists m, keys w' = m ++ keys w /\ forall k, In k m -> exists i, In i l /\ k = Some (i_nic i)) /\
    (forall k c, get k w = Some c -> exists c', get k w' = Some c' /\ same c c').
Proof.
  intros Sn En. induction l as [|i l IH]; cbn; intros w Sub O.
  - do 2 eexists. split; [reflexivity|]. split; [exact O|]. split; [constructor|]. split; [exists []; split; [reflexivity|intros ? []]|].
    intros k c H. exists c. split; [exact H|apply same_refl].
  - destruct (init_intf g e ce snap i w O Sn En (Sub i (or_introl eq_refl))) as (e1 & w1 & E1 & O1 & U1 & (m1 & K1 & N1) & G1). rewrite E1. cbn [bind snd fst].
    destruct (IH w1 (fun x H => Sub x (or_intror H)) O1) as (e2 & w2 & E2 & O2 & U2 & (m2 & K2 & N2) & G2). rewrite E2. cbn [bind snd fst].
    do 2 eexists. split; [reflexivity|]. split; [exact O2|]. split; [apply Forall_app; auto|]. split.
    + exists (m2 ++ m1). split; [rewrite K2, K1, app_assoc; reflexivity|]. intros k H. apply in_app_or in H as [H|H].
      * destruct (N2 _ H) as (x & A & B). exists x. auto.
      * exists i. auto.
    + intros k c H. destruct (G1 _ _ H) as (c1 & A1 & S1). destruct (G2 _ _ A1) as (c2 & A2 & S2). exists c2. split; [exact A2|eapply same_trans; eassumption].
Qed.
Lemma get_map k f l : (forall c, k_key (f c) = k_key c) -> find (fun c => key_eqb (k_key c) k) (map f l) = option_map f (find (fun c => key_eqb (k_key c) k) l).
Proof. intro F. induction l as [|c l IH]; cbn; [reflexivity|]. rewrite F. destruct (key_eqb _ _); [reflexivity|exact IH]. Qed.
Lemma renew_key g e snap c : k_key (snd (renew g e snap c)) = k_key c.
Proof. apply renew_keep. Qed.

Lemma rescan_ok g e e2 ce snap w : ok g w -> wf_snap snap -> wf_env e ->
  exists evs w' w1, rescan g e e2 ce snap w = Some (evs, w') /\ ok g w' /\ unlinks evs /\
    init_interfaces g e ce snap snap w = Some (evs, w1) /\ ok g w1 /\
    w' = mkWorld (map (fun c => snd (renew g e2 snap c)) (w_clks w1)) (w_links w1) /\
    (exists m, keys w' = m ++ keys w /\ keys w1 = m ++ keys w /\ forall k, In k m -> exists i, In i snap /\ k = Some (i_nic i)) /\
    (forall k c, get k w = Some c -> exists c', get k w1 = Some c' /\ same c c').
Proof.
  intros O Sn En. destruct (init_intfs g e ce snap Sn En snap w (fun i H => H) O) as (evs & w1 & E & O1 & U & (m & K & N) & G).
  exists evs. eexists. exists w1. unfold rescan. rewrite E. cbn [bind fst snd]. split; [reflexivity|].
  assert (KK : forall l, map k_key (map (fun c => snd (renew g e2 snap c)) l) = map k_key l).
  { intro l. rewrite map_map. apply map_ext. intro c. apply renew_key. }
  split; [|split; [exact U|]; split; [reflexivity|]; split; [exact O1|]; split; [reflexivity|]; split; [|exact G]].
  - destruct O1 as (A & B & C). unfold ok, keys. cbn. rewrite KK. split; [exact A|]. split; [exact B|].
    rewrite Forall_forall in *. intros c' H. apply in_map_iff in H as (c & <- & H). specialize (C _ H). destruct C as (C1 & C2 & C3 & C4).
    destruct (renew_keep g e2 snap c) as (R1 & R2 & R3 & _ & _ & _ & R7). unfold clk_ok, is_sys. rewrite R1, R2, R3. split; [exact C1|]. split; [|split; [apply R7, C3|exact C4]].
    intro D. destruct (k_key c) as [nic|] eqn:Kc.
    + destruct (find (nic_phc nic) snap) eqn:F.
      * rewrite (renew_some _ _ _ _ _ _ Kc F) in D. destruct (k_phc c); [|destruct (x_open e2 (i_dev i))]; discriminate.
      * rewrite (renew_none _ _ _ _ _ Kc F). split; reflexivity.
    + rewrite renew_sys in * by (unfold is_sys; rewrite Kc; reflexivity). cbn in *. destruct (C2 D) as [P Q]. unfold is_sys in Q. rewrite Kc in Q. discriminate.
  - exists m. split; [unfold keys; cbn; rewrite KK; exact K|]. auto.
Qed.

(** Every operation. *)
Definition step_ok (g : config) (w : world) (evs : list ev) (w' : world) : Prop :=
  ok g w' /\ (exists m, keys w' = m ++ keys w) /\
  (forall j, ro_at j w -> ro_at j w' /\ quiet j evs) /\
  (forall k c, get k w = Some c -> exists c', get k w' = Some c' /\ k_kind c' = k_kind c /\ (k_init c = true -> k_init c' = true)).
Lemma step_fr g w evs w' : ok g w -> fr w w' -> (forall j, ro_at j w -> quiet j evs) -> step_ok g w evs w'.
Proof.
  intros O F Q. split; [eapply ok_fr; eassumption|]. split; [exists []; apply (fr_keys _ _ F)|]. split; [intros j R; split; [eapply ro_fr; eassumption|auto]|].
  intros k c G. destruct (fr_get _ _ _ _ F G) as (c' & A & S). exists c'. split; [exact A|]. split; apply S.
Qed.
Lemma run_op_ok g o w evs w' : ok g w -> wf_op o -> run_op g o w = Some (evs, w') -> step_ok g w evs w'.
Proof.
  intros O W H. destruct o; cbn in H.
  - destruct W as [Sn En]. destruct (rescan_ok g e e2 ce snap w O Sn En) as (evs0 & w0 & w1 & E & O' & U & _ & _ & -> & (m & K & _) & G).
    rewrite E in H. injection H as <- <-. split; [exact O'|]. split; [eauto|].
    assert (GG : forall k c, get k w = Some c -> exists c1, get k w1 = Some c1 /\ same c c1 /\
      get k (mkWorld (map (fun c => snd (renew g e2 snap c)) (w_clks w1)) (w_links w1)) = Some (snd (renew g e2 snap c1))).
    { intros k c X. destruct (G _ _ X) as (c1 & A & S). exists c1. split; [exact A|]. split; [exact S|]. unfold get in *. cbn.
      rewrite get_map by (intro; apply renew_key). rewrite A. reflexivity. }
    split.
    + intros j (c & A & B). split; [|apply unlinks_quiet, U]. destruct (GG _ _ A) as (c1 & _ & S & X). eexists. split; [exact X|].
      destruct (renew_keep g e2 snap c1) as (_ & _ & -> & _). apply S, B.
    + intros k c A. destruct (GG _ _ A) as (c1 & _ & S & X). eexists. split; [exact X|]. destruct (renew_keep g e2 snap c1) as (_ & -> & _ & _ & -> & _). split; apply S.
  - destruct (fixup_fr _ _ _ _ _ _ _ H) as [F Q]. apply step_fr; assumption.
  - destruct (compare a b r1 r2 w) as [[[[rc d] e] w0]|] eqn:C; [|discriminate]. injection H as <- <-. destruct (compare_fr _ _ _ _ _ _ _ _ _ C) as [F Q]. apply step_fr; auto.
  - destruct (set_time g to from thr initial r1 r2 os w) as [[[rc e] w0]|] eqn:C; [|discriminate]. injection H as <- <-. destruct (set_time_fr _ _ _ _ _ _ _ _ _ _ _ _ C) as [F Q]. apply step_fr; auto.
  - destruct (adjust_time g k t os w) as [[[rc e] w0]|] eqn:C; [|discriminate]. injection H as <- <-. apply step_fr; [exact O|eapply adjust_time_fr; exact C|]. intros. eapply adjust_time_quiet; eassumption.
  - destruct (adjust_frequency g k f os w) as [[[rc e] w0]|] eqn:C; [|discriminate]. injection H as <- <-. pose proof (adjust_freq_fr _ _ _ _ _ _ _ _ C) as ->. apply step_fr; [exact O|apply fr_refl|]. intros. eapply adjust_freq_quiet; eassumption.
  - destruct (save_correction six k x os None w) as [[[rc e] w0]|] eqn:C; [|discriminate]. injection H as <- <-. apply step_fr; [exact O| |constructor].
    unfold save_correction in C. destruct (get k w); cbn [bind] in C; [|discriminate]. destruct (negb _); [discriminate|]. destruct (outside _ _); injection C as <- <- <-; [apply fr_refl|apply fr_upd; same_t].
  - destruct (schedule_leap t os w) as [[[rc e] w0]|] eqn:C; [|discriminate]. injection H as <- <-.
    unfold schedule_leap in C. destruct (get None w) as [c|] eqn:G; cbn [bind] in C; [|discriminate]. destruct (k_ro c) eqn:R; injection C as <- <- <-; apply step_fr; auto using fr_refl.
    + intros; constructor.
    + apply fr_upd; same_t.
    + intros j (cj & A & B). repeat constructor. cbn. intros ->. rewrite G in A. congruence.
  - destruct (leap_now g t os w) as [[[rc e] w0]|] eqn:C; [|discriminate]. injection H as <- <-. unfold leap_now in C.
    destruct t; [injection C as <- <- <-; apply step_fr; auto using fr_refl; intros; constructor| |];
      (destruct (leap_clocks g _ os (w_clks w) w) as [[e1 w1]|] eqn:L; cbn [bind fst snd] in C; [|discriminate]; injection C as <- <- <-;
       destruct (leap_clocks_fr _ _ _ _ _ _ _ L) as [F Q]; apply step_fr; auto).
  - destruct (sync_status g k b timeout os w) as [[[rc e] w0]|] eqn:C; [|discriminate]. injection H as <- <-.
    unfold sync_status in C. destruct (get k w) as [c|] eqn:G; cbn [bind] in C; [|discriminate].
    destruct (k_ro c) eqn:R; [injection C as <- <- <-; apply step_fr; auto using fr_refl; intros; constructor|].
    destruct (is_sys c && g_rtc g); [injection C as <- <- <-; apply step_fr; auto; [apply fr_upd; same_t|intros; constructor]|].
    destruct (is_sys c || _); [injection C as <- <- <-; apply step_fr; auto using fr_refl; intros; constructor|].
    destruct (negb (k_sync c)); injection C as <- <- <-; (apply step_fr; [exact O| |]).
    + apply fr_refl.
    + intros; constructor.
    + destruct (os =? EOPNOTSUPP); [apply fr_upd; same_t|apply fr_refl].
    + intros j (cj & A & B). constructor; [|constructor]. cbn. intros <-. rewrite G in A. congruence.
  - destruct (set_blocked k b w) as [[rc w0]|] eqn:C; [|discriminate]. injection H as <- <-. unfold set_blocked in C. destruct (get k w); cbn [bind] in C; [|discriminate].
    destruct (chk_s32 _); cbn [bind] in C; [|discriminate]. injection C as <- <-. apply step_fr; [exact O|apply fr_upd; same_t|intros; constructor].
Qed.
Lemma run_ok g : forall l w evs w', ok g w -> Forall wf_op l -> run g l w = Some (evs, w') -> step_ok g w evs w'.
Proof.
  induction l as [|o l IH]; cbn; intros w evs w' O W H; [injection H as <- <-; apply step_fr; auto using fr_refl; intros; constructor|].
  inversion W; subst. destruct (run_op g o w) as [[e1 w1]|] eqn:E1; cbn [bind fst snd] in H; [|discriminate].
  destruct (run g l w1) as [[e2 w2]|] eqn:E2; cbn [bind fst snd] in H; [|discriminate]. injection H as <- <-.
  destruct (run_op_ok _ _ _ _ _ O H2 E1) as (O1 & (m1 & K1) & Q1 & I1). destruct (IH _ _ _ O1 H3 E2) as (O2 & (m2 & K2) & Q2 & I2).
  split; [exact O2|]. split; [exists (m2 ++ m1); rewrite K2, K1, app_assoc; reflexivity|]. split.
  - intros j R. destruct (Q1 _ R) as [A B]. destruct (Q2 _ A) as [C D]. split; [exact C|]. apply quiet_app; assumption.
  - intros k c G. destruct (I1 _ _ G) as (c1 & A & B & C). destruct (I2 _ _ A) as (c2 & D & E & F). exists c2. split; [exact D|]. split; [congruence|auto].
Qed.

(** The start. *)
Lemma initialise_ok g maxf e evs w : initialise g maxf e = Some (evs, w) ->
  ok g w /\ keys w = [None] /\
  ((g_no_adjust g = true \/ In "system"%string (g_readonly g)) -> ro_at None w /\ quiet None evs).
Proof.
  unfold initialise. intro H. set (c0 := set_status _ _) in H. set (c1 := snd (configure_new g (fun _ => []) c0)) in H.
  pose proof (configure_same g (fun _ => []) c0) as S. fold c1 in S.
  assert (K1 : k_key c1 = None) by apply S.
  assert (O0 : ok g (mkWorld [c1] [])).
  { split; [unfold keys; cbn; rewrite K1; repeat constructor; intros []|]. split; [exists []; unfold keys; cbn; rewrite K1; reflexivity|].
    constructor; [|constructor]. apply (ok_same g _ _ S). unfold clk_ok. cbn. repeat split; auto; try discriminate. }
  destruct (correct_fr _ _ _ _ _ _ H) as [F Q]. split; [eapply ok_fr; eassumption|]. split; [unfold keys; rewrite (fr_keys _ _ F); cbn; rewrite K1; reflexivity|].
  intro R. assert (Ro : ro_at None (mkWorld [c1] [])).
  { exists c1. split; [unfold get; cbn; rewrite K1; reflexivity|]. destruct R as [R|R].
    - apply S. cbn. exact R.
    - assert (X : k_ro (conf_readonly g (fun _ => []) c0) = true).
      { unfold conf_readonly. replace (existsb _ _) with true; [reflexivity|]. symmetry. apply existsb_exists. exists "system"%string. split; [exact R|reflexivity]. }
      subst c1. unfold configure_new. rewrite X. exact X. }
  split; [eapply ro_fr; eassumption|auto].
Qed.
