(** Proofs about the clocks of the machine: initial correction, leap seconds, lookup, identity. *)
Require Import ZArith QArith List Bool String Lia Permutation Sorting.Sorted.
From Verif Require Import Base TimeSpec TimeModel TimeProof RegSpec RegModel RegProof RegProof2 RegProof3.
Import ListNotations.
Open Scope Z_scope.

Lemma get_none_in g w : ok g w -> exists s, get None w = Some s /\ is_sys s = true /\ k_del s = false.
Proof.
  intros (ND & (l & K) & C). destruct (get_in None w) as (s & G); [change (In None (keys w)); rewrite K; apply in_or_app; right; left; reflexivity|].
  exists s. split; [exact G|]. pose proof (get_key _ _ _ G) as [A B]. assert (Y : is_sys s = true) by (unfold is_sys; rewrite A; reflexivity). split; [exact Y|].
  rewrite Forall_forall in C. destruct (C _ B) as (_ & D & _). destruct (k_del s); [|reflexivity]. destruct D; congruence.
Qed.
Lemma fr_device w w' : fr w w' -> Forall has_device (w_clks w) -> Forall has_device (w_clks w').
Proof.
  intros F H. rewrite Forall_forall in *. intros c' I'. destruct (fr_in _ _ _ F I') as (c & I0 & S). specialize (H _ I0). unfold has_device in *.
  rewrite (same_sys _ _ S). destruct S as (_ & _ & _ & -> & _). exact H.
Qed.
Lemma freq_defined g k x os w c : get k w = Some c -> exists rc evs, adjust_frequency g k x os w = Some (rc, evs, w) /\ (forall t j, ~ In (Step j t) evs) /\
  (refused c = None -> In (Freq k x) evs /\ rc = os) /\ (refused c <> None -> evs = []).
Proof.
  intro G. unfold adjust_frequency. rewrite G. cbn [bind]. destruct (refused c).
  - do 2 eexists. split; [reflexivity|]. split; [intros ? ? []|]. split; [discriminate|auto].
  - do 2 eexists. split; [reflexivity|]. split; [|split; [intros _; split; [left; reflexivity|reflexivity]|congruence]].
    intros t j [X|X]; [discriminate|]. unfold with_status in X. destruct (_ && _); [destruct X as [X|[]]; discriminate|destruct X].
Qed.
Lemma load_defined g k file os w c : get k w = Some c -> k_spec c = true -> exists x rc e,
  load_correction g k file os w = Some (rc, e, upd k (fun c => set_corr c x) w) /\ (forall t j, ~ In (Step j t) e) /\
  x = (match file with Some y => if g_persistent g then (if outside (k_max c) y then 0%Q else y) else 0%Q | None => 0%Q end) /\
  (refused c = None -> In (Freq k x) e).
Proof.
  intros G Sp. unfold load_correction. rewrite G. cbn [bind]. rewrite Sp. cbn [negb].
  destruct (if g_persistent g then _ else _) as [rc0 x0] eqn:E0. destruct (if outside (k_max c) x0 then _ else _) as [[rc1 x1] e1] eqn:O.
  assert (G1 : get k (upd k (fun c => set_corr c x1) w) = Some (set_corr c x1)) by (apply (get_upd k (fun c => set_corr c x1)); [exact G|reflexivity]).
  destruct (freq_defined g k x1 os _ _ G1) as (rc2 & e2 & A & B & C & D). rewrite A. cbn [bind]. exists x1. do 2 eexists. split; [reflexivity|].
  assert (E1 : forall t j, ~ In (Step j t) e1) by (destruct (outside _ _); injection O as <- <- <-; intros t j; cbn; intuition discriminate).
  split; [intros t j X; apply in_app_or in X as [X|X]; [exact (E1 _ _ X)|exact (B _ _ X)]|]. split.
  - destruct file as [y|]; destruct (g_persistent g); injection E0 as <- <-; destruct (outside (k_max c) _); injection O as <- <- <-; reflexivity.
  - intro R. apply in_or_app. right. apply C. exact R.
Qed.

(** The initial correction of a clock whose device is open. *)
Lemma correct_steps g k ce w c d : ok g w -> Forall has_device (w_clks w) -> get k w = Some c -> ready c -> correctable g c = true ->
  k_ro c = false -> k_blk c <= 0 -> k_init c = false -> (exists s, x_time ce = inr s /\ (s < VALID \/ g_always g = true)) ->
  x_cmp ce = (0, d) -> normal d -> - 2^62 <= sec d < 2^62 -> x_oss ce = 0 ->
  exists evs1 evs2 off w' c', correct_new g k ce w = Some (evs1 ++ Step k off :: evs2, w') /\ instant off = - instant d /\
    (forall t j, ~ In (Step j t) (evs1 ++ evs2)) /\ get k w' = Some c' /\ k_init c' = true.
Proof.
  intros O Dv G Rd Cr Ro Bl In0 (s & Ts & Sv) Cm Nd Rg Os.
  assert (Y : is_sys c = false) by (unfold correctable in Cr; destruct (is_sys c); [discriminate|reflexivity]).
  assert (Kn : k <> None) by (intros ->; apply get_key in G as [G _]; unfold is_sys in Y; rewrite G in Y; discriminate).
  pose proof O as (_ & _ & Ck). rewrite Forall_forall in Ck. pose proof (get_key _ _ _ G) as [Kk Ic]. destruct (Ck _ Ic) as (_ & _ & Sp & _).
  unfold correct_new. destruct (load_defined g k (x_file ce) (x_osf ce) w c G Sp) as (x & rc0 & e0 & L & L2 & _). rewrite L. cbn [bind].
  set (w1 := upd k (fun c => set_corr c x) w). assert (F1 : fr w w1) by (apply fr_upd; same_t).
  assert (G1 : get k w1 = Some (set_corr c x)) by (apply (get_upd k (fun c => set_corr c x)); [exact G|reflexivity]).
  rewrite G1. cbn [bind]. replace (correctable g (set_corr c x)) with true by (symmetry; exact Cr). cbn [k_phc set_corr].
  destruct Rd as [Nd0 Hd]. destruct (k_phc c) as [dev|] eqn:Ph; [|destruct Hd; congruence]. rewrite Ts.
  replace ((s <? VALID) || g_always g) with true by (symmetry; apply orb_true_iff; destruct Sv as [Sv| ->]; [left; apply Z.ltb_lt, Sv|auto]).
  unfold set_time. rewrite G1. cbn [bind]. replace (key_eqb k None) with false by (symmetry; apply key_eqb_neq, Kn). cbn [k_init set_corr]. rewrite In0. cbn [orb andb].
  pose proof (ok_fr _ _ _ F1 O) as O1. destruct (get_none_in g w1 O1) as (sy & Gs & Ys & Ds).
  assert (Rs : ready sy) by (split; [exact Ds|left; exact Ys]). assert (Rc : ready (set_corr c x)) by (split; [exact Nd0|right; cbn; congruence]).
  destruct (compare_good None k (0, null_time) (x_cmp ce) w1 sy (set_corr c x) Gs G1 Rs Rc) as (off & ec & w2 & Cmp & Io & _ & Ec).
  { unfold reading. rewrite Ys. reflexivity. }
  { unfold reading. destruct (is_sys _); [reflexivity|]. rewrite Cm. reflexivity. }
  { apply normal_null. } { rewrite Cm. exact Nd. }
  { unfold reading. rewrite Ys. replace (is_sys (set_corr c x)) with false by (symmetry; exact Y). rewrite Cm. cbn [snd]. intros p q -> ->. cbn. lia. }
  rewrite Cmp. cbn [bind Z.eqb andb]. unfold reading in Io. rewrite Ys in Io. replace (is_sys (set_corr c x)) with false in * by (symmetry; exact Y). rewrite Cm in Io. cbn [snd] in Io.
  change (instant null_time) with 0 in Io. rewrite Ys in Ec. cbn in Ec.
  destruct (compare_fr _ _ _ _ _ _ _ _ _ Cmp) as [F2 _].
  assert (G2 : exists c2, get k w2 = Some c2 /\ refused c2 = None /\ is_sys c2 = false).
  { revert Cmp. unfold compare. rewrite Gs, G1. cbn [bind]. rewrite Ds. cbn [k_del set_corr]. rewrite Nd0. cbn [orb]. cbv zeta. rewrite Ys. cbn [negb andb orb].
    replace (is_sys (set_corr c x)) with false by (symmetry; exact Y). cbn [k_phc set_corr]. rewrite Ph. cbn [negb andb Z.eqb]. rewrite G1. cbn [bind]. rewrite Cm. cbn [fst snd Z.eqb].
    destruct (subtract null_time d); cbn [bind]; [|discriminate]. unfold cmp_end. cbn [Z.eqb EOPNOTSUPP]. intro X. injection X as _ _ X2. subst w2.
    eexists. split; [apply (get_upd k (fun c => set_good c (u32 (k_good c + 1)))); [exact G1|reflexivity]|]. split; [|exact Y].
    unfold refused. cbn [k_phc k_ro k_blk set_good set_corr]. rewrite Ph, Ro, andb_false_r. replace (0 <? k_blk c) with false by (symmetry; apply Z.ltb_ge, Bl). reflexivity. }
  destruct G2 as (c2 & G2 & Rf & Y2). unfold adjust_time. rewrite G2. cbn [bind]. rewrite Rf, Os. cbn [Z.eqb].
  pose proof (fr_device _ _ (fr_trans _ _ _ F1 F2) Dv) as D2. apply record_defined in D2. destruct (record_step w2) as [w3|] eqn:Rec; [|congruence]. cbn [bind].
  unfold with_status. rewrite Y2. cbn [andb Z.eqb]. pose proof (fr_record _ _ Rec) as F3. destruct (fr_get _ _ _ _ F3 G2) as (c3 & G3 & _).
  exists (e0 ++ ec), [], off, (upd k set_init w3), (set_init c3). split; [rewrite <- app_assoc; reflexivity|]. split; [lia|]. split; [|split; [apply get_upd; [exact G3|reflexivity]|reflexivity]].
  intros t j X. rewrite app_nil_r in X. apply in_app_or in X as [X|X]; [exact (L2 _ _ X)|]. rewrite Ec in X. destruct X as [X|[]]. discriminate.
Qed.
Lemma correct_no_step g k ce w c : ok g w -> get k w = Some c -> correctable g c = true ->
  (k_init c = true \/ k_phc c = None \/ (exists e, x_time ce = inl e) \/ (exists s, x_time ce = inr s /\ VALID <= s /\ g_always g = false)) ->
  exists evs w', correct_new g k ce w = Some (evs, w') /\ forall t j, ~ In (Step j t) evs.
Proof.
  intros O G Cr H. pose proof O as (_ & _ & Ck). rewrite Forall_forall in Ck. pose proof (get_key _ _ _ G) as [Kk Ic]. destruct (Ck _ Ic) as (_ & _ & Sp & _).
  unfold correct_new. destruct (load_defined g k (x_file ce) (x_osf ce) w c G Sp) as (x & rc0 & e0 & L & L2 & _). rewrite L. cbn [bind].
  assert (G1 : get k (upd k (fun c => set_corr c x) w) = Some (set_corr c x)) by (apply (get_upd k (fun c => set_corr c x)); [exact G|reflexivity]).
  rewrite G1. cbn [bind]. replace (correctable g (set_corr c x)) with true by (symmetry; exact Cr). cbn [k_phc set_corr].
  assert (Done : exists evs w', Some (e0, upd k (fun c => set_corr c x) w) = Some (evs, w') /\ forall t j, ~ In (Step j t) evs) by (do 2 eexists; split; [reflexivity|exact L2]).
  destruct (k_phc c) eqn:Ph; [|exact Done]. destruct (x_time ce) as [er|s] eqn:Ts; [exact Done|].
  destruct ((s <? VALID) || g_always g) eqn:Q; [|exact Done].
  destruct H as [H|[H|[(e & H)|(s' & H & V & A)]]]; try discriminate.
  - unfold set_time. rewrite G1. cbn [bind]. cbn [k_init set_corr]. rewrite H. cbn [andb]. rewrite orb_true_r. cbn [bind].
    do 2 eexists. split; [reflexivity|]. rewrite app_nil_r. exact L2.
  - injection H as <-. rewrite A in Q. rewrite orb_false_r in Q. apply Z.ltb_lt in Q. lia.
Qed.

(** Leap seconds. *)
Lemma leap_bit_ins s t : Z.testbit (Z.lor (Z.land s (Z.lnot (Z.lor DEL INS))) (leap_bits t)) 4 = match t with L_61 => true | _ => false end /\
  Z.testbit (Z.lor (Z.land s (Z.lnot (Z.lor DEL INS))) (leap_bits t)) 5 = match t with L_59 => true | _ => false end.
Proof.
  rewrite !Z.lor_spec, !Z.land_spec. replace (Z.testbit (Z.lnot (Z.lor DEL INS)) 4) with false by reflexivity. replace (Z.testbit (Z.lnot (Z.lor DEL INS)) 5) with false by reflexivity.
  rewrite !andb_false_r. destruct t; split; reflexivity.
Qed.
Lemma leap_bit_other s t n : 0 <= n -> n <> 4 -> n <> 5 ->
  Z.testbit (Z.lor (Z.land s (Z.lnot (Z.lor DEL INS))) (leap_bits t)) n = Z.testbit s n.
Proof.
  intros N A B. rewrite Z.lor_spec, Z.land_spec, Z.lnot_spec, Z.lor_spec by exact N.
  change DEL with (2^5). change INS with (2^4). rewrite !Z.pow2_bits_eqb by lia. replace (5 =? n) with false by (symmetry; apply Z.eqb_neq; lia). replace (4 =? n) with false by (symmetry; apply Z.eqb_neq; lia).
  cbn [orb negb]. rewrite andb_true_r. replace (Z.testbit (leap_bits t) n) with false; [apply orb_false_r|].
  destruct t; cbn [leap_bits]; [symmetry; apply Z.bits_0| |]; [change INS with (2^4)|change DEL with (2^5)]; rewrite Z.pow2_bits_eqb by lia; symmetry; apply Z.eqb_neq; lia.
Qed.
Definition told_same (c c' : clk) : Prop := c' = c \/ c' = set_told c.
Lemma leap_clocks_exact g step : forall l w, Forall has_device (w_clks w) ->
  Forall (fun c => exists c', get (k_key c) w = Some c' /\ refused c' = refused c /\ is_sys c' = is_sys c) l ->
  exists w', leap_clocks g step (fun _ => 0) l w =
    Some (map (fun c => Step (k_key c) step) (filter (fun c => correctable g c && match refused c with None => true | Some _ => false end) l), w').
Proof.
  induction l as [|c l IH]; cbn; intros w D H; [eauto|]. inversion H as [|? ? (c' & G & R & Y) T]; subst.
  destruct (correctable g c) eqn:Cr; cbn [andb]; [|apply IH; assumption].
  assert (Yc : is_sys c = false) by (unfold correctable in Cr; destruct (is_sys c); [discriminate|reflexivity]).
  unfold adjust_time at 1. rewrite G. cbn [bind]. rewrite R. destruct (refused c) eqn:Rf.
  - cbn [bind]. destruct (IH w D T) as (w' & E). rewrite E. cbn [bind fst snd app]. eauto.
  - cbn [Z.eqb]. pose proof (proj2 (record_defined w) D) as N. destruct (record_step w) as [w1|] eqn:Rec; [|congruence]. cbn [bind].
    unfold with_status. rewrite Y, Yc. cbn [andb].
    assert (D1 : Forall has_device (w_clks w1)) by (eapply fr_device; [apply fr_record, Rec|exact D]).
    assert (T1 : Forall (fun c => exists c', get (k_key c) w1 = Some c' /\ refused c' = refused c /\ is_sys c' = is_sys c) l).
    { eapply Forall_impl; [|exact T]. intros x (x' & Gx & Rx & Yx). unfold record_step in Rec. destruct (forallb _ _); [|discriminate]. injection Rec as <-.
      unfold get in *. cbn. rewrite get_map by (intro z; destruct (is_sys z); reflexivity). rewrite Gx. cbn [option_map].
      destruct (is_sys x') eqn:Q; [eauto|]. exists (set_told x'). split; [reflexivity|]. split; [exact Rx|]. rewrite <- Yx. exact Q. }
    destruct (IH w1 D1 T1) as (w' & E). rewrite E. cbn [bind fst snd]. exists w'. reflexivity.
Qed.

(** Lookup. *)
Lemma insert_perm addr k l : Permutation (insert_at addr k l) (k :: l).
Proof. induction l as [|x l IH]; cbn; [reflexivity|]. destruct (_ <=? _); [reflexivity|]. rewrite IH. apply perm_swap. Qed.
Lemma insert_sorted addr k l : StronglySorted (fun a b => addr a <= addr b) l -> StronglySorted (fun a b => addr a <= addr b) (insert_at addr k l).
Proof.
  induction l as [|x l IH]; cbn; intro H; [repeat constructor|]. inversion H; subst. destruct (addr k <=? addr x) eqn:E.
  - apply Z.leb_le in E. constructor; [exact H|]. constructor; [exact E|]. eapply Forall_impl; [|exact H3]. cbn. intros; lia.
  - apply Z.leb_gt in E. constructor; [auto|]. rewrite Forall_forall in *. intros y Y. apply (Permutation_in _ (insert_perm addr k l)) in Y as [<-|Y]; [lia|auto].
Qed.
Lemma snapshot_spec addr w : let act := map k_key (filter (fun c => negb (k_del c)) (w_clks w)) in
  Permutation (snapshot addr w) act /\ StronglySorted (fun a b => addr a <= addr b) (snapshot addr w).
Proof.
  cbv zeta. unfold snapshot. induction (map k_key _) as [|k l [P S]]; cbn; [repeat constructor|].
  split; [rewrite insert_perm; constructor; exact P|apply insert_sorted, S].
Qed.
Definition active (l : list clk) : list key := map k_key (filter (fun c => negb (k_del c)) l).
Lemma find_active l : option_map k_key (find (fun c => negb (k_del c)) l) = hd_error (active l).
Proof. unfold active. induction l as [|c l IH]; cbn; [reflexivity|]. destruct (negb (k_del c)); [reflexivity|exact IH]. Qed.
Lemma next_active_spec : forall l p a q, NoDup (map k_key l) -> active l = p ++ a :: q -> next_active a l = hd_error q.
Proof.
  unfold active. induction l as [|c l IH]; cbn; intros p a q ND H; [destruct p; discriminate|]. inversion ND; subst.
  destruct (negb (k_del c)); cbn in H.
  - destruct p as [|x p]; injection H as E H.
    + subst a. rewrite key_eqb_refl, find_active. unfold active. rewrite H. reflexivity.
    + assert (X : In a (map k_key l)). { assert (Y : In a (p ++ a :: q)) by (apply in_or_app; right; left; reflexivity). rewrite <- H in Y. apply in_map_iff in Y as (y & <- & Y). apply in_map. apply filter_In in Y. apply Y. }
      destruct (key_eqb (k_key c) a) eqn:Q; [apply key_eqb_eq in Q; congruence|]. eapply IH; eauto.
  - assert (X : In a (map k_key l)). { assert (Y : In a (p ++ a :: q)) by (apply in_or_app; right; left; reflexivity). rewrite <- H in Y. apply in_map_iff in Y as (y & <- & Y). apply in_map. apply filter_In in Y. apply Y. }
    destruct (key_eqb (k_key c) a) eqn:Q; [apply key_eqb_eq in Q; congruence|]. eapply IH; eauto.
Qed.
Lemma hw_id_none id w : find_by_hw_id id w = None.
Proof.
  unfold find_by_hw_id. change ((8 =? 0)%nat) with false. cbn [memcmp firstn]. unfold memcmp. cbn [firstn].
  induction (w_clks w) as [|c l IH]; cbn; [reflexivity|]. destruct (list_eq_dec Z.eq_dec [] []); [|congruence]. cbn. exact IH.
Qed.
Lemma find_name_spec n w : match find_by_name n w with
  | Some k => exists p c q, w_clks w = p ++ c :: q /\ k_key c = k /\ In n (k_names c) /\ forall x, In x p -> ~ In n (k_names x)
  | None => forall c, In c (w_clks w) -> ~ In n (k_names c) end.
Proof.
  unfold find_by_name. induction (w_clks w) as [|c l IH]; cbn; [intuition|]. destruct (existsb (String.eqb n) (k_names c)) eqn:E; cbn.
  - exists [], c, l. split; [reflexivity|]. split; [reflexivity|]. split; [apply existsb_str, E|intros ? []].
  - assert (N : ~ In n (k_names c)) by (intro X; apply existsb_str in X; congruence).
    destruct (find _ l) as [d|]; cbn in *.
    + destruct IH as (p & c0 & q & -> & A & B & C). exists (c :: p), c0, q. split; [reflexivity|]. split; [exact A|]. split; [exact B|]. intros x [<-|X]; auto.
    + intros x [<-|X]; auto.
Qed.

(** Identities. *)
Lemma hw_id_spec g mac : List.length mac = 6%nat -> List.length (g_unique g) = 8%nat -> hw_id g mac = identity (g_legacy g) (g_unique g) mac.
Proof.
  intros L U. unfold hw_id, identity. rewrite L. destruct mac as [|a [|b [|c [|d [|e [|f [|]]]]]]]; try discriminate.
  destruct (g_unique g) as [|u0 [|u1 [|u2 [|u3 [|u4 [|u5 [|u6 [|u7 [|]]]]]]]]]; try discriminate. destruct (g_legacy g); reflexivity.
Qed.
Lemma hw_id_inj g m1 m2 : List.length m1 = 6%nat -> List.length m2 = 6%nat -> List.length (g_unique g) = 8%nat -> hw_id g m1 = hw_id g m2 -> m1 = m2.
Proof.
  intros A B U. rewrite !hw_id_spec by assumption. unfold identity.
  destruct m1 as [|a [|b [|c [|d [|e [|f [|]]]]]]]; try discriminate. destruct m2 as [|a' [|b' [|c' [|d' [|e' [|f' [|]]]]]]]; try discriminate.
  destruct (g_legacy g); cbn; intro H; injection H; intros; subst; reflexivity.
Qed.
Lemma outside_spec m x : outside m x = false <-> (- m <= x /\ x <= m)%Q.
Proof. unfold outside. rewrite orb_false_iff, !negb_false_iff, !Qle_bool_iff. tauto. Qed.

Lemma compare_no_step a b r1 r2 w rc d evs w' : compare a b r1 r2 w = Some (rc, d, evs, w') -> forall j t, ~ In (Step j t) evs.
Proof.
  intros H j t. unfold compare in H. destruct (get a w) as [ca|]; cbn [bind] in H; [|discriminate]. destruct (get b w) as [cb|]; cbn [bind] in H; [|discriminate].
  destruct (k_del ca || k_del cb). { injection H as <- <- <- <-. intros []. } cbv zeta in H.
  destruct ((negb (is_sys ca) && _) || _). { injection H as <- <- <- <-. intros []. }
  assert (E : forall rc0 e0 d0 w0, cmp_end rc0 e0 d0 w0 = Some (rc, d, evs, w') -> (forall j t, ~ In (Step j t) e0) -> ~ In (Step j t) evs).
  { intros rc0 e0 d0 w0 X N. unfold cmp_end in X. destruct (rc0 =? EOPNOTSUPP); injection X as <- <- <- <-; [|apply N].
    intro Y. apply in_app_or in Y as [Y|[Y|[]]]; [exact (N _ _ Y)|discriminate]. }
  assert (F : forall x y c w0 e w1, cmp_fail x y c w0 = (e, w1) -> forall j t, ~ In (Step j t) e).
  { intros x y c w0 e w1 X j9 t9 Y. unfold cmp_fail in X. injection X as <- <-. destruct Y as [Y|Y]; [discriminate|]. destruct (k_good c <? WARN_THRESHOLD); [destruct Y as [Y|[]]; discriminate|destruct Y]. }
  destruct (is_sys ca).
  - cbn [negb Z.eqb] in H. destruct (is_sys cb). { apply (E _ _ _ _ H). intros ? ? []. }
    destruct (get b w) as [cb'|]; cbn [bind] in H; [|discriminate]. destruct (fst r2 =? 0).
    + destruct (subtract _ _); cbn [bind] in H; [|discriminate]. apply (E _ _ _ _ H). cbn. intros ? ? [X|[]]; discriminate.
    + destruct (cmp_fail a b cb' w) as [e w2] eqn:X. apply (E _ _ _ _ H). cbn. exact (F _ _ _ _ _ _ X).
  - destruct (fst r1 =? 0).
    + cbn [negb Z.eqb] in H. destruct (is_sys cb). { apply (E _ _ _ _ H). cbn. intros ? ? [X|[]]; discriminate. }
      destruct (get b _) as [cb'|]; cbn [bind] in H; [|discriminate]. destruct (fst r2 =? 0).
      * destruct (subtract _ _); cbn [bind] in H; [|discriminate]. apply (E _ _ _ _ H). cbn. intros ? ? [X|[X|[]]]; discriminate.
      * destruct (cmp_fail a b cb' _) as [e w2] eqn:X. apply (E _ _ _ _ H). cbn. intros j9 t9 [Y|Y]; [discriminate|exact (F _ _ _ _ _ _ X _ _ Y)].
    + destruct (cmp_fail a a ca w) as [e w2] eqn:X. destruct (negb (fst r1 =? 0)).
      * apply (E _ _ _ _ H). exact (F _ _ _ _ _ _ X).
      * destruct (is_sys cb). { apply (E _ _ _ _ H). exact (F _ _ _ _ _ _ X). }
        destruct (get b w2) as [cb'|]; cbn [bind] in H; [|discriminate]. destruct (fst r2 =? 0).
        -- destruct (subtract _ _); cbn [bind] in H; [|discriminate]. apply (E _ _ _ _ H). intros j9 t9 Y. apply in_app_or in Y as [Y|[Y|[]]]; [exact (F _ _ _ _ _ _ X _ _ Y)|discriminate].
        -- destruct (cmp_fail a b cb' w2) as [e3 w3] eqn:X3. apply (E _ _ _ _ H). intros j9 t9 Y. apply in_app_or in Y as [Y|Y]; [exact (F _ _ _ _ _ _ X _ _ Y)|exact (F _ _ _ _ _ _ X3 _ _ Y)].
Qed.
