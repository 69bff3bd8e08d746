(** Proofs about the measuring half of the PTP slave servo. *)
Require Import ZArith QArith Qabs Qround List Bool Lia Lqa Permutation ZifyBool.
From Verif Require Import Base ListLib QLib TimeSpec TimeModel TimeProof FilterSpec FilterModel FilterProof
  SrvSpec SrvModel FltModel PsvSpec PsvModel.
From Verif Require TsdSpec TsdModel TsdProof.
Import ListNotations.
Open Scope Z_scope.

(** ** Lists *)
Lemma Forall2_skipn : forall A B (R : A -> B -> Prop) n l l', Forall2 R l l' -> Forall2 R (skipn n l) (skipn n l').
Proof.
  intros A B R n l l' H. revert n. induction H; intros n; destruct n; cbn; auto; try constructor; auto.
Qed.
Lemma Forall2_length : forall A B (R : A -> B -> Prop) l l', Forall2 R l l' -> length l = length l'.
Proof. intros A B R l l' H. induction H; cbn; congruence. Qed.
Lemma Forall2_lastn : forall A B (R : A -> B -> Prop) n l l', Forall2 R l l' -> Forall2 R (lastn n l) (lastn n l').
Proof.
  intros A B R n l l' H. unfold lastn. rewrite <- (Forall2_length _ _ _ _ _ H). apply Forall2_skipn. exact H.
Qed.
Lemma Forall2_In_l : forall A B (R : A -> B -> Prop) l l' x, Forall2 R l l' -> In x l ->
  exists y, In y l' /\ R x y.
Proof.
  intros A B R l l' x H. induction H; [intros []|]; intros [<-|I].
  - exists y. split; [left; reflexivity|assumption].
  - destruct (IHForall2 I) as [z [Z1 Z2]]. exists z. split; [right; assumption|assumption].
Qed.
Lemma Forall2_In_r : forall A B (R : A -> B -> Prop) l l' y, Forall2 R l l' -> In y l' ->
  exists x, In x l /\ R x y.
Proof.
  intros A B R l l' y H. induction H; [intros []|]; intros [<-|I].
  - exists x. split; [left; reflexivity|assumption].
  - destruct (IHForall2 I) as [z [Z1 Z2]]. exists z. split; [right; assumption|assumption].
Qed.
Lemma Qsum_Forall2 : forall l l', Forall2 Qeq l l' -> (Qsum l == Qsum l')%Q.
Proof.
  intros l l' H. induction H; [reflexivity|]. rewrite !Qsum_cons, H, IHForall2. reflexivity.
Qed.
Lemma Qmean_Forall2 : forall l l', Forall2 Qeq l l' -> (Qmean l == Qmean l')%Q.
Proof.
  intros l l' H. unfold Qmean, Qlen. rewrite (Qsum_Forall2 _ _ H), (Forall2_length _ _ _ _ _ H). reflexivity.
Qed.

(** ** The data set *)
Definition is_set (o : TsdSpec.op) : Prop := given_at o <> None.

Lemma update_time : forall t t', TsdModel.tsd_update t = Some t' ->
  TsdModel.time_monotonic t' = TsdModel.time_monotonic t.
Proof.
  intros t t' H. unfold TsdModel.tsd_update in H.
  destruct (TsdModel.dd_valid (TsdModel.m2s t) && TsdModel.dd_valid (TsdModel.s2m t)).
  - destruct (TsdModel.e2e_delay t) as [q|]; cbn [bind] in H; [|discriminate].
    unfold TsdModel.finish in H. destruct (subtract _ _); cbn [bind] in H; [|discriminate].
    injection H as <-. reflexivity.
  - destruct (_ && _ && _).
    + destruct (TsdModel.p2p_delay t) as [q|]; cbn [bind] in H; [|discriminate].
      unfold TsdModel.finish in H. destruct (subtract _ _); cbn [bind] in H; [|discriminate].
      injection H as <-. reflexivity.
    + injection H as <-. reflexivity.
Qed.
Lemma step_time : forall t o n t', given_at o = Some n -> TsdModel.step t o = Some t' ->
  TsdModel.time_monotonic t' = n.
Proof.
  intros t o n t' G H. destruct o; cbn [given_at] in G; try discriminate; injection G as <-;
    cbn [TsdModel.step] in H; apply update_time in H; exact H.
Qed.

(** a stored data set and its description *)
Definition same (t : TsdModel.tsd) (d : dset) : Prop :=
  TsdModel.complete t = true /\ TsdModel.time_monotonic t = d_mono d /\
  (TsdModel.path_delay t == d_delay d)%Q /\ (TsdModel.offset_from_master t == d_off d)%Q.

(** giving a measurement completes a data set exactly when the specification
    says so, and then it is that data set *)
Lemma tsd_given : forall h o n, Forall TsdSpec.sane_op (o :: h) -> given_at o = Some n ->
  exists t, TsdModel.run (o :: h) = Some t /\
    match dataset (o :: h) n with
    | Some d => same t d
    | None => TsdModel.complete t = false
    end.
Proof.
  intros h o n F G. destruct (TsdProof.run_inv _ F) as [t [R I]]. exists t. split; [exact R|].
  assert (T : TsdModel.time_monotonic t = n).
  { cbn [TsdModel.run] in R. destruct (TsdModel.run h) as [t0|]; cbn [bind] in R; [|discriminate].
    eapply step_time; eassumption. }
  destruct I as [_ [_ [_ [_ [_ [_ [_ [_ [I1 I2]]]]]]]]].
  assert (EX : TsdModel.complete t = true <->
     (TsdSpec.latest_m2s (o :: h) <> None /\
      (TsdSpec.latest_s2m (o :: h) <> None \/ TsdSpec.latest_p2p (o :: h) <> None))).
  { destruct o; cbn [given_at] in G; try discriminate; exact I2. }
  clear I2. unfold dataset, TsdProof.reports in *.
  destruct (TsdSpec.latest_m2s (o :: h)) as [m|] eqn:Em.
  - destruct (TsdSpec.latest_s2m (o :: h)) as [s|] eqn:Es.
    + assert (C : TsdModel.complete t = true) by (apply EX; split; [|left]; discriminate).
      destruct (I1 C) as [m' [Q1 [[s' [Q2 [Q3 Q4]]]|[Q2 _]]]]; [|discriminate].
      injection Q1 as <-. injection Q2 as <-. split; [exact C|]. split; [exact T|].
      split; [exact Q3|exact Q4].
    + destruct (TsdSpec.latest_p2p (o :: h)) as [[a b]|] eqn:Ep.
      * assert (C : TsdModel.complete t = true) by (apply EX; split; [|right]; discriminate).
        destruct (I1 C) as [m' [Q1 [[s' [Q2 _]]|[_ [a' [b' [Q2 [Q3 Q4]]]]]]]]; [discriminate|].
        injection Q1 as <-. injection Q2 as <- <-. split; [exact C|]. split; [exact T|].
        split; [exact Q3|exact Q4].
      * destruct (TsdModel.complete t); [|reflexivity].
        destruct (proj1 EX eq_refl) as [_ [X|X]]; congruence.
  - destruct (TsdModel.complete t); [|reflexivity].
    destruct (proj1 EX eq_refl) as [X _]; congruence.
Qed.

(** ** The path delay filter on data sets *)
Definition proj (t : TsdModel.tsd) : sample := mkSample (TsdModel.time_monotonic t) (TsdModel.path_delay t).
Definition small_inv (f : small) (h : list TsdModel.tsd) : Prop :=
  (0 < q_max f)%nat /\ length (q_data f) = q_max f /\
  ring_inv (q_max f) (q_data f) (q_num f) (q_widx f) h.

Definition pb (b : TsdModel.tsd * Q) : sample * Q := (proj (fst b), snd b).
Lemma search_proj : forall a to now l best,
  smallest_search a to now (map proj l) (option_map pb best) =
  option_map (option_map pb) (small_search a to now l best).
Proof.
  intros a to now l. induction l as [|s l IH]; intros best; [reflexivity|].
  cbn [map smallest_search small_search]. cbn [proj s_mono s_delay].
  destruct (subtract now (TsdModel.time_monotonic s)) as [d|]; cbn [bind]; [|reflexivity].
  destruct (sec d <? 0); [reflexivity|].
  destruct (is_ge to d) as [ge|]; cbn [bind]; [|reflexivity].
  rewrite <- IH. f_equal. destruct best as [[b q]|]; cbn [option_map pb fst snd];
    [destruct (Qlt_bool _ q)|]; destruct (ge && Qle_bool 0 (TsdModel.path_delay s)); reflexivity.
Qed.
Lemma search_from : forall a to now l best r, small_search a to now l best = Some r ->
  match r with None => best = None | Some (b, q) => best = Some (b, q) \/ In b l end.
Proof.
  intros a to now l. induction l as [|s l IH]; intros best r H; cbn [small_search] in H.
  - injection H as <-. destruct best as [[b q]|]; auto.
  - destruct (subtract now _) as [d|]; cbn [bind] in H; [|discriminate].
    destruct (sec d <? 0); [discriminate|].
    destruct (is_ge to d) as [ge|]; cbn [bind] in H; [|discriminate].
    apply IH in H. destruct r as [[b q]|].
    + destruct H as [H|H]; [|right; right; exact H].
      destruct (_ && _ && _) in H; [|left; exact H].
      injection H as <- _. right. left. reflexivity.
    + destruct (_ && _ && _) in H; [discriminate|exact H].
Qed.

Lemma same_elig : forall t d to now, same t d ->
  (eligible to now (proj t) <-> eligible to now (samp d)).
Proof.
  intros t d to now [_ [E1 [E2 _]]]. unfold eligible, age. cbn [proj samp s_mono s_delay].
  rewrite E1, E2. reflexivity.
Qed.
Lemma same_aged : forall t d co now, same t d ->
  (aged_delay co now (proj t) == aged_delay co now (samp d))%Q.
Proof.
  intros t d co now [_ [E1 [E2 _]]]. unfold aged_delay, age. cbn [proj samp s_mono s_delay].
  rewrite E1, E2. reflexivity.
Qed.

Lemma small_update_ok : forall g f hist sets t d,
  small_inv f hist -> q_max f = c_smax g -> q_ageing f = c_ageing g -> q_timeout f = from_s (c_timeout g) ->
  0 < c_timeout g < 2^60 -> Forall2 same hist sets -> same t d ->
  (forall x, In x (sets ++ [d]) -> mono_ok (d_mono d) (samp x)) ->
  exists f' p c, small_update f t = Some (f', p) /\ small_inv f' (hist ++ [t]) /\
    q_max f' = q_max f /\ q_ageing f' = q_ageing f /\ q_timeout f' = q_timeout f /\
    same p c /\ chosen g sets d c.
Proof.
  intros g f hist sets t d [Hm [Hl Hr]] Em Ea Et HT F2 SM MO.
  pose proof (ring_inv_push _ _ _ _ _ _ t Hr) as Hr'.
  destruct Hr as [Hc [Hn [Hw _]]]. unfold small_update.
  replace (q_widx f <? length (q_data f))%nat with true by lia.
  unfold ring_next in Hr'.
  replace (q_max f <=? S (q_widx f))%nat with (S (q_widx f) =? q_max f)%nat by lia.
  set (n := if (q_num f <? q_max f)%nat then S (q_num f) else q_num f) in *.
  set (dd := set_nth (q_widx f) t (q_data f)) in *.
  pose proof (ring_inv_perm _ _ _ _ _ _ Hr') as Hp.
  assert (Hin : forall x, In x (firstn n dd) <-> In x (lastn (q_max f) (hist ++ [t]))).
  { intros x; split; apply Permutation_in; [assumption|apply Permutation_sym; assumption]. }
  assert (F2' : Forall2 same (hist ++ [t]) (sets ++ [d])) by (apply Forall2_app; [assumption|constructor; [assumption|constructor]]).
  pose proof (Forall2_lastn _ _ _ (q_max f) _ _ F2') as FL.
  assert (Tm : TsdModel.time_monotonic t = d_mono d) by apply SM.
  destruct (MO d) as [Hs1 [Hs2 _]]; [apply in_or_app; right; left; reflexivity|].
  cbn [samp s_mono] in Hs1, Hs2.
  destruct (search_ok (q_ageing f) (c_timeout g) (d_mono d) (map proj (firstn n dd)) [] None) as [best [Hb1 Hb2]]; auto.
  { intros x Hx. apply in_map_iff in Hx as [y [<- Hy]]. apply Hin in Hy.
    destruct (Forall2_In_l _ _ _ _ _ _ FL Hy) as [z [Z1 Z2]]. apply in_lastn in Z1.
    destruct (MO z Z1) as [A [B C]]. destruct Z2 as [_ [E _]].
    unfold mono_ok. cbn [proj s_mono]. rewrite E. split; [exact A|]. split; [exact B|exact C]. }
  { cbn. intros ? []. }
  pose proof (search_proj (q_ageing f) (from_s (c_timeout g)) (d_mono d) (firstn n dd) None) as SP.
  cbn [option_map] in SP. rewrite Hb1 in SP. cbn [app] in Hb2.
  rewrite Tm, Et.
  destruct (small_search (q_ageing f) (from_s (c_timeout g)) (d_mono d) (firstn n dd) None) as [r|] eqn:SE;
    [|discriminate].
  cbn [option_map] in SP. injection SP as ->. cbn [bind].
  assert (II : small_inv (mkSmall (q_max f) (q_ageing f) n (if (S (q_widx f) =? q_max f)%nat then O else S (q_widx f)) (from_s (c_timeout g)) dd) (hist ++ [t])).
  { unfold small_inv; cbn [q_max q_data q_num q_widx]. split; [assumption|].
    split; [unfold dd; rewrite set_nth_length; assumption|exact Hr']. }
  pose proof (search_from _ _ _ _ _ _ SE) as SF.
  destruct r as [[b q]|]; cbn [option_map pb fst snd best_ok] in Hb2.
  - destruct SF as [SF|SF]; [discriminate|].
    destruct Hb2 as [_ [B2 [_ B4]]].
    destruct (Forall2_In_l _ _ _ _ _ _ FL (proj1 (Hin b) SF)) as [c [C1 C2]].
    eexists _, b, c. split; [reflexivity|]. split; [exact II|]. do 3 (split; [reflexivity|]).
    split; [exact C2|]. left. rewrite <- Em. split; [exact C1|].
    split; [apply (same_elig _ _ _ _ C2); exact B2|].
    intros x Hx Ex. destruct (Forall2_In_r _ _ _ _ _ _ FL Hx) as [y [Y1 Y2]].
    rewrite <- Ea. rewrite <- (same_aged _ _ _ _ C2), <- (same_aged _ _ _ _ Y2).
    apply B4; [apply in_map, Hin; exact Y1|apply (same_elig _ _ _ _ Y2); exact Ex].
  - eexists _, t, d. split; [reflexivity|]. split; [exact II|]. do 3 (split; [reflexivity|]).
    split; [exact SM|]. right. split; [reflexivity|]. intros x Hx Ex. rewrite <- Em in Hx.
    destruct (Forall2_In_r _ _ _ _ _ _ FL Hx) as [y [Y1 Y2]].
    apply (Hb2 (proj y)); [apply in_map, Hin; exact Y1|apply (same_elig _ _ _ _ Y2); exact Ex].
Qed.

Lemma small_reset_inv : forall f h, small_inv f h -> small_inv (small_reset f) [].
Proof.
  intros f h [A [B C]]. unfold small_inv, small_reset; cbn [q_max q_data q_num q_widx].
  split; [assumption|]. split; [assumption|]. apply ring_inv_init. lia.
Qed.
Lemma peirce_clear_inv : forall f h, peirce_inv f h -> peirce_inv (peirce_clear f) [].
Proof.
  intros f h [A [B [C D]]]. unfold peirce_inv, peirce_clear; cbn [pe_max pe_data pe_num pe_widx pe_sd].
  split; [assumption|]. split; [assumption|]. split; [apply ring_inv_init; lia|].
  unfold sd_inv, lastn. cbn. split; [reflexivity|]. split; reflexivity.
Qed.
Lemma judged_eq : forall g ys x x' out y, (x == x')%Q -> judged g ys x out y -> judged g ys x' out y.
Proof.
  intros g ys x x' out y E [A B]. unfold judged, verdict_ok in *. split.
  - rewrite A. split; intros [H [c [H1 H2]]]; (split; [exact H|]); exists c; (split; [exact H1|]);
      unfold is_outlier in *; [rewrite <- E|rewrite E]; exact H2.
  - rewrite B. destruct out; [rewrite E; reflexivity|exact E].
Qed.

(** ** The measuring part *)
Definition frep (g : conf) (moms : list sample) (sets : list dset) (m : mpart) : Prop :=
  (q_max (m_small m) = c_smax g /\ q_ageing (m_small m) = c_ageing g /\
   q_timeout (m_small m) = from_s (c_timeout g) /\ 0 < c_timeout g < 2^60 /\
   pe_max (m_peirce m) = c_pmax g /\ pe_weight (m_peirce m) = c_weight g /\
   c_table g = peirce_table /\ c_pmin g = PEIRCE_MIN /\ f_stiff (m_fir m) = c_fir g) /\
  (exists hist, small_inv (m_small m) hist /\ Forall2 same hist sets) /\
  (forall d, In d sets -> In (mkSample (d_mono d) 0) moms /\ TsdSpec.sane (d_mono d)) /\
  (exists ys acc xs, chain g sets ys acc /\ peirce_inv (m_peirce m) ys /\ fir_inv (m_fir m) xs /\
     Forall2 Qeq xs (map d_off acc) /\ reported g acc (m_ofm m) (m_mpd m)).

Definition mrep (g : conf) (moms : list sample) (ops : list TsdSpec.op) (sets : list dset)
           (ns nr : Z) (m : mpart) : Prop :=
  Forall TsdSpec.sane_op ops /\ TsdModel.run ops = Some (m_tsd m) /\ frep g moms sets m /\
  m_samples m = u32 ns /\ m_outliers m = u32 nr.

Lemma frep_tsd : forall g moms sets m t, frep g moms sets m -> frep g moms sets (set_tsd m t).
Proof. intros g moms sets m t H. exact H. Qed.
Lemma frep_moms : forall g moms moms' sets m, (forall x, In x moms -> In x moms') ->
  frep g moms sets m -> frep g moms' sets m.
Proof.
  intros g moms moms' sets m I [A [B [C D]]]. split; [exact A|]. split; [exact B|]. split; [|exact D].
  intros d Hd. destruct (C d Hd) as [C1 C2]. split; [apply I; exact C1|exact C2].
Qed.

Lemma u32_S : forall x, u32 (u32 x + 1) = u32 (x + 1).
Proof. intros x. unfold u32. rewrite Z.add_mod_idemp_l by lia. reflexivity. Qed.

(** what servo_update does with a complete set *)
Lemma servo_update_ok : forall g moms sets m d ns nr,
  frep g moms sets m -> same (m_tsd m) d -> TsdSpec.sane (d_mono d) -> In (mkSample (d_mono d) 0) moms ->
  (forall x, In x moms -> (instant (s_mono x) <= instant (d_mono d))%Z) ->
  m_samples m = u32 ns -> m_outliers m = u32 nr ->
  exists m' out c y ys acc, servo_update m = Some (m', negb out) /\ m_tsd m' = m_tsd m /\
    frep g moms (sets ++ [d]) m' /\ m_samples m' = u32 (ns + 1) /\
    m_outliers m' = u32 (nr + b2z out) /\
    chain g sets ys acc /\ reported g acc (m_ofm m) (m_mpd m) /\
    chosen g sets d c /\ judged g ys (d_off c) out y /\
    reported g (if out then acc else acc ++ [c]) (m_ofm m') (m_mpd m').
Proof.
  intros g moms sets m d ns nr FR SM SD IM MX EN EO.
  pose proof FR as FR0.
  destruct FR as [[P1 [P2 [P3 [P4 [P5 [P6 [P7 [P8 P9]]]]]]]] [[hist [S1 S2]] [MO [ys [acc [xs [CH [PI [FI [XE RE]]]]]]]]]].
  unfold servo_update. replace (TsdModel.complete (m_tsd m)) with true by (symmetry; apply SM).
  destruct (small_update_ok g (m_small m) hist sets (m_tsd m) d) as [f' [p [c [U [I' [Q1 [Q2 [Q3 [SC CC]]]]]]]]]; auto.
  { intros x Hx. apply in_app_or in Hx as [Hx|[<-|[]]].
    - destruct (MO x Hx) as [M1 [M2 M3]]. unfold mono_ok. cbn [samp s_mono].
      split; [exact M2|]. split; [exact M3|]. apply (MX _ M1).
    - destruct SD as [D1 D2]. unfold mono_ok. cbn [samp s_mono].
      split; [exact D1|]. split; [exact D2|]. lia. }
  rewrite U. cbn [bind]. unfold TsdModel.get_offset, TsdModel.get_path_delay.
  replace (TsdModel.complete p) with true by (symmetry; apply SC). cbn [bind].
  destruct (peirce_update_inv (m_peirce m) ys (TsdModel.offset_from_master p) PI) as [out [pe [y [PU [PI' [Z1 [Z2 VO]]]]]]].
  rewrite PU. cbn [bind]. rewrite P5, P6 in VO.
  assert (JU : judged g ys (d_off c) out y).
  { apply (judged_eq g ys (TsdModel.offset_from_master p)); [apply SC|]. unfold judged. rewrite P7, P8. exact VO. }
  assert (F2' : Forall2 same (hist ++ [m_tsd m]) (sets ++ [d])) by (apply Forall2_app; [assumption|constructor; [assumption|constructor]]).
  assert (MO' : forall x, In x (sets ++ [d]) -> In (mkSample (d_mono x) 0) moms /\ TsdSpec.sane (d_mono x)).
  { intros x Hx. apply in_app_or in Hx as [Hx|[<-|[]]]; [apply MO; exact Hx|split; assumption]. }
  destruct out.
  - eexists _, true, c, y, ys, acc. split; [reflexivity|]. split; [reflexivity|].
    split.
    { split; [cbn; repeat split; congruence || apply P4|]. split; [exists (hist ++ [m_tsd m]); split; assumption|].
      split; [exact MO'|]. exists (ys ++ [y]), acc, xs. cbn [m_peirce m_fir m_ofm m_mpd].
      split; [apply (chain_snoc g sets ys acc d c true y CH CC JU)|].
      split; [exact PI'|]. split; [exact FI|]. split; [exact XE|exact RE]. }
    cbn [m_samples m_outliers b2z m_ofm m_mpd]. rewrite EN, EO, !u32_S.
    do 2 (split; [reflexivity|]). split; [exact CH|]. split; [exact RE|]. split; [exact CC|].
    split; [exact JU|exact RE].
  - destruct (fir_update_inv (m_fir m) xs (TsdModel.offset_from_master p) FI) as [fi [r [FU [FI' [FS FM]]]]].
    rewrite FU. cbn [bind].
    assert (XE' : Forall2 Qeq (xs ++ [TsdModel.offset_from_master p]) (map d_off (acc ++ [c]))).
    { rewrite map_app. apply Forall2_app; [exact XE|]. constructor; [apply SC|constructor]. }
    assert (RE' : reported g (acc ++ [c]) r (TsdModel.path_delay p)).
    { assert (X : (r == Qmean (lastn (c_fir g) (map d_off (acc ++ [c]))))%Q).
      { rewrite FM, P9. apply Qmean_Forall2, Forall2_lastn. exact XE'. }
      unfold reported. destruct (acc ++ [c]) as [|d0 l0] eqn:EA; [destruct acc; discriminate|].
      split; [exact X|]. rewrite <- EA, last_last. apply SC. }
    eexists _, false, c, y, ys, acc. split; [reflexivity|]. split; [reflexivity|].
    split.
    { split; [cbn; repeat split; congruence || apply P4|]. split; [exists (hist ++ [m_tsd m]); split; assumption|].
      split; [exact MO'|]. exists (ys ++ [y]), (acc ++ [c]), (xs ++ [TsdModel.offset_from_master p]).
      cbn [m_peirce m_fir m_ofm m_mpd].
      split; [apply (chain_snoc g sets ys acc d c false y CH CC JU)|].
      split; [exact PI'|]. split; [exact FI'|]. split; [exact XE'|exact RE']. }
    cbn [m_samples m_outliers b2z m_ofm m_mpd]. rewrite EN, EO, u32_S, Z.add_0_r.
    do 2 (split; [reflexivity|]). split; [exact CH|]. split; [exact RE|]. split; [exact CC|].
    split; [exact JU|exact RE'].
Qed.

Lemma sane_missing : forall o, TsdSpec.sane_op (missing o).
Proof. intros []; exact I. Qed.
Lemma run_cons : forall h o t t', TsdModel.run h = Some t -> TsdModel.step t o = Some t' -> TsdModel.run (o :: h) = Some t'.
Proof. intros h o t t' H1 H2. cbn [TsdModel.run]. rewrite H1. exact H2. Qed.
Lemma run_step : forall h o t, Forall TsdSpec.sane_op (o :: h) -> TsdModel.run h = Some t ->
  exists t', TsdModel.step t o = Some t' /\ TsdModel.run (o :: h) = Some t'.
Proof.
  intros h o t F R. destruct (TsdProof.run_inv _ F) as [t' [R' _]]. exists t'. split; [|exact R'].
  cbn [TsdModel.run] in R'. rewrite R in R'. exact R'.
Qed.

(** one measurement *)
Lemma provide_ok : forall g moms ops sets ns nr m on o,
  mrep g moms ops sets ns nr m -> TsdSpec.sane_op o ->
  (forall n, given_at o = Some n -> In (mkSample n 0) moms /\ forall x, In x moms -> (instant (s_mono x) <= instant n)%Z) ->
  exists m' acc, provide m on o = Some (m', acc) /\
    match completes on ops o with
    | None => acc = false /\ m_ofm m' = m_ofm m /\ m_mpd m' = m_mpd m /\
        mrep g moms ((if on then o else missing o) :: ops) sets ns nr m'
    | Some d =>
        mrep g moms (o :: ops) (sets ++ [d]) (ns + 1) (nr + b2z (negb acc)) m' /\
        exists c y ys accd, chain g sets ys accd /\ reported g accd (m_ofm m) (m_mpd m) /\
          chosen g sets d c /\ judged g ys (d_off c) (negb acc) y /\
          reported g (if acc then accd ++ [c] else accd) (m_ofm m') (m_mpd m')
    end.
Proof.
  intros g moms ops sets ns nr m on o [FO [RN [FR [EN EO]]]] SO TM.
  unfold completes.
  assert (CL : forall o', (o' = o \/ o' = missing o) -> TsdSpec.sane_op o' ->
    exists t, TsdModel.step (m_tsd m) o' = Some t /\ TsdModel.run (o' :: ops) = Some t).
  { intros o' _ S'. apply run_step; [constructor; assumption|exact RN]. }
  assert (CM : forall o' t, TsdSpec.sane_op o' -> TsdModel.run (o' :: ops) = Some t ->
     mrep g moms (o' :: ops) sets ns nr (set_tsd m t)).
  { intros o' t S' R'. split; [constructor; assumption|]. split; [exact R'|]. split; [exact FR|]. split; assumption. }
  destruct (given_at o) as [n|] eqn:G.
  - assert (PE : provide m on o = if on then do t <- TsdModel.step (m_tsd m) o;
        if TsdModel.complete t then servo_update (set_tsd m t) else Some (set_tsd m t, false)
      else do t <- TsdModel.step (m_tsd m) (missing o); Some (set_tsd m t, false)).
    { destruct o; cbn [given_at] in G; try discriminate; reflexivity. }
    rewrite PE. clear PE. destruct on.
    + destruct (tsd_given ops o n) as [t [R D]]; [constructor; assumption|exact G|].
      destruct (CL o (or_introl eq_refl) SO) as [t' [ST R']]. rewrite R in R'. injection R' as <-.
      rewrite ST. cbn [bind]. destruct (dataset (o :: ops) n) as [d|] eqn:ED.
      * replace (TsdModel.complete t) with true by (symmetry; apply D).
        assert (DM : d_mono d = n).
        { unfold dataset in ED. destruct (TsdSpec.latest_m2s _); [|discriminate].
          destruct (TsdSpec.latest_s2m _); [injection ED as <-; reflexivity|].
          destruct (TsdSpec.latest_p2p _) as [[? ?]|]; [injection ED as <-; reflexivity|discriminate]. }
        destruct (TM n eq_refl) as [T1 T2].
        destruct (servo_update_ok g moms sets (set_tsd m t) d ns nr)
          as [m' [out [c [y [ys [acc [U [ET [FR' [E1 [E2 [CH [RE [CC [JU RE']]]]]]]]]]]]]]]; auto.
        { rewrite DM. clear - SO G. destruct o; cbn [given_at] in G; try discriminate; injection G as <-;
            cbn [TsdSpec.sane_op] in SO; apply SO. }
        { rewrite DM. exact T1. } { rewrite DM. exact T2. }
        exists m', (negb out). split; [exact U|]. rewrite negb_involutive. split.
        { split; [constructor; assumption|]. split; [rewrite ET; exact R|]. split; [exact FR'|]. split; assumption. }
        exists c, y, ys, acc. split; [exact CH|]. split; [exact RE|]. split; [exact CC|]. split; [exact JU|].
        destruct out; exact RE'.
      * rewrite D. exists (set_tsd m t), false. split; [reflexivity|]. split; [reflexivity|].
        split; [reflexivity|]. split; [reflexivity|]. apply CM; assumption.
    + destruct (CL (missing o) (or_intror eq_refl) (sane_missing o)) as [t [ST R]]. rewrite ST. cbn [bind].
      exists (set_tsd m t), false. split; [reflexivity|]. split; [reflexivity|].
      split; [reflexivity|]. split; [reflexivity|]. apply CM; [apply sane_missing|assumption].
  - assert (MI : missing o = o) by (destruct o; cbn [given_at] in G; try discriminate; reflexivity).
    destruct (CL o (or_introl eq_refl) SO) as [t [ST R]].
    exists (set_tsd m t), false. split.
    { destruct o; cbn [given_at] in G; try discriminate; cbn [provide]; rewrite ST; reflexivity. }
    replace (if on then None else None) with (@None dset) by (destruct on; reflexivity).
    split; [reflexivity|]. split; [reflexivity|]. split; [reflexivity|].
    rewrite MI. replace (if on then o else o) with o by (destruct on; reflexivity). apply CM; assumption.
Qed.
