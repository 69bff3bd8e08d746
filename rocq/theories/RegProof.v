(** Proofs about the clocks of the machine: what an operation leaves alone. *)
Require Import ZArith QArith List Bool String Lia.
From Verif Require Import Base TimeSpec TimeModel TimeProof RegSpec RegModel.
Import ListNotations.
Open Scope Z_scope.

Lemma key_eqb_eq a b : key_eqb a b = true <-> a = b.
Proof.
  destruct a, b; cbn; split; intro H; try discriminate; try reflexivity.
  - apply Z.eqb_eq in H. congruence.
  - injection H as ->. apply Z.eqb_refl.
Qed.
Lemma key_eqb_refl a : key_eqb a a = true.
Proof. apply key_eqb_eq. reflexivity. Qed.
Lemma key_dec : forall a b : key, {a = b} + {a <> b}.
Proof. decide equality. apply Z.eq_dec. Defined.
Lemma key_eqb_neq a b : a <> b -> key_eqb a b = false.
Proof. intro H. destruct (key_eqb a b) eqn:E; [apply key_eqb_eq in E; contradiction|reflexivity]. Qed.

(** Two states of the same clock, between rescans. *)
Definition same (c c' : clk) : Prop :=
  k_key c' = k_key c /\ k_kind c' = k_kind c /\ k_del c' = k_del c /\ k_phc c' = k_phc c /\
  k_idx c' = k_idx c /\ k_max c' = k_max c /\ k_spec c' = k_spec c /\ k_id c' = k_id c /\
  k_names c' = k_names c /\ (k_ro c = true -> k_ro c' = true) /\ (k_init c = true -> k_init c' = true) /\
  (k_told c = true -> k_told c' = true).
Definition fr (w w' : world) : Prop := Forall2 same (w_clks w) (w_clks w') /\ w_links w' = w_links w.

Lemma same_refl c : same c c.
Proof. repeat split; auto. Qed.
Lemma same_trans a b c : same a b -> same b c -> same a c.
Proof.
  intros (A1 & A2 & A3 & A4 & A5 & A6 & A7 & A8 & A9 & A10 & A11 & A12) (B1 & B2 & B3 & B4 & B5 & B6 & B7 & B8 & B9 & B10 & B11 & B12).
  repeat split; try congruence; auto.
Qed.
Lemma fr_refl w : fr w w.
Proof. split; [|reflexivity]. induction (w_clks w); constructor; auto using same_refl. Qed.
Lemma fr_trans a b c : fr a b -> fr b c -> fr a c.
Proof.
  intros [A A'] [B B']. split; [|congruence]. revert B. generalize (w_clks c). induction A; intros l0 B; inversion B; subst; constructor; eauto using same_trans.
Qed.
Lemma fr_upd k f w : (forall c, same c (f c)) -> fr w (upd k f w).
Proof.
  intro H. split; [|reflexivity]. cbn. induction (w_clks w); cbn; constructor; auto.
  destruct (key_eqb _ _); auto using same_refl.
Qed.
Lemma fr_record w w' : record_step w = Some w' -> fr w w'.
Proof.
  unfold record_step. destruct (forallb _ _); [|discriminate]. intro E. injection E as <-. split; [|reflexivity]. cbn.
  induction (w_clks w); cbn; constructor; auto. destruct (is_sys a); [apply same_refl|]. repeat split; auto.
Qed.

Lemma get_key k w c : get k w = Some c -> k_key c = k /\ In c (w_clks w).
Proof. intro H. apply find_some in H as [A B]. apply key_eqb_eq in B. auto. Qed.
Lemma get_none k w : get k w = None <-> ~ In k (map k_key (w_clks w)).
Proof.
  unfold get. induction (w_clks w) as [|c l IH]; cbn; [intuition|]. destruct (key_eqb (k_key c) k) eqn:E.
  - apply key_eqb_eq in E. split; [discriminate|]. intro H. exfalso. apply H. auto.
  - rewrite IH. split; intros H; [|intuition]. intros [X|X]; [subst; rewrite key_eqb_refl in E; discriminate|auto].
Qed.
Lemma get_in k w : In k (map k_key (w_clks w)) -> exists c, get k w = Some c.
Proof. intro H. destruct (get k w) eqn:E; eauto. apply get_none in E. contradiction. Qed.
Lemma get_of_in w c : NoDup (map k_key (w_clks w)) -> In c (w_clks w) -> get (k_key c) w = Some c.
Proof.
  unfold get. induction (w_clks w) as [|x l IH]; cbn; [intuition|]. intro N. inversion N; subst. intros [->|H]; [rewrite key_eqb_refl; reflexivity|].
  destruct (key_eqb (k_key x) (k_key c)) eqn:E; [|auto]. apply key_eqb_eq in E. exfalso. apply H1. rewrite E. apply in_map, H.
Qed.
Lemma fr_keys w w' : fr w w' -> map k_key (w_clks w') = map k_key (w_clks w).
Proof. intros [H _]. induction H as [|? ? ? ? S]; cbn; [reflexivity|]. f_equal; [apply S|assumption]. Qed.
Lemma fr_get k w w' c : fr w w' -> get k w = Some c -> exists c', get k w' = Some c' /\ same c c'.
Proof.
  intros [H _]. unfold get. induction H as [|x y l l' S H IH]; cbn; [discriminate|].
  assert (E : k_key y = k_key x) by apply S. rewrite E. destruct (key_eqb (k_key x) k); [|exact IH].
  intro X. injection X as <-. eauto.
Qed.
Lemma fr_in w w' c' : fr w w' -> In c' (w_clks w') -> exists c, In c (w_clks w) /\ same c c'.
Proof.
  intros [H _]. induction H as [|x y l l' S H IH]; cbn; [intuition|]. intros [->|X]; [eauto|]. destruct (IH X) as (c & A & B). eauto.
Qed.
Lemma fr_in' w w' c : fr w w' -> In c (w_clks w) -> exists c', In c' (w_clks w') /\ same c c'.
Proof.
  intros [H _]. induction H as [|x y l l' S H IH]; cbn; [intuition|]. intros [->|X]; [eauto|]. destruct (IH X) as (c' & A & B). eauto.
Qed.
Lemma get_upd k f w c : get k w = Some c -> k_key (f c) = k_key c -> get k (upd k f w) = Some (f c).
Proof.
  unfold get, upd. cbn. induction (w_clks w) as [|x l IH]; cbn; [discriminate|]. destruct (key_eqb (k_key x) k) eqn:E.
  - intros X Y. injection X as <-. rewrite Y, E. reflexivity.
  - rewrite E. auto.
Qed.
Lemma get_upd_other k j f w : j <> k -> (forall c, k_key (f c) = k_key c) -> get j (upd k f w) = get j w.
Proof.
  intros N F. unfold get, upd. cbn. induction (w_clks w) as [|x l IH]; cbn; [reflexivity|].
  destruct (key_eqb (k_key x) k) eqn:E.
  - rewrite F. apply key_eqb_eq in E. rewrite E. rewrite (key_eqb_neq k j) by congruence. exact IH.
  - destruct (key_eqb (k_key x) j); auto.
Qed.

(** No write to a clock that is read-only. *)
Definition quiet (k : key) (evs : list ev) : Prop := Forall (fun e => ~ writes_to k e) evs.
Lemma quiet_app k a b : quiet k a -> quiet k b -> quiet k (a ++ b).
Proof. intros A B. apply Forall_app. auto. Qed.
Definition ro_at (k : key) (w : world) : Prop := exists c, get k w = Some c /\ k_ro c = true.
Lemma ro_fr k w w' : fr w w' -> ro_at k w -> ro_at k w'.
Proof. intros F (c & A & B). destruct (fr_get _ _ _ _ F A) as (c' & C & D). exists c'. split; [exact C|]. apply D, B. Qed.

Ltac same_t := intros; repeat split; auto.

Lemma adjust_time_fr g k off os w rc evs w' : adjust_time g k off os w = Some (rc, evs, w') -> fr w w'.
Proof.
  unfold adjust_time. destruct (get k w); cbn [bind]; [|discriminate]. destruct (refused c); [intro E; injection E as <- <- <-; apply fr_refl|].
  destruct (os =? 0); [|intro E; injection E as <- <- <-; apply fr_refl].
  destruct (record_step w) eqn:R; cbn [bind]; [|discriminate]. intro E. injection E as <- <- <-. apply fr_record, R.
Qed.
Lemma refused_ro c : k_ro c = true -> refused c <> None.
Proof. unfold refused. intros ->. destruct (negb _ && _); discriminate. Qed.
Lemma with_status_quiet g k c : (k = None -> is_sys c = false) -> quiet k (with_status g c).
Proof.
  intro H. unfold with_status. destruct (is_sys c && g_rtc g) eqn:E; constructor; [|constructor]. cbn. intros ->. rewrite H in E; [discriminate|reflexivity].
Qed.
Lemma sys_key w k c : get k w = Some c -> is_sys c = true <-> k = None.
Proof. intro H. apply get_key in H as [<- _]. unfold is_sys. destruct (k_key c); split; congruence. Qed.
Lemma adjust_time_quiet g j k off os w rc evs w' : ro_at j w ->
  adjust_time g k off os w = Some (rc, evs, w') -> quiet j evs.
Proof.
  intros (cj & Gj & Rj). unfold adjust_time. destruct (get k w) as [c|] eqn:G; cbn [bind]; [|discriminate].
  destruct (refused c) eqn:R; [intro E; injection E as <- <- <-; constructor|].
  assert (N : j <> k). { intros ->. rewrite G in Gj. injection Gj as ->. exact (refused_ro _ Rj R). }
  assert (Q : quiet j (Step k off :: with_status g c)).
  { constructor; [cbn; congruence|]. apply with_status_quiet. intros ->. destruct (is_sys c) eqn:Y; [|reflexivity].
    exfalso. apply N. apply (sys_key _ _ _ G) in Y. congruence. }
  destruct (os =? 0); [destruct (record_step w); cbn [bind]; [|discriminate]|]; intro E; injection E as <- <- <-; exact Q.
Qed.
Lemma adjust_freq_fr g k f os w rc evs w' : adjust_frequency g k f os w = Some (rc, evs, w') -> w' = w.
Proof.
  unfold adjust_frequency. destruct (get k w); cbn [bind]; [|discriminate]. destruct (refused c); intro E; injection E as <- <- <-; reflexivity.
Qed.
Lemma adjust_freq_quiet g j k f os w rc evs w' : ro_at j w ->
  adjust_frequency g k f os w = Some (rc, evs, w') -> quiet j evs.
Proof.
  intros (cj & Gj & Rj). unfold adjust_frequency. destruct (get k w) as [c|] eqn:G; cbn [bind]; [|discriminate].
  destruct (refused c) eqn:R; [intro E; injection E as <- <- <-; constructor|].
  assert (N : j <> k). { intros ->. rewrite G in Gj. injection Gj as ->. exact (refused_ro _ Rj R). }
  intro E. injection E as <- <- <-. constructor; [cbn; congruence|]. apply with_status_quiet. intros ->.
  destruct (is_sys c) eqn:Y; [|reflexivity]. exfalso. apply N. apply (sys_key _ _ _ G) in Y. congruence.
Qed.

Lemma cmp_end_spec rc evs d w r : cmp_end rc evs d w = r ->
  exists rc' evs', r = Some (rc', d, evs', w) /\ (quiet None evs -> quiet None evs') /\ (forall j, quiet j evs -> quiet j evs').
Proof.
  unfold cmp_end. destruct (rc =? EOPNOTSUPP); intros <-; do 2 eexists; (split; [reflexivity|]); split; intros; auto;
    (apply quiet_app; [assumption|]; repeat constructor; cbn; tauto).
Qed.
Lemma compare_fr a b r1 r2 w rc d evs w' : compare a b r1 r2 w = Some (rc, d, evs, w') -> fr w w' /\ forall j, quiet j evs.
Proof.
  assert (G0 : forall k, fr w (upd k (fun c => set_good c (u32 (k_good c + 1))) w)) by (intro; apply fr_upd; same_t).
  assert (G1 : forall k, fr w (upd k (fun c => set_good c 0) w)) by (intro; apply fr_upd; same_t).
  assert (QF : forall first k c w j, quiet j (fst (cmp_fail first k c w))).
  { intros. unfold cmp_fail. cbn. constructor; [cbn; tauto|]. destruct (_ <? _); repeat constructor; cbn; tauto. }
  unfold compare. destruct (get a w) as [ca|]; cbn [bind]; [|discriminate]. destruct (get b w) as [cb|]; cbn [bind]; [|discriminate].
  destruct (k_del ca || k_del cb); [intro E; injection E as <- <- <- <-; split; [apply fr_refl|constructor]|].
  destruct (_ || _); [intro E; injection E as <- <- <- <-; split; [apply fr_refl|constructor]|].
  assert (H : exists rc1 d1 e1 w1, (if is_sys ca then (0, null_time, [], w) else
    if fst r1 =? 0 then (0, snd r1, [SyncFail a 0], upd a (fun c => set_good c (u32 (k_good c + 1))) w)
    else let '(e, w') := cmp_fail a a ca w in (fst r1, snd r1, e, w')) = (rc1, d1, e1, w1) /\ fr w w1 /\ forall j, quiet j e1).
  { destruct (is_sys ca); [do 4 eexists; split; [reflexivity|]; split; [apply fr_refl|constructor]|].
    destruct (fst r1 =? 0); [do 4 eexists; split; [reflexivity|]; split; [apply G0|repeat constructor; cbn; tauto]|].
    pose proof (QF a a ca w) as Q. unfold cmp_fail in *. do 4 eexists; split; [reflexivity|]; split; [apply G1|exact Q]. }
  destruct H as (rc1 & d1 & e1 & w1 & E & F & Q). rewrite E. cbv zeta beta iota. clear E.
  assert (End : forall rc0 d0 e0 w0, fr w w0 -> (forall j, quiet j e0) -> cmp_end rc0 e0 d0 w0 = Some (rc, d, evs, w') -> fr w w' /\ forall j, quiet j evs).
  { intros rc0 d0 e0 w0 F0 Q0 X. destruct (cmp_end_spec _ _ _ _ _ X) as (? & ? & Y & _ & Z). injection Y as <- <- <- <-. auto. }
  destruct (negb (rc1 =? 0)); [intro X; eapply End; eassumption|].
  destruct (is_sys cb); [intro X; eapply End; eassumption|].
  destruct (get b w1) as [cb'|]; cbn [bind]; [|discriminate].
  destruct (fst r2 =? 0).
  - destruct (subtract d1 (snd r2)); cbn [bind]; [|discriminate]. intro X. eapply End; [| |exact X].
    + eapply fr_trans; [exact F|]. apply fr_upd; same_t.
    + intro j. apply quiet_app; [apply Q|]. repeat constructor; cbn; tauto.
  - pose proof (QF a b cb' w1) as Q'. unfold cmp_fail in *. intro X. eapply End; [| |exact X].
    + eapply fr_trans; [exact F|]. apply fr_upd; same_t.
    + intro j. apply quiet_app; [apply Q|apply Q'].
Qed.
Lemma set_time_fr g t f thr i r1 r2 os w rc evs w' : set_time g t f thr i r1 r2 os w = Some (rc, evs, w') ->
  fr w w' /\ forall j, ro_at j w -> quiet j evs.
Proof.
  unfold set_time. destruct (get t w) as [ct|]; cbn [bind]; [|discriminate].
  destruct (_ || _); [intro E; injection E as <- <- <-; split; [apply fr_refl|constructor]|].
  destruct (compare f t r1 r2 w) as [[[[rc1 d1] e1] w1]|] eqn:C; cbn [bind]; [|discriminate].
  destruct (compare_fr _ _ _ _ _ _ _ _ _ C) as [F Q].
  destruct (_ && _); [|intro E; injection E as <- <- <-; auto].
  destruct (adjust_time g t d1 os w1) as [[[rc2 e2] w2]|] eqn:A; cbn [bind]; [|discriminate].
  intro E. injection E as <- <- <-. split.
  - eapply fr_trans; [exact F|]. eapply fr_trans; [eapply adjust_time_fr; exact A|].
    destruct (_ && i); [apply fr_upd; same_t|apply fr_refl].
  - intros j R. apply quiet_app; [apply Q|]. eapply adjust_time_quiet; [eapply ro_fr; eauto|exact A].
Qed.
Lemma load_fr g k file os w rc evs w' : load_correction g k file os w = Some (rc, evs, w') ->
  fr w w' /\ forall j, ro_at j w -> quiet j evs.
Proof.
  unfold load_correction. destruct (get k w) as [c|] eqn:G; cbn [bind]; [|discriminate]. destruct (negb (k_spec c)); [discriminate|].
  destruct (if g_persistent g then _ else _) as [rc0 x0]. destruct (if outside (k_max c) x0 then _ else _) as [[rc1 x1] e1] eqn:O.
  destruct (adjust_frequency g k x1 os _) as [[[rc2 e2] w2]|] eqn:A; cbn [bind]; [|discriminate]. intro E. injection E as <- <- <-.
  assert (F : fr w (upd k (fun c => set_corr c x1) w)) by (apply fr_upd; same_t).
  pose proof (adjust_freq_fr _ _ _ _ _ _ _ _ A) as ->. split; [exact F|].
  intros j R. apply quiet_app; [destruct (outside _ _); injection O as <- <- <-; repeat constructor; cbn; tauto|].
  eapply adjust_freq_quiet; [eapply ro_fr; eauto|exact A].
Qed.
Lemma correct_fr g k e w evs w' : correct_new g k e w = Some (evs, w') -> fr w w' /\ forall j, ro_at j w -> quiet j evs.
Proof.
  unfold correct_new. destruct (load_correction g k (x_file e) (x_osf e) w) as [[[rc1 e1] w1]|] eqn:L; cbn [bind]; [|discriminate].
  destruct (load_fr _ _ _ _ _ _ _ _ L) as [F Q]. destruct (get k w1) as [c|]; cbn [bind]; [|discriminate].
  destruct (correctable g c); [|intro E; injection E as <- <-; auto].
  destruct (match k_phc c with None => _ | Some _ => _ end); [intro E; injection E as <- <-; auto|].
  destruct (_ || _); [|intro E; injection E as <- <-; auto].
  destruct (set_time g k None None true (0, null_time) (x_cmp e) (x_oss e) w1) as [[[rc2 e2] w2]|] eqn:T; cbn [bind]; [|discriminate].
  destruct (set_time_fr _ _ _ _ _ _ _ _ _ _ _ _ T) as [F2 Q2]. intro E. injection E as <- <-.
  split; [eapply fr_trans; eassumption|]. intros j R. apply quiet_app; [auto|]. apply Q2. eapply ro_fr; eauto.
Qed.
Lemma leap_clocks_fr g step os : forall l w evs w', leap_clocks g step os l w = Some (evs, w') ->
  fr w w' /\ forall j, ro_at j w -> quiet j evs.
Proof.
  induction l as [|c l IH]; cbn; intros w evs w' H; [injection H as <- <-; split; [apply fr_refl|constructor]|].
  destruct (correctable g c); [|eauto]. destruct (adjust_time g (k_key c) step (os (k_key c)) w) as [[[rc1 e1] w1]|] eqn:A; cbn [bind] in H; [|discriminate].
  destruct (leap_clocks g step os l w1) as [[e2 w2]|] eqn:L; cbn [bind fst snd] in H; [|discriminate]. injection H as <- <-.
  destruct (IH _ _ _ L) as [F Q]. pose proof (adjust_time_fr _ _ _ _ _ _ _ _ A) as F1. split; [eapply fr_trans; eassumption|].
  intros j R. apply quiet_app; [eapply adjust_time_quiet; eassumption|]. apply Q. eapply ro_fr; eauto.
Qed.
Lemma conf_list_same g ifs : forall l rc c, same c (snd (conf_list g ifs l rc c)).
Proof.
  induction l as [|n l IH]; cbn; intros rc c; [apply same_refl|]. destruct (_ && _ && _); [destruct (_ && _); [apply IH|]|apply IH].
  eapply same_trans; [|apply IH]. same_t.
Qed.
Lemma conf_ro_same g ifs c : same c (conf_readonly g ifs c).
Proof. unfold conf_readonly. destruct (existsb _ _); [same_t|apply same_refl]. Qed.
Lemma fixup_fr g ifs ce : forall l w evs w', fixup_all g ifs ce l w = Some (evs, w') ->
  fr w w' /\ forall j, ro_at j w -> quiet j evs.
Proof.
  induction l as [|c l IH]; cbn [fixup_all]; intros w evs w' H; [injection H as <- <-; split; [apply fr_refl|constructor]|].
  destruct (k_ro c); [eauto|].
  set (w0 := upd (k_key c) _ w) in *.
  assert (F0 : fr w w0). { apply fr_upd. intro x. eapply same_trans; [apply conf_ro_same|apply conf_list_same]. }
  destruct (correct_new g (k_key c) (ce (k_key c)) w0) as [[e1 w1]|] eqn:A; cbn [bind fst snd] in H; [|discriminate].
  destruct (fixup_all g ifs ce l w1) as [[e2 w2]|] eqn:L; cbn [bind fst snd] in H; [|discriminate]. injection H as <- <-.
  destruct (IH _ _ _ L) as [F Q]. destruct (correct_fr _ _ _ _ _ _ A) as [F1 Q1].
  split; [eapply fr_trans; [exact F0|]; eapply fr_trans; eassumption|].
  intros j R. pose proof (ro_fr _ _ _ F0 R) as R0. apply quiet_app; [auto|]. apply Q. eapply ro_fr; eauto.
Qed.
