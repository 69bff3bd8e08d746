(** Proofs about what a PTP instance tells the engine. *)
Require Import ZArith QArith Qabs List Bool Lia.
Require Import Verif.Base Verif.QLib Verif.FilterModel Verif.StatsModel Verif.PinSpec Verif.PinModel.
Import ListNotations.
Open Scope Z_scope.

(** ** Runs *)
Lemma run_app : forall a b i, run i (a ++ b) = do x <- run i a; do y <- run (fst x) b; Some (fst y, snd x ++ snd y).
Proof.
  induction a as [|o a IH]; intros b i; cbn [app run bind].
  - cbn [bind fst snd app]. destruct (run i b) as [[x y]|]; reflexivity.
  - destruct (step i o) as [[j l]|]; cbn [bind fst snd]; [|reflexivity]. rewrite IH.
    destruct (run j a) as [[k m]|]; cbn [bind fst snd]; [|reflexivity].
    destruct (run k b) as [[k' m']|]; cbn [bind fst snd]; [|reflexivity]. rewrite app_assoc. reflexivity.
Qed.
Lemma run_snoc : forall a o i k x, run i (a ++ [o]) = Some (k, x) ->
  exists j y z, run i a = Some (j, y) /\ step j o = Some (k, z) /\ x = y ++ z.
Proof.
  intros a o i k x H. rewrite run_app in H. destruct (run i a) as [[j y]|] eqn:A; [|discriminate]. cbn [bind fst snd run] in H.
  destruct (step j o) as [[k' z]|] eqn:B; [|discriminate]. cbn [bind fst snd] in H. injection H as <- <-.
  exists j, y, z. rewrite app_nil_r. auto.
Qed.
Lemma run_one : forall a o i j y k z, run i a = Some (j, y) -> step j o = Some (k, z) -> run i (a ++ [o]) = Some (k, y ++ z).
Proof.
  intros a o i j y k z A B. rewrite run_app, A. cbn [bind fst snd run]. rewrite B. cbn [bind fst snd]. rewrite app_nil_r. reflexivity.
Qed.
Lemma run_ind : forall (P : list op -> inst -> list out -> Prop) i0,
  P [] i0 [] ->
  (forall l o j y k z, run i0 l = Some (j, y) -> P l j y -> step j o = Some (k, z) -> P (l ++ [o]) k (y ++ z)) ->
  forall l i x, run i0 l = Some (i, x) -> P l i x.
Proof.
  intros P i0 H0 HS l. induction l as [|o l IH] using rev_ind; intros i x H.
  - cbn in H. injection H as <- <-. exact H0.
  - destruct (run_snoc _ _ _ _ _ H) as (j & y & z & A & B & ->). eapply HS; eauto.
Qed.

(** ** What one tick does *)
Definition same_data (i : inst) (e : env) : Prop :=
  let p := snap_of (k_data e) in
  d_state p = d_state (n_snap i) /\ d_last p = d_last (n_snap i) /\ d_parent p = d_parent (n_snap i) /\
  d_steps p = d_steps (n_snap i) /\ k_score e (d_off (n_snap i)) (n_clock i) = n_score i /\
  Z.lor (d_alarms p) (n_alarms i) = alarms i.
Definition changed (i : inst) (e : env) : bool :=
  let p := snap_of (k_data e) in let old := n_snap i in
    (if eq_pst (d_state p) (d_state old) then false else true) || negb (d_last p =? d_last old)
    || (if eq_parent (d_parent p) (d_parent old) then false else true) || negb (d_steps p =? d_steps old)
    || negb (n_score i =? k_score e (d_off old) (n_clock i)) || negb (Z.lor (d_alarms p) (n_alarms i) =? alarms i).
Lemma changed_iff : forall i e, changed i e = false <-> same_data i e.
Proof.
  intros i e. unfold changed, same_data. cbv zeta. rewrite !orb_false_iff, !negb_false_iff, !Z.eqb_eq.
  destruct (eq_pst _ _); destruct (eq_parent _ _); intuition congruence.
Qed.
Definition inst_changed (i : inst) : bool := negb (eqb (n_syn i) (n_syn0 i)) || negb (n_flags i =? n_flags0 i).
Definition leap_changed (i : inst) (e : env) : bool :=
  negb (eqb (d_l59 (k_data e)) (d_l59 (n_snap i))) || negb (eqb (d_l61 (k_data e)) (d_l61 (n_snap i))).
Definition next_clock (i : inst) (e : env) : nat :=
  if changed i e then match k_sel e with Some c => c | None => n_clock i end else n_clock i.

(** A tick taken apart. *)
Lemma tick_inv : forall i e k z, step i (Tick e) = Some (k, z) ->
  exists c1 c2 b,
    (if n_bond i then set_thr (n_thr i) (k_hw e) (n_conv i) else Some (n_conv i)) = Some c1 /\
    converge c1 (d_state (k_data e)) (Z.lor (n_alarms i) (d_alarms (k_data e))) (n_flags i) (k_time e) (d_off (snap_of (k_data e))) = Some (c2, b) /\
    k = mkN (n_prio i) (n_thr i) b (n_syn i) (n_flags i) (n_flags i) (snap_of (k_data e)) (n_alarms i) (n_alarms i)
            (k_score e (d_off (n_snap i)) (n_clock i)) c2 (next_clock i e) false /\
    z = (if Z.testbit (n_flags i) DETERMINANT && negb (Qeq_bool (d_off (n_snap k)) (d_off (n_snap i)))
         then [Cluster (n_clock k) (d_off (n_snap i)) (negb (Qeq_bool (d_off (n_snap i)) 0))] else []) ++
        (if changed i e || n_bond i || inst_changed i || negb (Qeq_bool (d_off (n_snap k)) (d_off (n_snap i))) then [Rt] else []) ++
        (if changed i e || n_bond i then [State (report k (n_score k) (d_off (n_snap k)) (k_hw e) (k_caps e))] else []) ++
        (if changed i e || n_bond i || inst_changed i
         then [Publish (alarms k) (Z.testbit (n_flags k) SELECTED) (n_syn k) (n_bond i)] else []) ++
        (if Z.testbit (n_flags i) SELECTED && is_slave (d_state (k_data e)) && leap_changed i e
         then [if d_l59 (k_data e) then Leap59 (2 * d_ann (k_data e)) else if d_l61 (k_data e) then Leap61 (2 * d_ann (k_data e)) else Cancel]
         else []).
Proof.
  intros i e k z H. unfold step in H. destruct (update i e) as [r|] eqn:U; [|discriminate]. cbn [bind] in H.
  injection H as <- <-. unfold update in U. cbv zeta in U.
  destruct (if n_bond i then _ else _) as [c1|] eqn:A; [|discriminate]. cbn [bind] in U.
  destruct (converge _ _ _ _ _ _) as [[c2 b]|] eqn:B; [|discriminate]. cbn [bind fst snd] in U.
  injection U as <-. exists c1, c2, b. cbn [fst snd]. repeat (split; [first [reflexivity|exact B]|]). reflexivity.
Qed.

(** ** The engine's view *)
Lemma view_app : forall a b s, view s (a ++ b) = view (view s a) b.
Proof. intros a b s. unfold view. apply fold_left_app. Qed.
Lemma view_parts : forall (b1 b2 b3 b4 b5 b6 b7 : bool) c q v x al sl sy bd g h s,
  view s ((if b1 then [Cluster c q v] else []) ++ (if b2 then [Rt] else []) ++ (if b3 then [State x] else []) ++
          (if b4 then [Publish al sl sy bd] else []) ++
          (if b5 then [if b6 then Leap59 g else if b7 then Leap61 h else Cancel] else [])) = if b3 then x else s.
Proof. intros b1 b2 b3 b4 b5 b6 b7. intros. destruct b1, b2, b3, b4, b5, b6, b7; reflexivity. Qed.
Lemma published_parts : forall (b1 b2 b3 b4 b5 b6 b7 : bool) c q v x al sl sy bd g h,
  published ((if b1 then [Cluster c q v] else []) ++ (if b2 then [Rt] else []) ++ (if b3 then [State x] else []) ++
          (if b4 then [Publish al sl sy bd] else []) ++
          (if b5 then [if b6 then Leap59 g else if b7 then Leap61 h else Cancel] else [])) = if b4 then Some (al, sl, sy) else None.
Proof. intros b1 b2 b3 b4 b5 b6 b7. intros. destruct b1, b2, b3, b4, b5, b6, b7; reflexivity. Qed.
Lemma clustered_parts : forall (b1 b2 b3 b4 b5 b6 b7 : bool) c q v x al sl sy bd g h s,
  clustered s ((if b1 then [Cluster c q v] else []) ++ (if b2 then [Rt] else []) ++ (if b3 then [State x] else []) ++
          (if b4 then [Publish al sl sy bd] else []) ++
          (if b5 then [if b6 then Leap59 g else if b7 then Leap61 h else Cancel] else [])) = if b1 then Some (c, q, v) else s.
Proof. intros b1 b2 b3 b4 b5 b6 b7. intros. destruct b1, b2, b3, b4, b5, b6, b7; reflexivity. Qed.
Lemma view_tick : forall i e k z s, step i (Tick e) = Some (k, z) ->
  view s z = if changed i e || n_bond i then report k (n_score k) (d_off (n_snap k)) (k_hw e) (k_caps e) else s.
Proof. intros i e k z s H. destruct (tick_inv _ _ _ _ H) as (c1 & c2 & b & _ & _ & _ & ->). apply view_parts. Qed.

Definition okview (i : inst) (v : status) : Prop :=
  (forall hw caps, core v = core (get_status i hw caps)) /\ (n_bond i = false -> s_clock v = n_clock i) /\ s_score v = n_score i.

Lemma okview_tick : forall i e k z v, okview i v -> step i (Tick e) = Some (k, z) -> okview k (view v z).
Proof.
  intros i e k z v (O1 & O2 & O3) H. rewrite (view_tick _ _ _ _ _ H).
  destruct (changed i e || n_bond i) eqn:C.
  - repeat split.
  - apply orb_false_iff in C as (C & BO). pose proof (proj1 (changed_iff i e) C) as (S1 & S2 & S3 & S4 & S5 & S6).
    destruct (tick_inv _ _ _ _ H) as (c1 & c2 & b & _ & _ & -> & _). unfold okview. cbn [n_bond n_clock n_score].
    split; [|split; [intros _; unfold next_clock; rewrite C; auto|rewrite S5; exact O3]].
    intros hw caps. rewrite (O1 hw caps). unfold get_status, report, core, alarms.
    cbn [n_snap n_alarms0 n_prio s_state s_alarms s_prio s_gm s_remote s_class s_src s_macc s_var s_steps].
    rewrite S1, S3, S4. rewrite (Z.lor_comm (n_alarms i)). rewrite S6. reflexivity.
Qed.
Lemma okview_step : forall i o k z v, okview i v -> step i o = Some (k, z) -> okview k (view v z).
Proof.
  intros i o k z v O H. destruct o as [e|f m|a|c].
  - eapply okview_tick; eauto.
  - cbn [step control] in H. unfold control in H. cbv zeta in H. injection H as <- <-.
    destruct O as (O1 & O2 & O3). destruct (_ =? _); (split; [exact O1|split; [exact O2|exact O3]]).
  - cbn [step] in H. injection H as <- <-. exact O.
  - cbn [step] in H. injection H as <- <-. destruct O as (O1 & O2 & O3). split; [exact O1|]. split; [intro X; discriminate X|exact O3].
Qed.
Lemma okview_run : forall i0 l i x v, okview i0 v -> run i0 l = Some (i, x) -> okview i (view v x).
Proof.
  intros i0 l i x v O H. revert H. apply (run_ind (fun l i x => okview i (view v x)) i0); [exact O|].
  intros l' o j y k z _ P Q. rewrite view_app. eapply okview_step; eauto.
Qed.
Lemma start_okview : forall prio thr d al c i hw caps, start prio thr d al c = Some i -> okview i (get_status i hw caps).
Proof.
  intros prio thr d al c i hw caps H. unfold start in H. destruct (set_thr _ _ _); [|discriminate]. cbn [bind] in H. injection H as <-.
  split; [reflexivity|]. split; reflexivity.
Qed.

Lemma settled_snoc : forall l o, settled (l ++ [o]) -> match o with Tick _ => True | Link _ => False | _ => settled l end.
Proof.
  intros l o H. destruct o as [e|f m|a|c]; [exact I| | |].
  - intros a c b E. subst l. specialize (H a c (b ++ [Control f m])). rewrite <- app_assoc in H. specialize (H eq_refl).
    rewrite existsb_app in H. cbn in H. rewrite orb_false_r in H. exact H.
  - intros a' c b E. subst l. specialize (H a' c (b ++ [Alarm a])). rewrite <- app_assoc in H. specialize (H eq_refl).
    rewrite existsb_app in H. cbn in H. rewrite orb_false_r in H. exact H.
  - specialize (H l c [] eq_refl). discriminate H.
Qed.
Lemma settled_bond : forall i0 l i x, n_bond i0 = false -> run i0 l = Some (i, x) -> settled l -> n_bond i = false.
Proof.
  intros i0 l i x B0 H. revert H. apply (run_ind (fun l i x => settled l -> n_bond i = false) i0); [auto|].
  intros l' o j y k z _ P Q S. pose proof (settled_snoc _ _ S) as S'. destruct o as [e|f m|a|c].
  - destruct (tick_inv _ _ _ _ Q) as (c1 & c2 & b & _ & _ & -> & _). reflexivity.
  - cbn [step control] in Q. unfold control in Q. injection Q as <- _. cbn [n_bond]. auto.
  - cbn [step] in Q. injection Q as <- _. cbn [n_bond]. auto.
  - destruct S'.
Qed.
Lemma start_bond : forall prio thr d al c i, start prio thr d al c = Some i -> n_bond i = false.
Proof. intros prio thr d al c i H. unfold start in H. destruct (set_thr _ _ _); [|discriminate]. injection H as <-. reflexivity. Qed.

(** ** What is published *)
Lemma published_app : forall a b, published (a ++ b) = match published b with Some x => Some x | None => published a end.
Proof.
  intros a b. unfold published. rewrite fold_left_app. generalize (fold_left (fun (a0 : option (Z * bool * bool)) o => match o with Publish x y z _ => Some (x, y, z) | _ => a0 end) a None).
  induction b as [|o b IH] using rev_ind; intros s; [reflexivity|]. rewrite !fold_left_app. cbn [fold_left]. rewrite IH. destruct o; reflexivity.
Qed.
Lemma published_tick : forall i e k z, step i (Tick e) = Some (k, z) ->
  published z = if changed i e || n_bond i || inst_changed i then Some (alarms k, Z.testbit (n_flags k) SELECTED, n_syn k) else None.
Proof. intros i e k z H. destruct (tick_inv _ _ _ _ H) as (c1 & c2 & b & _ & _ & _ & ->). apply published_parts. Qed.
(** What was published is what holds, or what will be published with the next tick. *)
Definition okpub (i : inst) (x : list out) : Prop :=
  (published x = None -> n_flags0 i = 0 /\ n_syn i = false) /\
  forall a s y, published x = Some (a, s, y) ->
    a = alarms i /\ s = Z.testbit (n_flags0 i) SELECTED /\ (y = n_syn i \/ (y = n_syn0 i /\ n_syn i <> n_syn0 i)).
Lemma okpub_tick : forall i e k z x, okpub i x -> step i (Tick e) = Some (k, z) -> okpub k (x ++ z).
Proof.
  intros i e k z x (O1 & O2) H. unfold okpub. rewrite published_app, (published_tick _ _ _ _ H).
  destruct (tick_inv _ _ _ _ H) as (c1 & c2 & b & A & B & -> & _).
  cbn [n_flags n_flags0 n_syn n_syn0 alarms].
  destruct (changed i e || n_bond i || inst_changed i) eqn:C.
  - split; [discriminate|]. intros a s y E. injection E as <- <- <-. auto.
  - apply orb_false_iff in C as (C & IC). apply orb_false_iff in C as (C & BO).
    pose proof (proj1 (changed_iff i e) C) as (S1 & S2 & S3 & S4 & S5 & S6).
    unfold inst_changed in IC. apply orb_false_iff in IC as (I1 & I2). apply negb_false_iff in I1, I2.
    apply eqb_prop in I1. apply Z.eqb_eq in I2. rewrite I2, I1. split.
    + intro N. destruct (O1 N) as (F & SY). split; [exact F|].
      unfold converge in B. destruct (k_time e) as [t|]; [|injection B as _ <-; reflexivity].
      destruct (is_slave _); [|injection B as _ <-; reflexivity].
      rewrite I2, F in B. cbn [Z.testbit negb] in B. rewrite orb_true_r in B. injection B as _ <-. reflexivity.
    + intros a s y E. destruct (O2 a s y E) as (-> & -> & Y). split; [|split; [reflexivity|]].
      * unfold alarms at 2. cbn [n_alarms0 n_snap]. rewrite <- S6. apply Z.lor_comm.
      * destruct Y as [Y|(_ & Y)]; [|congruence]. subst y. rewrite I1.
        destruct b, (n_syn0 i); auto; right; split; congruence.
Qed.
Lemma okpub_step : forall i o k z x, okpub i x -> step i o = Some (k, z) -> okpub k (x ++ z).
Proof.
  intros i o k z x O H. destruct o as [e|f m|a|c].
  - eapply okpub_tick; eauto.
  - cbn [step control] in H. unfold control in H. cbv zeta in H. injection H as <- <-. unfold okpub. rewrite published_app.
    destruct (_ =? _); exact O.
  - cbn [step] in H. injection H as <- <-. rewrite app_nil_r. exact O.
  - cbn [step] in H. injection H as <- <-. rewrite app_nil_r. exact O.
Qed.
Lemma okpub_run : forall prio thr d al c i0 l i x, start prio thr d al c = Some i0 -> run i0 l = Some (i, x) -> okpub i x.
Proof.
  intros prio thr d al c i0 l i x S H. revert H. apply (run_ind (fun l i x => okpub i x) i0).
  - unfold start in S. destruct (set_thr _ _ _); [|discriminate]. injection S as <-. split; [auto|discriminate].
  - intros l' o j y k z _ P Q. eapply okpub_step; eauto.
Qed.

(** ** Synchronised *)
Definition ok_tick (i : inst) : Prop :=
  d_state (n_snap i) = Slave /\ (alarms i = 0 -> Z.testbit (n_flags i) TIMESTAMPS = true ->
    (Qabs (d_off (n_snap i)) <= c_max (n_conv i))%Q).
Lemma is_slave_iff : forall p, is_slave p = true <-> p = Slave.
Proof. destruct p; cbn; split; congruence. Qed.

Lemma conv_update_max : forall c t x c' b, conv_update c t x = Some (c', b) -> c_max c' = c_max c /\ c_min c' = c_min c.
Proof.
  intros c t x c' b H. unfold conv_update in H. destruct (_ || _); [injection H as <- _; auto|].
  destruct (_ <? _); [injection H as <- _; auto|]. destruct (chk_s64 _); [|discriminate]. injection H as <- _. auto.
Qed.
Lemma converge_max : forall c s al f t q c' b, converge c s al f t q = Some (c', b) -> c_max c' = c_max c /\ c_min c' = c_min c.
Proof.
  intros c s al f t q c' b H. unfold converge in H. destruct t; [|injection H as <- _; auto].
  destruct (is_slave s); [|injection H as <- _; auto]. destruct (_ || _); [injection H as <- _; auto|].
  eapply conv_update_max; eauto.
Qed.
Lemma set_thr_parts : forall thr hw c c', set_thr thr hw c = Some c' -> c_min c' = c_min c /\ c_num c' = c_num c /\ c_start c' = c_start c.
Proof. intros thr hw c c' H. unfold set_thr in H. destruct (Qlt_bool 0 _); [|discriminate]. injection H as <-. auto. Qed.

(** A stretch of good ticks since the tick at which the measure starts. *)
Definition stretch (i0 : inst) (l : list op) (t0 : Z) : Prop :=
  exists a e0 b, l = a ++ Tick e0 :: b /\ k_time e0 = Some t0 /\
    forall b1 e' b2, l = b1 ++ Tick e' :: b2 -> (length a <= length b1)%nat ->
      forall i1 y1, run i0 (b1 ++ [Tick e']) = Some (i1, y1) -> ok_tick i1.
Definition okconv (i0 : inst) (l : list op) (i : inst) : Prop :=
  c_min (n_conv i) = 60 /\ (c_num (n_conv i) = 0 \/ stretch i0 l (c_start (n_conv i))).

Lemma app_last : forall {A} (l b : list A) x a y, l ++ [x] = a ++ y :: b ->
  (b = [] /\ l = a /\ x = y) \/ exists b', b = b' ++ [x] /\ l = a ++ y :: b'.
Proof.
  intros A l b x a y H. destruct b as [|z b'] using rev_ind.
  - left. apply app_inj_tail in H as (-> & ->). auto.
  - right. clear IHb'. exists b'. change (y :: b' ++ [z]) with ((y :: b') ++ [z]) in H. rewrite app_assoc in H. apply app_inj_tail in H as (-> & ->). auto.
Qed.
Lemma stretch_snoc : forall i0 l o j y k z t0, run i0 l = Some (j, y) -> step j o = Some (k, z) -> stretch i0 l t0 ->
  (is_tick o = true -> ok_tick k) -> stretch i0 (l ++ [o]) t0.
Proof.
  intros i0 l o j y k z t0 R Q (a & e0 & b & E & T & G) K. exists a, e0, (b ++ [o]). split; [subst l; rewrite <- app_assoc; reflexivity|].
  split; [exact T|]. intros b1 e' b2 E' L i1 y1 R1. destruct (app_last _ _ _ _ _ E') as [(-> & -> & ->)|(b' & -> & E2)].
  - rewrite (run_one _ _ _ _ _ _ _ R Q) in R1. injection R1 as <- _. apply K. reflexivity.
  - eapply G; eauto.
Qed.
Lemma stretch_new : forall i0 l e j y k z t0, run i0 l = Some (j, y) -> step j (Tick e) = Some (k, z) -> k_time e = Some t0 ->
  ok_tick k -> stretch i0 (l ++ [Tick e]) t0.
Proof.
  intros i0 l e j y k z t0 R Q T K. exists l, e, []. split; [reflexivity|]. split; [exact T|].
  intros b1 e' b2 E' L i1 y1 R1. destruct (app_last _ _ _ _ _ E') as [(-> & -> & E3)|(b' & -> & E2)].
  - injection E3 as <-. rewrite (run_one _ _ _ _ _ _ _ R Q) in R1. injection R1 as <- _. exact K.
  - exfalso. rewrite E2, app_length in L. cbn in L. lia.
Qed.
Lemma in_range_q : forall m x, Qlt_bool x (- m) || Qlt_bool m x = false -> (Qabs x <= m)%Q.
Proof.
  intros m x H. apply orb_false_iff in H as (A & B). unfold Qlt_bool in A, B. apply negb_false_iff in A, B. apply Qle_bool_iff in A, B.
  apply Qabs_Qle_condition. auto.
Qed.

Lemma okconv_step : forall i0 l j y o k z, run i0 l = Some (j, y) -> okconv i0 l j -> step j o = Some (k, z) ->
  okconv i0 (l ++ [o]) k /\
  (forall e, o = Tick e -> n_syn k = true -> ok_tick k /\ alarms k = 0 /\ Z.testbit (n_flags k) TIMESTAMPS = true /\
     exists t, k_time e = Some t /\ exists t0, stretch i0 (l ++ [o]) t0 /\ t0 + 60 <= t).
Proof.
  intros i0 l j y o k z R (M & N) Q. destruct o as [e|f m|a|c].
  2-4: split; [|intros e E; discriminate E].
  2:{ pose proof Q as Q0. cbn [step control] in Q. unfold control in Q. injection Q as <- _. split; [exact M|]. cbn [n_conv].
      destruct N as [N|N]; [auto|right]. eapply stretch_snoc; eauto. discriminate. }
  2:{ pose proof Q as Q0. cbn [step] in Q. injection Q as <- _. split; [exact M|]. cbn [n_conv].
      destruct N as [N|N]; [auto|right]. eapply stretch_snoc; eauto. discriminate. }
  2:{ pose proof Q as Q0. cbn [step] in Q. injection Q as <- _. split; [exact M|]. cbn [n_conv].
      destruct N as [N|N]; [auto|right]. eapply stretch_snoc; eauto. discriminate. }
  destruct (tick_inv _ _ _ _ Q) as (c1 & c2 & b & A & B & K & _).
  assert (P : c_min c1 = 60 /\ c_num c1 = c_num (n_conv j) /\ c_start c1 = c_start (n_conv j)).
  { destruct (n_bond j); [|injection A as <-; auto]. apply set_thr_parts in A as (A1 & A2 & A3). rewrite A1, A2, A3. auto. }
  destruct P as (P1 & P2 & P3). rewrite <- P2, <- P3 in N.
  pose proof (converge_max _ _ _ _ _ _ _ _ B) as (MX & MN).
  assert (Kc : n_conv k = c2) by (subst k; reflexivity). assert (Ks : n_syn k = b) by (subst k; reflexivity).
  assert (Kd : n_snap k = snap_of (k_data e)) by (subst k; reflexivity).
  assert (Ka : alarms k = Z.lor (n_alarms j) (d_alarms (k_data e))) by (subst k; reflexivity).
  assert (Kf : n_flags k = n_flags j) by (subst k; reflexivity).
  unfold okconv. rewrite Kc, MN. unfold converge in B.
  destruct (k_time e) as [t|] eqn:T.
  2:{ injection B as <- <-. split; [split; [exact P1|left; reflexivity]|]. rewrite Ks. discriminate. }
  destruct (is_slave (d_state (k_data e))) eqn:SL.
  2:{ injection B as <- <-. split; [split; [exact P1|left; reflexivity]|]. rewrite Ks. discriminate. }
  apply is_slave_iff in SL.
  destruct (negb _ || negb _) eqn:AL.
  - injection B as <- <-. assert (OK : ok_tick k).
    { unfold ok_tick. rewrite Kd, Ka, Kf. cbn [snap_of d_state]. split; [exact SL|]. intros Z1 Z2. exfalso.
      rewrite Z1, Z2 in AL. discriminate AL. }
    split; [split; [exact P1|]|rewrite Ks; discriminate].
    destruct N as [N|N]; [left; exact N|right]. eapply stretch_snoc; eauto.
  - apply orb_false_iff in AL as (AL1 & AL2). apply negb_false_iff in AL1, AL2. apply Z.eqb_eq in AL1.
    unfold conv_update in B. destruct (_ || _) eqn:RG.
    { injection B as <- <-. split; [split; [exact P1|left; reflexivity]|]. rewrite Ks. discriminate. }
    apply in_range_q in RG. rewrite <- MX in RG.
    assert (OK : ok_tick k). { unfold ok_tick. rewrite Kd, Kc. cbn [snap_of d_state]. split; [exact SL|]. intros _ _. exact RG. }
    destruct (t <? c_start c1) eqn:TS.
    { injection B as <- <-. cbn [c_num c_start]. split; [split; [exact P1|right; eapply stretch_new; eauto]|]. rewrite Ks. discriminate. }
    destruct (chk_s64 _) as [lim|] eqn:CK; [|discriminate]. cbn [bind] in B. injection B as <- <-. cbn [c_num c_start].
    assert (ST : stretch i0 (l ++ [Tick e]) (if c_num c1 =? 0 then t else c_start c1)).
    { destruct (c_num c1 =? 0) eqn:Z0; [eapply stretch_new; eauto|]. apply Z.eqb_neq in Z0. destruct N as [N|N]; [congruence|].
      eapply stretch_snoc; eauto. }
    split; [split; [exact P1|right; exact ST]|]. intros e1 E1 SY. injection E1 as <-. split; [exact OK|]. rewrite Ka, Kf. split; [exact AL1|]. split; [exact AL2|].
    exists t. split; [exact T|]. eexists. split; [exact ST|]. unfold chk_s64 in CK. destruct (fits_s64 _) in CK; [|discriminate]. injection CK as <-.
    rewrite Ks in SY. apply Z.leb_le in SY. rewrite P1 in SY. exact SY.
Qed.
Lemma okconv_run : forall prio thr d al c i0 l i x, start prio thr d al c = Some i0 -> run i0 l = Some (i, x) -> okconv i0 l i.
Proof.
  intros prio thr d al c i0 l i x S H. revert H. apply (run_ind (fun l i x => okconv i0 l i) i0).
  - unfold start in S. destruct (set_thr _ _ _) eqn:E; [|discriminate]. injection S as <-. unfold okconv. cbn [n_conv].
    apply set_thr_parts in E as (E1 & E2 & _). rewrite E1, E2. auto.
  - intros l' o j y k z R P Q. eapply okconv_step; eauto.
Qed.
