(** Messages are neither lost nor duplicated. *)
Require Import ZArith List Bool Lia ZifyBool.
Import ListNotations.
From Verif Require Import Base ThrSpec ThrModel.
Open Scope Z_scope.

Lemma pool_eqb_eq : forall a b, pool_eqb a b = true <-> a = b.
Proof. intros [t| |] [u| |]; cbn [pool_eqb]; split; intros H; try discriminate H; try reflexivity; [apply Z.eqb_eq in H; congruence|injection H as ->; apply Z.eqb_refl]. Qed.
Lemma place_eqb_eq : forall a b, place_eqb a b = true <-> a = b.
Proof.
  intros [p|t|t|t] [q|u|u|u]; cbn [place_eqb]; split; intros H; try discriminate H;
    try (apply Z.eqb_eq in H; congruence); try (injection H as ->; apply Z.eqb_refl);
    [apply pool_eqb_eq in H; congruence|injection H as ->; apply pool_eqb_eq; reflexivity].
Qed.
Lemma pool_refl : forall a, pool_eqb a a = true.
Proof. intros a. apply pool_eqb_eq. reflexivity. Qed.
Lemma place_refl : forall a, place_eqb a a = true.
Proof. intros a. apply place_eqb_eq. reflexivity. Qed.
Lemma place_neq : forall a b, a <> b -> place_eqb a b = false.
Proof. intros a b H. destruct (place_eqb a b) eqn:E; [|reflexivity]. apply place_eqb_eq in E. contradiction. Qed.
Lemma pool_neq : forall a b, a <> b -> pool_eqb a b = false.
Proof. intros a b H. destruct (pool_eqb a b) eqn:E; [|reflexivity]. apply pool_eqb_eq in E. contradiction. Qed.
Lemma place_dec : forall a b : place, {a = b} + {a <> b}.
Proof. intros a b. destruct (place_eqb a b) eqn:E; [left; apply place_eqb_eq; exact E|right]. intros ->. rewrite place_refl in E. discriminate E. Qed.
Lemma pool_dec : forall a b : pool, {a = b} + {a <> b}.
Proof. intros a b. destruct (pool_eqb a b) eqn:E; [left; apply pool_eqb_eq; exact E|right]. intros ->. rewrite pool_refl in E. discriminate E. Qed.

Lemma updz_same : forall A (f : Z -> A) k v, updz f k v k = v.
Proof. intros. unfold updz. rewrite Z.eqb_refl. reflexivity. Qed.
Lemma updz_other : forall A (f : Z -> A) k v x, x <> k -> updz f k v x = f x.
Proof. intros. unfold updz. apply Z.eqb_neq in H. rewrite H. reflexivity. Qed.
Lemma updq_same : forall A (f : place -> A) k v, updq f k v k = v.
Proof. intros. unfold updq. rewrite place_refl. reflexivity. Qed.
Lemma updq_other : forall A (f : place -> A) k v x, x <> k -> updq f k v x = f x.
Proof. intros. unfold updq. rewrite place_neq by assumption. reflexivity. Qed.
Lemma updp_same : forall A (f : pool -> A) k v, updp f k v k = v.
Proof. intros. unfold updp. rewrite pool_refl. reflexivity. Qed.
Lemma updp_other : forall A (f : pool -> A) k v x, x <> k -> updp f k v x = f x.
Proof. intros. unfold updp. rewrite pool_neq by assumption. reflexivity. Qed.

Lemma NoDup_snoc : forall (l : list Z) m, NoDup l -> ~ In m l -> NoDup (l ++ [m]).
Proof.
  intros l m N H. apply (NoDup_Add (a := m) (l := l)); [|split; assumption].
  replace l with (l ++ []) at 1 by apply app_nil_r. apply Add_app.
Qed.

(** A message goes from one place to another; nothing else moves. *)
Record moved (f g : place -> list Z) (a b : place) (m : Z) : Prop := {
  mv_in : In m (f a);
  mv_ne : a <> b;
  mv_mem : forall q x, In x (g q) <-> (q = b /\ x = m) \/ (In x (f q) /\ ~ (q = a /\ x = m));
  mv_oth : forall q, q <> a -> q <> b -> g q = f q;
  mv_new : g b = f b ++ [m];
  mv_old : (forall q, NoDup (f q)) -> NoDup (g a) }.

Lemma in_drop : forall m x l, In x (filter (fun y => negb (y =? m)) l) <-> In x l /\ x <> m.
Proof. intros m x l. rewrite filter_In. rewrite negb_true_iff, Z.eqb_neq. reflexivity. Qed.

Lemma hand_moved : forall s t q m, In m (at_ s (Held t)) -> q <> Held t -> moved (at_ s) (at_ (hand_over s t q m)) (Held t) q m.
Proof.
  intros s t q m I N. unfold hand_over, write, drop. cbn [at_ with_at].
  constructor.
  - exact I.
  - auto.
  - intros q' x. destruct (place_dec q' q) as [->|NQ].
    + rewrite updq_same, updq_other by exact N. rewrite in_app_iff. cbn [In]. split.
      * intros [H|[H|[]]]; [right; split; [exact H|intros [X _]; contradiction]|left; auto].
      * intros [[_ H]|[H _]]; auto.
    + rewrite updq_other by exact NQ. destruct (place_dec q' (Held t)) as [->|NH].
      * rewrite updq_same, in_drop. split; [intros [H1 H2]; right; split; [exact H1|intros [_ X]; contradiction]|intros [[X _]|[H1 H2]]; [contradiction|split; [exact H1|intros ->; apply H2; auto]]].
      * rewrite updq_other by exact NH. split; [intros H; right; split; [exact H|intros [X _]; contradiction]|intros [[X _]|[H _]]; [contradiction|exact H]].
  - intros q' N1 N2. rewrite updq_other by exact N2. apply updq_other. exact N1.
  - rewrite updq_same, updq_other by exact N. reflexivity.
  - intros D. rewrite updq_other by auto. rewrite updq_same. apply NoDup_filter. apply D.
Qed.
Lemma take_moved : forall s q t m rest, at_ s q = m :: rest -> q <> Held t -> (forall q, NoDup (at_ s q)) -> moved (at_ s) (at_ (take s q t m rest)) q (Held t) m.
Proof.
  intros s q t m rest E N D. assert (DQ := D q). rewrite E in DQ. inversion DQ as [|? ? NI DR]; subst.
  unfold take, write. cbn [at_ with_at]. constructor.
  - rewrite E. left. reflexivity.
  - exact N.
  - intros q' x. destruct (place_dec q' (Held t)) as [->|NH].
    + rewrite updq_same, updq_other by auto. rewrite in_app_iff. cbn [In]. split.
      * intros [H|[H|[]]]; [right; split; [exact H|intros [X _]; congruence]|left; auto].
      * intros [[_ H]|[H _]]; auto.
    + rewrite updq_other by exact NH. destruct (place_dec q' q) as [->|NQ].
      * rewrite updq_same, E. cbn [In]. split.
        -- intros H. right. split; [auto|]. intros [_ ->]. contradiction.
        -- intros [[X _]|[[H|H] H2]]; [congruence|subst x; contradiction H2; auto|exact H].
      * rewrite updq_other by exact NQ. split; [intros H; right; split; [exact H|intros [X _]; congruence]|intros [[X _]|[H _]]; [contradiction|exact H]].
  - intros q' N1 N2. rewrite updq_other by exact N2. apply updq_other. exact N1.
  - rewrite updq_same, updq_other by auto. reflexivity.
  - intros _. rewrite updq_other by exact N. rewrite updq_same. exact DR.
Qed.

Definition apart (f : place -> list Z) : Prop := (forall q, NoDup (f q)) /\ forall q q' m, In m (f q) -> In m (f q') -> q = q'.
Lemma moved_apart : forall f g a b m, moved f g a b m -> apart f -> apart g.
Proof.
  intros f g a b m M [D U]. split.
  - intros q. destruct (place_dec q b) as [->|NB].
    + rewrite (mv_new _ _ _ _ _ M). apply NoDup_snoc; [apply D|]. intros I. apply (mv_ne _ _ _ _ _ M). apply (U a b m); [apply (mv_in _ _ _ _ _ M)|exact I].
    + destruct (place_dec q a) as [->|NA]; [apply (mv_old _ _ _ _ _ M D)|]. rewrite (mv_oth _ _ _ _ _ M q NA NB). apply D.
  - assert (K : forall q, In m (g q) -> q = b).
    { intros q I. apply (mv_mem _ _ _ _ _ M) in I. destruct I as [[X _]|[I H]]; [exact X|]. contradiction H. split; [|reflexivity].
      apply (U q a m I (mv_in _ _ _ _ _ M)). }
    intros q q' x I I'. destruct (Z.eq_dec x m) as [->|N]; [rewrite (K q I), (K q' I'); reflexivity|].
    apply (mv_mem _ _ _ _ _ M) in I, I'. destruct I as [[_ X]|[I _]]; [contradiction|]. destruct I' as [[_ X]|[I' _]]; [contradiction|].
    apply (U q q' x); assumption.
Qed.
Lemma moved_somewhere : forall f g a b m x, moved f g a b m -> ((exists q, In x (f q)) <-> (exists q, In x (g q))).
Proof.
  intros f g a b m x M. split; intros [q I].
  - destruct (Z.eq_dec x m) as [->|N]; [exists b; apply (mv_mem _ _ _ _ _ M); auto|]. exists q. apply (mv_mem _ _ _ _ _ M). right. split; [exact I|intros [_ X]; contradiction].
  - apply (mv_mem _ _ _ _ _ M) in I. destruct I as [[_ ->]|[I _]]; [exists a; apply (mv_in _ _ _ _ _ M)|exists q; exact I].
Qed.

Record inv (s : state) : Prop := {
  i_apart : apart (at_ s);
  i_free : forall p m, In m (at_ s (Free p)) -> h_home (hdrs s m) = Some p;
  i_home : forall m p, h_home (hdrs s m) = Some p -> exists q, In m (at_ s q);
  i_reply : forall q m r, In m (at_ s q) -> h_reply (hdrs s m) = Some r -> (exists t, r = General t) \/ (exists t, r = Replies t /\ does s t = WaitsReply m);
  i_wait : forall t m, In m (at_ s (Replies t)) -> does s t = WaitsReply m /\ h_reply (hdrs s m) = None }.

Lemma inv_start : inv start.
Proof. constructor; cbn [at_ start hdrs does]; try contradiction. - split; [intros q; apply NoDup_nil|contradiction]. - intros m p H. discriminate H. Qed.

(** A step that moves one message and may change its header, and nobody's waiting. *)
Lemma inv_move : forall s s' a b m, inv s -> moved (at_ s) (at_ s') a b m -> (forall x, x <> m -> hdrs s' x = hdrs s x) ->
  h_home (hdrs s' m) = h_home (hdrs s m) ->
  (forall p, b = Free p -> h_home (hdrs s m) = Some p) ->
  (forall r, h_reply (hdrs s' m) = Some r -> h_reply (hdrs s m) = Some r \/ (exists t, r = General t) \/ (exists t, r = Replies t /\ does s' t = WaitsReply m)) ->
  (forall t, b = Replies t -> does s' t = WaitsReply m /\ h_reply (hdrs s' m) = None) ->
  (forall t x, does s t = WaitsReply x -> does s' t = WaitsReply x) ->
  inv s'.
Proof.
  intros s s' a b m I M HO HH HF HR HW HD. constructor.
  - exact (moved_apart _ _ _ _ _ M (i_apart s I)).
  - intros p x X. destruct (Z.eq_dec x m) as [->|N].
    + rewrite HH. apply (mv_mem _ _ _ _ _ M) in X. destruct X as [[X _]|[X _]]; [apply HF; auto|apply (i_free s I); exact X].
    + rewrite HO by exact N. apply (i_free s I). apply (mv_mem _ _ _ _ _ M) in X. destruct X as [[_ X]|[X _]]; [contradiction|exact X].
  - intros x p H. apply (moved_somewhere _ _ _ _ _ x M). apply (i_home s I x p). destruct (Z.eq_dec x m) as [->|N]; [rewrite <- HH; exact H|rewrite <- HO by exact N; exact H].
  - intros q x r X R. assert (XS : exists q0, In x (at_ s q0)) by (apply (moved_somewhere _ _ _ _ _ x M); exists q; exact X). destruct XS as [q0 X0].
    assert (LIFT : h_reply (hdrs s x) = Some r -> (exists t, r = General t) \/ (exists t, r = Replies t /\ does s' t = WaitsReply x)).
    { intros E. destruct (i_reply s I q0 x r X0 E) as [L|[t [E1 E2]]]; [left; exact L|right; exists t; split; [exact E1|apply HD; exact E2]]. }
    destruct (Z.eq_dec x m) as [->|N]; [|rewrite HO in R by exact N; apply LIFT; exact R].
    destruct (HR r R) as [E|[E|E]]; [apply LIFT; exact E|left; exact E|right; exact E].
  - intros t x X. destruct (Z.eq_dec x m) as [->|N].
    + apply (mv_mem _ _ _ _ _ M) in X. destruct X as [[X _]|[X NA]]; [apply HW; auto|]. exfalso. apply NA. split; [|reflexivity].
      apply (proj2 (i_apart s I) (Replies t) a m X (mv_in _ _ _ _ _ M)).
    + apply (mv_mem _ _ _ _ _ M) in X. destruct X as [[_ X]|[X _]]; [contradiction|]. destruct (i_wait s I t x X) as [E1 E2]. rewrite HO by exact N. split; [apply HD; exact E1|exact E2].
Qed.

(** A step that changes the header of one message, without touching home; and possibly what threads do. *)
Lemma inv_still : forall s s', inv s -> (forall q, at_ s' q = at_ s q) -> (forall x, h_home (hdrs s' x) = h_home (hdrs s x)) ->
  (forall x r, h_reply (hdrs s' x) = Some r -> h_reply (hdrs s x) = Some r) ->
  (forall t x, does s t = WaitsReply x -> does s' t = WaitsReply x) -> inv s'.
Proof.
  intros s s' I A H R D. constructor.
  - split; [intros q; rewrite A; apply (i_apart s I)|intros q q' m; rewrite !A; apply (i_apart s I)].
  - intros p m. rewrite A, H. apply (i_free s I).
  - intros m p. rewrite H. intros X. destruct (i_home s I m p X) as [q Q]. exists q. rewrite A. exact Q.
  - intros q m r. rewrite A. intros X E. destruct (i_reply s I q m r X (R m r E)) as [L|[t [E1 E2]]]; [left; exact L|right; exists t; auto].
  - intros t m. rewrite A. intros X. destruct (i_wait s I t m X) as [E1 E2]. split; [apply D; exact E1|].
    destruct (h_reply (hdrs s' m)) eqn:E; [|reflexivity]. apply R in E. congruence.
Qed.

Lemma not_free_held : forall p t, Free p <> Held t.
Proof. discriminate. Qed.

Lemma put_all_at : forall ms s p q, at_ (put_all s p ms) q = if place_eqb q (Free p) then at_ s q ++ ms else at_ s q.
Proof.
  intros ms. induction ms as [|m ms IH]; intros s p q; cbn [put_all].
  - destruct (place_eqb q (Free p)); [rewrite app_nil_r|]; reflexivity.
  - rewrite IH. cbn [at_]. destruct (place_eqb q (Free p)) eqn:E.
    + apply place_eqb_eq in E. subst q. rewrite updq_same, <- app_assoc. reflexivity.
    + unfold updq. rewrite E. reflexivity.
Qed.
Lemma put_all_hdr : forall ms s p x, (~ In x ms -> hdrs (put_all s p ms) x = hdrs s x) /\
  (In x ms -> h_home (hdrs (put_all s p ms) x) = Some p /\ h_reply (hdrs (put_all s p ms) x) = None).
Proof.
  intros ms. induction ms as [|m ms IH]; intros s p x; cbn [put_all In]; [split; [reflexivity|contradiction]|].
  destruct (IH (mkSt (updz (hdrs s) m (mkHdr None (Some p) 0 (h_data (hdrs s m))))
                     (updq (at_ s) (Free p) (at_ s (Free p) ++ [m])) (does s) (set_up s)
                     (updp (free_count s) p (free_count s p + 1)) (used_count s)) p x) as [IH1 IH2]. split.
  - intros N. rewrite IH1 by tauto. cbn [hdrs]. apply updz_other. intros ->. tauto.
  - intros H. destruct (in_dec Z.eq_dec x ms) as [Y|N]; [apply IH2; exact Y|]. destruct H as [->|H]; [|contradiction].
    rewrite IH1 by exact N. cbn [hdrs]. rewrite updz_same. split; reflexivity.
Qed.
Lemma put_all_does : forall ms s p, does (put_all s p ms) = does s /\ set_up (put_all s p ms) = set_up s /\ used_count (put_all s p ms) = used_count s.
Proof. intros ms. induction ms as [|m ms IH]; intros s p; cbn [put_all]; [auto|]. destruct (IH (mkSt (updz (hdrs s) m (mkHdr None (Some p) 0 (h_data (hdrs s m))))
                     (updq (at_ s) (Free p) (at_ s (Free p) ++ [m])) (does s) (set_up s)
                     (updp (free_count s) p (free_count s p + 1)) (used_count s)) p) as [-> [-> ->]]. auto. Qed.

Lemma inv_pool : forall s p ms, inv s -> NoDup ms -> Forall (nowhere s) ms -> inv (pool_allocate s p ms).
Proof.
  intros s p ms I N F. unfold pool_allocate. destruct (set_up s p); [exact I|]. rewrite Forall_forall in F.
  set (s0 := mkSt (hdrs s) (at_ s) (does s) (updp (set_up s) p true) (free_count s) (used_count s)).
  assert (AT : forall q x, In x (at_ (put_all s0 p ms) q) <-> In x (at_ s q) \/ (q = Free p /\ In x ms)).
  { intros q x. rewrite put_all_at. cbn [s0 at_]. destruct (place_eqb q (Free p)) eqn:E.
    - apply place_eqb_eq in E. subst q. rewrite in_app_iff. tauto.
    - split; [auto|]. intros [H|[-> _]]; [exact H|]. rewrite place_refl in E. discriminate E. }
  assert (NEW : forall q x, In x (at_ s q) -> ~ In x ms) by (intros q x X Y; exact (F x Y q X)).
  constructor.
  - split.
    + intros q. rewrite put_all_at. cbn [s0 at_]. destruct (place_eqb q (Free p)); [|apply (i_apart s I)].
      clear - N F I NEW. revert N. assert (D := proj1 (i_apart s I) q). assert (NQ := NEW q). revert D NQ. generalize (at_ s q) as l. clear.
      intros l. induction l as [|x l IH]; intros D NQ N; [exact N|]. inversion D; subst. cbn [app]. constructor.
      * rewrite in_app_iff. intros [X|X]; [contradiction|]. exact (NQ x (or_introl eq_refl) X).
      * apply IH; auto. intros y Y. apply NQ. right. exact Y.
    + intros q q' m X Y. apply AT in X, Y. destruct X as [X|[-> X]], Y as [Y|[-> Y]].
      * apply (proj2 (i_apart s I) q q' m); assumption.
      * contradiction (NEW q m X Y).
      * contradiction (NEW q' m Y X).
      * reflexivity.
  - intros p' m X. apply AT in X. destruct X as [X|[E X]].
    + rewrite (proj1 (put_all_hdr ms s0 p m) (NEW _ _ X)). apply (i_free s I). exact X.
    + injection E as ->. apply (put_all_hdr ms s0 p m). exact X.
  - intros m p' H. destruct (in_dec Z.eq_dec m ms) as [Y|Y].
    + exists (Free p). apply AT. right. auto.
    + rewrite (proj1 (put_all_hdr ms s0 p m) Y) in H. destruct (i_home s I m p' H) as [q Q]. exists q. apply AT. left. exact Q.
  - intros q m r X R. destruct (put_all_does ms s0 p) as [-> _]. apply AT in X. destruct X as [X|[_ X]].
    + rewrite (proj1 (put_all_hdr ms s0 p m) (NEW _ _ X)) in R. apply (i_reply s I q m r X R).
    + destruct (proj2 (put_all_hdr ms s0 p m) X) as [_ E]. congruence.
  - intros t m X. destruct (put_all_does ms s0 p) as [-> _]. apply AT in X. destruct X as [X|[E _]]; [|discriminate E].
    rewrite (proj1 (put_all_hdr ms s0 p m) (NEW _ _ X)). apply (i_wait s I). exact X.
Qed.

Lemma waits_kept : forall s t a, (forall x, does s t <> WaitsReply x) -> forall u x, does s u = WaitsReply x -> does (with_does s t a) u = WaitsReply x.
Proof. intros s t a H u x E. cbn [does with_does]. rewrite updz_other; [exact E|]. intros ->. exact (H x E). Qed.

Lemma inv_receive : forall s t p, inv s -> inv (fst (pool_receive s t p)).
Proof.
  intros s t p I. unfold pool_receive. destruct (at_ s (Free p)) as [|m rest] eqn:E; [exact I|]. cbn [fst].
  apply (inv_move s _ (Free p) (Held t) m I); try reflexivity; try discriminate; auto.
  apply take_moved; [exact E|discriminate|apply (i_apart s I)].
Qed.

Lemma inv_msg_free : forall s t m, inv s -> In m (at_ s (Held t)) -> inv (msg_free s t m).
Proof.
  intros s t m I H. unfold msg_free. destruct (h_home (hdrs s m)) as [p|] eqn:E; [|exact I].
  apply (inv_move s _ (Held t) (Free p) m I).
  - exact (hand_moved (count_free (with_hdr s m (set_id (set_reply (hdrs s m) None) 0)) p 1) t (Free p) m H ltac:(discriminate)).
  - intros x N. cbn [hdrs hand_over write drop with_at count_free with_hdr]. apply updz_other. exact N.
  - cbn [hdrs hand_over write drop with_at count_free with_hdr]. rewrite updz_same. reflexivity.
  - intros p' X. injection X as ->. exact E.
  - cbn [hdrs hand_over write drop with_at count_free with_hdr]. rewrite updz_same. discriminate.
  - discriminate.
  - auto.
Qed.

Lemma step_inv : forall o s s' es, inv s -> allowed o s -> step o s = Some (s', es) -> inv s'.
Proof.
  intros o s s' es I A ST. destruct o; cbn [step allowed] in *.
  - injection ST as <- _. destruct A as [_ [N F]]. apply inv_pool; assumption.
  - (* OLocal *) injection ST as <- _. destruct A as [_ NW].
    assert (AT : forall q x, In x (at_ (write (with_hdr s m (mkHdr None None 0 (h_data (hdrs s m)))) (Held t) m) q) <-> In x (at_ s q) \/ (q = Held t /\ x = m)).
    { intros q x. cbn [at_ write with_at with_hdr]. destruct (place_dec q (Held t)) as [->|N].
      - rewrite updq_same, in_app_iff. cbn [In]. split; [intros [H|[H|[]]]; auto|intros [H|[_ H]]; auto].
      - rewrite updq_other by exact N. split; [auto|intros [H|[H _]]; [exact H|contradiction]]. }
    assert (HD : forall x, x <> m -> hdrs (write (with_hdr s m (mkHdr None None 0 (h_data (hdrs s m)))) (Held t) m) x = hdrs s x) by (intros x N; cbn; apply updz_other; exact N).
    assert (HM : hdrs (write (with_hdr s m (mkHdr None None 0 (h_data (hdrs s m)))) (Held t) m) m = mkHdr None None 0 (h_data (hdrs s m))) by (cbn; apply updz_same).
    assert (OLD : forall q x, In x (at_ s q) -> x <> m) by (intros q x X ->; exact (NW q X)).
    constructor.
    + split.
      * intros q. cbn [at_ write with_at with_hdr]. destruct (place_dec q (Held t)) as [->|N]; [|rewrite updq_other by exact N; apply (i_apart s I)].
        rewrite updq_same. apply NoDup_snoc; [apply (i_apart s I)|apply NW].
      * intros q q' x X Y. apply AT in X, Y. destruct X as [X|[-> ->]], Y as [Y|[-> E]].
        -- apply (proj2 (i_apart s I) q q' x); assumption.
        -- subst. contradiction (NW _ X).
        -- contradiction (NW _ Y).
        -- reflexivity.
    + intros p x X. apply AT in X. destruct X as [X|[X _]]; [|discriminate X]. rewrite HD by (eapply OLD; exact X). apply (i_free s I). exact X.
    + intros x p X. destruct (Z.eq_dec x m) as [->|N]; [rewrite HM in X; discriminate X|]. rewrite HD in X by exact N.
      destruct (i_home s I x p X) as [q Q]. exists q. apply AT. left. exact Q.
    + intros q x r X R. apply AT in X. destruct X as [X|[_ ->]]; [|rewrite HM in R; discriminate R]. rewrite HD in R by (eapply OLD; exact X).
      apply (i_reply s I q x r X R).
    + intros u x X. apply AT in X. destruct X as [X|[X _]]; [|discriminate X]. rewrite HD by (eapply OLD; exact X). apply (i_wait s I). exact X.
  - (* OGone *) injection ST as <- _. destruct A as [[_ H] HN].
    assert (AT : forall q x, In x (at_ (drop s (Held t) m) q) <-> In x (at_ s q) /\ x <> m).
    { intros q x. cbn [at_ drop with_at]. destruct (place_dec q (Held t)) as [->|N].
      - rewrite updq_same. apply in_drop.
      - rewrite updq_other by exact N. split; [|tauto]. intros X. split; [exact X|]. intros ->. apply N. apply (proj2 (i_apart s I) q (Held t) m X H). }
    constructor.
    + split.
      * intros q. cbn [at_ drop with_at]. destruct (place_dec q (Held t)) as [->|N]; [rewrite updq_same; apply NoDup_filter|rewrite updq_other by exact N]; apply (i_apart s I).
      * intros q q' x X Y. apply AT in X, Y. apply (proj2 (i_apart s I) q q' x); tauto.
    + intros p x X. apply AT in X. apply (i_free s I p x). tauto.
    + intros x p X. destruct (i_home s I x p X) as [q Q]. exists q. apply AT. split; [exact Q|]. cbn [hdrs drop with_at] in X. intros ->. congruence.
    + intros q x r X. apply AT in X. apply (i_reply s I q x r). tauto.
    + intros u x X. apply AT in X. apply (i_wait s I u x). tauto.
  - (* OFill *) injection ST as <- _. apply (inv_still s _ I); cbn; try reflexivity; auto.
    + intros x. unfold updz. destruct (x =? m) eqn:E; [apply Z.eqb_eq in E; subst|]; reflexivity.
    + intros x r. unfold updz. destruct (x =? m) eqn:E; [apply Z.eqb_eq in E; subst|]; auto.
  - injection ST as ST. rewrite (surjective_pairing (pool_receive s t p)) in ST. injection ST as <- _. apply inv_receive. exact I.
  - injection ST as <- _. apply (inv_still s _ I); try reflexivity; auto. intros u x. apply waits_kept. intros y. congruence.
  - destruct A as [p A]. rewrite A in ST. injection ST as <- _. destruct (at_ s (Free p)); [exact I|].
    apply (inv_still s _ I); try reflexivity; auto. intros u x. apply waits_kept. intros y. congruence.
  - destruct A as [p A]. rewrite A in ST. injection ST as ST. rewrite (surjective_pairing (pool_receive (with_does s t Runs) t p)) in ST. injection ST as <- _.
    apply inv_receive. apply (inv_still s _ I); try reflexivity; auto. intros u x. apply waits_kept. intros y. congruence.
  - injection ST as <- _. apply inv_msg_free; [exact I|apply A].
  - (* OSend *) destruct A as [[_ H] HN]. unfold msg_send in ST. destruct (h_home (hdrs s m)) as [p|] eqn:E; [cbn [bind] in ST|discriminate ST].
    destruct ok; injection ST as <- _.
    + apply (inv_move s _ (Held t) (General to) m I).
      * exact (hand_moved (with_hdr s m (set_reply (set_id (hdrs s m) id) (if needs_reply then Some (General t) else None))) t (General to) m H ltac:(discriminate)).
      * intros x N. cbn. apply updz_other. exact N.
      * cbn. rewrite updz_same. reflexivity.
      * discriminate.
      * cbn. rewrite updz_same. cbn. intros r R. right. left. destruct needs_reply; [|discriminate R]. injection R as <-. eexists. reflexivity.
      * discriminate.
      * auto.
    + apply (inv_move s _ (Held t) (Free p) m I).
      * exact (hand_moved (with_hdr s m (set_reply (set_reply (set_id (hdrs s m) id) (if needs_reply then Some (General t) else None)) None)) t (Free p) m H ltac:(discriminate)).
      * intros x N. cbn. apply updz_other. exact N.
      * cbn. rewrite updz_same. reflexivity.
      * intros p' X. injection X as ->. exact E.
      * cbn. rewrite updz_same. discriminate.
      * discriminate.
      * auto.
  - (* OSendWait *) destruct A as [R H]. injection ST as ST. unfold msg_send_wait in ST. destruct ok; injection ST as <- _.
    + apply (inv_move s _ (Held t) (General to) m I).
      * exact (hand_moved (with_hdr s m (set_reply (set_id (hdrs s m) id) (Some (Replies t)))) t (General to) m H ltac:(discriminate)).
      * intros x N. cbn. apply updz_other. exact N.
      * cbn. rewrite updz_same. reflexivity.
      * discriminate.
      * cbn. rewrite updz_same. cbn. intros r X. injection X as <-. right. right. exists t. rewrite updz_same. auto.
      * discriminate.
      * intros u x. cbn. intros X. rewrite updz_other; [exact X|]. intros ->. congruence.
    + apply (inv_still s _ I); cbn; try reflexivity; auto.
      * intros x. unfold updz. destruct (x =? m) eqn:E; [apply Z.eqb_eq in E; subst|]; reflexivity.
      * intros x r. unfold updz. destruct (x =? m) eqn:E; [discriminate|auto].
  - (* OStart *) destruct A as [[R H] [HN NC]]. injection ST as <- _. unfold thread_start.
    apply (inv_move s _ (Held t) (Held child) m I).
    + exact (hand_moved (with_hdr s m (mkHdr (Some (Replies t)) None 1 (h_data (hdrs s m)))) t (Held child) m H ltac:(intros X; injection X; auto)).
    + intros x N. cbn. apply updz_other. exact N.
    + cbn. rewrite updz_same. symmetry. exact HN.
    + discriminate.
    + cbn. rewrite updz_same. cbn. intros r X. injection X as <-. right. right. exists t. rewrite updz_same. auto.
    + discriminate.
    + intros u x. cbn. intros X. rewrite updz_other; [exact X|]. intros ->. congruence.
  - (* OReplied *) destruct A as [m A]. unfold replied in ST. rewrite A in ST. destruct (at_ s (Replies t)) as [|r rest] eqn:E; injection ST as <- _; [exact I|].
    destruct (i_wait s I t r ltac:(rewrite E; left; reflexivity)) as [W RN]. assert (r = m) by congruence. subst r.
    assert (D := proj1 (i_apart s I) (Replies t)). rewrite E in D. inversion D as [|? ? NI DR]; subst.
    assert (rest = []). { destruct rest as [|x rest]; [reflexivity|]. destruct (i_wait s I t x ltac:(rewrite E; right; left; reflexivity)) as [W' _]. assert (x = m) by congruence. subst. contradiction NI. left. reflexivity. }
    subst rest. assert (M := take_moved s (Replies t) t m [] E ltac:(discriminate) (proj1 (i_apart s I))).
    assert (RO : forall q x u, In x (at_ s q) -> h_reply (hdrs s x) = Some (Replies u) -> u <> t).
    { intros q x u X RX ->. destruct (i_reply s I q x _ X RX) as [[v V]|[v [V WV]]]; [discriminate V|]. injection V as <-. assert (x = m) by congruence. subst x. congruence. }
    constructor.
    + exact (moved_apart _ _ _ _ _ M (i_apart s I)).
    + intros p x X. apply (mv_mem _ _ _ _ _ M) in X. destruct X as [[X _]|[X _]]; [discriminate X|]. cbn. unfold updz. destruct (x =? m) eqn:EX; cbn; [apply Z.eqb_eq in EX; subst|]; apply (i_free s I); exact X.
    + intros x p X. apply (moved_somewhere _ _ _ _ _ x M). apply (i_home s I x p). revert X. cbn. unfold updz. destruct (x =? m) eqn:EX; cbn; [apply Z.eqb_eq in EX; subst|]; auto.
    + intros q x r X RX. assert (XS : exists q0, In x (at_ s q0)) by (apply (moved_somewhere _ _ _ _ _ x M); exists q; exact X). destruct XS as [q0 X0].
      cbn in RX. unfold updz in RX. destruct (x =? m) eqn:EX; [discriminate RX|]. destruct (i_reply s I q0 x r X0 RX) as [L|[u [-> WU]]]; [left; exact L|right; exists u].
      split; [reflexivity|]. cbn. rewrite updz_other; [exact WU|]. exact (RO q0 x u X0 RX).
    + intros u x X. apply (mv_mem _ _ _ _ _ M) in X. destruct X as [[X _]|[X NX]]; [discriminate X|]. destruct (i_wait s I u x X) as [W1 W2].
      assert (U : u <> t). { intros ->. rewrite E in X. destruct X as [<-|[]]. apply NX. auto. }
      assert (x <> m). { intros ->. apply U. assert (Replies u = Replies t) by (apply (proj2 (i_apart s I) _ _ m X); rewrite E; left; reflexivity). congruence. }
      cbn. rewrite !updz_other by assumption. auto.
  - (* OReply *) destruct A as [R H]. injection ST as ST. unfold msg_reply in ST. destruct (h_reply (hdrs s m)) as [q|] eqn:E.
    + destruct ok; injection ST as <- _.
      * destruct (i_reply s I _ m q H E) as [Q|Q].
        -- destruct Q as [u ->]. apply (inv_move s _ (Held t) (General u) m I).
           ++ exact (hand_moved (with_hdr s m (set_reply (hdrs s m) None)) t (General u) m H ltac:(discriminate)).
           ++ intros x N. cbn. apply updz_other. exact N.
           ++ cbn. rewrite updz_same. reflexivity.
           ++ discriminate.
           ++ cbn. rewrite updz_same. discriminate.
           ++ discriminate.
           ++ auto.
        -- destruct Q as [u [-> W]]. apply (inv_move s _ (Held t) (Replies u) m I).
           ++ exact (hand_moved (with_hdr s m (set_reply (hdrs s m) None)) t (Replies u) m H ltac:(discriminate)).
           ++ intros x N. cbn. apply updz_other. exact N.
           ++ cbn. rewrite updz_same. reflexivity.
           ++ discriminate.
           ++ cbn. rewrite updz_same. discriminate.
           ++ intros v V. injection V as <-. cbn. rewrite updz_same. auto.
           ++ auto.
      * apply (inv_still s _ I); cbn; try reflexivity; auto.
        -- intros x. unfold updz. destruct (x =? m) eqn:EX; [apply Z.eqb_eq in EX; subst|]; reflexivity.
        -- intros x r. unfold updz. destruct (x =? m) eqn:EX; [apply Z.eqb_eq in EX; subst|]; [|auto]. cbn. intros X. congruence.
    + injection ST as <- _. destruct (h_home (hdrs s m)); [apply inv_msg_free; assumption|exact I].
  - (* OReceive *) injection ST as ST. unfold receive in ST. destruct (at_ s (General t)) as [|m rest] eqn:E; injection ST as <- _; [exact I|].
    apply (inv_move s _ (General t) (Held t) m I); try reflexivity; try discriminate; auto.
    apply take_moved; [exact E|discriminate|apply (i_apart s I)].
Qed.

Lemma history_inv : forall h s es, history h s es -> inv s.
Proof. intros h s es H. induction H; [apply inv_start|eapply step_inv; eassumption]. Qed.
