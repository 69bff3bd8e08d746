(** Order of delivery, homes, and statistics. *)
Require Import ZArith List Bool Lia ZifyBool.
Import ListNotations.
From Verif Require Import Base ThrSpec ThrModel ThrProof.
Open Scope Z_scope.

(** ** Homes. *)
Definition has_pool (p : pool) (h : list op) : bool :=
  existsb (fun o => match o with OPool _ p' _ => pool_eqb p p' | _ => false end) h.

Lemma made_snoc : forall p h o, made p (h ++ [o]) = if has_pool p h then made p h else made p [o].
Proof.
  intros p h o. induction h as [|x h IH]; [reflexivity|]. destruct x; cbn [app made has_pool existsb]; try exact IH.
  destruct (pool_eqb p p0); [reflexivity|]. exact IH.
Qed.
Lemma has_snoc : forall p h o, has_pool p (h ++ [o]) = has_pool p h || has_pool p [o].
Proof. intros p h o. unfold has_pool. rewrite existsb_app. reflexivity. Qed.
Lemma made_none : forall p h, has_pool p h = false -> made p h = [].
Proof.
  intros p h. induction h as [|x h IH]; intros H; [reflexivity|]. destruct x; cbn [made has_pool existsb] in *; try (apply IH; exact H).
  destruct (pool_eqb p p0); [discriminate H|]. apply IH. exact H.
Qed.

Definition is_pool (o : op) : bool := match o with OPool _ _ _ => true | _ => false end.
Lemma not_pool : forall p o, is_pool o = false -> has_pool p [o] = false /\ made p [o] = [].
Proof. intros p o. destruct o; cbn; intros H; try discriminate H; split; reflexivity. Qed.

Lemma set_up_receive : forall s t p, set_up (fst (pool_receive s t p)) = set_up s /\ hdrs (fst (pool_receive s t p)) = hdrs s.
Proof. intros s t p. unfold pool_receive. destruct (at_ s (Free p)); split; reflexivity. Qed.

Lemma step_home : forall o s s' es, inv s -> allowed o s -> step o s = Some (s', es) -> is_pool o = false ->
  set_up s' = set_up s /\ forall x, h_home (hdrs s' x) = h_home (hdrs s x).
Proof.
  intros o s s' es I A ST NP. destruct o; cbn [step allowed is_pool] in *; try discriminate NP.
  - injection ST as <- _. split; [reflexivity|]. intros x. cbn. destruct (Z.eq_dec x m) as [->|N]; [rewrite updz_same|rewrite updz_other by exact N; reflexivity].
    destruct (h_home (hdrs s m)) as [p|] eqn:E; [|reflexivity]. destruct (i_home s I m p E) as [q Q]. destruct A as [_ A]. contradiction (A q Q).
  - injection ST as <- _. split; reflexivity.
  - injection ST as <- _. split; [reflexivity|]. intros x. cbn. destruct (Z.eq_dec x m) as [->|N]; [rewrite updz_same|rewrite updz_other by exact N]; reflexivity.
  - injection ST as ST. rewrite (surjective_pairing (pool_receive s t p)) in ST. injection ST as <- _. destruct (set_up_receive s t p) as [-> ->]. split; reflexivity.
  - injection ST as <- _. split; reflexivity.
  - destruct A as [p A]. rewrite A in ST. injection ST as <- _. destruct (at_ s (Free p)); split; reflexivity.
  - destruct A as [p A]. rewrite A in ST. injection ST as ST. rewrite (surjective_pairing (pool_receive (with_does s t Runs) t p)) in ST. injection ST as <- _.
    destruct (set_up_receive (with_does s t Runs) t p) as [-> ->]. split; reflexivity.
  - injection ST as <- _. unfold msg_free. destruct (h_home (hdrs s m)) as [p|] eqn:E; [|split; reflexivity]. split; [reflexivity|]. intros x. cbn.
    destruct (Z.eq_dec x m) as [->|N]; [rewrite updz_same|rewrite updz_other by exact N]; reflexivity.
  - unfold msg_send in ST. destruct (h_home (hdrs s m)) as [p|] eqn:E; [cbn [bind] in ST|discriminate ST].
    destruct ok; injection ST as <- _; (split; [reflexivity|]); intros x; cbn; (destruct (Z.eq_dec x m) as [->|N]; [rewrite updz_same|rewrite updz_other by exact N]); reflexivity.
  - injection ST as ST. unfold msg_send_wait in ST.
    destruct ok; injection ST as <- _; (split; [reflexivity|]); intros x; cbn; (destruct (Z.eq_dec x m) as [->|N]; [rewrite updz_same|rewrite updz_other by exact N]); reflexivity.
  - injection ST as <- _. destruct A as [_ [HN _]]. split; [reflexivity|]; intros x; cbn; (destruct (Z.eq_dec x m) as [->|N]; [rewrite updz_same|rewrite updz_other by exact N]); [symmetry; exact HN|reflexivity].
  - destruct A as [m A]. unfold replied in ST. rewrite A in ST. destruct (at_ s (Replies t)) as [|r rest]; injection ST as <- _; [split; reflexivity|].
    split; [reflexivity|]. intros x. cbn. destruct (Z.eq_dec x m) as [->|N]; [rewrite updz_same|rewrite updz_other by exact N]; reflexivity.
  - injection ST as ST. unfold msg_reply in ST. destruct (h_reply (hdrs s m)) as [q|].
    + destruct ok; injection ST as <- _; (split; [reflexivity|]); intros x; cbn; (destruct (Z.eq_dec x m) as [->|N]; [rewrite updz_same|rewrite updz_other by exact N]); reflexivity.
    + injection ST as <- _. unfold msg_free. destruct (h_home (hdrs s m)) as [p|] eqn:E; [|split; reflexivity]. split; [reflexivity|]. intros x. cbn.
      destruct (Z.eq_dec x m) as [->|N]; [rewrite updz_same|rewrite updz_other by exact N]; reflexivity.
  - injection ST as ST. unfold receive in ST. destruct (at_ s (General t)); injection ST as <- _; split; reflexivity.
Qed.

Lemma history_home : forall h s es, history h s es ->
  (forall p, set_up s p = has_pool p h) /\ forall p m, h_home (hdrs s m) = Some p <-> In m (made p h).
Proof.
  intros h s es H. induction H as [|h s es o s' es' H [IH1 IH2] A ST]; [split; [reflexivity|]; cbn; intros p m; split; [discriminate|contradiction]|].
  assert (I := history_inv _ _ _ H). destruct (is_pool o) eqn:NP.
  - destruct o; try discriminate NP. cbn [step allowed] in *. injection ST as <- _. destruct A as [_ [ND F]]. rewrite Forall_forall in F.
    assert (M1 : forall p', made p' [OPool t p ms] = if pool_eqb p' p then ms else []) by (intros p'; reflexivity).
    unfold pool_allocate. rewrite IH1. destruct (has_pool p h) eqn:HP.
    + split; intros p'.
      * rewrite has_snoc, IH1. cbn [has_pool existsb]. rewrite orb_false_r. destruct (pool_eqb p' p) eqn:E; [|rewrite orb_false_r; reflexivity].
        apply pool_eqb_eq in E. subst p'. rewrite HP. reflexivity.
      * intros m. rewrite made_snoc, M1. destruct (has_pool p' h) eqn:HP'; [apply IH2|]. destruct (pool_eqb p' p) eqn:E; [apply pool_eqb_eq in E; congruence|].
        rewrite IH2, (made_none p' h HP'). reflexivity.
    + destruct (put_all_does ms (mkSt (hdrs s) (at_ s) (does s) (updp (set_up s) p true) (free_count s) (used_count s)) p) as [_ [SU _]]. split; intros p'.
      * rewrite SU, has_snoc. cbn [set_up has_pool existsb]. rewrite orb_false_r. unfold updp. destruct (pool_eqb p' p); [rewrite orb_true_r; reflexivity|rewrite orb_false_r; apply IH1].
      * intros m. rewrite made_snoc, M1. destruct (put_all_hdr ms (mkSt (hdrs s) (at_ s) (does s) (updp (set_up s) p true) (free_count s) (used_count s)) p m) as [P1 P2].
        destruct (in_dec Z.eq_dec m ms) as [Y|N].
        -- destruct (P2 Y) as [-> _]. assert (NH : forall p0, ~ In m (made p0 h)). { intros p0 X. apply IH2 in X. destruct (i_home s I m p0 X) as [q Q]. exact (F m Y q Q). }
           split; [intros X; injection X as <-; rewrite HP, pool_refl; exact Y|]. destruct (has_pool p' h); [intros X; contradiction (NH p' X)|].
           destruct (pool_eqb p' p) eqn:E; [apply pool_eqb_eq in E; congruence|contradiction].
        -- rewrite (P1 N). cbn [hdrs]. rewrite IH2. destruct (has_pool p' h) eqn:HP'; [reflexivity|]. rewrite (made_none p' h HP').
           destruct (pool_eqb p' p); [split; [contradiction|intros X; contradiction (N X)]|reflexivity].
  - destruct (step_home _ _ _ _ I A ST NP) as [SU HM]. split; intros p; destruct (not_pool p o NP) as [N1 N2].
    + rewrite SU, has_snoc, N1, orb_false_r. apply IH1.
    + intros m. rewrite HM, IH2, made_snoc, N2. destruct (has_pool p h) eqn:HP; [reflexivity|]. rewrite (made_none p h HP). reflexivity.
Qed.

(** ** Order. *)
Definition is_queue (q : place) : Prop := match q with General _ | Replies _ => True | _ => False end.
Definition view (s : state) (q : place) : list (Z * hdr) := map (fun m => (m, hdrs s m)) (at_ s q).

Lemma hand_at : forall s t b m q, is_queue q -> at_ (hand_over s t b m) q = if place_eqb q b then at_ s q ++ [m] else at_ s q.
Proof.
  intros s t b m q Q. assert (NH : q <> Held t) by (intros ->; exact Q). unfold hand_over, write, drop. cbn [at_ with_at].
  destruct (place_eqb q b) eqn:E.
  - apply place_eqb_eq in E. subst b. rewrite updq_same, updq_other by exact NH. reflexivity.
  - unfold updq at 1. rewrite E. apply updq_other. exact NH.
Qed.
Lemma take_at : forall s a t m rest q, is_queue q -> at_ (take s a t m rest) q = if place_eqb q a then rest else at_ s q.
Proof.
  intros s a t m rest q Q. assert (NH : q <> Held t) by (intros ->; exact Q). unfold take, write. cbn [at_ with_at].
  rewrite updq_other by exact NH. reflexivity.
Qed.

(** A message in somebody's hands is in no queue. *)
Lemma held_not_queued : forall s t m q, inv s -> In m (at_ s (Held t)) -> is_queue q -> ~ In m (at_ s q).
Proof. intros s t m q I H Q X. assert (E := proj2 (i_apart s I) _ _ _ H X). subst q. exact Q. Qed.

Lemma view_same : forall s s' q, at_ s' q = at_ s q -> (forall x, In x (at_ s q) -> hdrs s' x = hdrs s x) -> view s' q = view s q.
Proof. intros s s' q A H. unfold view. rewrite A. apply map_ext_in. intros x X. rewrite (H x X). reflexivity. Qed.
Lemma view_snoc : forall s s' q m, at_ s' q = at_ s q ++ [m] -> (forall x, In x (at_ s q) -> hdrs s' x = hdrs s x) -> view s' q = view s q ++ [(m, hdrs s' m)].
Proof.
  intros s s' q m A H. unfold view. rewrite A, map_app. f_equal. apply map_ext_in. intros x X. rewrite (H x X). reflexivity.
Qed.

Definition fifo_step (s s' : state) (es : list event) : Prop :=
  forall q, is_queue q -> view s q ++ flat_map (posted q) es = flat_map (got q) es ++ view s' q.

Lemma fifo_quiet : forall s s' es, (forall q, is_queue q -> flat_map (posted q) es = [] /\ flat_map (got q) es = []) ->
  (forall q, is_queue q -> view s' q = view s q) -> fifo_step s s' es.
Proof. intros s s' es E V q Q. destruct (E q Q) as [-> ->]. rewrite app_nil_r, (V q Q). reflexivity. Qed.

(** Handing over a message held, with a new header for it. *)
Lemma fifo_post : forall s s' t b m h, inv s -> In m (at_ s (Held t)) -> is_queue b ->
  (forall q, is_queue q -> at_ s' q = if place_eqb q b then at_ s q ++ [m] else at_ s q) ->
  (forall x, x <> m -> hdrs s' x = hdrs s x) -> hdrs s' m = h -> fifo_step s s' [Posted b m h].
Proof.
  intros s s' t b m h I H B A HO HM q Q. cbn [flat_map posted got app]. rewrite app_nil_r.
  assert (K : forall x, In x (at_ s q) -> hdrs s' x = hdrs s x) by (intros x X; apply HO; intros ->; exact (held_not_queued s t m q I H Q X)).
  assert (AQ := A q Q). destruct (place_eqb q b) eqn:E.
  - rewrite (view_snoc s s' q m AQ K), HM. reflexivity.
  - rewrite app_nil_r. symmetry. apply view_same; assumption.
Qed.
Lemma fifo_away : forall s s' t m, inv s -> In m (at_ s (Held t)) ->
  (forall q, is_queue q -> at_ s' q = at_ s q) -> (forall x, x <> m -> hdrs s' x = hdrs s x) -> fifo_step s s' [].
Proof.
  intros s s' t m I H A HO. apply fifo_quiet; [auto|]. intros q Q. apply view_same; [apply A; exact Q|].
  intros x X. apply HO. intros ->. exact (held_not_queued s t m q I H Q X).
Qed.

Lemma fifo_receive : forall s t p, fifo_step s (fst (pool_receive s t p)) (snd (pool_receive s t p)).
Proof.
  intros s t p. unfold pool_receive. destruct (at_ s (Free p)) as [|m rest] eqn:E; cbn [fst snd]; (apply fifo_quiet; [intros q _; split; reflexivity|]); [reflexivity|].
  intros q Q. apply view_same; [|reflexivity]. change (at_ (count_free (take s (Free p) t m rest) p (-1)) q) with (at_ (take s (Free p) t m rest) q).
  rewrite take_at by exact Q. destruct (place_eqb q (Free p)) eqn:EQ; [apply place_eqb_eq in EQ; subst q; contradiction Q|reflexivity].
Qed.
Lemma fifo_free : forall s t m, inv s -> In m (at_ s (Held t)) -> fifo_step s (msg_free s t m) [].
Proof.
  intros s t m I H. unfold msg_free. destruct (h_home (hdrs s m)) as [p|]; [|intros q _; rewrite app_nil_r; reflexivity].
  apply (fifo_away s _ t m I H).
  - intros q Q. rewrite hand_at by exact Q. destruct (place_eqb q (Free p)) eqn:EQ; [apply place_eqb_eq in EQ; subst q; contradiction Q|reflexivity].
  - intros x N. cbn. apply updz_other. exact N.
Qed.

Lemma not_free_queue : forall q p, is_queue q -> place_eqb q (Free p) = false.
Proof. intros [p'|t|t|t] p Q; reflexivity || contradiction Q. Qed.
Lemma not_held_queue : forall q t, is_queue q -> place_eqb q (Held t) = false.
Proof. intros [p'|u|u|u] t Q; reflexivity || contradiction Q. Qed.

Lemma step_fifo : forall o s s' es, inv s -> allowed o s -> step o s = Some (s', es) -> fifo_step s s' es.
Proof.
  intros o s s' es I A ST. destruct o; cbn [step allowed] in *.
  - injection ST as <- <-. destruct A as [_ [ND F]]. rewrite Forall_forall in F. apply fifo_quiet; [auto|]. intros q Q. unfold pool_allocate.
    destruct (set_up s p); [reflexivity|]. apply view_same.
    + rewrite put_all_at, not_free_queue by exact Q. reflexivity.
    + intros x X. rewrite (proj1 (put_all_hdr ms _ p x)); [reflexivity|]. intros Y. exact (F x Y q X).
  - injection ST as <- <-. destruct A as [_ NW]. apply fifo_quiet; [auto|]. intros q Q. apply view_same.
    + cbn [at_ write with_at with_hdr]. unfold updq. rewrite not_held_queue by exact Q. reflexivity.
    + intros x X. cbn. apply updz_other. intros ->. exact (NW q X).
  - injection ST as <- <-. apply fifo_quiet; [auto|]. intros q Q. apply view_same; [|reflexivity].
    cbn [at_ drop with_at]. unfold updq. rewrite not_held_queue by exact Q. reflexivity.
  - injection ST as <- <-. destruct A as [_ H]. apply (fifo_away s _ t m I H); [reflexivity|]. intros x N. cbn. apply updz_other. exact N.
  - injection ST as ST. assert (F := fifo_receive s t p). rewrite ST in F. exact F.
  - injection ST as <- <-. apply fifo_quiet; auto.
  - destruct A as [p A]. rewrite A in ST. injection ST as <- <-. apply fifo_quiet; [auto|]. intros q Q. destruct (at_ s (Free p)); reflexivity.
  - destruct A as [p A]. rewrite A in ST. injection ST as ST. assert (F := fifo_receive (with_does s t Runs) t p). rewrite ST in F. exact F.
  - injection ST as <- <-. destruct A as [_ H]. apply fifo_free; assumption.
  - destruct A as [[_ H] _]. unfold msg_send in ST. destruct (h_home (hdrs s m)) as [p|] eqn:E; [cbn [bind] in ST|discriminate ST].
    destruct ok; injection ST as <- <-.
    + apply (fifo_post s _ t (General to) m _ I H Logic.I).
      * intros q Q. rewrite hand_at by exact Q. reflexivity.
      * intros x N. cbn. apply updz_other. exact N.
      * cbn. apply updz_same.
    + apply (fifo_away s _ t m I H).
      * intros q Q. rewrite hand_at, not_free_queue by exact Q. reflexivity.
      * intros x N. cbn. apply updz_other. exact N.
  - destruct A as [_ H]. injection ST as ST. unfold msg_send_wait in ST. destruct ok; injection ST as <- <-.
    + apply (fifo_post s _ t (General to) m _ I H Logic.I).
      * intros q Q. cbn [at_ with_does]. rewrite hand_at by exact Q. reflexivity.
      * intros x N. cbn. apply updz_other. exact N.
      * cbn. apply updz_same.
    + apply (fifo_away s _ t m I H); [reflexivity|]. intros x N. cbn. apply updz_other. exact N.
  - destruct A as [[_ H] _]. injection ST as <- <-. apply (fifo_away s _ t m I H).
    + intros q Q. unfold thread_start. cbn [at_ with_does]. rewrite hand_at, not_held_queue by exact Q. reflexivity.
    + intros x N. cbn. apply updz_other. exact N.
  - destruct A as [m A]. unfold replied in ST. rewrite A in ST. destruct (at_ s (Replies t)) as [|r rest] eqn:E; injection ST as <- <-; [apply fifo_quiet; auto|].
    destruct (i_wait s I t r ltac:(rewrite E; left; reflexivity)) as [W _]. assert (r = m) by congruence. subst r.
    intros q Q. cbn [flat_map posted got app]. rewrite app_nil_r. destruct (place_eqb q (Replies t)) eqn:EQ.
    + apply place_eqb_eq in EQ. subst q. unfold view at 1. rewrite E. cbn [map app]. f_equal. unfold view.
      cbn [at_ with_hdr with_does]. rewrite take_at by exact Q. rewrite place_refl. apply map_ext_in. intros x X. f_equal. cbn. symmetry. apply updz_other. intros ->.
      assert (D := proj1 (i_apart s I) (Replies t)). rewrite E in D. inversion D; contradiction.
    + cbn [app]. symmetry. apply view_same.
      * cbn [at_ with_hdr with_does]. rewrite take_at by exact Q. rewrite EQ. reflexivity.
      * intros x X. cbn. apply updz_other. intros ->. assert (q = Replies t) by (apply (proj2 (i_apart s I) q (Replies t) m X); rewrite E; left; reflexivity).
        subst q. rewrite place_refl in EQ. discriminate EQ.
  - destruct A as [_ H]. injection ST as ST. unfold msg_reply in ST. destruct (h_reply (hdrs s m)) as [q0|] eqn:E.
    + destruct ok; injection ST as <- <-.
      * assert (Q0 : is_queue q0). { destruct (i_reply s I _ m q0 H E) as [[u ->]|[u [-> _]]]; exact Logic.I. }
        apply (fifo_post s _ t q0 m _ I H Q0).
        -- intros q Q. rewrite hand_at by exact Q. reflexivity.
        -- intros x N. cbn. apply updz_other. exact N.
        -- cbn. apply updz_same.
      * apply (fifo_away s _ t m I H); [reflexivity|]. intros x N. cbn. apply updz_other. exact N.
    + injection ST as <- <-. destruct (h_home (hdrs s m)); [apply fifo_free; assumption|apply fifo_quiet; auto].
  - injection ST as ST. unfold receive in ST. destruct (at_ s (General t)) as [|m rest] eqn:E; injection ST as <- <-; [apply fifo_quiet; auto|].
    intros q Q. cbn [flat_map posted got app]. rewrite !app_nil_r. destruct (place_eqb q (General t)) eqn:EQ.
    + apply place_eqb_eq in EQ. subst q. unfold view. rewrite E, take_at, place_refl by exact Q. reflexivity.
    + cbn [app]. symmetry. apply view_same; [|reflexivity]. rewrite take_at by exact Q. rewrite EQ. reflexivity.
Qed.

Lemma history_fifo : forall h s es, history h s es -> forall q, is_queue q -> flat_map (posted q) es = flat_map (got q) es ++ view s q.
Proof.
  intros h s es H. induction H as [|h s es o s' es' H IH A ST]; intros q Q; [reflexivity|].
  rewrite !flat_map_app, (IH q Q), <- !app_assoc. f_equal. apply (step_fifo _ _ _ _ (history_inv _ _ _ H) A ST q Q).
Qed.

(** ** Statistics. *)
Lemma put_all_count : forall ms s p q, free_count (put_all s p ms) q = if pool_eqb q p then free_count s q + Z.of_nat (length ms) else free_count s q.
Proof.
  intros ms. induction ms as [|m ms IH]; intros s p q; cbn [put_all length].
  - destruct (pool_eqb q p); lia.
  - rewrite IH. cbn [free_count]. unfold updp. destruct (pool_eqb q p) eqn:E; [apply pool_eqb_eq in E; subst; rewrite ?pool_refl; lia|reflexivity].
Qed.

Definition counted (s : state) : Prop := forall p, free_count s p = Z.of_nat (length (at_ s (Free p))).
Definition count_same (s s' : state) : Prop := (forall p, at_ s' (Free p) = at_ s (Free p)) /\ free_count s' = free_count s.
Lemma counted_same : forall s s', counted s -> count_same s s' -> counted s'.
Proof. intros s s' C [A F] p. rewrite A, F. apply C. Qed.

Lemma counted_free : forall s t m, counted s -> counted (msg_free s t m).
Proof.
  intros s t m C. unfold msg_free. destruct (h_home (hdrs s m)) as [p|]; [|exact C]. intros q. assert (Q := C q). cbn. unfold updp, updq. cbn.
  destruct (pool_eqb q p) eqn:E; [|exact Q]. apply pool_eqb_eq in E. subst q. rewrite app_length. cbn [length]. lia.
Qed.
Lemma counted_receive : forall s t p, counted s -> counted (fst (pool_receive s t p)).
Proof.
  intros s t p C. unfold pool_receive. destruct (at_ s (Free p)) as [|m rest] eqn:E; [exact C|]. cbn [fst]. intros q. assert (Q := C q). cbn. unfold updp, updq. cbn.
  destruct (pool_eqb q p) eqn:EQ; [|exact Q]. apply pool_eqb_eq in EQ. subst q. rewrite E in Q. cbn [length] in Q. lia.
Qed.
Lemma step_counted : forall o s s' es, allowed o s -> step o s = Some (s', es) -> sends_ok o -> inv s -> counted s -> counted s'.
Proof.
  intros o s s' es A ST OK I C. destruct o; cbn [step allowed sends_ok] in *.
  - injection ST as <- _. unfold pool_allocate. destruct (set_up s p); [exact C|]. intros q. rewrite put_all_count, put_all_at. cbn [free_count at_]. assert (Q := C q).
    cbn [place_eqb]. destruct (pool_eqb q p); [rewrite app_length; lia|exact Q].
  - injection ST as <- _. exact C.
  - injection ST as <- _. exact C.
  - injection ST as <- _. exact C.
  - injection ST as ST. assert (F := counted_receive s t p C). rewrite ST in F. exact F.
  - injection ST as <- _. exact C.
  - destruct A as [p A]. rewrite A in ST. injection ST as <- _. destruct (at_ s (Free p)); exact C.
  - destruct A as [p A]. rewrite A in ST. injection ST as ST. assert (F := counted_receive (with_does s t Runs) t p C). rewrite ST in F. exact F.
  - injection ST as <- _. apply counted_free. exact C.
  - subst ok. unfold msg_send in ST. destruct (h_home (hdrs s m)) as [p|] eqn:E; [cbn [bind] in ST|discriminate ST]. injection ST as <- _. exact C.
  - injection ST as ST. unfold msg_send_wait in ST. destruct ok; injection ST as <- _; exact C.
  - injection ST as <- _. exact C.
  - destruct A as [m A]. unfold replied in ST. rewrite A in ST. destruct (at_ s (Replies t)); injection ST as <- _; exact C.
  - injection ST as ST. unfold msg_reply in ST. destruct (h_reply (hdrs s m)) as [q0|] eqn:E.
    + destruct ok; injection ST as <- _; [|exact C]. destruct A as [_ H].
      assert (Q0 : is_queue q0). { destruct (i_reply s I _ m q0 H E) as [[u ->]|[u [-> _]]]; exact Logic.I. }
      destruct q0; try contradiction Q0; exact C.
    + injection ST as <- _. destruct (h_home (hdrs s m)); [apply counted_free|]; exact C.
  - injection ST as ST. unfold receive in ST. destruct (at_ s (General t)); injection ST as <- _; exact C.
Qed.
Lemma history_counted : forall h s es, history h s es -> Forall sends_ok h -> counted s.
Proof.
  intros h s es H. induction H as [|h s es o s' es' H IH A ST]; intros F; [intros p; reflexivity|].
  apply Forall_app in F. destruct F as [F1 F2]. inversion F2; subst. eapply step_counted; eauto. eapply history_inv. eassumption.
Qed.

Lemma allowed_defined : forall o s, allowed o s -> exists r, step o s = Some r.
Proof.
  intros o s A. destruct o; cbn [step allowed] in *; try (eexists; reflexivity).
  - destruct A as [p ->]. eexists. reflexivity.
  - destruct A as [p ->]. eexists. reflexivity.
  - destruct A as [_ A]. unfold msg_send. destruct (h_home (hdrs s m)); [|contradiction]. cbn [bind]. destruct ok; eexists; reflexivity.
  - destruct A as [m A]. unfold replied. rewrite A. destruct (at_ s (Replies t)); eexists; reflexivity.
Qed.
