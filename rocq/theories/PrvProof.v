(** Proofs about the privileged helper (C63). *)
Require Import ZArith List Bool String Lia.
Require Import Verif.Base Verif.ListLib Verif.CevSpec Verif.CevModel Verif.CevProof Verif.PrvSpec Verif.PrvModel.
Import ListNotations.
Open Scope Z_scope.

Lemma digits_iff : forall l, digits l = true <-> l <> [] /\ (forall c, In c l -> 48 <= c <= 57).
Proof.
  intros l. destruct l as [|x l]; [split; [discriminate|intros [H _]; congruence]|].
  cbn [digits]. rewrite forallb_forall. split.
  - intros H. split; [discriminate|]. intros c C. specialize (H c C). unfold isdigit in H. lia.
  - intros [_ H] c C. specialize (H c C). unfold isdigit. lia.
Qed.

Lemma permitted_iff : forall p, permitted p = true <-> device p.
Proof.
  intros p. unfold permitted, device. destruct (strip_prefix (txt "/dev/") p) as [r|] eqn:P.
  - apply strip_prefix_some in P. subst p. destruct (strip_prefix (txt "pps") r) as [d|] eqn:Q1.
    + apply strip_prefix_some in Q1. subst r. rewrite digits_iff. split.
      * intros [H1 H2]. exists (txt "pps"), d. split; [reflexivity|]. split; [left; reflexivity|]. split; assumption.
      * intros [k [ds [E [K [N D]]]]]. apply app_inv_head in E. destruct K as [->| ->]; [|discriminate E].
        apply app_inv_head in E. subst d. split; assumption.
    + destruct (strip_prefix (txt "ptp") r) as [d|] eqn:Q2.
      * apply strip_prefix_some in Q2. subst r. rewrite digits_iff. split.
        -- intros [H1 H2]. exists (txt "ptp"), d. split; [reflexivity|]. split; [right; reflexivity|]. split; assumption.
        -- intros [k [ds [E [K [N D]]]]]. apply app_inv_head in E. destruct K as [->| ->]; [discriminate E|].
           apply app_inv_head in E. subst d. split; assumption.
      * split; [discriminate|]. intros [k [ds [E [K [N D]]]]]. apply app_inv_head in E. exfalso.
        destruct K as [->| ->]; apply strip_prefix_some in E; congruence.
  - split; [discriminate|]. intros [k [ds [E _]]]. exfalso. apply strip_prefix_some in E. congruence.
Qed.

Lemma permitted_false : forall p, permitted p = false <-> ~ device p.
Proof. intros p. rewrite <- permitted_iff. destruct (permitted p); split; congruence. Qed.

Lemma cstr_some : forall b p, cstr b = Some p <-> holds b p.
Proof.
  induction b as [|c b IH]; intros p; cbn [cstr].
  - split; [discriminate|]. intros [r [E _]]. destruct p; discriminate E.
  - destruct (c =? 0) eqn:C.
    + apply Z.eqb_eq in C. subst c. split.
      * intros H. injection H as <-. exists b. split; [reflexivity|intros []].
      * intros [r [E N]]. destruct p as [|x p]; [reflexivity|]. injection E as <- _. exfalso. apply N. left. reflexivity.
    + destruct (cstr b) as [q|] eqn:B; cbn [option_map].
      * split.
        -- intros H. injection H as <-. destruct (proj1 (IH q) eq_refl) as [r [E N]]. exists r. split; [cbn; congruence|].
           intros [X|X]; [lia|exact (N X)].
        -- intros [r [E N]]. destruct p as [|x p]; injection E as E1 E2; [lia|]. subst x.
           assert (X : holds b p) by (exists r; split; [exact E2|intros Y; apply N; right; exact Y]).
           apply IH in X. congruence.
      * split; [discriminate|]. intros [r [E N]]. destruct p as [|x p]; injection E as E1 E2; [lia|].
        assert (X : holds b p) by (exists r; split; [exact E2|intros Y; apply N; right; exact Y]).
        apply IH in X. discriminate X.
Qed.

Lemma cstr_none_iff : forall b, cstr b = None <-> ~ In 0 b.
Proof.
  induction b as [|c b IH]; cbn [cstr]; [split; [intros _ []|reflexivity]|].
  destruct (c =? 0) eqn:C.
  - split; [discriminate|]. intros H. exfalso. apply H. left. lia.
  - destruct (cstr b); cbn [option_map].
    + split; [discriminate|]. intros H. assert (X : ~ In 0 b) by (intros X; apply H; right; exact X). apply IH in X. discriminate X.
    + split; [|reflexivity]. intros _ [X|X]; [lia|]. apply IH in X; [exact X|reflexivity].
Qed.

Lemma to_buf_holds : forall p, (List.length p < PATH_MAX)%nat -> ~ In 0 p -> holds (to_buf p) p.
Proof.
  intros p L N. unfold to_buf. destruct (PATH_MAX - List.length p)%nat as [|k] eqn:E; [lia|].
  exists (repeat 0 k). split; [reflexivity|exact N].
Qed.

Lemma serve_kind : forall cl o r a fd acts fds run, serve cl o r = (a, fd, acts, fds, run) ->
  r_kind a = kind_of r /\ (run = false <-> r = Close).
Proof.
  intros cl o r a fd acts fds run H. unfold serve in H.
  destruct r as [| | |buf|op|n]; try (injection H as <- <- <- <- <-; split; [reflexivity|]; split; congruence).
  - destruct (helper_connect cl SERVER_PATH (o_sock o) (o_fail o)) as [[[rc sock] st] op].
    injection H as <- <- <- <- <-. split; [reflexivity|]. split; congruence.
  - destruct (path_of buf) as [p|]; [|injection H as <- <- <- <- <-; split; [reflexivity|]; split; congruence].
    destruct (negb (permitted p)); [injection H as <- <- <- <- <-; split; [reflexivity|]; split; congruence|].
    destruct (o_open o p); injection H as <- <- <- <- <-; (split; [reflexivity|]; split; congruence).
Qed.

Lemma serve_opened : forall cl o r a fd acts fds run p, serve cl o r = (a, fd, acts, fds, run) ->
  In (Opened p) acts -> device p.
Proof.
  intros cl o r a fd acts fds run p H I. unfold serve in H.
  destruct r as [| | |buf|op|n]; try (injection H as <- <- <- <- <-; solve [destruct I]).
  - destruct (helper_connect cl SERVER_PATH (o_sock o) (o_fail o)) as [[[rc sock] st] op].
    injection H as <- <- <- <- <-. destruct I as [I|[]]. discriminate I.
  - destruct (path_of buf) as [q|]; [|injection H as <- <- <- <- <-; destruct I].
    destruct (permitted q) eqn:P; cbn [negb] in H; [|injection H as <- <- <- <- <-; destruct I].
    apply permitted_iff in P.
    destruct (o_open o q); injection H as <- <- <- <- <-; destruct I as [I|[]]; injection I as <-; exact P.
  - injection H as <- <- <- <- <-. destruct I as [I|[]]. discriminate I.
Qed.

Lemma helper_connect_open : forall cl sv sock fail rc s st op, helper_connect cl sv sock fail = (rc, s, st, op) ->
  fail 6%nat <> Some EINPROGRESS -> (op = true <-> rc = 0 /\ s = sock /\ op = true).
Proof.
  intros cl sv sock fail rc s st op H N. unfold helper_connect in H.
  destruct (SUN_PATH <=? List.length cl)%nat; [injection H as <- <- <- <-; split; [discriminate|tauto]|].
  destruct (SUN_PATH <=? List.length sv)%nat; [injection H as <- <- <- <-; split; [discriminate|tauto]|].
  destruct (first_failure fail 0 6) as [[n e]|]; [injection H as <- <- <- <-; split; [discriminate|tauto]|].
  destruct (fail 6%nat) as [e|].
  - destruct (e =? EINPROGRESS) eqn:E; [apply Z.eqb_eq in E; congruence|].
    injection H as <- <- <- <-. split; [discriminate|tauto].
  - injection H as <- <- <- <-. split; auto.
Qed.

Lemma serve_closed : forall cl o r a fd acts fds run, serve cl o r = (a, fd, acts, fds, run) ->
  o_sock o >= 0 -> o_fail o 6%nat <> Some EINPROGRESS -> fds = [].
Proof.
  intros cl o r a fd acts fds run H P N. unfold serve in H.
  destruct r as [| | |buf|op|n]; try (injection H as <- <- <- <- <-; reflexivity).
  - destruct (helper_connect cl SERVER_PATH (o_sock o) (o_fail o)) as [[[rc sock] st] op] eqn:C.
    pose proof (helper_connect_open _ _ _ _ _ _ _ _ C N) as [K _].
    injection H as <- <- <- <- <-. destruct op; [|reflexivity]. destruct (K eq_refl) as [-> [-> _]]. cbn.
    destruct (o_sock o =? -1) eqn:E; [lia|reflexivity].
  - destruct (path_of buf) as [p|]; [|injection H as <- <- <- <- <-; reflexivity].
    destruct (negb (permitted p)); [injection H as <- <- <- <- <-; reflexivity|].
    destruct (o_open o p); injection H as <- <- <- <- <-; reflexivity.
Qed.

(** ** Threads *)

Definition answer (cl : list Z) (o : os) (r : req) : resp := fst (fst (fst (fst (serve cl o r)))).

Definition crit (p : pc) : bool := match p with Holding _ | Waiting _ | Got _ _ => true | _ => false end.
Definition waiting (p : pc) : bool := match p with Waiting _ => true | _ => false end.

Definition queue_ok (cl : list Z) (s : sys) : Prop :=
  (exists t r, y_pc s t = Waiting r /\ y_fd s = true /\
     ((y_req s = [r] /\ y_resp s = []) \/ (y_req s = [] /\ exists o, y_resp s = [(r, answer cl o r)]))) \/
  ((forall t, waiting (y_pc s t) = false) /\ (y_fd s = true -> y_req s = [] /\ y_resp s = [])).

Definition own (cl : list Z) (p : pc) : Prop :=
  match p with
  | Got r a | Returned r (Some a) => exists o, a = (r, answer cl o r)
  | _ => True
  end.

Definition inv (cl : list Z) (s : sys) : Prop :=
  (forall t, crit (y_pc s t) = true -> y_lock s = Some t) /\
  queue_ok cl s /\ (forall t, own cl (y_pc s t)).

Lemma upd_same : forall f t p, upd f t p t = p.
Proof. intros. unfold upd. rewrite Nat.eqb_refl. reflexivity. Qed.
Lemma upd_other : forall f t p x, x <> t -> upd f t p x = f x.
Proof. intros. unfold upd. destruct (Nat.eqb x t) eqn:E; [apply Nat.eqb_eq in E; congruence|reflexivity]. Qed.

Lemma inv_started : forall cl, inv cl started.
Proof.
  intros cl. split; [intros t H; discriminate H|]. split; [|intros t; exact I].
  right. split; [reflexivity|intros _; split; reflexivity].
Qed.

Lemma inv_step : forall cl e s s', step cl e s s' -> inv cl s -> inv cl s'.
Proof.
  intros cl e s s' H [A [B C]]. destruct H; cbn [y_fd y_lock y_req y_resp y_pc] in *; unfold queue_ok in B; cbn [y_fd y_lock y_req y_resp y_pc] in B.
  - (* call *) split; [|split].
    + intros x X. cbn [y_pc y_lock] in *. destruct (Nat.eq_dec x t) as [->|N]; [rewrite upd_same in X; destruct fd; discriminate X|].
      rewrite upd_other in X by exact N. apply A, X.
    + unfold queue_ok; cbn [y_fd y_lock y_req y_resp y_pc]. destruct B as [[u [q' [B1 B2]]]|[B1 B2]].
      * left. exists u, q'. rewrite upd_other; [split; assumption|]. intros ->. congruence.
      * right. split; [|exact B2]. intros x. destruct (Nat.eq_dec x t) as [->|N]; [rewrite upd_same; destruct fd; reflexivity|].
        rewrite upd_other by exact N. apply B1.
    + intros x. cbn [y_pc]. destruct (Nat.eq_dec x t) as [->|N]; [rewrite upd_same; destruct fd; exact I|].
      rewrite upd_other by exact N. apply C.
  - (* lock *) split; [|split].
    + intros x X. cbn [y_pc y_lock] in *. destruct (Nat.eq_dec x t) as [->|N]; [reflexivity|].
      rewrite upd_other in X by exact N. apply A in X. discriminate X.
    + unfold queue_ok; cbn [y_fd y_lock y_req y_resp y_pc]. destruct B as [[u [q' [B1 B2]]]|[B1 B2]].
      * left. exists u, q'. rewrite upd_other; [split; assumption|]. intros ->. congruence.
      * right. split; [|exact B2]. intros x. destruct (Nat.eq_dec x t) as [->|N]; [rewrite upd_same; reflexivity|].
        rewrite upd_other by exact N. apply B1.
    + intros x. cbn [y_pc]. destruct (Nat.eq_dec x t) as [->|N]; [rewrite upd_same; exact I|].
      rewrite upd_other by exact N. apply C.
  - (* send *) assert (LK : lk = Some t) by (apply A; rewrite H; reflexivity).
    assert (NW : (forall t, waiting (f t) = false)).
    { intros x. destruct (f x) eqn:E; try reflexivity. exfalso.
      assert (X : lk = Some x) by (apply A; rewrite E; reflexivity). assert (x = t) by congruence. subst x. congruence. }
    assert (Q : q = [] /\ p = []).
    { destruct B as [[u [q' [B1 B2]]]|[B1 B2]]; [specialize (NW u); rewrite B1 in NW; discriminate NW|apply B2; reflexivity]. }
    destruct Q as [-> ->]. split; [|split].
    + intros x X. cbn [y_pc y_lock] in *. destruct (Nat.eq_dec x t) as [->|N]; [exact LK|].
      rewrite upd_other in X by exact N. apply A, X.
    + left. exists t, r. cbn [y_fd y_lock y_req y_resp y_pc]. rewrite upd_same. split; [reflexivity|]. split; [reflexivity|]. left. split; reflexivity.
    + intros x. cbn [y_pc]. destruct (Nat.eq_dec x t) as [->|N]; [rewrite upd_same; exact I|].
      rewrite upd_other by exact N. apply C.
  - (* send fails *) assert (LK : lk = Some t) by (apply A; rewrite H; reflexivity).
    split; [|split].
    + intros x X. cbn [y_pc y_lock] in *. destruct (Nat.eq_dec x t) as [->|N]; [exact LK|].
      rewrite upd_other in X by exact N. apply A, X.
    + right. cbn [y_fd y_lock y_req y_resp y_pc]. split; [|discriminate].
      intros x. destruct (Nat.eq_dec x t) as [->|N]; [rewrite upd_same; reflexivity|].
      rewrite upd_other by exact N. destruct (f x) eqn:E; try reflexivity. exfalso.
      assert (X : lk = Some x) by (apply A; rewrite E; reflexivity). congruence.
    + intros x. cbn [y_pc]. destruct (Nat.eq_dec x t) as [->|N]; [rewrite upd_same; exact I|].
      rewrite upd_other by exact N. apply C.
  - (* answer *) split; [exact A|]. split; [|exact C].
    unfold queue_ok; cbn [y_fd y_lock y_req y_resp y_pc]. destruct B as [[u [q' [B1 [B2 B3]]]]|[B1 B2]].
    + left. exists u, q'. split; [exact B1|]. split; [exact B2|]. destruct B3 as [[B3 B4]|[B3 _]]; [|discriminate B3].
      injection B3 as -> ->. subst p. right. split; [reflexivity|]. exists o. reflexivity.
    + right. split; [exact B1|]. intros K. destruct (B2 K) as [K1 _]. discriminate K1.
  - (* recv *) assert (LK : lk = Some t) by (apply A; rewrite H; reflexivity).
    destruct B as [[u [q' [B1 [B2 B3]]]]|[B1 B2]]; [|specialize (B1 t); rewrite H in B1; discriminate B1].
    assert (U : lk = Some u) by (apply A; rewrite B1; reflexivity). assert (u = t) by congruence. subst u.
    rewrite H in B1. injection B1 as <-.
    destruct B3 as [[_ B3]|[-> [o B3]]]; [discriminate B3|]. injection B3 as -> ->.
    split; [|split].
    + intros x X. cbn [y_pc y_lock] in *. destruct (Nat.eq_dec x t) as [->|N]; [exact LK|].
      rewrite upd_other in X by exact N. apply A, X.
    + right. cbn [y_fd y_lock y_req y_resp y_pc]. split; [|intros _; split; reflexivity].
      intros x. destruct (Nat.eq_dec x t) as [->|N]; [rewrite upd_same; reflexivity|].
      rewrite upd_other by exact N. destruct (f x) eqn:E; try reflexivity. exfalso.
      assert (X : lk = Some x) by (apply A; rewrite E; reflexivity). congruence.
    + intros x. cbn [y_pc]. destruct (Nat.eq_dec x t) as [->|N]; [rewrite upd_same; exists o; reflexivity|].
      rewrite upd_other by exact N. apply C.
  - (* unlock *) assert (LK : lk = Some t) by (apply A; rewrite H; reflexivity).
    split; [|split].
    + intros x X. cbn [y_pc y_lock] in *. destruct (Nat.eq_dec x t) as [->|N]; [rewrite upd_same in X; discriminate X|].
      rewrite upd_other in X by exact N. apply A in X. congruence.
    + unfold queue_ok; cbn [y_fd y_lock y_req y_resp y_pc]. destruct B as [[u [q' [B1 B2]]]|[B1 B2]].
      * exfalso. assert (U : lk = Some u) by (apply A; rewrite B1; reflexivity). assert (u = t) by congruence. congruence.
      * right. split; [|exact B2]. intros x. destruct (Nat.eq_dec x t) as [->|N]; [rewrite upd_same; reflexivity|].
        rewrite upd_other by exact N. apply B1.
    + intros x. cbn [y_pc]. destruct (Nat.eq_dec x t) as [->|N]; [rewrite upd_same; specialize (C t); rewrite H in C; exact C|].
      rewrite upd_other by exact N. apply C.
  - (* recv fails *) assert (LK : lk = Some t) by (apply A; rewrite H; reflexivity).
    split; [|split].
    + intros x X. cbn [y_pc y_lock] in *. destruct (Nat.eq_dec x t) as [->|N]; [rewrite upd_same in X; discriminate X|].
      rewrite upd_other in X by exact N. apply A in X. congruence.
    + right. cbn [y_fd y_lock y_req y_resp y_pc]. split; [|discriminate].
      intros x. destruct (Nat.eq_dec x t) as [->|N]; [rewrite upd_same; reflexivity|].
      rewrite upd_other by exact N. destruct (f x) eqn:E; try reflexivity. exfalso.
      assert (X : lk = Some x) by (apply A; rewrite E; reflexivity). congruence.
    + intros x. cbn [y_pc]. destruct (Nat.eq_dec x t) as [->|N]; [rewrite upd_same; exact I|].
      rewrite upd_other by exact N. apply C.
  - (* again *) split; [|split].
    + intros x X. cbn [y_pc y_lock] in *. destruct (Nat.eq_dec x t) as [->|N]; [rewrite upd_same in X; discriminate X|].
      rewrite upd_other in X by exact N. apply A, X.
    + unfold queue_ok; cbn [y_fd y_lock y_req y_resp y_pc]. destruct B as [[u [q' [B1 B2]]]|[B1 B2]].
      * left. exists u, q'. rewrite upd_other; [split; assumption|]. intros ->. congruence.
      * right. split; [|exact B2]. intros x. destruct (Nat.eq_dec x t) as [->|N]; [rewrite upd_same; reflexivity|].
        rewrite upd_other by exact N. apply B1.
    + intros x. cbn [y_pc]. destruct (Nat.eq_dec x t) as [->|N]; [rewrite upd_same; exact I|].
      rewrite upd_other by exact N. apply C.
Qed.

Lemma inv_runs : forall cl es s s', runs cl es s s' -> inv cl s -> inv cl s'.
Proof. induction 1 as [|e es s s1 s2 H R IH]; intros I; [exact I|]. apply IH, (inv_step cl e s s1 H I). Qed.

(** Without failures the connection stays and the lock is held only by a thread inside. *)
Definition healthy (s : sys) : Prop :=
  y_fd s = true /\ (forall t, y_lock s = Some t -> crit (y_pc s t) = true).

Lemma healthy_step : forall cl s s', step cl EOk s s' -> inv cl s -> healthy s -> healthy s'.
Proof.
  intros cl s s' H [A _] [F L]. inversion H; subst; cbn [y_fd y_lock y_req y_resp y_pc] in *; split; cbn [y_fd y_lock y_pc]; auto;
    try discriminate; intros x X.
  - destruct (Nat.eq_dec x t) as [->|N]; [apply L in X; rewrite H0 in X; discriminate X|]. rewrite upd_other by exact N. apply L, X.
  - injection X as <-. rewrite upd_same. reflexivity.
  - destruct (Nat.eq_dec x t) as [->|N]; [rewrite upd_same; reflexivity|]. rewrite upd_other by exact N. apply L, X.
  - destruct (Nat.eq_dec x t) as [->|N]; [rewrite upd_same; reflexivity|]. rewrite upd_other by exact N. apply L, X.
  - destruct (Nat.eq_dec x t) as [->|N]; [apply L in X; rewrite H0 in X; discriminate X|]. rewrite upd_other by exact N. apply L, X.
Qed.

Lemma healthy_runs : forall cl es s s', runs cl es s s' -> inv cl s -> healthy s ->
  (forall e, In e es -> e = EOk) -> healthy s'.
Proof.
  induction 1 as [|e es s s1 s2 H R IH]; intros I G E; [exact G|].
  assert (e = EOk) by (apply E; left; reflexivity). subst e.
  apply IH; [apply (inv_step cl EOk s s1 H I)|apply (healthy_step cl s s1 H I G)|]. intros x X. apply E. right. exact X.
Qed.

Lemma runs_app : forall cl a b s s1 s2, runs cl a s s1 -> runs cl b s1 s2 -> runs cl (a ++ b) s s2.
Proof. induction 1 as [|e es s s1' s2' H R IH]; intros Q; [exact Q|]. econstructor; [exact H|apply IH, Q]. Qed.

(** A thread inside can get out without disturbing another that is about to enter. *)
Definition inside (p : pc) : option req :=
  match p with Holding r | Waiting r | Got r _ => Some r | _ => None end.

Lemma crit_inside : forall p, crit p = true -> exists r, inside p = Some r.
Proof. intros p H. destruct p; try discriminate H; eexists; reflexivity. Qed.

Lemma finish : forall cl (o : os) s t r0, inv cl s -> healthy s -> inside (y_pc s t) = Some r0 ->
  exists es s', runs cl es s s' /\ (forall e, In e es -> e = EOk) /\ y_lock s' = None /\
    (exists a, y_pc s' t = Returned r0 (Some a)) /\ (forall x, x <> t -> y_pc s' x = y_pc s x).
Proof.
  intros cl o s t r0 I0 G C. destruct s as [fd lk q p f]. cbn [y_pc] in *.
  assert (F : fd = true) by (destruct G as [G _]; exact G). subst fd.
  assert (ST : forall r a q p f, f t = Got r a ->
    exists s', step cl EOk (mkSys true lk q p f) s' /\ y_lock s' = None /\ y_pc s' t = Returned r (Some a) /\
               forall x, x <> t -> y_pc s' x = f x).
  { intros r a q0 p0 f0 E. eexists. split; [eapply (st_unlock cl t r a true lk q0 p0 f0), E|]. cbn. split; [reflexivity|].
    split; [apply upd_same|intros; apply upd_other; assumption]. }
  assert (SW : forall r q p f, r = r0 -> f t = Waiting r -> ((q = [r] /\ p = []) \/ (q = [] /\ exists o', p = [(r, answer cl o' r)])) ->
    exists es s', runs cl es (mkSys true lk q p f) s' /\ (forall e, In e es -> e = EOk) /\ y_lock s' = None /\
      (exists a, y_pc s' t = Returned r0 (Some a)) /\ (forall x, x <> t -> y_pc s' x = f x)).
  { intros r q0 p0 f0 -> E Q. set (r := r0) in *.
    assert (SR : forall a f0, f0 t = Waiting r -> exists es s', runs cl es (mkSys true lk [] [a] f0) s' /\ (forall e, In e es -> e = EOk) /\ y_lock s' = None /\
      (exists a, y_pc s' t = Returned r0 (Some a)) /\ (forall x, x <> t -> y_pc s' x = f0 x)).
    { intros a f1 E1. destruct (ST r a [] [] (upd f1 t (Got r a))) as [s' [S1 [S2 [S3 S4]]]]; [apply upd_same|].
      exists [EOk; EOk], s'. split.
      { econstructor; [eapply (st_recv cl t r a true lk [] [] f1 E1)|]. econstructor; [exact S1|constructor]. }
      split; [intros e [X|[X|[]]]; congruence|]. split; [exact S2|]. split; [exists a; exact S3|].
      intros x N. rewrite S4 by exact N. apply upd_other, N. }
    destruct Q as [[-> ->]|[-> [o' ->]]].
    - destruct (SR (r, answer cl o r) f0 E) as [es [s' [R1 [R2 R3]]]].
      exists (EOk :: es), s'. split; [econstructor; [apply (st_answer cl r true lk [] [] f0 o)|exact R1]|].
      split; [intros e [X|X]; [congruence|apply R2, X]|exact R3].
    - apply SR, E. }
  destruct I0 as [A [B _]]. destruct (f t) as [| |r|r|r a|] eqn:E; try discriminate C; injection C as ->; rename r0 into r.
  - (* holding *)
    assert (NW : forall x, waiting (f x) = false).
    { intros x. destruct (f x) eqn:X; try reflexivity. exfalso.
      assert (K1 : lk = Some x) by (apply A; cbn; rewrite X; reflexivity). assert (K2 : lk = Some t) by (apply A; cbn; rewrite E; reflexivity).
      assert (x = t) by congruence. subst x. congruence. }
    destruct B as [[u [r' [B1 _]]]|[_ B2]]; [cbn in B1; specialize (NW u); rewrite B1 in NW; discriminate NW|].
    cbn in B2. destruct (B2 eq_refl) as [-> ->].
    destruct (SW r [r] [] (upd f t (Waiting r)) eq_refl) as [es [s' [R1 [R2 [R3 [R4 R5]]]]]]; [apply upd_same|left; split; reflexivity|].
    exists (EOk :: es), s'. split; [econstructor; [apply (st_send cl t r lk [] [] f E)|exact R1]|].
    split; [intros e [X|X]; [congruence|apply R2, X]|]. split; [exact R3|]. split; [exact R4|].
    intros x N. rewrite R5 by exact N. apply upd_other, N.
  - (* waiting *)
    destruct B as [[u [r' [B1 [_ B3]]]]|[B1 _]]; cbn [y_pc y_req y_resp] in *; [|specialize (B1 t); rewrite E in B1; discriminate B1].
    assert (K1 : lk = Some u) by (apply A; cbn; rewrite B1; reflexivity). assert (K2 : lk = Some t) by (apply A; cbn; rewrite E; reflexivity).
    assert (u = t) by congruence. subst u. assert (r' = r) by congruence. subst r'. apply (SW r q p f eq_refl E B3).
  - (* got *)
    destruct (ST r a q p f E) as [s' [S1 [S2 [S3 S4]]]]. exists [EOk], s'.
    split; [econstructor; [exact S1|constructor]|]. split; [intros e [X|[]]; congruence|].
    split; [exact S2|]. split; [exists a; exact S3|exact S4].
Qed.
