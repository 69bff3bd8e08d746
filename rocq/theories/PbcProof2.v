(** Proofs about changes of links, continued: the whole change, timestamping. *)
Require Import ZArith List Bool Lia Arith.
Require Import Verif.Base Verif.ListLib Verif.PtiSpec Verif.PtiModel Verif.PtiProof Verif.PtiProof2 Verif.PtiProof3 Verif.PbcSpec Verif.PbcModel Verif.PbcProof.
Import ListNotations.
Open Scope Z_scope.

Definition same_but_alarm (a : bool) (x y : st) : Prop := y = mkI (i_bond x) (i_ts x) (i_bp x) (map (with_alarm a) (i_ports x)).
Lemma handle_cases : forall w net en t x rc ch e y, handle w net en t x = Some (rc, ch, e, y) ->
  (ch = false /\ e = [] /\ same_but_alarm true x y /\
     (link_by_name t (b_bond (i_bond x)) = None /\ rc = 0 \/ link_by_name t (b_bond (i_bond x)) <> None /\ rc <> 0)) \/
  exists l prc nb nts, link_by_name t (b_bond (i_bond x)) = Some l /\ probe w t l (i_bond x) = Some (prc, nb) /\ (prc = 0 \/ prc = ENOENT \/ prc = ENODEV) /\
    determine w (map pt_pref (i_ports x)) (b_active nb) = (0, nts) /\
    let tsch := negb (eqts nts (i_ts x)) in
    let o := each w net (i_bond x) nts tsch 0 (i_ports x) (i_ts x) 0 in
    rc = (if lp_rc o =? ENOENT then 0 else lp_rc o) /\ ch = lp_changed o /\
    e = lp_effs o ++ (if set_changed nb (i_bond x) || lp_active o || tsch then reconfigure w en (lp_ts o) nts (i_bond x) nb else []) /\
    y = mkI nb (lp_ts o) (if lp_changed o then Dead else i_bp x) (map (with_alarm (negb ((lp_rc o =? 0) && negb (b_num nb =? 0)%nat))) (lp_ports o)).
Proof.
  intros w net en t x rc ch e y H. unfold handle in H. destruct (link_by_name t (b_bond (i_bond x))) as [l|] eqn:L.
  - destruct (probe w t l (i_bond x)) as [[prc nb]|] eqn:P; [|discriminate]. cbn [bind] in H.
    destruct (negb (prc =? 0) && negb (prc =? ENOENT) && negb (prc =? ENODEV)) eqn:E.
    + injection H as <- <- <- <-. left. repeat split. right. split; discriminate.
    + destruct (determine w (map pt_pref (i_ports x)) (b_active nb)) as [rc2 nts] eqn:D. destruct (rc2 =? 0) eqn:Z0; cbn [negb] in H.
      * apply Z.eqb_eq in Z0. subst rc2. injection H as <- <- <- <-. right. exists l, prc, nb, nts. split; [reflexivity|]. split; [exact P|]. split; [|split; [exact D|]].
        -- destruct (Z.eqb_spec prc 0); [auto|]. destruct (Z.eqb_spec prc ENOENT); [auto|]. destruct (Z.eqb_spec prc ENODEV); [auto|discriminate].
        -- cbv zeta. repeat split.
      * injection H as <- <- <- <-. left. split; [reflexivity|]. split; [reflexivity|]. split.
        -- unfold same_but_alarm, finish. cbn [andb negb]. rewrite Z0. reflexivity.
        -- right. split; [discriminate|]. apply Z.eqb_neq in Z0.
           assert (R : rc2 = EINVAL \/ rc2 = ENOTSUP \/ rc2 = 0).
           { unfold determine in D. destruct (existsb _ _ && existsb _ _); [injection D as <- _; auto|]. destruct (existsb _ _ && _); [injection D as <- _; auto|]. destruct (existsb _ _ && _); injection D as <- _; auto. }
           destruct R as [-> |[-> |R]]; [discriminate|discriminate|congruence].
  - injection H as <- <- <- <-. left. repeat split. left. auto.
Qed.
Lemma alarm_ports : forall a ps, Forall2 (fun p q => pt_phys q = pt_phys p /\ pt_clock q = pt_clock p /\ pt_last q = pt_last p /\ pt_pref q = pt_pref p /\ pt_alarm q = a) ps (map (with_alarm a) ps).
Proof. induction ps as [|p ps IH]; constructor; [unfold with_alarm; cbn; auto|exact IH]. Qed.
Lemma nth_map : forall (f : port -> port) l k, nth_error (map f l) k = option_map f (nth_error l k).
Proof. intros f l k. apply nth_error_map. Qed.
Lemma Forall2_nth : forall A B (R : A -> B -> Prop) a b, Forall2 R a b -> forall k x y, nth_error a k = Some x -> nth_error b k = Some y -> R x y.
Proof. induction 1 as [|x y a b H F IH]; intros [|k] x' y' E1 E2; try discriminate; cbn in *; [congruence|eauto]. Qed.
Lemma Forall2_len : forall A B (R : A -> B -> Prop) a b, Forall2 R a b -> List.length a = List.length b.
Proof. induction 1; cbn; congruence. Qed.

(** ** Timestamping *)
Lemma stamping_app : forall a s b, stamping s (a ++ b) = stamping (stamping s a) b.
Proof. induction a as [|e a IH]; intros s b; [reflexivity|]. destruct e; cbn [app stamping]; apply IH. Qed.
Lemma stamping_ext : forall a s s', (forall i, s i = s' i) -> forall i, stamping s a i = stamping s' a i.
Proof.
  induction a as [|e a IH]; intros s s' H i; [apply H|]. destruct e; cbn [stamping]; apply IH; try exact H; intros j; destruct (_ =? _)%nat; auto.
Qed.
Lemma stamping_none : forall a s, (forall e, In e a -> match e with On _ | Off _ => False | _ => True end) -> stamping s a = s.
Proof.
  induction a as [|e a IH]; intros s H; [reflexivity|]. assert (He := H e (or_introl eq_refl)). assert (Ha : forall e, In e a -> match e with On _ | Off _ => False | _ => True end) by (intros e' I; apply H; right; exact I).
  destruct e; try contradiction; cbn [stamping]; apply IH, Ha.
Qed.
Definition ons (i : nat) (l : list eff) : Prop := In (On i) l. 
Lemma stamping_on : forall a s i, ~ In (Off i) a -> stamping s a i = true <-> s i = true \/ In (On i) a.
Proof.
  induction a as [|e a IH]; intros s i N; [cbn; tauto|]. assert (N' : ~ In (Off i) a) by (intros Q; apply N; right; exact Q).
  destruct e as [|j| |j c|j|j|j]; cbn [stamping In]; rewrite IH by exact N'; try (split; [tauto|intros [H|[H|H]]; [auto|discriminate|auto]]).
  - destruct (i =? j)%nat eqn:E; [apply Nat.eqb_eq in E; subst j; split; [intros _; auto|auto]|]. apply Nat.eqb_neq in E. split; [tauto|intros [H|[H|H]]; [auto|congruence|auto]].
  - destruct (i =? j)%nat eqn:E; [apply Nat.eqb_eq in E; subst j; exfalso; apply N; left; reflexivity|]. split; [tauto|intros [H|[H|H]]; [auto|congruence|auto]].
Qed.
Lemma stamping_off : forall a s i, ~ In (On i) a -> stamping s a i = false <-> s i = false \/ In (Off i) a.
Proof.
  induction a as [|e a IH]; intros s i N; [cbn; tauto|]. assert (N' : ~ In (On i) a) by (intros Q; apply N; right; exact Q).
  destruct e as [|j| |j c|j|j|j]; cbn [stamping In]; rewrite IH by exact N'; try (split; [tauto|intros [H|[H|H]]; [auto|discriminate|auto]]).
  - destruct (i =? j)%nat eqn:E; [apply Nat.eqb_eq in E; subst j; exfalso; apply N; left; reflexivity|]. split; [tauto|intros [H|[H|H]]; [auto|congruence|auto]].
  - destruct (i =? j)%nat eqn:E; [apply Nat.eqb_eq in E; subst j; split; [intros _; auto|auto]|]. apply Nat.eqb_neq in E. split; [tauto|intros [H|[H|H]]; [auto|congruence|auto]].
Qed.
Lemma has_existsb : forall i l, existsb (fun q => eqo (Some i) (p_intf q)) l = true <-> has l i.
Proof.
  intros i l. rewrite existsb_exists. unfold has. split; intros (p & I & E); exists p; (split; [exact I|]); [symmetry; apply eqo_iff, E|apply eqo_iff; congruence].
Qed.
Section Re.
Variables (w : world) (en : nat -> bool) (ts nts : tstype) (old new : binfo).
Lemma reconf_off : forall i, (forall j, en j = true) -> In (Off i) (reconfigure w en ts nts old new) <-> has (set_of old) i /\ ~ has (set_of new) i /\ w_deleted w i = false /\ ts = Hw /\ w_ptp w i = true.
Proof.
  intros i En. unfold reconfigure. rewrite in_app_iff, !in_flat_map. split.
  - intros [(p & I & H)|(p & I & H)].
    + destruct (p_intf p) as [j|] eqn:P; [|destruct H]. destruct (existsb _ (set_of new)) eqn:X; [destruct H|]. destruct (w_deleted w j) eqn:Dl; [destruct H|].
      unfold is_hw in H. destruct ts; [destruct H|]. destruct (w_ptp w j) eqn:Pt; [|destruct H]. destruct H as [H|[]]. injection H as <-.
      split; [exists p; auto|]. split; [|auto]. intros Q. apply has_existsb in Q. congruence.
    + destruct (p_intf p) as [j|]; [|destruct H]. destruct (is_hw _ _ _); [|destruct H]. unfold configure in H. rewrite En in H. destruct H as [H|[]]. discriminate.
  - intros ((p & I & P) & N & Dl & -> & Pt). left. exists p. split; [exact I|]. rewrite P. destruct (existsb _ (set_of new)) eqn:X; [apply has_existsb in X; contradiction|]. rewrite Dl. cbn [is_hw]. rewrite Pt. left. reflexivity.
Qed.
Lemma reconf_on : forall i, In (On i) (reconfigure w en ts nts old new) <-> has (set_of new) i /\ w_ptp w i = true /\ en i = true /\ (if eqo (Some i) (b_active new) then nts else ts) = Hw.
Proof.
  intros i. unfold reconfigure. rewrite in_app_iff, !in_flat_map. split.
  - intros [(p & I & H)|(p & I & H)].
    + destruct (p_intf p) as [j|]; [|destruct H]. destruct (existsb _ _); [destruct H|]. destruct (w_deleted w j); [destruct H|]. destruct (is_hw _ _ _); [|destruct H]. destruct H as [H|[]]. discriminate.
    + destruct (p_intf p) as [j|] eqn:P; [|destruct H]. destruct (is_hw w (if eqo (Some j) (b_active new) then nts else ts) j) eqn:X; [|destruct H]. unfold configure in H. destruct (en j) eqn:En; [|destruct H as [H|[]]; discriminate].
      destruct H as [H|[]]. injection H as <-. unfold is_hw in X. destruct (if eqo (Some j) (b_active new) then nts else ts) eqn:T; [discriminate|]. split; [exists p; auto|]. auto.
  - intros ((p & I & P) & Pt & En & T). right. exists p. split; [exact I|]. rewrite P, T. cbn [is_hw]. rewrite Pt. unfold configure. rewrite En. left. reflexivity.
Qed.
End Re.
Lemma reconf_same : forall w en ts old new i, In (On i) (reconfigure w en ts ts old new) <-> has (set_of new) i /\ w_ptp w i = true /\ en i = true /\ ts = Hw.
Proof. intros. rewrite reconf_on. destruct (eqo _ _); tauto. Qed.

(** The kinds of timestamps are those of the ports: all the same. *)
Definition lit (w : world) (s : nat -> bool) (x : st) : Prop := i_ts x = Hw -> forall i, has (set_of (i_bond x)) i -> w_ptp w i = true -> s i = true.
Lemma handle_lit : forall w net en t x rc ch e y s, i_ports x <> [] -> (forall j, en j = true) -> handle w net en t x = Some (rc, ch, e, y) -> lit w s x ->
  lit w (stamping s e) y /\ i_ports y <> [].
Proof.
  intros w net en t x rc ch e y s NP En H L. destruct (handle_cases _ _ _ _ _ _ _ _ _ H) as [(-> & -> & -> & _)|(l & prc & nb & nts & _ & _ & _ & _ & C)].
  - split; [exact L|]. cbn [i_ports]. destruct (i_ports x); [congruence|discriminate].
  - cbv zeta in C. set (o := each _ _ _ _ _ _ _ _ _) in C. assert (T : lp_ts o = nts) by (unfold o; rewrite each_ts; destruct (i_ports x); [congruence|reflexivity]).
    assert (PL : lp_ports o <> []). { pose proof (Forall2_len _ _ _ _ _ (each_ports w net (i_bond x) nts (negb (eqts nts (i_ts x))) (i_ports x) 0 (i_ts x) 0)) as X. fold o in X. destruct (lp_ports o); [destruct (i_ports x); [congruence|discriminate]|discriminate]. }
    destruct C as (_ & _ & -> & ->). split; [|cbn [i_ports]; destruct (lp_ports o); [congruence|discriminate]].
    intros Hw_ i Hi Pt. cbn [i_ts i_bond] in *. rewrite stamping_app. rewrite (stamping_none (lp_effs o)).
    2: { intros e' I'. apply each_effs in I'. destruct e'; auto. }
    destruct (set_changed nb (i_bond x) || lp_active o || negb (eqts nts (i_ts x))) eqn:X.
    + rewrite T. apply stamping_on; [|right; apply reconf_same; rewrite T in Hw_; auto]. rewrite reconf_off by exact En. intros (_ & N & _). contradiction.
    + cbn [stamping]. apply orb_false_iff in X as [X X3]. apply orb_false_iff in X as [X1 X2]. apply set_changed_false in X1 as [_ X1]. apply negb_false_iff, eqts_iff in X3.
      apply L; [congruence|rewrite <- X1; exact Hi|exact Pt].
Qed.
Lemma run_lit : forall en h w x s e y, i_ports x <> [] -> (forall j, en j = true) -> (forall v, In v h -> w_ptp (v_w v) = w_ptp w) -> run en h x = Some (e, y) -> lit w s x -> lit w (stamping s e) y.
Proof.
  induction h as [|v h IH]; intros w x s e y NP En Sm R L; [injection R as <- <-; exact L|]. cbn [run] in R.
  destruct (handle (v_w v) (v_net v) en (v_table v) x) as [[[[rc ch] e1] y1]|] eqn:H; [|discriminate]. cbn [bind] in R. destruct (run en h y1) as [[e2 y2]|] eqn:R2; [|discriminate]. cbn [bind fst snd] in R. injection R as <- <-.
  assert (Q : w_ptp (v_w v) = w_ptp w) by (apply Sm; left; reflexivity).
  destruct (handle_lit _ _ _ _ _ _ _ _ _ s NP En H) as [L1 N1]; [unfold lit in *; rewrite Q; exact L|].
  rewrite stamping_app. apply (IH w y1 (stamping s e1) e2 y2 N1 En); [intros v' I; apply Sm; right; exact I|exact R2|]. unfold lit in *. rewrite Q in L1. exact L1.
Qed.
Lemma Forall2_impl : forall A B (R R' : A -> B -> Prop) a b, (forall x y, R x y -> R' x y) -> Forall2 R a b -> Forall2 R' a b.
Proof. intros A B R R' a b H F. induction F; constructor; auto. Qed.
