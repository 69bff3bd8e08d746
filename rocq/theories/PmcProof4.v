(** Proofs for C75: starting the instances. *)
Require Import ZArith List Bool Arith Lia.
From Verif Require Import Base PmcSpec PmcModel PmcProof PmcProof2 PmcProof3.
Import ListNotations.
Open Scope Z_scope.

Lemma first_on_ex l i : (i < List.length l)%nat -> In (first_on l i) (firsts l (List.length l)) /\ same l (first_on l i) i = true.
Proof. intro H. destruct (has_first l (List.length l) i H H) as (j & A & B). rewrite (first_on_spec l i j A B). auto. Qed.
Lemma rep_eq l k ns n m : shape l k ns -> In n ns -> In m ns -> n_rep n = n_rep m -> n = m.
Proof.
  intros S A B E. pose proof (nodup_firsts l k) as ND. rewrite <- (shape_reps _ _ _ S) in ND. apply in_split in A as (x & y & ->). rewrite map_app in ND. cbn in ND. apply NoDup_remove_2 in ND.
  apply in_app_or in B as [B|[B|B]]; [|exact B|]; exfalso; apply ND; rewrite E; apply in_or_app; [left|right]; apply in_map, B.
Qed.
Lemma inst_rep l ns n i : shape l (List.length l) ns -> In n ns -> In i (n_insts n) -> n_rep n = first_on l i.
Proof. intros S A B. destruct (shape_in _ _ _ _ S A) as [F M]. rewrite M in B. apply in_members in B as [_ B]. symmetry. apply first_on_spec; assumption. Qed.
Lemma home_spec l w n i : shape l (List.length l) (w_intfs w) -> In n (w_intfs w) -> In i (n_insts n) -> home i w = Some n.
Proof.
  intros S A B. unfold home. destruct (find _ _) as [m|] eqn:E.
  - apply find_some in E as [E1 E2]. apply mem_In in E2. f_equal. apply (rep_eq l (List.length l) (w_intfs w)); auto. rewrite (inst_rep l _ m i S E1 E2), (inst_rep l _ n i S A B). reflexivity.
  - pose proof (find_none _ _ E n A) as X. cbn in X. apply mem_not in X. contradiction.
Qed.
Lemma shape_put l k w a n b m : shape l k (w_intfs w) -> w_intfs w = a ++ n :: b -> n_rep m = n_rep n -> n_insts m = n_insts n ->
  w_intfs (put m w) = a ++ m :: b /\ shape l k (a ++ m :: b).
Proof.
  intros S E R I. split.
  - apply put_spec with (m := n); [rewrite (shape_reps _ _ _ S); apply nodup_firsts|exact E|exact R].
  - unfold shape in *. rewrite <- S, E, !map_app. cbn. rewrite R, I. reflexivity.
Qed.

Definition okat (w : world) (x : nat) : Prop := forall n, In n (w_intfs w) -> In x (n_insts n) -> n_ok n = true.
Definition st (l : list conf) (e : env) (w : world) : Prop :=
  plain l (List.length l) w /\ w_conf w = conf_at l (List.length l) /\ w_count w = 0 /\
  forall n, In n (w_intfs w) -> n_att n = true -> n_ok n = true /\ e_topo e (n_rep n) = 0.

Lemma plain_put l w a n b m : plain l (List.length l) w -> w_intfs w = a ++ n :: b -> n_rep m = n_rep n -> n_insts m = n_insts n -> n_ctx m = n_ctx n ->
  plain l (List.length l) (put m w).
Proof.
  intros (S & C & P & X & L) E R I K. destruct (shape_put l _ w a n b m S E R I) as [Q1 Q2]. split; [rewrite Q1; exact Q2|]. split; [|cbn; auto].
  rewrite Q1. intros x Hx. apply in_app_or in Hx as [Hx|[<-|Hx]]; [|rewrite K|]; apply C; rewrite E; apply in_or_app; [left|right; left|right; right]; auto.
Qed.
Lemma plain_alarm l k w x : plain l k w -> plain l k (set_alarm w x).
Proof. exact (fun H => H). Qed.
Lemma ts_iff (t s u : Z) : t = 0 -> ((if negb (s =? 0) then s else u) = 0 <-> t = 0 /\ s = 0 /\ u = 0).
Proof. intro T. destruct (Z.eqb_spec s 0); cbn; lia. Qed.

Lemma start_instance_spec l e i w : st l e w -> (i < List.length l)%nat ->
  exists rc w', start_instance e i w = Some (rc, w') /\ plain l (List.length l) w' /\
    (rc = 0 <-> e_topo e (first_on l i) = 0 /\ e_stats e i = 0 /\ e_ts e i = 0) /\
    (rc = 0 -> st l e w' /\ okat w' i /\ w_alarm w' = (if e_phys e (first_on l i) =? 0 then [i] else []) ++ w_alarm w) /\
    (forall x, okat w x -> okat w' x).
Proof.
  intros (P & C & Cn & T) Hi. pose proof P as (S & Cx & Pp & X & L). destruct (first_on_ex l i Hi) as [F1 F2]. set (j := first_on l i) in *.
  destruct (nth_error l i) as [c|] eqn:Ec; [|apply nth_error_None in Ec; lia].
  assert (Ew : nth_error (w_conf w) i = Some (defaults c)). { rewrite C, nth_conf_at, Ec. destruct (Nat.ltb_spec i (List.length l)); [reflexivity|lia]. }
  unfold start_instance. rewrite Ew. cbn [bind].
  destruct (defaults_key c) as (K1 & K2 & _).
  rewrite (find_if_made l (List.length l) w c _ i C (conf_at_key l _) Ec _ (shape_reps _ _ _ S) eq_refl _ K1 K2).
  assert (Ef : find (fun j => same l j i) (firsts l (List.length l)) = Some j).
  { pose proof (find_first l (List.length l) i) as Q. destruct (find _ _) as [x|]; [|rewrite (Q j F1) in F2; discriminate]. destruct Q as [Q1 Q2]. f_equal. symmetry. apply first_on_spec; assumption. }
  rewrite Ef. cbn [bind].
  assert (Hn : exists n, In n (w_intfs w) /\ n_rep n = j). { rewrite <- (shape_reps _ _ _ S) in F1. apply in_map_iff in F1 as (n & A & B). eauto. }
  destruct Hn as (n & Hn & Rn). assert (Nd : NoDup (map n_rep (w_intfs w))) by (rewrite (shape_reps _ _ _ S); apply nodup_firsts).
  assert (G : get j w = Some n). { rewrite <- Rn. apply get_spec; auto. apply L. right. exists (n_rep n). split; [reflexivity|]. rewrite Rn. exact F1. }
  rewrite G. cbn [bind]. apply in_split in Hn as (a & b & Eab).
  assert (Hn : In n (w_intfs w)) by (rewrite Eab; apply in_or_app; right; left; reflexivity).
  assert (Ii : In i (n_insts n)). { destruct (shape_in _ _ _ _ S Hn) as [_ ->]. rewrite Rn. apply in_members. auto. }
  assert (Zs : forall z : Z, (z =? 0) = true <-> z = 0) by (intro; apply Z.eqb_eq).
  destruct (n_att n) eqn:Ea.
  - cbn [negb Z.eqb]. rewrite (home_spec l w n i S Hn Ii). cbn [bind]. destruct (T n Hn Ea) as [T1 T2]. rewrite Rn in *.
    assert (Ok : okat w i). { intros m Hm Im. rewrite (rep_eq l _ _ m n S Hm Hn); [exact T1|]. rewrite (inst_rep l _ m i S Hm Im), Rn. reflexivity. }
    exists (if negb (e_stats e i =? 0) then e_stats e i else e_ts e i), (if e_phys e j =? 0 then set_alarm w (i :: w_alarm w) else w).
    split; [destruct (e_stats e i =? 0); reflexivity|]. split; [destruct (e_phys e j =? 0); [apply plain_alarm|]; exact P|]. split; [apply ts_iff, T2|]. split; [|destruct (e_phys e j =? 0); auto].
    intros _. destruct (e_phys e j =? 0); (split; [split; [exact P|]; split; [exact C|]; split; [exact Cn|exact T]|]); (split; [exact Ok|reflexivity]).
  - destruct (e_topo e j =? 0) eqn:Et.
    + apply Z.eqb_eq in Et. cbn [negb Z.eqb]. set (m := with_start n true true). destruct (shape_put l _ w a n b m S Eab eq_refl eq_refl) as [Q1 Q2].
      assert (Hm : In m (w_intfs (put m w))) by (rewrite Q1; apply in_or_app; right; left; reflexivity).
      assert (S' : shape l (List.length l) (w_intfs (put m w))) by (rewrite Q1; exact Q2).
      rewrite (home_spec l (put m w) m i S' Hm Ii). cbn [bind]. change (n_rep m) with (n_rep n). rewrite Rn.
      assert (P' : plain l (List.length l) (put m w)) by (eapply plain_put; eauto).
      exists (if negb (e_stats e i =? 0) then e_stats e i else e_ts e i), (if e_phys e j =? 0 then set_alarm (put m w) (i :: w_alarm w) else put m w).
      split; [destruct (e_stats e i =? 0); reflexivity|]. split; [destruct (e_phys e j =? 0); [apply plain_alarm|]; exact P'|]. split; [apply ts_iff, Et|].
      assert (Ok : okat (put m w) i). { intros x Hx Ix. rewrite (rep_eq l _ _ x m S' Hx Hm); [reflexivity|]. rewrite (inst_rep l _ x i S' Hx Ix), (inst_rep l _ m i S' Hm Ii). reflexivity. }
      assert (St : st l e (put m w)). { split; [exact P'|]. split; [exact C|]. split; [exact Cn|]. rewrite Q1. intros x Hx A. apply in_app_or in Hx as [Hx|[<-|Hx]]; [|split; [reflexivity|cbn [m with_start n_rep]; rewrite Rn; exact Et]|];
        apply T; auto; rewrite Eab; apply in_or_app; [left|right; right]; exact Hx. }
      split.
      * intros _. destruct (e_phys e j =? 0); (split; [exact St|]); (split; [exact Ok|reflexivity]).
      * assert (Mo : forall x, okat w x -> okat (put m w) x). { intros x Hx y Hy Iy. rewrite Q1 in Hy. apply in_app_or in Hy as [Hy|[<-|Hy]]; [|reflexivity|]; (apply Hx; [rewrite Eab; apply in_or_app; [left|right; right]; exact Hy|exact Iy]) || idtac.
          all: apply Hx; [rewrite Eab; apply in_or_app; (left; exact Hy) || (right; right; exact Hy)|exact Iy]. }
        destruct (e_phys e j =? 0); exact Mo.
    + cbn [fst]. rewrite Et. cbn [negb]. set (m := with_start n true (n_ok n)). destruct (shape_put l _ w a n b m S Eab eq_refl eq_refl) as [Q1 Q2].
      exists EREPORTED, (put m w). split; [reflexivity|]. split; [eapply plain_put; eauto|]. split; [split; [discriminate|intros (A & _); apply Z.eqb_neq in Et; contradiction]|]. split; [discriminate|].
      intros x Hx y Hy Iy. rewrite Q1 in Hy. apply in_app_or in Hy as [Hy|[<-|Hy]].
      * apply Hx; [rewrite Eab; apply in_or_app; left; exact Hy|exact Iy].
      * cbn. apply Hx; [exact Hn|exact Iy].
      * apply Hx; [rewrite Eab; apply in_or_app; right; right; exact Hy|exact Iy].
Qed.

Lemma start_loop_spec l e r : forall w, st l e w -> (forall i, In i r -> (i < List.length l)%nat) ->
  exists rc w', start_loop e r w = Some (rc, w') /\ plain l (List.length l) w' /\
    (rc = 0 <-> forall i, In i r -> e_topo e (first_on l i) = 0 /\ e_stats e i = 0 /\ e_ts e i = 0) /\
    (rc = 0 -> st l e w' /\ (forall i, In i r -> okat w' i) /\
       forall x, In x (w_alarm w') <-> In x (w_alarm w) \/ In x r /\ e_phys e (first_on l x) = 0) /\
    (forall x, okat w x -> okat w' x).
Proof.
  induction r as [|i r IH]; intros w S H; cbn [start_loop].
  - exists 0, w. split; [reflexivity|]. split; [exact (proj1 S)|]. split; [split; [intros _ i []|reflexivity]|]. split; [|auto]. intros _. split; [exact S|]. split; [intros i []|]. cbn. tauto.
  - destruct (start_instance_spec l e i w S) as (rc & w1 & A & B & R & D & M); [apply H; left; reflexivity|]. rewrite A. cbn [bind]. destruct (Z.eqb_spec rc 0) as [->|N].
    + destruct (D eq_refl) as (D1 & D2 & D3). destruct (IH w1 D1) as (rc & w2 & A2 & B2 & R2 & E2 & M2); [intros; apply H; right; assumption|]. exists rc, w2. split; [exact A2|]. split; [exact B2|].
      split; [split; [intros Q x [<-|Hx]; [apply R; reflexivity|apply R2; assumption]|intro Q; apply R2; intros x Hx; apply Q; right; exact Hx]|]. split; [|auto].
      intro Q. destruct (E2 Q) as (E3 & E4 & E5). split; [exact E3|]. split; [intros x [<-|Hx]; [apply M2, D2|apply E4, Hx]|].
      intro x. rewrite E5, D3, in_app_iff. cbn [In]. destruct (Z.eqb_spec (e_phys e (first_on l i)) 0) as [Ep|Ep]; cbn [In]; split.
      * intros [[[<-|[]]|Q1]|Q1]; tauto.
      * intros [Q1|[[<-|Q1] Q2]]; tauto.
      * intros [[[]|Q1]|Q1]; tauto.
      * intros [Q1|[[<-|Q1] Q2]]; tauto.
    + exists rc, w1. split; [reflexivity|]. split; [exact B|]. split; [split; [intro; contradiction|intro Q; apply R; apply Q; left; reflexivity]|]. split; [intro; contradiction|exact M].
Qed.
