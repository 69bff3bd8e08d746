(** Proofs for C75: creation of all instances, start of the instances. *)
Require Import ZArith List Bool Arith Lia Permutation.
From Verif Require Import Base PmcSpec PmcModel PmcProof PmcProof2.
Import ListNotations.
Open Scope Z_scope.

Lemma nodup_flat (f : nat -> list nat) l : NoDup l -> (forall x, In x l -> NoDup (f x)) ->
  (forall x y i, In x l -> In y l -> In i (f x) -> In i (f y) -> x = y) -> NoDup (flat_map f l).
Proof.
  induction l as [|a l IH]; intros ND H1 H2; [constructor|]. inversion_clear ND as [|? ? X Y]. cbn.
  assert (D : forall i, In i (f a) -> ~ In i (flat_map f l)).
  { intros i A B. apply in_flat_map in B as (y & B1 & B2). apply X. rewrite (H2 a y i); auto; [left; reflexivity|right; exact B1]. }
  assert (N2 : NoDup (flat_map f l)) by (apply IH; [exact Y|intros; apply H1; right; assumption|intros x y i P Q; apply H2; right; assumption]).
  specialize (H1 a (or_introl eq_refl)). revert H1 D. generalize (f a). induction l0 as [|b r IHr]; intros H1 D; [exact N2|]. inversion_clear H1 as [|? ? U V]. cbn. constructor.
  - intro Q. apply in_app_or in Q as [Q|Q]; [exact (U Q)|]. apply (D b); [left; reflexivity|exact Q].
  - apply IHr; [exact V|]. intros i Hi. apply D. right. exact Hi.
Qed.
Definition shape (l : list conf) (k : nat) (ns : list intf) : Prop :=
  map (fun n => (n_rep n, n_insts n)) ns = map (fun j => (j, members l j k)) (firsts l k).
Lemma shape_groups l k : shape l k (groups l k).
Proof. unfold shape, groups. rewrite map_map. reflexivity. Qed.
Lemma shape_reps l k ns : shape l k ns -> map n_rep ns = firsts l k.
Proof. intro H. apply (f_equal (map fst)) in H. rewrite !map_map in H. cbn in H. rewrite map_id in H. exact H. Qed.
Lemma shape_in l k ns n : shape l k ns -> In n ns -> In (n_rep n) (firsts l k) /\ n_insts n = members l (n_rep n) k.
Proof.
  intros H Hn. assert (X : In (n_rep n, n_insts n) (map (fun j => (j, members l j k)) (firsts l k))) by (rewrite <- H; apply (in_map (fun n => (n_rep n, n_insts n))), Hn).
  apply in_map_iff in X as (j & E & Hj). injection E as -> <-. auto.
Qed.
Lemma shape_all l k ns : shape l k ns -> all ns = flat_map (fun j => members l j k) (firsts l k).
Proof.
  intro H. unfold all. rewrite !flat_map_concat_map. f_equal. apply (f_equal (map snd)) in H. rewrite !map_map in H. exact H.
Qed.
Lemma in_all l k ns i : shape l k ns -> (k <= List.length l)%nat -> (In i (all ns) <-> (i < k)%nat).
Proof.
  intros H L. rewrite (shape_all _ _ _ H), in_flat_map. split.
  - intros (j & _ & B). apply in_members in B. tauto.
  - intro Hi. destruct (has_first l k i Hi ltac:(lia)) as (j & A & B). exists j. split; [exact A|]. apply in_members. auto.
Qed.
Lemma shape_nodup l k ns : shape l k ns -> NoDup (all ns).
Proof.
  intro H. rewrite (shape_all _ _ _ H). apply nodup_flat; [apply nodup_firsts|intros; apply nodup_members|]. intros x y i A B C D. apply in_members in C as [_ C], D as [_ D].
  apply (firsts_inj l k); auto. eapply same_trans; [exact C|apply same_sym, D].
Qed.
Lemma shape_some l k ns n : shape l k ns -> (k <= List.length l)%nat -> In n ns -> In (n_rep n) (n_insts n).
Proof. intros H L Hn. destruct (shape_in _ _ _ _ H Hn) as [A B]. rewrite B. apply in_firsts in A as [A _]. apply in_members. split; [exact A|apply same_refl; lia]. Qed.

(** No contexts yet. *)
Definition plain (l : list conf) (k : nat) (w : world) : Prop :=
  shape l k (w_intfs w) /\ (forall n, In n (w_intfs w) -> n_ctx n = None) /\ w_ports w = [] /\ w_ctxs w = [] /\
  forall o, In o (w_live w) <-> (exists i, o = OInst i /\ (i < k)%nat) \/ (exists j, o = OIntf j /\ In j (firsts l k)).
Lemma plain_wf l k w : (k <= List.length l)%nat -> plain l k w -> wf w /\ exact w /\ ~ In OGlob (w_live w).
Proof.
  intros L (S & C & P & X & Lv). split; [constructor|split].
  - rewrite (shape_reps _ _ _ S). apply nodup_firsts.
  - eapply shape_nodup; eauto.
  - intros n Hn E. pose proof (shape_some _ _ _ _ S L Hn) as H. rewrite E in H. destruct H.
  - intros n Hn. unfold ok_ctx. rewrite (C n Hn), P. intros i _ [].
  - rewrite X. constructor.
  - intros o Ho. apply Lv in Ho as [(i & -> & H)|(j & -> & H)]; cbn.
    + eapply in_all; eauto.
    + rewrite (shape_reps _ _ _ S). exact H.
  - intros i Hi. apply Lv. left. exists i. split; [reflexivity|]. eapply in_all; eauto.
  - intros n Hn. apply Lv. right. exists (n_rep n). split; [reflexivity|]. eapply shape_in; eauto.
  - rewrite X. intros _ j [].
  - intros j Hj. rewrite X in Hj. destruct Hj.
  - intro H. apply Lv in H as [(i & H & _)|(j & H & _)]; discriminate.
Qed.
Lemma made_plain l k w : made l k w -> plain l k w.
Proof.
  intros (C & G & P & A & X & N & Lv). split; [rewrite G; apply shape_groups|]. split; [rewrite G; intros n Hn; unfold groups in Hn; apply in_map_iff in Hn as (j & <- & _); reflexivity|]. auto.
Qed.

Lemma no_clash_iff l : no_clash l <-> forall k, (k < List.length l)%nat -> free_dom l k.
Proof.
  split.
  - intros H k Hk i c d Hi A B S E. apply same_if_eq in S as [S1 S2]. specialize (H i k c d A B S1 S2 E). lia.
  - intros H i j c d A B S1 S2 E. assert (Li : (i < List.length l)%nat) by (apply nth_error_Some; congruence). assert (Lj : (j < List.length l)%nat) by (apply nth_error_Some; congruence).
    destruct (lt_eq_lt_dec i j) as [[Q|Q]|Q]; [|exact Q|]; exfalso.
    + apply (H j Lj i c d Q A B); [apply same_if_eq; auto|exact E].
    + apply (H i Li j d c Q B A); [apply same_if_eq; auto|congruence].
Qed.
Lemma create_loop_spec l m : forall k w, (k + m)%nat = List.length l -> made l k w ->
  exists rc w', create_loop (seq k m) w = Some (rc, w') /\
  ((rc = 0 /\ made l (List.length l) w' /\ forall x, (k <= x < List.length l)%nat -> free_dom l x) \/
   (rc = EBUSY /\ wf w' /\ exact w' /\ ~ In OGlob (w_live w') /\ exists x, (x < List.length l)%nat /\ ~ free_dom l x)).
Proof.
  induction m as [|m IH]; intros k w E M; cbn [seq create_loop].
  - exists 0, w. split; [reflexivity|]. left. split; [reflexivity|]. replace (List.length l) with k by lia. split; [exact M|]. intros x Hx. lia.
  - destruct (create_one_spec l k w M) as (rc & w1 & C & R & F & Y & N); [lia|]. rewrite C. cbn [bind]. destruct R as [->| ->].
    + cbn [Z.eqb]. destruct (IH (Datatypes.S k) w1) as (rc & w2 & D & Q); [lia|apply Y; reflexivity|]. exists rc, w2. split; [exact D|].
      destruct Q as [(Q1 & Q2 & Q3)|Q]; [left|right; exact Q]. split; [exact Q1|]. split; [exact Q2|]. intros x Hx. destruct (Nat.eq_dec x k) as [->|Nx]; [apply F; reflexivity|apply Q3; lia].
    + cbn. exists EBUSY, w1. split; [reflexivity|]. right. split; [reflexivity|]. destruct N as (N1 & N2 & N3 & N4 & N5); [discriminate|].
      destruct (plain_wf l (Datatypes.S k) w1) as (W & X & G); [lia| |].
      { split; [rewrite N2; apply shape_groups|]. split; [rewrite N2; intros n Hn; unfold groups in Hn; apply in_map_iff in Hn as (j & <- & _); reflexivity|]. auto. }
      split; [exact W|]. split; [exact X|]. split; [exact G|]. exists k. split; [lia|]. intro H. apply F in H. discriminate.
Qed.
Lemma create_spec l : exists rc w, create_instances l = Some (rc, w) /\
  ((rc = 0 /\ no_clash l /\ made l (List.length l) w) \/ (rc = EBUSY /\ ~ no_clash l /\ w_intfs w = [] /\ w_live w = [])).
Proof.
  unfold create_instances. destruct (create_loop_spec l (List.length l) 0 (empty l) eq_refl (made_0 l)) as (rc & w & C & D). rewrite C. cbn [bind].
  destruct D as [(-> & M & F)|(-> & W & X & G & x & L & N)].
  - exists 0, w. split; [reflexivity|]. left. split; [reflexivity|]. split; [|exact M]. apply no_clash_iff. intros k Hk. apply F. lia.
  - cbn [Z.eqb]. change (EBUSY =? 0) with false. cbv iota. destruct (destroy_spec w W) as (w' & A1 & A2 & A3 & A4 & _). rewrite A1. cbn [bind]. exists EBUSY, w'. split; [reflexivity|].
    right. split; [reflexivity|]. split; [rewrite no_clash_iff; intro H; exact (N (H x L))|]. split; [exact A2|]. destruct (w_live w') as [|o r] eqn:E; [reflexivity|]. exfalso. apply G, A4. rewrite <- (A3 o (or_introl eq_refl)). left. reflexivity.
Qed.

(** The first instance on the interface of an instance. *)
Definition first_on (l : list conf) (i : nat) : nat := match find (fun j => same l j i) (seq 0 (List.length l)) with Some j => j | None => i end.
Lemma first_on_spec l i j : In j (firsts l (List.length l)) -> same l j i = true -> first_on l i = j.
Proof.
  intros F S. unfold first_on.
  assert (Z : forall x a n, find (fun j => same l j i) (seq a n) = Some x -> (a <= j)%nat -> (j < a + n)%nat -> (x <= j)%nat).
  { clear - S. intros x a n. revert a. induction n as [|n IH]; intros a H1 H2 H3; [lia|]. cbn in H1. destruct (same l a i) eqn:Q; [injection H1 as <-; exact H2|].
    apply (IH (Datatypes.S a)); [exact H1| |lia]. destruct (Nat.eq_dec a j) as [->|]; [congruence|lia]. }
  apply in_firsts in F as [F1 F2]. destruct (find _ _) as [x|] eqn:E.
  - specialize (Z x 0%nat _ E ltac:(lia) ltac:(lia)). apply find_some in E as [E1 E2]. cbn in E2. destruct (Nat.eq_dec x j) as [Q|Q]; [exact Q|].
    rewrite is_first_spec in F2. specialize (F2 x ltac:(lia)). rewrite (same_trans _ _ _ _ E2 (same_sym _ _ _ S)) in F2. discriminate.
  - pose proof (find_none _ _ E j ltac:(apply in_seq; lia)) as X. cbn in X. congruence.
Qed.
