(** Proofs for C76. *)
Require Import ZArith List Bool Arith Lia.
From Verif Require Import Base LacSpec LacModel.
Import ListNotations.
Open Scope Z_scope.

Definition bit (m : Z) (i : nat) : bool := Z.testbit m (Z.of_nat i).
Definition bits (m : Z) : list nat := filter (bit m) (seq 0 64).
Definition sm (m : Z) : Prop := 0 <= m /\ forall k, Z.testbit m k = true -> k < 31.
Lemma find_hd {A} (f : A -> bool) l : find f l = hd_error (filter f l).
Proof. induction l as [|a l IH]; [reflexivity|]. cbn. destruct (f a); [reflexivity|exact IH]. Qed.
Lemma lowest_bits m : lowest m = hd_error (bits m).
Proof. apply find_hd. Qed.
Lemma in_bits m i : sm m -> (In i (bits m) <-> bit m i = true).
Proof. intros [_ H]. unfold bits. rewrite filter_In, in_seq. split; [tauto|]. intro B. split; [|exact B]. specialize (H _ B). lia. Qed.
Lemma nodup_bits m : NoDup (bits m).
Proof. apply NoDup_filter, seq_NoDup. Qed.
Lemma sm_0 : sm 0.
Proof. split; [lia|]. intros k H. rewrite Z.bits_0 in H. discriminate. Qed.
Lemma bits_nil m : sm m -> (m =? 0) = match bits m with [] => true | _ => false end.
Proof.
  intros S. destruct (bits m) as [|i r] eqn:E.
  - apply Z.eqb_eq. apply Z.bits_inj. intro k. rewrite Z.bits_0. destruct (Z.testbit m k) eqn:B; [|reflexivity]. exfalso.
    assert (0 <= k) by (destruct (Z.neg_nonneg_cases k); [rewrite Z.testbit_neg_r in B by lia; discriminate|lia]).
    assert (X : In (Z.to_nat k) (bits m)) by (apply in_bits; [exact S|]; unfold bit; rewrite Z2Nat.id by lia; exact B). rewrite E in X. destruct X.
  - apply Z.eqb_neq. intro Q. subst m. assert (X : In i (bits 0)) by (rewrite E; left; reflexivity). apply in_bits in X; [|exact sm_0]. unfold bit in X. rewrite Z.bits_0 in X. discriminate.
Qed.
Lemma clear_bit m i k : bit (Z.land m (Z.lnot (2 ^ Z.of_nat i))) k = bit m k && negb (Nat.eqb k i).
Proof.
  unfold bit. rewrite Z.land_spec, Z.lnot_spec by lia. rewrite Z.pow2_bits_eqb by lia. f_equal. f_equal.
  destruct (Nat.eqb_spec k i) as [->|N]; [apply Z.eqb_refl|]. apply Z.eqb_neq. lia.
Qed.
Lemma clear_sm m i : sm m -> sm (Z.land m (Z.lnot (2 ^ Z.of_nat i))).
Proof. intros [A B]. split; [apply Z.land_nonneg; left; exact A|]. intros k H. rewrite Z.land_spec in H. apply andb_true_iff in H as [H _]. exact (B k H). Qed.
Lemma set_bit m i k : bit (Z.lor m (2 ^ Z.of_nat i)) k = bit m k || Nat.eqb k i.
Proof.
  unfold bit. rewrite Z.lor_spec, Z.pow2_bits_eqb by lia. f_equal.
  destruct (Nat.eqb_spec k i) as [->|N]; [apply Z.eqb_refl|]. apply Z.eqb_neq. lia.
Qed.
Lemma set_sm m i : sm m -> (i < 31)%nat -> sm (Z.lor m (2 ^ Z.of_nat i)).
Proof.
  intros [A B] L. split; [apply Z.lor_nonneg; split; [exact A|apply Z.pow_nonneg; lia]|]. intros k H. rewrite Z.lor_spec in H. apply orb_true_iff in H as [H|H]; [exact (B k H)|].
  rewrite Z.pow2_bits_eqb in H by lia. apply Z.eqb_eq in H. lia.
Qed.
Lemma bits_clear m i r : bits m = i :: r -> bits (Z.land m (Z.lnot (2 ^ Z.of_nat i))) = r.
Proof.
  intro E. assert (H : bits (Z.land m (Z.lnot (2 ^ Z.of_nat i))) = filter (fun k => negb (Nat.eqb k i)) (bits m)).
  { unfold bits. induction (seq 0 64) as [|k l IH]; [reflexivity|]. cbn [filter]. rewrite clear_bit. destruct (bit m k); cbn [andb filter]; [|exact IH]. destruct (Nat.eqb k i); cbn [negb]; rewrite IH; reflexivity. }
  rewrite H, E. cbn [filter]. rewrite Nat.eqb_refl. cbn [negb]. pose proof (nodup_bits m) as ND. rewrite E in ND. inversion_clear ND as [|? ? N _].
  rewrite <- (filter_ext_in (fun _ => true)); [|intros k Hk; symmetry; apply negb_true_iff, Nat.eqb_neq; intro; subst; contradiction]. clear. induction r; cbn; congruence.
Qed.
Fixpoint fold {A} (body : nat -> A -> option A) (l : list nat) (a : A) : option A := match l with [] => Some a | i :: r => do a <- body i a; fold body r a end.
Lemma each_bits {A} (body : nat -> A -> option A) : forall r fuel m a, bits m = r -> (List.length r <= fuel)%nat -> sm m -> each fuel m body a = fold body r a.
Proof.
  induction r as [|i r IH]; intros fuel m a E L S.
  - pose proof (bits_nil m S) as Q. rewrite E in Q. destruct fuel; cbn [each]; rewrite Q; reflexivity.
  - pose proof (bits_nil m S) as Q. rewrite E in Q. destruct fuel as [|f]; [cbn in L; lia|]. cbn [each]. rewrite Q, lowest_bits, E. cbn [hd_error bind fold]. destruct (body i a) as [b|]; [|reflexivity]. cbn [bind].
    unfold shl. assert (Hi : In i (bits m)) by (rewrite E; left; reflexivity). apply in_bits in Hi; [|exact S]. apply (proj2 S) in Hi. destruct (Nat.ltb_spec i 31); [|lia]. cbn [bind].
    apply IH; [apply bits_clear, E|cbn in L; lia|apply clear_sm, S].
Qed.
Lemma bits_len m : (List.length (bits m) <= 64)%nat.
Proof. unfold bits. rewrite <- (seq_length 64 0) at 2. generalize (seq 0 64). induction l as [|x l IH]; [apply Nat.le_refl|]. cbn. destruct (bit m x); cbn; lia. Qed.
Lemma for_each_bits {A} (body : nat -> A -> option A) m a : sm m -> for_each m body a = fold body (bits m) a.
Proof. intro S. apply each_bits; [reflexivity|apply bits_len|exact S]. Qed.
Lemma fold_collect (f : nat -> Z) l a : fold (fun i (l : list Z) => Some (l ++ [f i])) l a = Some (a ++ map f l).
Proof. revert a. induction l as [|i l IH]; intro a; cbn; [rewrite app_nil_r; reflexivity|]. rewrite IH, <- app_assoc. reflexivity. Qed.

(** The sockets of the pool. *)
Definition pool (t : trans) : list Z := map (t_socks t) (bits (t_mask t)).
Record inv (base : list Z) (t : trans) : Prop := mkInv {
  i_sm : sm (t_mask t);
  i_sock : forall i, if bit (t_mask t) i then 0 < t_socks t i /\ ~ In (t_socks t i) base else t_socks t i = 0;
  i_inj : forall i j, bit (t_mask t) i = true -> bit (t_mask t) j = true -> t_socks t i = t_socks t j -> i = j;
  i_open : forall fd, In fd (t_open t) <-> In fd base \/ In fd (pool t);
  i_len : (List.length (t_map t) <= 16)%nat;
  i_fst : NoDup (map fst (t_map t));
  i_snd : NoDup (map snd (t_map t));
  i_ev : In (t_event t) base /\ In (t_general t) base }.
Lemma in_pool t fd : sm (t_mask t) -> (In fd (pool t) <-> exists i, bit (t_mask t) i = true /\ t_socks t i = fd).
Proof. intro S. unfold pool. rewrite in_map_iff. split; intros (i & A & B); exists i; [apply in_bits in B; auto|rewrite in_bits by exact S; auto]. Qed.
Lemma pool_ext a b : t_mask a = t_mask b -> t_socks a = t_socks b -> pool a = pool b.
Proof. unfold pool. intros -> ->. reflexivity. Qed.
Opaque bits.
Lemma nodup_pool base t : inv base t -> NoDup (pool t).
Proof.
  intro V. unfold pool. assert (Q : forall l, NoDup l -> (forall i, In i l -> bit (t_mask t) i = true) -> NoDup (map (t_socks t) l)).
  { induction l as [|i l IH]; intros ND H; [constructor|]. inversion_clear ND as [|? ? N1 N2]. cbn. constructor; [|apply IH; [exact N2|intros; apply H; right; assumption]].
    intro X. apply in_map_iff in X as (j & E & Hj). apply N1. rewrite <- (i_inj base t V j i); auto; [apply H; right; exact Hj|apply H; left; reflexivity]. }
  apply Q; [apply nodup_bits|]. intros i Hi. apply in_bits in Hi; [exact Hi|apply V].
Qed.

Lemma existsb_In fd l : existsb (Z.eqb fd) l = true <-> In fd l.
Proof. rewrite existsb_exists. split; [intros (x & A & B); apply Z.eqb_eq in B; subst; exact A|intro H; exists fd; split; [exact H|apply Z.eqb_refl]]. Qed.
Lemma close_spec fd t : In fd (t_open t) -> exists l, close fd t = Some (set_open t l) /\ forall x, In x l <-> In x (t_open t) /\ x <> fd.
Proof.
  intro H. unfold close. apply existsb_In in H. rewrite H. eexists. split; [reflexivity|]. intro x. rewrite filter_In, negb_true_iff, Z.eqb_neq. split; intros [A B]; split; auto.
Qed.

Lemma invalidate_spec base i t : inv base t -> bit (t_mask t) i = true ->
  exists t', invalidate i t = Some t' /\ inv base t' /\ (forall k, bit (t_mask t') k = bit (t_mask t) k && negb (Nat.eqb k i)) /\ (forall k, k <> i -> t_socks t' k = t_socks t k) /\
    t_map t' = t_map t /\ t_event t' = t_event t /\ t_general t' = t_general t.
Proof.
  intros V B. pose proof (i_sm _ _ V) as S. unfold invalidate, shl. pose proof (proj2 S _ B) as L. destruct (Nat.ltb_spec i 31); [|lia]. cbn [bind].
  pose proof (i_sock _ _ V i) as Q. rewrite B in Q. destruct Q as [Q1 Q2].
  destruct (close_spec (t_socks t i) (set_mask t (Z.land (t_mask t) (Z.lnot (2 ^ Z.of_nat i))))) as (l & C & D). { apply (i_open _ _ V). right. apply in_pool; eauto. }
  rewrite C. cbn [bind]. eexists. split; [reflexivity|]. split; [|split; [intro k; apply clear_bit|split; [|auto]]].
  - constructor; cbn [t_mask t_socks t_open t_map t_event t_general set_sock set_open set_mask].
    + apply clear_sm, S.
    + intro k. rewrite clear_bit. pose proof (i_sock _ _ V k) as P. destruct (Nat.eqb_spec k i) as [->|N]; [rewrite andb_false_r; reflexivity|]. rewrite andb_true_r. exact P.
    + intros k j. rewrite !clear_bit. destruct (Nat.eqb_spec k i), (Nat.eqb_spec j i); rewrite ?andb_false_r, ?andb_true_r; try discriminate. apply (i_inj _ _ V).
    + intro fd. rewrite D. cbn [t_open set_mask]. rewrite (i_open _ _ V), in_pool by exact S. rewrite in_pool by (apply clear_sm, S). cbn [t_mask t_socks set_sock set_open set_mask]. split.
      * intros [[P|(k & P1 & P2)] N]; [left; exact P|]. right. exists k. rewrite clear_bit, P1. destruct (Nat.eqb_spec k i) as [->|]; [congruence|]. auto.
      * intros [P|(k & P1 & P2)]; [split; [left; exact P|intros ->; contradiction]|]. rewrite clear_bit in P1. rewrite (andb_comm (bit (t_mask t) k)) in P1; destruct (Nat.eqb_spec k i) as [E|N]; [discriminate|]. cbn [negb andb] in P1.
        split; [right; eauto|]. intro E. apply N. apply (i_inj _ _ V); congruence.
    + apply V.
    + apply V.
    + apply V.
    + apply V.
  - intros k N. cbn. destruct (Nat.eqb_spec k i); [contradiction|reflexivity].
Qed.

Lemma drop_spec base (bad : nat -> bool) : forall l t, NoDup l -> inv base t -> (forall i, In i l -> bit (t_mask t) i = true) ->
  exists t', fold (fun i t => if bad i then invalidate i t else Some t) l t = Some t' /\ inv base t' /\
    (forall k, bit (t_mask t') k = bit (t_mask t) k && negb (existsb (Nat.eqb k) l && bad k)) /\ (forall k, bit (t_mask t') k = true -> t_socks t' k = t_socks t k) /\
    t_map t' = t_map t /\ t_event t' = t_event t /\ t_general t' = t_general t.
Proof.
  induction l as [|i l IH]; intros t ND V H; cbn [fold].
  - exists t. split; [reflexivity|]. split; [exact V|]. split; [intro k; rewrite andb_true_r; reflexivity|]. auto.
  - inversion_clear ND as [|? ? N1 N2]. destruct (bad i) eqn:Eb.
    + destruct (invalidate_spec base i t V (H i (or_introl eq_refl))) as (t1 & A1 & A2 & A3 & A4 & A5 & A6 & A7). rewrite A1. cbn [bind].
      destruct (IH t1 N2 A2) as (t2 & B1 & B2 & B3 & B4 & B5 & B6 & B7). { intros k Hk. rewrite A3, (H k (or_intror Hk)). destruct (Nat.eqb_spec k i) as [->|]; [contradiction|reflexivity]. }
      exists t2. split; [exact B1|]. split; [exact B2|]. split; [|split; [|split; [congruence|split; congruence]]].
      * intro k. rewrite B3, A3. cbn [existsb]. destruct (Nat.eqb_spec k i) as [->|N]; [rewrite Eb; cbn; rewrite andb_false_r; reflexivity|]. rewrite andb_true_r. reflexivity.
      * intros k Hk. rewrite (B4 k Hk). apply A4. intros ->. rewrite B3, A3, Nat.eqb_refl, andb_false_r in Hk. discriminate.
    + cbn [bind]. destruct (IH t N2 V) as (t2 & B1 & B2 & B3 & B4); [intros; apply H; right; assumption|]. exists t2. split; [exact B1|]. split; [exact B2|]. split; [|exact B4].
      intro k. rewrite B3. cbn [existsb]. destruct (Nat.eqb_spec k i) as [->|N]; [|reflexivity]. rewrite Eb, !andb_false_r. reflexivity.
Qed.
Lemma in_bits_exists m k : sm m -> existsb (Nat.eqb k) (bits m) = bit m k.
Proof.
  intro S. destruct (bit m k) eqn:B.
  - apply existsb_exists. exists k. split; [apply in_bits; assumption|apply Nat.eqb_refl].
  - apply not_true_iff_false. intro H. apply existsb_exists in H as (x & A & E). apply Nat.eqb_eq in E. subst. apply in_bits in A; [congruence|exact S].
Qed.
Lemma setopt_spec base rc t : inv base t -> exists t', setopt rc t = Some t' /\ inv base t' /\
  (forall k, bit (t_mask t') k = bit (t_mask t) k && negb (rc k <? 0)) /\ (forall k, bit (t_mask t') k = true -> t_socks t' k = t_socks t k) /\
  t_map t' = t_map t /\ t_event t' = t_event t /\ t_general t' = t_general t.
Proof.
  intro V. unfold setopt. rewrite for_each_bits by apply V. destruct (drop_spec base (fun i => rc i <? 0) (bits (t_mask t)) t (nodup_bits _) V) as (t' & A & B & C & D).
  { intros i Hi. apply in_bits in Hi; [exact Hi|apply V]. }
  exists t'. split; [exact A|]. split; [exact B|]. split; [|exact D]. intro k. rewrite C, in_bits_exists by apply V. destruct (bit (t_mask t) k); reflexivity.
Qed.
Lemma sm_eq0 m : sm m -> (forall k, bit m k = false) -> m = 0.
Proof.
  intros S H. pose proof (bits_nil m S) as Q. destruct (bits m) as [|i r] eqn:E; [apply Z.eqb_eq; exact Q|]. assert (X : In i (bits m)) by (rewrite E; left; reflexivity). apply in_bits in X; [|exact S]. rewrite H in X. discriminate.
Qed.
Lemma destroy_spec base t : inv base t -> exists t', destroy t = Some t' /\ inv base t' /\ t_mask t' = 0 /\ t_map t' = [] /\ t_event t' = t_event t /\ t_general t' = t_general t.
Proof.
  intro V. unfold destroy. rewrite for_each_bits by apply V. destruct (drop_spec base (fun _ => true) (bits (t_mask t)) t (nodup_bits _) V) as (t' & A & B & C & D & E & F & G).
  { intros i Hi. apply in_bits in Hi; [exact Hi|apply V]. }
  assert (A' : fold invalidate (bits (t_mask t)) t = Some t') by exact A. rewrite A'. cbn [bind]. eexists. split; [reflexivity|]. assert (Z0 : t_mask t' = 0).
  { apply sm_eq0; [apply B|]. intro k. rewrite C, in_bits_exists by apply V. destruct (bit (t_mask t) k); reflexivity. }
  split; [|cbn; auto]. destruct B as [B1 B2 B3 B4 B5 B6 B7 B8]. rewrite Z0 in B1, B2, B3. constructor; cbn [t_mask t_socks t_open t_map t_event t_general set_mask set_map].
  - exact B1.
  - exact B2.
  - exact B3.
  - intro fd. rewrite B4. rewrite (pool_ext t' (set_map (set_mask t' 0) [])); [reflexivity|exact Z0|reflexivity].
  - cbn. lia.
  - constructor.
  - constructor.
  - exact B8.
Qed.

Lemma create_loop_spec base y : sound y -> forall n k t, inv base t -> (k + n <= 31)%nat -> (forall i, (k <= i)%nat -> bit (t_mask t) i = false) ->
  exists t', create_loop y (seq k n) t = Some t' /\ inv base t' /\ t_map t' = t_map t /\ t_event t' = t_event t /\ t_general t' = t_general t /\
    forall i, bit (t_mask t') i = true <-> bit (t_mask t) i = true \/ (k <= i < k + n)%nat /\ works y i.
Proof.
  intro Sy. induction n as [|n IH]; intros k t V L H; cbn [seq create_loop].
  - exists t. split; [reflexivity|]. split; [exact V|]. split; [reflexivity|]. split; [reflexivity|]. split; [reflexivity|]. intro i. split; [auto|]. intros [Q|[Q _]]; [exact Q|lia].
  - assert (One : exists t1, create_one y k t = Some t1 /\ inv base t1 /\ t_map t1 = t_map t /\ t_event t1 = t_event t /\ t_general t1 = t_general t /\
        (forall i, bit (t_mask t1) i = true <-> bit (t_mask t) i = true \/ i = k /\ works y i)).
    { unfold create_one. pose proof (i_sock _ _ V k) as Q. rewrite (H k (Nat.le_refl _)) in Q. rewrite Q. cbn [Z.eqb negb].
      assert (Same : forall t1, inv base t1 -> t_mask t1 = t_mask t -> ~ works y k -> forall i, bit (t_mask t1) i = true <-> bit (t_mask t) i = true \/ i = k /\ works y i).
      { intros t1 _ E N i. rewrite E. split; [auto|]. intros [X|[-> X]]; [exact X|contradiction]. }
      destruct (Z.ltb_spec (y_sock y k) 0) as [Z1|Z1].
      { exists t. split; [reflexivity|]. split; [exact V|]. split; [reflexivity|]. split; [reflexivity|]. split; [reflexivity|]. apply Same; auto. intros (X & _). lia. }
      destruct (Sy k (t_open t)) as [Fp Fn]. set (fd := y_fd y k (t_open t)) in *. set (t1 := set_open t (fd :: t_open t)).
      assert (Cl : ~ works y k -> exists t2, close fd t1 = Some t2 /\ inv base t2 /\ t_map t2 = t_map t /\ t_event t2 = t_event t /\ t_general t2 = t_general t /\
        (forall i, bit (t_mask t2) i = true <-> bit (t_mask t) i = true \/ i = k /\ works y i)).
      { intro N. destruct (close_spec fd t1) as (l & C & D); [left; reflexivity|]. exists (set_open t1 l). split; [exact C|].
        assert (V2 : inv base (set_open t1 l)). { destruct V as [V1 V2 V3 V4 V5 V6 V7 V8]. constructor; [exact V1|exact V2|exact V3| |exact V5|exact V6|exact V7|exact V8]. intro x. cbn [t_open set_open]. rewrite D. cbn [t1 t_open set_open In]. rewrite (pool_ext (set_open t1 l) t eq_refl eq_refl), <- (V4 x). split; [intros [[->|X] Y]; [contradiction|exact X]|]. intro X. split; [right; exact X|]. intros ->. contradiction. }
        split; [exact V2|]. split; [reflexivity|]. split; [reflexivity|]. split; [reflexivity|]. apply Same; auto. }
      destruct (Z.ltb_spec (y_bind y k) 0) as [Z2|Z2]; [apply Cl; intros (_ & X & _); lia|].
      destruct (Z.ltb_spec (y_opt y k) 0) as [Z3|Z3]; [apply Cl; intros (_ & _ & X & _); lia|].
      destruct (Z.eqb_spec (y_epoll y k) 0) as [Z4|Z4]; cbn [negb]; [|apply Cl; intros (_ & _ & _ & X); contradiction].
      clear Cl Same. unfold shl. destruct (Nat.ltb_spec k 31); [|lia]. cbn [bind]. eexists. split; [reflexivity|]. destruct V as [V1 V2 V3 V4 V5 V6 V7 V8]. split; [|split; [reflexivity|split; [reflexivity|split; [reflexivity|]]]].
      - constructor; cbn [t_mask t_socks t_open t_map t_event t_general set_mask set_sock set_open t1]; [| | | |exact V5|exact V6|exact V7|exact V8].
        + apply set_sm; assumption.
        + intro i. rewrite set_bit. specialize (V2 i). destruct (Nat.eqb_spec i k) as [->|N].
          * rewrite orb_true_r. split; [exact Fp|]. intro X. apply Fn, V4. left. exact X.
          * rewrite orb_false_r. exact V2.
        + intros i j. rewrite !set_bit. assert (Old : forall i, bit (t_mask t) i = true -> t_socks t i <> fd). { intros x Hx E. apply Fn, V4. right. apply in_pool; [exact V1|]. exists x. auto. }
          destruct (Nat.eqb_spec i k) as [->|Ni], (Nat.eqb_spec j k) as [->|Nj]; rewrite ?orb_true_r, ?orb_false_r; auto; intros A B C; [destruct (Old j B); auto|destruct (Old i A); auto].
        + intro x. rewrite in_pool by (apply set_sm; assumption). cbn [t_mask t_socks set_mask set_sock set_open In]. rewrite V4, in_pool by exact V1. split.
          * intros [<-|[X|(i & X1 & X2)]]; [right; exists k; rewrite set_bit, Nat.eqb_refl, orb_true_r; auto|auto|]. right. exists i. rewrite set_bit, X1. destruct (Nat.eqb_spec i k) as [->|]; [rewrite H in X1 by lia; discriminate|]. auto.
          * intros [X|(i & X1 & X2)]; [auto|]. rewrite set_bit in X1. revert X1 X2. destruct (Nat.eqb_spec i k) as [E|N]; intros X1 X2; [left; exact X2|]. rewrite orb_false_r in X1. right. right. exists i. auto.
      - intro i. cbn [t_mask set_mask]. rewrite set_bit. change (t_mask t1) with (t_mask t). destruct (Nat.eqb_spec i k) as [->|N]; [rewrite orb_true_r; split; [|reflexivity]; intros _; right; split; [reflexivity|unfold works; auto]|]. rewrite orb_false_r. split; [auto|]. intros [X|[X _]]; [exact X|contradiction]. }
    destruct One as (t1 & A1 & A2 & A3 & A4 & A5 & A6). rewrite A1. cbn [bind]. destruct (IH (Datatypes.S k) t1 A2 ltac:(lia)) as (t2 & B1 & B2 & B3 & B4 & B5 & B6).
    { intros i Hi. apply not_true_iff_false. rewrite A6. rewrite H by lia. intros [X|[X _]]; [discriminate|lia]. }
    exists t2. split; [exact B1|]. split; [exact B2|]. split; [congruence|]. split; [congruence|]. split; [congruence|]. intro i. rewrite B6, A6. split.
    + intros [[X|[-> X]]|[X1 X2]]; [auto|right; split; [lia|exact X]|right; split; [lia|exact X2]].
    + intros [X|[X1 X2]]; [auto|]. destruct (Nat.eq_dec i k) as [->|N]; [left; right; auto|right; split; [lia|exact X2]].
Qed.
