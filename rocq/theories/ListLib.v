(** Small list library: replacing an element, last n elements, circular buffers. *)
Require Import List Arith Lia Permutation.
Import ListNotations.

(** Array store: replace element [i] (no effect out of range; models check the
    bound separately). *)
Fixpoint set_nth {A} (i : nat) (x : A) (l : list A) {struct l} : list A :=
  match l, i with
  | [], _ => []
  | _ :: t, O => x :: t
  | h :: t, S i' => h :: set_nth i' x t
  end.

(** The last [n] elements of [l] (all of them if there are fewer). *)
Definition lastn {A} (n : nat) (l : list A) : list A := skipn (length l - n) l.

Lemma set_nth_length : forall A i (x : A) l, length (set_nth i x l) = length l.
Proof. intros A i x l. revert i. induction l; destruct i; cbn; auto. Qed.

Lemma set_nth_split : forall A i (x : A) l, i < length l ->
  set_nth i x l = firstn i l ++ x :: skipn (S i) l.
Proof.
  intros A i x l. revert i. induction l as [|h t IH]; intros i Hi; cbn in Hi; [lia|].
  destruct i; [reflexivity|]. cbn. rewrite IH by lia. reflexivity.
Qed.

Lemma nth_error_set_nth_same : forall A i (x : A) l, i < length l ->
  nth_error (set_nth i x l) i = Some x.
Proof.
  intros A i x l. revert i. induction l; intros i Hi; cbn in *; [lia|].
  destruct i; cbn; [reflexivity|]. apply IHl. lia.
Qed.

Lemma nth_error_set_nth_other : forall A i j (x : A) l, i <> j ->
  nth_error (set_nth i x l) j = nth_error l j.
Proof.
  intros A i j x l. revert i j. induction l; intros i j H; cbn; [reflexivity|].
  destruct i, j; cbn; try reflexivity; try lia. apply IHl. lia.
Qed.

Lemma firstn_set_nth_le : forall A i n (x : A) l, n <= i ->
  firstn n (set_nth i x l) = firstn n l.
Proof.
  intros A i n x l. revert i n. induction l; intros i n H; cbn.
  - destruct n; reflexivity.
  - destruct i, n; cbn; try reflexivity; try lia. rewrite IHl by lia. reflexivity.
Qed.

Lemma skipn_set_nth_gt : forall A i n (x : A) l, i < n ->
  skipn n (set_nth i x l) = skipn n l.
Proof.
  intros A i n x l. revert i n. induction l; intros i n H; cbn.
  - destruct n; reflexivity.
  - destruct i, n; cbn; try reflexivity; try lia. rewrite IHl by lia. reflexivity.
Qed.

Lemma firstn_S_set_nth : forall A i (x : A) l, i < length l ->
  firstn (S i) (set_nth i x l) = firstn i l ++ [x].
Proof.
  intros A i x l H. rewrite set_nth_split by assumption.
  rewrite firstn_app. rewrite firstn_length.
  replace (S i - Nat.min i (length l)) with 1 by lia.
  rewrite firstn_all2 by (rewrite firstn_length; lia). cbn. reflexivity.
Qed.

Lemma lastn_length : forall A n (l : list A), length (lastn n l) = Nat.min n (length l).
Proof. intros. unfold lastn. rewrite skipn_length. lia. Qed.

Lemma lastn_all : forall A n (l : list A), length l <= n -> lastn n l = l.
Proof. intros. unfold lastn. replace (length l - n) with 0 by lia. reflexivity. Qed.

Lemma tl_skipn : forall A n (l : list A), tl (skipn n l) = skipn (S n) l.
Proof.
  intros A n. induction n; intros l; destruct l; try reflexivity.
  exact (IHn l).
Qed.

Lemma lastn_app_one : forall A n (l : list A) x, n <= length l -> 0 < n ->
  lastn n (l ++ [x]) = tl (lastn n l) ++ [x].
Proof.
  intros A n l x H Hn. unfold lastn. rewrite app_length; cbn.
  rewrite skipn_app.
  replace (length l + 1 - n - length l) with 0 by lia.
  cbn [skipn]. f_equal.
  replace (length l + 1 - n) with (S (length l - n)) by lia.
  symmetry. apply tl_skipn.
Qed.

Lemma in_lastn : forall A n (l : list A) x, In x (lastn n l) -> In x l.
Proof.
  intros A n l x H. unfold lastn in H.
  rewrite <- (firstn_skipn (length l - n) l). apply in_or_app. right. assumption.
Qed.

(** ** Circular buffers: array, count, write index; [cap] slots are in use. *)
Definition ring_inv {A} (cap : nat) (arr : list A) (num widx : nat) (h : list A) : Prop :=
  0 < cap <= length arr /\ num = Nat.min (length h) cap /\ widx < cap /\
  ((length h < cap /\ widx = length h /\ firstn num arr = h) \/
   (cap <= length h /\
    skipn widx (firstn cap arr) ++ firstn widx arr = lastn cap h)).

Lemma ring_inv_init : forall A cap (arr : list A), 0 < cap <= length arr ->
  ring_inv cap arr 0 0 [].
Proof.
  intros. unfold ring_inv. cbn. repeat split; try lia. left. repeat split; lia.
Qed.

Definition ring_next (cap w : nat) : nat := if S w =? cap then 0 else S w.


Lemma ring_inv_push : forall A cap (arr : list A) num widx h x,
  ring_inv cap arr num widx h ->
  ring_inv cap (set_nth widx x arr) (if num <? cap then S num else num)
           (ring_next cap widx) (h ++ [x]).
Proof.
  intros A cap arr num widx h x [[Hc1 Hc2] [Hnum [Hw Hcase]]].
  unfold ring_inv. rewrite set_nth_length, app_length. cbn [length].
  unfold ring_next.
  assert (Hnum' : (if num <? cap then S num else num) = Nat.min (length h + 1) cap).
  { destruct (num <? cap) eqn:E; [apply Nat.ltb_lt in E|apply Nat.ltb_ge in E]; lia. }
  split; [lia|]. split; [assumption|].
  split. { destruct (S widx =? cap) eqn:E; [lia|]. apply Nat.eqb_neq in E. lia. }
  rewrite Hnum'.
  destruct Hcase as [[H1 [H2 H3]]|[H1 H2]].
  - assert (Hn : num = length h) by lia.
    destruct (S widx =? cap) eqn:E.
    + apply Nat.eqb_eq in E. right. split; [lia|].
      cbn [skipn firstn]. rewrite app_nil_r. rewrite <- E.
      rewrite firstn_S_set_nth by lia. rewrite H2, <- Hn, H3.
      rewrite lastn_all; [reflexivity|]. rewrite app_length. cbn. lia.
    + apply Nat.eqb_neq in E. left. split; [lia|]. split; [lia|].
      replace (Nat.min (length h + 1) cap) with (S widx) by lia.
      rewrite firstn_S_set_nth by lia. rewrite H2, <- Hn, H3. reflexivity.
  - right. split; [lia|]. rewrite lastn_app_one by lia. rewrite <- H2.
    destruct (S widx =? cap) eqn:E.
    + apply Nat.eqb_eq in E. cbn [firstn]. rewrite app_nil_r. rewrite <- E.
      cbn [skipn]. rewrite firstn_S_set_nth by lia.
      rewrite skipn_firstn_comm.
      replace (S widx - widx) with 1 by lia.
      destruct (skipn widx arr) as [|a rest] eqn:Es.
      { exfalso. apply (f_equal (@length A)) in Es. rewrite skipn_length in Es. cbn in Es. lia. }
      cbn. reflexivity.
    + apply Nat.eqb_neq in E.
      rewrite firstn_S_set_nth by lia.
      rewrite app_assoc. f_equal.
      rewrite skipn_firstn_comm, skipn_set_nth_gt by lia.
      rewrite skipn_firstn_comm.
      replace (cap - widx) with (S (cap - S widx)) by lia.
      destruct (skipn widx arr) as [|a rest] eqn:Es.
      { exfalso. apply (f_equal (@length A)) in Es. rewrite skipn_length in Es. cbn in Es. lia. }
      cbn [firstn]. rewrite <- app_comm_cons. cbn [tl]. f_equal.
      rewrite <- tl_skipn, Es. reflexivity.
Qed.

(** The live slots hold exactly the last [cap] samples. *)
Lemma ring_inv_perm : forall A cap (arr : list A) num widx h,
  ring_inv cap arr num widx h -> Permutation (firstn num arr) (lastn cap h).
Proof.
  intros A cap arr num widx h [[Hc1 Hc2] [Hnum [Hw [[H1 [H2 H3]]|[H1 H2]]]]].
  - rewrite H3, lastn_all by lia. reflexivity.
  - rewrite <- H2. replace num with cap by lia.
    rewrite <- (firstn_skipn widx (firstn cap arr)) at 1.
    rewrite firstn_firstn. replace (Nat.min widx cap) with widx by lia.
    apply Permutation_app_comm.
Qed.

(** When full, the slot about to be overwritten holds the oldest of the window. *)
Lemma ring_inv_oldest : forall A cap (arr : list A) num widx h,
  ring_inv cap arr num widx h -> num = cap -> 
  exists o rest, nth_error arr widx = Some o /\ lastn cap h = o :: rest.
Proof.
  intros A cap arr num widx h [[Hc1 Hc2] [Hnum [Hw [[H1 [H2 H3]]|[H1 H2]]]]] Hfull; [lia|].
  destruct (nth_error arr widx) as [o|] eqn:En; [|apply nth_error_None in En; lia].
  exists o. destruct (lastn cap h) as [|y rest] eqn:El.
  { apply (f_equal (@length A)) in El. rewrite lastn_length in El. cbn in El. lia. }
  exists rest. split; [reflexivity|]. f_equal.
  apply nth_error_split in En as [l1 [l2 [E1 E2]]]. subst arr.
  rewrite skipn_firstn_comm in H2. rewrite skipn_app, <- E2 in H2.
  rewrite skipn_all in H2.
  rewrite Nat.sub_diag in H2. cbn [skipn app] in H2.
  replace (cap - length l1) with (S (cap - S (length l1))) in H2 by lia.
  cbn [firstn] in H2. rewrite <- app_comm_cons in H2. congruence.
Qed.

Lemma NoDup_app_one : forall A (l : list A) x, NoDup l -> ~ In x l -> NoDup (l ++ [x]).
Proof.
  intros A l x H Hx. induction l as [|y l IH]; cbn; [repeat constructor; intros []|].
  inversion H; subst. constructor.
  - intros Hy. apply in_app_or in Hy as [Hy|[->|[]]]; [contradiction|]. apply Hx. left. reflexivity.
  - apply IH; [assumption|]. intros Hy. apply Hx. right. assumption.
Qed.
