(** Proofs about database tables. *)
Require Import ZArith Lia List Bool Arith Permutation Sorted.
Require Import ZifyBool.
Require Import Verif.Base Verif.ListLib Verif.DbSpec Verif.DbModel.
Import ListNotations.
Open Scope Z_scope.

Lemma mapM_ext_some : forall A B (f : A -> option B) g l, (forall x, In x l -> f x = Some (g x)) ->
  mapM f l = Some (map g l).
Proof.
  induction l as [|x l IH]; intros H; cbn; [reflexivity|].
  rewrite (H x) by (left; reflexivity). cbn. rewrite IH by (intros; apply H; right; assumption). reflexivity.
Qed.

Lemma mapM_map : forall A B C (f : B -> option C) (g : A -> B) h l,
  (forall x, In x l -> f (g x) = Some (h x)) -> mapM f (map g l) = Some (map h l).
Proof.
  induction l as [|x l IH]; intros H; cbn; [reflexivity|].
  rewrite (H x) by (left; reflexivity). cbn. rewrite IH by (intros; apply H; right; assumption). reflexivity.
Qed.

Lemma filter_perm : forall A (p : A -> bool) l l', Permutation l l' -> Permutation (filter p l) (filter p l').
Proof.
  intros A p l l' H. induction H; cbn.
  - constructor.
  - destruct (p x); [constructor|]; assumption.
  - destruct (p x), (p y); try apply Permutation_refl; try apply perm_swap.
  - eapply perm_trans; eassumption.
Qed.

Lemma filter_map_comm : forall A B (f : A -> B) p l, filter p (map f l) = map f (filter (fun x => p (f x)) l).
Proof.
  induction l as [|x l IH]; cbn; [reflexivity|]. destruct (p (f x)); cbn; rewrite IH; reflexivity.
Qed.

Lemma filter_filter : forall A (p q : A -> bool) l, filter p (filter q l) = filter (fun x => q x && p x) l.
Proof.
  induction l as [|x l IH]; cbn; [reflexivity|]. destruct (q x); cbn; [destruct (p x); rewrite IH; reflexivity|assumption].
Qed.

Section G.
Context {R : Type}.

Lemma check_matches_selected : forall (sel : selection R) r, check_matches (s_where sel) r = selected sel r.
Proof.
  intros sel r. unfold selected. induction (s_where sel) as [|f l IH]; cbn; [reflexivity|].
  destruct (f_match f r), (f_invert f); cbn; auto.
Qed.

(** *** Sort keys *)
Lemma compare_keys_sgn : forall keys, Forall (@consistent R) keys -> forall x y,
  Z.sgn (compare_keys keys x y) = - Z.sgn (compare_keys keys y x).
Proof.
  induction keys as [|c ks IH]; intros H x y; cbn; [reflexivity|].
  inversion H as [|? ? [Hs _] Hk]; subst. pose proof (Hs x y) as Hxy.
  destruct (c x y =? 0) eqn:E1, (c y x =? 0) eqn:E2; try lia. apply IH. assumption.
Qed.

Lemma compare_keys_trans : forall keys, Forall (@consistent R) keys -> forall x y z,
  compare_keys keys x y <= 0 -> compare_keys keys y z <= 0 -> compare_keys keys x z <= 0.
Proof.
  induction keys as [|c ks IH]; intros H x y z; cbn; [lia|].
  inversion H as [|? ? [Hs Ht] Hk]; subst.
  pose proof (Hs x y). pose proof (Hs y z). pose proof (Hs x z). pose proof (Ht x y z).
  pose proof (Ht y z x). pose proof (Ht z x y). pose proof (IH Hk x y z). pose proof (Ht z y x). pose proof (Ht y x z).
  pose proof (Ht x z y).
  destruct (c x y =? 0) eqn:E1, (c y z =? 0) eqn:E2, (c x z =? 0) eqn:E3; lia.
Qed.

Lemma compare_keys_consistent : forall keys, Forall (@consistent R) keys -> consistent (compare_keys keys).
Proof.
  intros keys H. split; [apply compare_keys_sgn|apply compare_keys_trans]; assumption.
Qed.

Lemma compare_keys_order : forall keys (x y : R), compare_keys keys x y <= 0 -> in_order keys x y.
Proof.
  induction keys as [|c ks IH]; intros x y H; cbn in *; [exact I|].
  destruct (c x y =? 0) eqn:E; [right; split; [lia|apply IH; assumption]|left; lia].
Qed.

Lemma sorted_nil_keys : forall l : list R, StronglySorted (in_order []) l.
Proof.
  induction l; constructor; auto. apply Forall_forall. intros. exact I.
Qed.

(** *** What a store must provide *)
Record store_ok {S} (ops : store_ops R S) (rep : S -> list (nat * R) -> Prop) : Prop := mkOk {
  ok_nodup : forall s l, rep s l -> NoDup (map fst l);
  ok_insert : forall s l mem r, rep s l -> ~ In mem (map fst l) ->
    exists s' n l', so_insert ops s mem r = Some (s', n) /\ ~ In n (map fst l) /\
      rep s' l' /\ Permutation ((n, r) :: l) l';
  ok_delete : forall s l n, rep s l -> In n (map fst l) ->
    exists s' l', so_delete ops s n = Some s' /\ rep s' l' /\
      Permutation (filter (fun p => negb (Nat.eqb (fst p) n)) l) l';
  ok_foreach : forall s l, rep s l -> so_foreach ops s = Some (map fst l);
  ok_find : forall s l p, rep s l ->
    so_find ops s p = Some (option_map fst (find (fun x => p (snd x)) l));
  ok_get : forall s l n r, rep s l -> In (n, r) l -> so_get ops s n = Some r;
  ok_put : forall s l n r, rep s l -> In n (map fst l) ->
    exists s', so_put ops s n r = Some s' /\
      rep s' (map (fun p => if Nat.eqb (fst p) n then (n, r) else p) l);
  ok_free : forall s, rep s [] -> so_free ops s = Some tt }.

Context {S : Type} (ops : store_ops R S) (rep : S -> list (nat * R) -> Prop) (K : store_ok ops rep).
Context (sort : sort_key R -> list R -> list R) (Hsort : qsort_ok sort).

Definition sim (s : S) (a : live R) : Prop := exists l, rep s l /\ Permutation l a.

Lemma all_records_rep : forall s l, rep s l -> all_records ops s = Some (map snd l).
Proof.
  intros s l H. unfold all_records. rewrite (ok_foreach _ _ K s l H). cbn [bind].
  apply mapM_map. intros [n r] Hin. cbn. eapply (ok_get _ _ K); eassumption.
Qed.

Lemma count_matching_rep : forall s l sel, rep s l ->
  count_matching ops s sel = Some (length (filter (fun p => selected sel (snd p)) l)).
Proof.
  intros s l sel H. unfold count_matching. rewrite (all_records_rep s l H). cbn [bind]. f_equal.
  rewrite filter_map_comm, map_length. f_equal. apply filter_ext. intros. apply check_matches_selected.
Qed.

Lemma build_legal : forall sel : selection R, legal_sel sel -> build_selection sel = Some sel.
Proof.
  intros sel [A [B _]]. unfold build_selection, MAX_FIELDS.
  apply Nat.leb_le in A. apply Nat.leb_le in B. rewrite A, B. reflexivity.
Qed.

Lemma bounded_all : forall A n (l : list A), (length l <= n)%nat -> bounded n l = Some l.
Proof. intros A n l H. unfold bounded. apply Nat.leb_le in H. rewrite H. reflexivity. Qed.

Lemma query_refs_rep : forall s l sel, rep s l -> s_order sel = [] ->
  query_refs ops s sel = Some (map fst (filter (fun p => selected sel (snd p)) l)).
Proof.
  intros s l sel H Ho. unfold query_refs. rewrite (count_matching_rep s l sel H). cbn [bind].
  rewrite (ok_foreach _ _ K s l H). cbn [bind].
  rewrite (mapM_map _ _ _ _ fst (fun x => x) l).
  2:{ intros [n r] Hin. cbn [fst]. rewrite (ok_get _ _ K s l n r H Hin). reflexivity. }
  rewrite map_id. cbn [bind].
  rewrite (filter_ext (fun p : nat * R => check_matches (s_where sel) (snd p)) (fun p => selected sel (snd p)))
    by (intros; apply check_matches_selected).
  rewrite bounded_all by lia. cbn [bind]. rewrite Ho. reflexivity.
Qed.

Definition mem_nat (n : nat) (l : list nat) : bool := existsb (Nat.eqb n) l.
Lemma mem_nat_in : forall n l, mem_nat n l = true <-> In n l.
Proof.
  intros n l. unfold mem_nat. rewrite existsb_exists. split.
  - intros [x [H E]]. apply Nat.eqb_eq in E. congruence.
  - intros H. exists n. split; [assumption|apply Nat.eqb_refl].
Qed.

Lemma delete_refs_rep : forall refs s l, rep s l -> NoDup refs -> (forall n, In n refs -> In n (map fst l)) ->
  exists s' l', delete_refs ops s refs = Some s' /\ rep s' l' /\
    Permutation (filter (fun p => negb (mem_nat (fst p) refs)) l) l'.
Proof.
  induction refs as [|n refs IH]; intros s l H Hnd Hin.
  - exists s, l. split; [reflexivity|]. split; [assumption|].
    cbn. induction l as [|x l IHl] in |- *; cbn; [constructor|constructor; assumption].
  - inversion Hnd as [|? ? Hn Hnd']; subst.
    destruct (ok_delete _ _ K s l n H (Hin n (or_introl eq_refl))) as [s1 [l1 [E1 [H1 P1]]]].
    destruct (IH s1 l1 H1 Hnd') as [s2 [l2 [E2 [H2 P2]]]].
    + intros m Hm. assert (Hm' : In m (map fst l)) by (apply Hin; right; assumption).
      apply in_map_iff in Hm' as [p [Ep Hp]]. apply in_map_iff. exists p. split; [assumption|].
      apply (Permutation_in _ P1). apply filter_In. split; [assumption|].
      apply negb_true_iff, Nat.eqb_neq. intros Eq. apply Hn. congruence.
    + exists s2, l2. cbn [delete_refs]. rewrite E1. cbn [bind]. split; [assumption|]. split; [assumption|].
      eapply perm_trans; [|exact P2]. eapply perm_trans; [|apply filter_perm; exact P1].
      rewrite filter_filter. erewrite filter_ext; [apply Permutation_refl|]. intros p. unfold mem_nat. cbn [existsb].
      rewrite negb_orb. reflexivity.
Qed.

Lemma nodup_fst_filter : forall (l : list (nat * R)) p, NoDup (map fst l) -> NoDup (map fst (filter p l)).
Proof.
  induction l as [|x l IH]; intros p H; cbn; [constructor|].
  cbn in H. inversion H; subst. destruct (p x); [|auto]. cbn. constructor; [|auto].
  intros Hin. apply in_map_iff in Hin as [y [E Hy]]. apply filter_In in Hy as [Hy _].
  apply H2. rewrite <- E. apply in_map. assumption.
Qed.

Lemma fst_inj : forall (l : list (nat * R)) n x y, NoDup (map fst l) -> In (n, x) l -> In (n, y) l -> x = y.
Proof.
  induction l as [|[m z] l IH]; intros n x y Hn Hx Hy; [contradiction|].
  cbn in Hn. inversion Hn as [|? ? Hz Hn']; subst.
  destruct Hx as [Hx|Hx], Hy as [Hy|Hy].
  - congruence.
  - injection Hx as -> ->. exfalso. apply Hz. apply in_map_iff. exists (n, y). auto.
  - injection Hy as -> ->. exfalso. apply Hz. apply in_map_iff. exists (n, x). auto.
  - eapply IH; eassumption.
Qed.

Lemma table_delete_rep : forall s l sel, rep s l -> legal_sel sel -> s_order sel = [] ->
  exists s' l', table_delete ops s sel = Some s' /\ rep s' l' /\
    Permutation (filter (fun p => negb (selected sel (snd p))) l) l'.
Proof.
  intros s l sel H Hl Ho. unfold table_delete. rewrite build_legal by assumption. cbn [bind].
  rewrite (query_refs_rep s l sel H Ho). cbn [bind].
  pose proof (ok_nodup _ _ K s l H) as Hnd.
  destruct (delete_refs_rep (map fst (filter (fun p => selected sel (snd p)) l)) s l H) as [s' [l' [E [H' P]]]].
  - apply nodup_fst_filter. assumption.
  - intros n Hn. apply in_map_iff in Hn as [p [E Hp]]. apply filter_In in Hp as [Hp _].
    apply in_map_iff. eauto.
  - exists s', l'. split; [assumption|]. split; [assumption|].
    eapply perm_trans; [|exact P]. erewrite filter_ext_in; [apply Permutation_refl|].
    intros [n r] Hin. cbn [fst snd]. f_equal. apply eq_true_iff_eq. rewrite mem_nat_in, in_map_iff. split.
    + intros Hs. exists (n, r). split; [reflexivity|]. apply filter_In. auto.
    + intros [[m z] [Em Hz]]. cbn in Em. subst m. apply filter_In in Hz as [Hz Hs]. cbn in Hs.
      rewrite (fst_inj l n r z Hnd Hin Hz). assumption.
Qed.

Theorem step_ok : forall s a op, sim s a -> legal a op ->
  exists s' res, step ops sort s op = Some (s', res) /\ ok a op res /\ sim s' (after a op res).
Proof.
  intros s a op [l [H P]] Hl.
  assert (Pk : Permutation (map fst l) (map fst a)) by (apply Permutation_map; assumption).
  destruct op as [mem r|sel|sel|sel|sel|n|n r]; cbn [legal] in Hl; cbn [step].
  - destruct (ok_insert _ _ K s l mem r H) as [s' [n [l' [E [Hn [H' P']]]]]].
    { intros Hin. apply Hl. eapply Permutation_in; eassumption. }
    rewrite E. cbn [bind fst snd]. exists s', (Ref n). split; [reflexivity|]. split.
    + cbn. intros Hin. apply Hn. eapply Permutation_in; [apply Permutation_sym; exact Pk|assumption].
    + exists l'. split; [assumption|]. cbn. eapply perm_trans; [apply Permutation_sym; exact P'|].
      constructor. assumption.
  - destruct Hl as [Hl Ho]. destruct (table_delete_rep s l sel H Hl Ho) as [s' [l' [E [H' P']]]].
    rewrite E. cbn [bind]. exists s', Ok. split; [reflexivity|]. split; [exact I|].
    exists l'. split; [assumption|]. cbn. eapply perm_trans; [apply Permutation_sym; exact P'|].
    apply filter_perm. assumption.
  - rewrite build_legal by assumption. cbn [bind]. rewrite (ok_find _ _ K s l _ H). cbn [bind].
    eexists _, _. split; [reflexivity|]. split; [|exists l; auto].
    destruct (find _ l) as [[n r]|] eqn:Ef; cbn.
    + apply find_some in Ef as [Hin Hs]. exists r. split; [eapply Permutation_in; eassumption|].
      cbn in Hs. rewrite check_matches_selected in Hs. assumption.
    + intros n r Hin. rewrite <- check_matches_selected.
      apply (find_none _ _ Ef (n, r)). eapply Permutation_in; [apply Permutation_sym; exact P|assumption].
  - unfold table_count. rewrite build_legal by assumption. cbn [bind].
    rewrite (count_matching_rep s l sel H). cbn [bind]. eexists _, _. split; [reflexivity|].
    split; [|exists l; auto]. cbn. apply Permutation_length, filter_perm. assumption.
  - unfold table_query. rewrite build_legal by assumption. cbn [bind].
    rewrite (count_matching_rep s l sel H). cbn [bind]. rewrite (all_records_rep s l H). cbn [bind].
    rewrite filter_map_comm.
    rewrite (filter_ext (fun p : nat * R => check_matches (s_where sel) (snd p)) (fun p => selected sel (snd p)))
      by (intros; apply check_matches_selected).
    rewrite bounded_all by (rewrite map_length; lia). cbn [bind].
    eexists _, _. split; [reflexivity|]. split; [|exists l; auto].
    set (m := map snd (filter (fun p => selected sel (snd p)) l)).
    assert (Pm : Permutation (map snd (filter (fun p => selected sel (snd p)) a)) m).
    { apply Permutation_map, filter_perm, Permutation_sym. assumption. }
    cbn [ok]. destruct Hl as [_ [_ Hk]]. destruct (s_order sel) as [|c ks] eqn:Eo.
    + split; [assumption|apply sorted_nil_keys].
    + destruct (Hsort (compare_keys (c :: ks)) m (compare_keys_consistent _ Hk)) as [P2 S2].
      split; [eapply perm_trans; eassumption|].
      clear - S2. induction S2; constructor; auto.
      eapply Forall_impl; [|eassumption]. intros. apply compare_keys_order. assumption.
  - apply in_map_iff in Hl as [[m r] [Em Hin]]. cbn in Em. subst m.
    rewrite (ok_get _ _ K s l n r H). 2:{ eapply Permutation_in; [apply Permutation_sym; exact P|assumption]. }
    cbn [bind]. eexists _, _. split; [reflexivity|]. split; [assumption|exists l; auto].
  - destruct (ok_put _ _ K s l n r H) as [s' [E H']].
    { eapply Permutation_in; [apply Permutation_sym; exact Pk|assumption]. }
    rewrite E. cbn [bind]. eexists _, _. split; [reflexivity|]. split; [exact I|].
    eexists. split; [exact H'|]. cbn. apply Permutation_map. assumption.
Qed.

Lemma reach_sim : forall init s a, rep init [] -> reach ops sort init s a -> sim s a.
Proof.
  intros init s a H0 H. induction H as [|s a op s' res Hr IH Hl Hs].
  - exists []. auto.
  - destruct (step_ok s a op IH Hl) as [s1 [r1 [E [_ S1]]]]. rewrite Hs in E. injection E as <- <-. assumption.
Qed.

Theorem reach_ok : forall init, rep init [] -> forall s a op, reach ops sort init s a -> legal a op ->
  exists s' res, step ops sort s op = Some (s', res) /\ ok a op res.
Proof.
  intros init H0 s a op H Hl. destruct (step_ok s a op (reach_sim _ _ _ H0 H) Hl) as [s' [res [A [B _]]]]. eauto.
Qed.

Lemma filter_false : forall A (l : list A), filter (fun _ => false) l = [].
Proof. induction l; cbn; auto. Qed.

Theorem reach_free : forall init, rep init [] -> forall s a, reach ops sort init s a -> table_free ops s = Some tt.
Proof.
  intros init H0 s a H. destruct (reach_sim _ _ _ H0 H) as [l [Hr _]].
  unfold table_free.
  destruct (table_delete_rep s l (mkSel [] []) Hr) as [s' [l' [E [H' P]]]].
  - split; [cbn; lia|split; [cbn; lia|constructor]].
  - reflexivity.
  - rewrite E. cbn [bind]. apply (ok_free _ _ K).
    replace (filter _ l) with (@nil (nat * R)) in P by (symmetry; apply filter_false).
    apply Permutation_nil in P. subst. assumption.
Qed.
End G.

(** *** The linked list *)
Section LL.
Context {R : Type}.
Definition ll_rep (s : llist R) (l : list (nat * R)) : Prop := s = l /\ NoDup (map fst l).

Lemma ll_delete_spec : forall (l : llist R) n, NoDup (map fst l) -> In n (map fst l) ->
  ll_delete l n = Some (filter (fun p => negb (Nat.eqb (fst p) n)) l).
Proof.
  induction l as [|[a r] l IH]; intros n Hnd Hin; [contradiction|].
  cbn in *. inversion Hnd as [|? ? Ha Hnd']; subst. destruct (Nat.eqb a n) eqn:E.
  - apply Nat.eqb_eq in E. subst a. cbn. f_equal. symmetry. clear - Ha.
    induction l as [|[b x] l IH]; cbn in *; [reflexivity|].
    destruct (Nat.eqb b n) eqn:E.
    + apply Nat.eqb_eq in E. tauto.
    + cbn. rewrite IH by tauto. reflexivity.
  - apply Nat.eqb_neq in E. destruct Hin as [Hin|Hin]; [contradiction|].
    rewrite IH by assumption. reflexivity.
Qed.

Lemma ll_put_spec : forall (l : llist R) n r, NoDup (map fst l) -> In n (map fst l) ->
  ll_put l n r = Some (map (fun p => if Nat.eqb (fst p) n then (n, r) else p) l).
Proof.
  induction l as [|[a x] l IH]; intros n r Hnd Hin; [contradiction|].
  cbn in *. inversion Hnd as [|? ? Ha Hnd']; subst. destruct (Nat.eqb a n) eqn:E.
  - apply Nat.eqb_eq in E. subst a. do 2 f_equal. clear - Ha.
    induction l as [|[b y] l IH]; cbn in *; [reflexivity|].
    destruct (Nat.eqb b n) eqn:E; [apply Nat.eqb_eq in E; tauto|]. f_equal. apply IH. tauto.
  - apply Nat.eqb_neq in E. destruct Hin as [Hin|Hin]; [contradiction|].
    rewrite IH by assumption. reflexivity.
Qed.

Lemma put_keys : forall (l : list (nat * R)) n r,
  map fst (map (fun p => if Nat.eqb (fst p) n then (n, r) else p) l) = map fst l.
Proof.
  induction l as [|[a x] l IH]; intros n r; cbn; [reflexivity|].
  rewrite IH. destruct (Nat.eqb a n) eqn:E; cbn; [apply Nat.eqb_eq in E; congruence|reflexivity].
Qed.

Theorem ll_ok : store_ok (@linked_list_ops R) ll_rep.
Proof.
  constructor; cbn.
  - intros s l [_ H]. assumption.
  - intros s l mem r [-> H] Hm. exists ((mem, r) :: l), mem, ((mem, r) :: l).
    split; [reflexivity|]. split; [assumption|]. split; [|reflexivity].
    split; [reflexivity|]. cbn. constructor; assumption.
  - intros s l n [-> H] Hin. rewrite (ll_delete_spec l n H Hin). eexists _, _. split; [reflexivity|].
    split; [|apply Permutation_refl]. split; [reflexivity|]. apply nodup_fst_filter. assumption.
  - intros s l [-> _]. reflexivity.
  - intros s l p [-> _]. induction l as [|[a r] l IH]; cbn; [reflexivity|]. destruct (p r); [reflexivity|assumption].
  - intros s l n r [-> H] Hin. induction l as [|[a x] l IH]; [contradiction|].
    cbn in *. inversion H as [|? ? Ha H']; subst. destruct Hin as [E|Hin].
    + injection E as -> ->. rewrite Nat.eqb_refl. reflexivity.
    + destruct (Nat.eqb a n) eqn:E; [|auto]. apply Nat.eqb_eq in E. subst a. exfalso. apply Ha.
      apply in_map_iff. exists (n, r). auto.
  - intros s l n r [-> H] Hin. rewrite (ll_put_spec l n r H Hin). eexists. split; [reflexivity|].
    split; [reflexivity|]. rewrite put_keys. assumption.
  - intros s [-> _]. reflexivity.
Qed.
End LL.

(** *** The array *)
Section AR.
Context {R : Type}.
Implicit Types ar : array R.

Definition elements (data : list (slot R)) (hwm : nat) : list (nat * R) :=
  map (fun p => (fst p, sl_rec (snd p)))
      (filter (fun p => sl_pop (snd p)) (combine (seq 0 hwm) (firstn hwm data))).

(** the chain of freed elements *)
Fixpoint chain (data : list (slot R)) (first : nat) (l : list nat) : Prop :=
  match l with
  | [] => True
  | x :: rest => first = x /\ exists s, nth_error data x = Some s /\ chain data (sl_next s) rest
  end.

Definition ar_inv ar : Prop :=
  (0 < a_cap ar)%nat /\ length (a_data ar) = a_cap ar /\ (a_hwm ar <= a_cap ar)%nat /\
  (forall i s, (i < a_hwm ar)%nat -> nth_error (a_data ar) i = Some s -> sl_magic s = true) /\
  length (elements (a_data ar) (a_hwm ar)) = a_count ar /\
  exists free, chain (a_data ar) (a_first ar) free /\ NoDup free /\
    (length free + a_count ar = a_hwm ar)%nat /\
    (forall i, In i free <-> (i < a_hwm ar)%nat /\ exists s, nth_error (a_data ar) i = Some s /\ sl_pop s = false).

Definition ar_rep ar (l : list (nat * R)) : Prop := ar_inv ar /\ l = elements (a_data ar) (a_hwm ar).

Lemma combine_seq_nth : forall A (d : list A) n i x, (n <= length d)%nat ->
  (In (i, x) (combine (seq 0 n) (firstn n d)) <-> (i < n)%nat /\ nth_error d i = Some x).
Proof.
  intros A d n i x. 
  assert (G : forall d o n, (n <= length d)%nat ->
    (In (i, x) (combine (seq o n) (firstn n d)) <-> (o <= i < o + n)%nat /\ nth_error d (i - o) = Some x)).
  { clear d n. induction d as [|y d IH]; intros o n Hn.
    - cbn in Hn. assert (n = 0%nat) by lia. subst. cbn. split; [tauto|]. intros [? _]. lia.
    - destruct n as [|n]; cbn [seq firstn combine In].
      + split; [tauto|]. intros [? _]. lia.
      + cbn in Hn. rewrite IH by lia. split.
        * intros [E|[A0 B]].
          -- injection E as -> ->. split; [lia|]. rewrite Nat.sub_diag. reflexivity.
          -- split; [lia|]. replace (i - o)%nat with (S (i - S o)) by lia. assumption.
        * intros [A0 B]. destruct (Nat.eq_dec i o) as [->|Hio].
          -- left. rewrite Nat.sub_diag in B. cbn in B. congruence.
          -- right. split; [lia|]. replace (i - o)%nat with (S (i - S o)) in B by lia. assumption. }
  intros Hn. rewrite (G d 0%nat n Hn). rewrite Nat.sub_0_r. intuition lia.
Qed.

Lemma in_elements : forall d hwm i (r : R), (hwm <= length d)%nat ->
  (In (i, r) (elements d hwm) <->
   (i < hwm)%nat /\ exists s, nth_error d i = Some s /\ sl_pop s = true /\ sl_rec s = r).
Proof.
  intros d hwm i r Hl. unfold elements. rewrite in_map_iff. split.
  - intros [[j s] [E Hin]]. cbn in E. injection E as -> <-. apply filter_In in Hin as [Hin Hp].
    apply combine_seq_nth in Hin as [A B]; [|assumption]. eauto 6.
  - intros [Hi [s [Hs [Hp <-]]]]. exists (i, s). split; [reflexivity|]. apply filter_In. split; [|assumption].
    apply combine_seq_nth; auto.
Qed.

Lemma elements_nodup : forall d hwm, NoDup (map fst (elements d hwm)).
Proof.
  intros d hwm. unfold elements. rewrite map_map. cbn.
  assert (H : NoDup (map fst (combine (seq 0 hwm) (firstn hwm d)))).
  { generalize 0%nat. generalize (firstn hwm d). clear d. intros d o. revert d o.
    induction hwm as [|n IH]; intros d o; [constructor|].
    destruct d as [|x d]; [constructor|]. cbn [seq combine map fst]. constructor; [|apply IH].
    intros Hin. apply in_map_iff in Hin as [[a b] [E Hin]]. cbn in E. subst a.
    apply in_combine_l, in_seq in Hin. lia. }
  revert H. generalize (combine (seq 0 hwm) (firstn hwm d)). intros l H.
  rewrite <- (map_map (fun x => x) fst), map_id.
  revert H. induction l as [|x l IH]; intros H; cbn; [constructor|].
  cbn in H. inversion H; subst. destruct (sl_pop (snd x)); [|auto]. cbn. constructor; [|auto].
  intros Hin. apply in_map_iff in Hin as [y [E Hy]]. apply filter_In in Hy as [Hy _].
  apply H2. rewrite <- E. apply in_map. assumption.
Qed.

Lemma elements_ext_nodup : forall l : list (nat * R), NoDup (map fst l) -> NoDup l.
Proof. intros l H. eapply NoDup_map_inv. eassumption. Qed.

(** Two lists with the same elements and no duplicates are permutations. *)
Lemma elements_perm : forall l l' : list (nat * R), NoDup (map fst l) -> NoDup (map fst l') ->
  (forall i r, In (i, r) l <-> In (i, r) l') -> Permutation l l'.
Proof.
  intros l l' H H' E. apply NoDup_Permutation; try (apply elements_ext_nodup; assumption).
  intros [i r]. apply E.
Qed.

Lemma header_some : forall ar i s, ar_inv ar -> (i < a_hwm ar)%nat -> nth_error (a_data ar) i = Some s ->
  header ar i = Some s.
Proof.
  intros ar i s [_ [_ [_ [Hm _]]]] Hi Hs. unfold header. apply Nat.ltb_lt in Hi as Hi'. rewrite Hi', Hs. cbn.
  rewrite (Hm i s Hi Hs). reflexivity.
Qed.

Lemma nth_some : forall ar i, ar_inv ar -> (i < a_hwm ar)%nat -> exists s, nth_error (a_data ar) i = Some s.
Proof.
  intros ar i [_ [Hl [Hh _]]] Hi. destruct (nth_error (a_data ar) i) eqn:E; [eauto|].
  apply nth_error_None in E. lia.
Qed.

(** The chain is unaffected by changes elsewhere. *)
Lemma chain_set : forall data i s l first, ~ In i l -> chain data first l -> chain (set_nth i s data) first l.
Proof.
  intros data i s l. induction l as [|x l IH]; intros first Hi H; [exact I|].
  cbn in *. destruct H as [-> [t [Ht Hc]]]. split; [reflexivity|]. exists t.
  rewrite nth_error_set_nth_other by (intros E; apply Hi; left; congruence). split; [assumption|]. apply IH; tauto.
Qed.

Lemma chain_app : forall data more l first, (forall x, In x l -> (x < length data)%nat) ->
  chain data first l -> chain (data ++ more) first l.
Proof.
  intros data more l. induction l as [|x l IH]; intros first Hi H; [exact I|].
  cbn in *. destruct H as [-> [t [Ht Hc]]]. split; [reflexivity|]. exists t.
  rewrite nth_error_app1 by (apply Hi; auto). split; [assumption|]. apply IH; auto.
Qed.

Lemma find_from_spec : forall ar p, ar_inv ar -> forall n,  (n <= a_hwm ar)%nat -> 
  forall o, (o + n = a_hwm ar)%nat ->
  ar_find_from ar p (seq o n) =
  Some (option_map fst (find (fun x => p (snd x))
    (map (fun q => (fst q, sl_rec (snd q)))
      (filter (fun q => sl_pop (snd q)) (combine (seq o n) (firstn n (skipn o (a_data ar)))))))).
Proof.
  intros ar p Hinv. induction n as [|n IH]; intros Hn o Ho; [reflexivity|].
  cbn [seq ar_find_from].
  destruct (nth_some ar o Hinv ltac:(lia)) as [s Hs].
  rewrite (header_some ar o s Hinv ltac:(lia) Hs). cbn [bind].
  assert (Esk : skipn o (a_data ar) = s :: skipn (S o) (a_data ar)).
  { clear - Hs. revert o Hs. generalize (a_data ar). induction l as [|x l IH]; intros [|o] H; cbn in *; try discriminate; [congruence|].
    rewrite (IH _ H). destruct l; reflexivity. }
  rewrite Esk. cbn [firstn combine filter snd fst].
  rewrite (IH ltac:(lia) (S o) ltac:(lia)).
  destruct (sl_pop s); cbn [andb map find snd fst]; [destruct (p (sl_rec s)); reflexivity|reflexivity].
Qed.

Lemma foreach_spec : forall ar, ar_inv ar -> ar_foreach ar = Some (map fst (elements (a_data ar) (a_hwm ar))).
Proof.
  intros ar Hinv. pose proof Hinv as [Hc [Hl [Hh [Hm [Hcount _]]]]].
  unfold ar_foreach. apply Nat.leb_le in Hh as Hh'. rewrite Hh'. cbn [negb].
  assert (E : mapM (header ar) (seq 0 (a_hwm ar)) = Some (firstn (a_hwm ar) (a_data ar))).
  { assert (G : forall n o, (o + n = a_hwm ar)%nat -> mapM (header ar) (seq o n) = Some (firstn n (skipn o (a_data ar)))).
    { induction n as [|n IH]; intros o Ho; [reflexivity|]. cbn [seq mapM].
      destruct (nth_some ar o Hinv ltac:(lia)) as [s Hs].
      rewrite (header_some ar o s Hinv ltac:(lia) Hs). cbn [bind]. rewrite IH by lia. cbn [bind].
      assert (Esk : skipn o (a_data ar) = s :: skipn (S o) (a_data ar)).
      { clear - Hs. revert o Hs. generalize (a_data ar). induction l as [|x l IH]; intros [|o] H; cbn in *; try discriminate; [congruence|].
        rewrite (IH _ H). destruct l; reflexivity. }
      rewrite Esk. reflexivity. }
    rewrite (G _ 0%nat) by lia. reflexivity. }
  rewrite E. cbn [bind].
  assert (Ek : map fst (filter (fun p => sl_pop (snd p)) (combine (seq 0 (a_hwm ar)) (firstn (a_hwm ar) (a_data ar)))) =
               map fst (elements (a_data ar) (a_hwm ar))).
  { unfold elements. rewrite map_map. reflexivity. }
  rewrite Ek, map_length, Hcount, Nat.eqb_refl. reflexivity.
Qed.

(** Reassembling the invariant from the set of populated elements. *)
Lemma mk_count : forall (d : list (slot R)) hwm free, (hwm <= length d)%nat -> NoDup free ->
  (forall i, In i free <-> (i < hwm)%nat /\ exists s, nth_error d i = Some s /\ sl_pop s = false) ->
  (length free + length (elements d hwm) = hwm)%nat.
Proof.
  intros d hwm free Hl Hnd Hf.
  assert (P : Permutation (free ++ map fst (elements d hwm)) (seq 0 hwm)).
  { apply NoDup_Permutation.
    - clear - Hnd Hf Hl. assert (D : forall x, In x free -> ~ In x (map fst (elements d hwm))).
      { intros x Hx Hin. apply Hf in Hx as [_ [s [Hs Hp]]]. apply in_map_iff in Hin as [[j r] [E Hin]].
        cbn in E. subst j. apply in_elements in Hin as [_ [s' [Hs' [Hp' _]]]]; [|assumption]. congruence. }
      clear Hf. induction free as [|x free IH]; cbn; [apply elements_nodup|].
      inversion Hnd; subst. constructor.
      + intros Hin. apply in_app_or in Hin as [Hin|Hin]; [contradiction|]. apply (D x); [left; reflexivity|assumption].
      + apply IH; [assumption|]. intros y Hy. apply D. right. assumption.
    - apply seq_NoDup.
    - intros x. rewrite in_app_iff, in_seq. split.
      + intros [Hx|Hx].
        * apply Hf in Hx. lia.
        * apply in_map_iff in Hx as [[j r] [E Hin]]. cbn in E. subst j. apply in_elements in Hin as [Hin _]; [lia|assumption].
      + intros Hx. destruct (nth_error d x) as [s|] eqn:Es; [|apply nth_error_None in Es; lia].
        destruct (sl_pop s) eqn:Ep.
        * right. apply in_map_iff. exists (x, sl_rec s). split; [reflexivity|]. apply in_elements; [assumption|].
          split; [lia|]. eauto.
        * left. apply Hf. split; [lia|]. eauto. }
  apply Permutation_length in P. rewrite app_length, map_length, seq_length in P. lia.
Qed.

Lemma ar_insert_ok : forall junk ar mem r, ar_inv ar ->
  exists ar' n, ar_insert junk ar mem r = Some (ar', n) /\ ar_inv ar' /\
    ~ In n (map fst (elements (a_data ar) (a_hwm ar))) /\
    Permutation ((n, r) :: elements (a_data ar) (a_hwm ar)) (elements (a_data ar') (a_hwm ar')).
Proof.
  intros junk ar mem r Hinv. pose proof Hinv as [Hc [Hl [Hh [Hm [Hcount [free [Hch [Hnd [Hlen Hfree]]]]]]]]].
  unfold ar_insert. apply Nat.leb_le in Hh as Hh'. rewrite Hh'. cbn [negb].
  destruct (a_count ar =? a_hwm ar)%nat eqn:Efull.
  - apply Nat.eqb_eq in Efull.
    assert (free = []) by (destruct free; [reflexivity|cbn in Hlen; lia]). subst free.
    set (grow := (a_count ar =? a_cap ar)%nat).
    set (cap := if grow then (a_cap ar * 2)%nat else a_cap ar).
    set (data := if grow then _ else _).
    assert (Hdl : length data = cap).
    { unfold data, cap. destruct grow; [|assumption]. rewrite app_length, map_length, seq_length. lia. }
    assert (Hcap : (a_hwm ar < cap)%nat).
    { unfold cap, grow. destruct (a_count ar =? a_cap ar)%nat eqn:G; [apply Nat.eqb_eq in G|apply Nat.eqb_neq in G]; lia. }
    assert (Hold : forall i, (i < a_hwm ar)%nat -> nth_error data i = nth_error (a_data ar) i).
    { intros i Hi. unfold data. destruct grow; [|reflexivity]. apply nth_error_app1. lia. }
    destruct (nth_error data (a_hwm ar)) as [s0|] eqn:Es0; [|apply nth_error_None in Es0; lia].
    cbn [bind].
    set (s1 := mkSlot true true (sl_next s0) r).
    set (ar' := mkArr cap (S (a_hwm ar)) (S (a_count ar)) (a_first ar) (set_nth (a_hwm ar) s1 data)).
    assert (Hold' : forall i, (i < a_hwm ar)%nat -> nth_error (a_data ar') i = nth_error (a_data ar) i).
    { intros i Hi. unfold ar'. cbn [a_data]. rewrite nth_error_set_nth_other by lia. apply Hold. assumption. }
    assert (Hnew : nth_error (a_data ar') (a_hwm ar) = Some s1).
    { unfold ar'. cbn [a_data]. apply nth_error_set_nth_same. lia. }
    assert (Hl' : length (a_data ar') = cap) by (unfold ar'; cbn [a_data]; rewrite set_nth_length; assumption).
    assert (Hfree' : forall i, In i [] <-> (i < S (a_hwm ar))%nat /\ exists s, nth_error (a_data ar') i = Some s /\ sl_pop s = false).
    { intros i. split; [intros []|]. intros [Hi [s [Hs Hp]]]. destruct (Nat.eq_dec i (a_hwm ar)) as [->|Hne].
      - rewrite Hnew in Hs. injection Hs as <-. discriminate.
      - apply Hfree. split; [lia|]. exists s. rewrite <- Hold' by lia. auto. }
    assert (Helem : forall i x, In (i, x) (elements (a_data ar') (S (a_hwm ar))) <-> (i, x) = (a_hwm ar, r) \/ In (i, x) (elements (a_data ar) (a_hwm ar))).
    { intros i x. rewrite !in_elements by lia. split.
      - intros [Hi [s [Hs [Hp Hr]]]]. destruct (Nat.eq_dec i (a_hwm ar)) as [->|Hne].
        + rewrite Hnew in Hs. injection Hs as <-. left. cbn in Hr. congruence.
        + right. split; [lia|]. exists s. rewrite <- Hold' by lia. auto.
      - intros [E|[Hi [s [Hs [Hp Hr]]]]].
        + injection E as -> ->. split; [lia|]. exists s1. auto.
        + split; [lia|]. exists s. rewrite Hold' by lia. auto. }
    exists ar', (a_hwm ar). split; [reflexivity|].
    assert (Hcnt : length (elements (a_data ar') (S (a_hwm ar))) = S (a_count ar)).
    { pose proof (mk_count (a_data ar') (S (a_hwm ar)) [] ltac:(lia) (NoDup_nil _) Hfree') as Q. cbn [length] in Q. lia. }
    split.
    { split; [cbn; lia|]. split; [assumption|]. split; [cbn; lia|]. split; [|split; [assumption|]].
      - intros i s Hi Hs. change (a_hwm ar') with (S (a_hwm ar)) in Hi. destruct (Nat.eq_dec i (a_hwm ar)) as [->|Hne].
        + rewrite Hnew in Hs. injection Hs as <-. reflexivity.
        + rewrite Hold' in Hs by lia. apply (Hm i s); [lia|assumption].
      - exists []. split; [exact I|]. split; [constructor|]. split; [cbn; lia|assumption]. }
    assert (Hnin : ~ In (a_hwm ar) (map fst (elements (a_data ar) (a_hwm ar)))).
    { intros Hin. apply in_map_iff in Hin as [[j x] [E Hin]]. cbn in E. subst j.
      apply in_elements in Hin as [Hin _]; [lia|lia]. }
    split; [assumption|].
    apply elements_perm.
    + cbn [map fst]. constructor; [assumption|apply elements_nodup].
    + apply elements_nodup.
    + intros i x. change (a_hwm ar') with (S (a_hwm ar)). rewrite Helem. cbn [In]. intuition.
  - apply Nat.eqb_neq in Efull.
    destruct free as [|i0 free]; [cbn in Hlen; lia|].
    cbn [chain] in Hch. destruct Hch as [Hfirst [s0 [Hs0 Hch]]]. rewrite Hfirst.
    assert (Hi0 : (i0 < a_hwm ar)%nat /\ exists s, nth_error (a_data ar) i0 = Some s /\ sl_pop s = false) by (apply Hfree; left; reflexivity).
    destruct Hi0 as [Hi0 [s0' [Hs0' Hp0]]]. rewrite Hs0 in Hs0'. injection Hs0' as <-.
    rewrite (header_some ar i0 s0 Hinv Hi0 Hs0). cbn [bind]. rewrite Hp0.
    set (s1 := mkSlot true true (sl_next s0) r).
    set (ar' := mkArr (a_cap ar) (a_hwm ar) (S (a_count ar)) (sl_next s0) (set_nth i0 s1 (a_data ar))).
    pose proof (NoDup_cons_iff i0 free) as [Hnc _]. destruct (Hnc Hnd) as [Hn0 Hnd'].
    assert (Hnew : nth_error (a_data ar') i0 = Some s1) by (cbn [a_data ar']; apply nth_error_set_nth_same; lia).
    assert (Hold : forall i, i <> i0 -> nth_error (a_data ar') i = nth_error (a_data ar) i).
    { intros i Hi. cbn [a_data ar']. apply nth_error_set_nth_other. auto. }
    assert (Hl' : length (a_data ar') = a_cap ar) by (cbn [a_data ar']; rewrite set_nth_length; assumption).
    assert (Hfree' : forall i, In i free <-> (i < a_hwm ar)%nat /\ exists s, nth_error (a_data ar') i = Some s /\ sl_pop s = false).
    { intros i. destruct (Nat.eq_dec i i0) as [->|Hne].
      - rewrite Hnew. split; [contradiction|]. intros [_ [s [Hs Hp]]]. injection Hs as <-. discriminate.
      - rewrite Hold by assumption. rewrite <- Hfree. cbn [In]. split; [auto|intros [E|E]; [congruence|exact E]]. }
    exists ar', i0. split; [reflexivity|].
    assert (Hcnt : length (elements (a_data ar') (a_hwm ar)) = S (a_count ar)).
    { pose proof (mk_count (a_data ar') (a_hwm ar) free ltac:(lia) Hnd' Hfree') as Q. cbn [length] in Hlen. lia. }
    split.
    { split; [assumption|]. split; [assumption|]. split; [assumption|]. split; [|split; [assumption|]].
      - intros i s Hi Hs. destruct (Nat.eq_dec i i0) as [->|Hne].
        + rewrite Hnew in Hs. injection Hs as <-. reflexivity.
        + rewrite Hold in Hs by assumption. apply (Hm i s); assumption.
      - exists free. split; [apply chain_set; assumption|]. split; [assumption|]. cbn [length] in Hlen.
        split; [cbn; lia|assumption]. }
    assert (Hnin : ~ In i0 (map fst (elements (a_data ar) (a_hwm ar)))).
    { intros Hin. apply in_map_iff in Hin as [[j x] [E Hin]]. cbn in E. subst j.
      apply in_elements in Hin as [_ [s [Hs [Hp _]]]]; [congruence|lia]. }
    split; [assumption|].
    apply elements_perm.
    + cbn [map fst]. constructor; [assumption|apply elements_nodup].
    + apply elements_nodup.
    + intros i x. change (a_hwm ar') with (a_hwm ar). cbn [In]. rewrite !in_elements by lia.
      destruct (Nat.eq_dec i i0) as [->|Hne].
      * split.
        -- intros [E|[_ [s [Hs [Hp _]]]]]; [|congruence]. injection E as <-. split; [assumption|]. exists s1. auto.
        -- intros [_ [s [Hs [_ Hr]]]]. rewrite Hnew in Hs. injection Hs as <-. left. cbn in Hr. congruence.
      * rewrite Hold by assumption. split; [intros [E|H]; [congruence|assumption]|auto].
Qed.

Lemma ar_delete_ok : forall ar n, ar_inv ar -> In n (map fst (elements (a_data ar) (a_hwm ar))) ->
  exists ar', ar_delete ar n = Some ar' /\ ar_inv ar' /\
    Permutation (filter (fun p => negb (Nat.eqb (fst p) n)) (elements (a_data ar) (a_hwm ar)))
                (elements (a_data ar') (a_hwm ar')).
Proof.
  intros ar n Hinv Hin. pose proof Hinv as [Hc [Hl [Hh [Hm [Hcount [free [Hch [Hnd [Hlen Hfree]]]]]]]]].
  apply in_map_iff in Hin as [[j r0] [Ej Hin]]. cbn in Ej. subst j.
  assert (Hpos : (0 < a_count ar)%nat).
  { rewrite <- Hcount. destruct (elements _ _); [contradiction|cbn; lia]. }
  apply in_elements in Hin as [Hn [s0 [Hs0 [Hp0 Hr0]]]]; [|lia].
  unfold ar_delete. rewrite (header_some ar n s0 Hinv Hn Hs0). cbn [bind].
  destruct (a_count ar =? 0)%nat eqn:E0; [apply Nat.eqb_eq in E0; lia|].
  assert (Helems : forall d' hwm', (hwm' <= length d')%nat ->
    (forall i x, (i < hwm')%nat /\ (exists s, nth_error d' i = Some s /\ sl_pop s = true /\ sl_rec s = x) <->
       i <> n /\ (i < a_hwm ar)%nat /\ exists s, nth_error (a_data ar) i = Some s /\ sl_pop s = true /\ sl_rec s = x) ->
    Permutation (filter (fun p => negb (Nat.eqb (fst p) n)) (elements (a_data ar) (a_hwm ar))) (elements d' hwm')).
  { intros d' hwm' Hl' H. apply elements_perm.
    - apply nodup_fst_filter, elements_nodup.
    - apply elements_nodup.
    - intros i x. rewrite filter_In, !in_elements by lia. cbn [fst]. rewrite H, negb_true_iff, Nat.eqb_neq. tauto. }
  assert (Hnf : ~ In n free) by (intros Hi; apply Hfree in Hi as [_ [s [Hs Hp]]]; congruence).
  assert (Hlast : forall x, nth_error (set_nth n x (a_data ar)) n = Some x) by (intros; apply nth_error_set_nth_same; lia).
  assert (Hoth : forall x i, i <> n -> nth_error (set_nth n x (a_data ar)) i = nth_error (a_data ar) i)
    by (intros; apply nth_error_set_nth_other; auto).
  destruct (a_count ar - 1 =? 0)%nat eqn:E1.
  - apply Nat.eqb_eq in E1. eexists. split; [reflexivity|].
    set (ar' := mkArr _ _ _ _ _).
    split.
    + split; [assumption|]. split; [cbn; rewrite set_nth_length; assumption|]. split; [cbn; lia|].
      split; [cbn; intros; lia|]. split; [cbn; lia|]. exists []. split; [exact I|]. split; [constructor|].
      split; [cbn; lia|]. intros i. cbn. split; [tauto|]. intros [? _]. lia.
    + apply Helems; [cbn; lia|]. intros i x. cbn [a_hwm ar']. split; [intros [? _]; lia|].
      intros [Hne [Hi [s [Hs [Hp _]]]]]. exfalso.
      (* only one populated element *)
      assert (Hi1 : In (i, sl_rec s) (elements (a_data ar) (a_hwm ar))) by (apply in_elements; [lia|]; eauto 6).
      assert (Hn1 : In (n, sl_rec s0) (elements (a_data ar) (a_hwm ar))) by (apply in_elements; [lia|]; eauto 6).
      destruct (elements (a_data ar) (a_hwm ar)) as [|e1 [|e2 el]]; cbn in Hcount; try lia.
      cbn in Hi1, Hn1. destruct Hi1 as [Hi1|[]], Hn1 as [Hn1|[]]. congruence.
  - apply Nat.eqb_neq in E1. destruct (S n =? a_hwm ar)%nat eqn:E2.
    + apply Nat.eqb_eq in E2. eexists. split; [reflexivity|].
      set (s1 := mkSlot _ _ _ _). set (ar' := mkArr _ _ _ _ _).
      assert (Hfree' : forall i, In i free <-> (i < a_hwm ar - 1)%nat /\ exists s, nth_error (a_data ar') i = Some s /\ sl_pop s = false).
      { intros i. rewrite Hfree. cbn [a_data ar']. split.
        - intros [Hi [s [Hs Hp]]]. assert (i <> n) by (intros ->; congruence).
          split; [lia|]. exists s. rewrite Hoth by assumption. auto.
        - intros [Hi [s [Hs Hp]]]. split; [lia|]. exists s. rewrite Hoth in Hs by lia. auto. }
      assert (Hl' : length (a_data ar') = a_cap ar) by (cbn; rewrite set_nth_length; assumption).
      split.
      * split; [assumption|]. split; [assumption|]. split; [cbn; lia|].
        split; [|split].
        -- intros i s Hi Hs. cbn [a_hwm a_data ar'] in Hi, Hs. rewrite Hoth in Hs by lia. apply (Hm i s); [lia|assumption].
        -- cbn [a_hwm ar' a_count]. pose proof (mk_count (a_data ar') (a_hwm ar - 1) free ltac:(lia) Hnd Hfree'). lia.
        -- exists free. split; [apply chain_set; assumption|]. split; [assumption|]. split; [cbn; lia|assumption].
      * apply Helems; [cbn; rewrite set_nth_length; lia|]. intros i x. cbn [a_hwm a_data ar']. split.
        -- intros [Hi [s [Hs Hx]]]. rewrite Hoth in Hs by lia. split; [lia|]. split; [lia|]. eauto.
        -- intros [Hne [Hi [s [Hs Hx]]]]. split; [lia|]. exists s. rewrite Hoth by assumption. auto.
    + apply Nat.eqb_neq in E2. eexists. split; [reflexivity|].
      set (s1 := mkSlot _ _ _ _). set (ar' := mkArr _ _ _ _ _).
      assert (Hl' : length (a_data ar') = a_cap ar) by (cbn; rewrite set_nth_length; assumption).
      assert (Hnd' : NoDup (n :: free)) by (constructor; assumption).
      assert (Hfree' : forall i, In i (n :: free) <-> (i < a_hwm ar)%nat /\ exists s, nth_error (a_data ar') i = Some s /\ sl_pop s = false).
      { intros i. cbn [In a_data ar']. rewrite Hfree. destruct (Nat.eq_dec i n) as [->|Hne].
        - split; [|auto]. intros _. split; [assumption|]. exists s1. rewrite Hlast. auto.
        - rewrite Hoth by assumption. intuition congruence. }
      split.
      * split; [assumption|]. split; [assumption|]. split; [cbn; lia|].
        split; [|split].
        -- intros i s Hi Hs. cbn [a_hwm a_data ar'] in Hi, Hs. destruct (Nat.eq_dec i n) as [->|Hne].
           ++ rewrite Hlast in Hs. injection Hs as <-. reflexivity.
           ++ rewrite Hoth in Hs by assumption. apply (Hm i s); assumption.
        -- cbn [a_hwm ar' a_count]. pose proof (mk_count (a_data ar') (a_hwm ar) (n :: free) ltac:(lia) Hnd' Hfree') as Q.
           cbn [length] in Q. lia.
        -- exists (n :: free). split.
           { cbn [chain a_first ar']. split; [reflexivity|]. exists s1. cbn [a_data ar']. rewrite Hlast. split; [reflexivity|].
             cbn [sl_next s1]. apply chain_set; assumption. }
           split; [assumption|]. split; [cbn; lia|assumption].
      * apply Helems; [cbn; rewrite set_nth_length; lia|]. intros i x. cbn [a_hwm a_data ar'].
        destruct (Nat.eq_dec i n) as [->|Hne].
        -- rewrite Hlast. split; [|tauto]. intros [_ [s [Hs [Hp _]]]]. injection Hs as <-. discriminate.
        -- rewrite Hoth by assumption. tauto.
Qed.

Theorem ar_ok : forall junk, store_ok (array_ops junk) ar_rep.
Proof.
  intros junk. constructor; cbn.
  - intros s l [_ ->]. apply elements_nodup.
  - intros s l mem r [Hinv ->] _. destruct (ar_insert_ok junk s mem r Hinv) as [s' [n [E [H [Hn P]]]]].
    exists s', n, (elements (a_data s') (a_hwm s')). split; [assumption|]. split; [assumption|]. split; [split; auto|assumption].
  - intros s l n [Hinv ->] Hin. destruct (ar_delete_ok s n Hinv Hin) as [s' [E [H P]]].
    exists s', (elements (a_data s') (a_hwm s')). split; [assumption|]. split; [split; auto|assumption].
  - intros s l [Hinv ->]. apply foreach_spec. assumption.
  - intros s l p [Hinv ->]. unfold ar_find. pose proof Hinv as [_ [_ [Hh _]]]. apply Nat.leb_le in Hh. rewrite Hh. cbn [negb].
    rewrite (find_from_spec s p Hinv (a_hwm s) ltac:(lia) 0%nat ltac:(lia)). reflexivity.
  - intros s l n r [Hinv ->] Hin. apply in_elements in Hin as [Hn [x [Hx [_ <-]]]].
    + unfold ar_get. rewrite (header_some s n x Hinv Hn Hx). reflexivity.
    + destruct Hinv as [_ [-> [Hh _]]]. assumption.
  - intros s l n r [Hinv ->] Hin. pose proof Hinv as [Hc [Hl [Hh [Hm [Hcount [free [Hch [Hnd [Hlen Hfree]]]]]]]]].
    apply in_map_iff in Hin as [[j r0] [Ej Hin]]. cbn in Ej. subst j.
    apply in_elements in Hin as [Hn [s0 [Hs0 [Hp0 Hr0]]]]; [|lia].
    unfold ar_put. rewrite (header_some s n s0 Hinv Hn Hs0). cbn [bind]. eexists. split; [reflexivity|].
    set (s1 := mkSlot _ _ _ _). unfold set_data. cbn [a_data a_hwm].
    assert (Hlast : nth_error (set_nth n s1 (a_data s)) n = Some s1) by (apply nth_error_set_nth_same; lia).
    assert (Hoth : forall i, i <> n -> nth_error (set_nth n s1 (a_data s)) i = nth_error (a_data s) i)
      by (intros; apply nth_error_set_nth_other; auto).
    assert (Hfree' : forall i, In i free <-> (i < a_hwm s)%nat /\ exists x, nth_error (set_nth n s1 (a_data s)) i = Some x /\ sl_pop x = false).
    { intros i. rewrite Hfree. destruct (Nat.eq_dec i n) as [->|Hne].
      - rewrite Hlast, Hs0. split; intros [Hi [x [Hx Hp]]]; injection Hx as <-; cbn in Hp; congruence.
      - rewrite Hoth by assumption. tauto. }
    assert (Helem : elements (set_nth n s1 (a_data s)) (a_hwm s) =
                    map (fun p => if (fst p =? n)%nat then (n, r) else p) (elements (a_data s) (a_hwm s))).
    { unfold elements. rewrite map_map.
      assert (G : forall (d : list (slot R)) o h, (n < o \/ nth_error d (n - o) = Some s0)%nat -> 
        map (fun p => (fst p, sl_rec (snd p))) (filter (fun p => sl_pop (snd p)) (combine (seq o h) (firstn h (if (n <? o)%nat then d else set_nth (n - o) s1 d)))) =
        map (fun x => if (fst (fst x, sl_rec (snd x)) =? n)%nat then (n, r) else (fst x, sl_rec (snd x)))
            (filter (fun p => sl_pop (snd p)) (combine (seq o h) (firstn h d)))).
      { induction d as [|y d IH]; intros o h Hd.
        - replace (set_nth (n - o) s1 []) with (@nil (slot R)) by (destruct (n - o)%nat; reflexivity).
          destruct (n <? o)%nat; destruct h; reflexivity.
        - destruct h as [|h]; [reflexivity|]. cbn [seq].
          destruct (n <? o)%nat eqn:Eo.
          + apply Nat.ltb_lt in Eo. cbn [firstn combine filter snd]. specialize (IH (S o) h ltac:(lia)).
            replace (n <? S o)%nat with true in IH by (symmetry; apply Nat.ltb_lt; lia).
            destruct (sl_pop y); cbn [map fst snd]; rewrite IH; [|reflexivity].
            replace (o =? n)%nat with false by (symmetry; apply Nat.eqb_neq; lia). reflexivity.
          + apply Nat.ltb_ge in Eo. destruct Hd as [Hd|Hd]; [lia|].
            destruct (Nat.eq_dec n o) as [->|Hne].
            * rewrite Nat.sub_diag in *. cbn in Hd. injection Hd as ->. cbn [set_nth firstn combine filter snd sl_pop s1].
              rewrite Hp0. cbn [map fst snd sl_rec s1]. rewrite Nat.eqb_refl. f_equal.
              specialize (IH (S o) h ltac:(lia)). replace (o <? S o)%nat with true in IH by (symmetry; apply Nat.ltb_lt; lia).
              exact IH.
            * replace (n - o)%nat with (S (n - S o)) in * by lia. cbn [set_nth firstn combine filter snd].
              specialize (IH (S o) h ltac:(right; exact Hd)).
              replace (n <? S o)%nat with false in IH by (symmetry; apply Nat.ltb_ge; lia).
              destruct (sl_pop y); cbn [map fst snd]; rewrite IH; [|reflexivity].
              replace (o =? n)%nat with false by (symmetry; apply Nat.eqb_neq; lia). reflexivity. }
      specialize (G (a_data s) 0%nat (a_hwm s)). rewrite Nat.sub_0_r in G. cbn [Nat.ltb Nat.leb] in G. apply G. auto. }
    split; [|symmetry; assumption].
    split; [assumption|]. split; [cbn; rewrite set_nth_length; assumption|]. split; [assumption|].
    split; [|split].
    + intros i x Hi Hx. cbn in Hx, Hi. destruct (Nat.eq_dec i n) as [->|Hne].
      * rewrite Hlast in Hx. injection Hx as <-. cbn. apply (Hm n s0); assumption.
      * rewrite Hoth in Hx by assumption. apply (Hm i x); assumption.
    + cbn [a_data a_hwm a_count]. rewrite Helem, map_length. assumption.
    + exists free. cbn [a_data a_hwm a_count a_first]. split; [|auto].
      apply chain_set; [|assumption]. intros Hi. apply Hfree in Hi as [_ [x [Hx Hp]]]. congruence.
  - intros s [_ _]. reflexivity.
Qed.

Lemma ar_init : forall junk cap, (0 < cap)%nat -> ar_rep (array_create junk cap) [].
Proof.
  intros junk cap H. split; [|reflexivity].
  split; [assumption|]. split; [cbn; rewrite map_length, seq_length; reflexivity|]. split; [cbn; lia|].
  split; [cbn; intros; lia|]. split; [reflexivity|]. exists []. split; [exact I|]. split; [constructor|].
  split; [reflexivity|]. intros i. cbn. split; [tauto|]. intros [? _]. lia.
Qed.
End AR.

(** An insertion sort meets the contract of the C library's sort. *)
Section Sort.
Context {R : Type}.
Fixpoint ins (cmp : sort_key R) (x : R) (l : list R) : list R :=
  match l with [] => [x] | y :: t => if cmp x y <=? 0 then x :: l else y :: ins cmp x t end.
Fixpoint isort (cmp : sort_key R) (l : list R) : list R :=
  match l with [] => [] | x :: t => ins cmp x (isort cmp t) end.

Lemma ins_perm : forall cmp x l, Permutation (x :: l) (ins cmp x l).
Proof.
  induction l as [|y l IH]; cbn; [apply Permutation_refl|].
  destruct (cmp x y <=? 0); [apply Permutation_refl|].
  eapply perm_trans; [apply perm_swap|]. constructor. assumption.
Qed.

Lemma isort_ok : qsort_ok isort.
Proof.
  intros cmp l [Hs Ht]. induction l as [|x l [IHp IHs]]; cbn; [split; constructor|].
  split; [eapply perm_trans; [constructor; exact IHp|apply ins_perm]|].
  clear IHp. induction IHs as [|y t St IH F]; cbn; [repeat constructor|].
  destruct (cmp x y <=? 0) eqn:E.
  - constructor; [constructor; assumption|]. constructor; [lia|].
    eapply Forall_impl; [|exact F]. cbn. intros z Hz. apply (Ht x y z); lia.
  - constructor; [assumption|]. apply Forall_forall. intros z Hz.
    apply (Permutation_in _ (Permutation_sym (ins_perm cmp x t))) in Hz. destruct Hz as [<-|Hz].
    + pose proof (Hs x y). lia.
    + rewrite Forall_forall in F. apply F. assumption.
Qed.
End Sort.
