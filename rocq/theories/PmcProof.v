(** Proofs for C75: the shape of the module after its creation. *)
Require Import ZArith List Bool Arith Lia Permutation.
From Verif Require Import Base PmcSpec PmcModel.
Import ListNotations.
Open Scope Z_scope.

Lemma mem_In i l : mem i l = true <-> In i l.
Proof.
  unfold mem. rewrite existsb_exists. split; [intros (x & H & E); apply Nat.eqb_eq in E; congruence|]. intro H. exists i. split; [exact H|apply Nat.eqb_refl].
Qed.
Lemma mem_not i l : mem i l = false <-> ~ In i l.
Proof. rewrite <- mem_In. destruct (mem i l); split; intro H; congruence. Qed.
Lemma obj_eqb_eq a b : obj_eqb a b = true <-> a = b.
Proof. destruct a, b; cbn; rewrite ?Nat.eqb_eq; split; intro H; congruence. Qed.
Lemma live_In o w : live o w = true <-> In o (w_live w).
Proof.
  unfold live. rewrite existsb_exists. split; [intros (x & H & E); apply obj_eqb_eq in E; congruence|]. intro H. exists o. split; [exact H|apply obj_eqb_eq; reflexivity].
Qed.
Lemma free_spec o w : In o (w_live w) -> exists w', free o w = Some w' /\ (forall x, In x (w_live w') <-> In x (w_live w) /\ x <> o) /\
  w_conf w' = w_conf w /\ w_intfs w' = w_intfs w /\ w_ports w' = w_ports w /\ w_alarm w' = w_alarm w /\ w_ctxs w' = w_ctxs w /\ w_count w' = w_count w.
Proof.
  intro H. unfold free. apply live_In in H. rewrite H. eexists. split; [reflexivity|]. split; [|repeat split].
  intro x. cbn [w_live set_live]. rewrite filter_In. split; intros [A B]; split; auto.
  - intro E. subst. destruct (obj_eqb o o) eqn:E; [discriminate|]. apply not_true_iff_false in E. apply E. apply obj_eqb_eq. reflexivity.
  - destruct (obj_eqb o x) eqn:E; [|reflexivity]. apply obj_eqb_eq in E. congruence.
Qed.

Lemma find_rep l n : NoDup (map n_rep l) -> In n l -> find (fun m => Nat.eqb (n_rep m) (n_rep n)) l = Some n.
Proof.
  induction l as [|m l IH]; cbn; [intros _ []|]. intros ND [->|H]; [rewrite Nat.eqb_refl; reflexivity|].
  inversion_clear ND as [|? ? X Y]. destruct (Nat.eqb_spec (n_rep m) (n_rep n)) as [E|E]; [|auto]. exfalso. apply X. rewrite E. apply in_map, H.
Qed.
Lemma get_spec n w : NoDup (map n_rep (w_intfs w)) -> In n (w_intfs w) -> In (OIntf (n_rep n)) (w_live w) -> get (n_rep n) w = Some n.
Proof. intros A B C. unfold get. apply live_In in C. rewrite C. apply find_rep; assumption. Qed.
Lemma put_spec w a m b n : NoDup (map n_rep (w_intfs w)) -> w_intfs w = a ++ m :: b -> n_rep n = n_rep m -> w_intfs (put n w) = a ++ n :: b.
Proof.
  intros ND E R. unfold put. cbn [w_intfs set_intfs]. rewrite E in *. rewrite map_app in ND. cbn [map] in ND.
  apply NoDup_remove_2 in ND. rewrite map_app. cbn [map]. rewrite R, Nat.eqb_refl. 
  assert (X : forall l, (forall x, In x l -> In (n_rep x) (map n_rep a ++ map n_rep b)) -> map (fun x => if Nat.eqb (n_rep x) (n_rep m) then n else x) l = l).
  { intros l H. rewrite <- (map_id l) at 2. apply map_ext_in. intros x Hx. destruct (Nat.eqb_spec (n_rep x) (n_rep m)) as [Q|Q]; [|reflexivity].
    exfalso. apply ND. rewrite <- Q. auto. }
  f_equal; [|f_equal]; apply X; intros x Hx; apply in_or_app; [left|right]; apply in_map; exact Hx.
Qed.

(** Specification of the interfaces and their instances by position in the configuration. *)
Definition same (l : list conf) (i j : nat) : bool :=
  match nth_error l i, nth_error l j with Some c, Some d => same_if c d | _, _ => false end.
Definition is_first (l : list conf) (i : nat) : bool := forallb (fun x => negb (same l x i)) (seq 0 i).
Definition members (l : list conf) (j k : nat) : list nat := rev (filter (fun i => same l j i) (seq 0 k)).
Definition firsts (l : list conf) (k : nat) : list nat := rev (filter (is_first l) (seq 0 k)).
Definition groups (l : list conf) (k : nat) : list intf := map (fun j => mkIntf j (members l j k) false false None) (firsts l k).

Lemma same_if_eq c d : same_if c d = true <-> f_if c = f_if d /\ f_af c = f_af d.
Proof. unfold same_if. rewrite andb_true_iff, !Z.eqb_eq. tauto. Qed.
Lemma same_sym l i j : same l i j = true -> same l j i = true.
Proof. unfold same. destruct (nth_error l i), (nth_error l j); try discriminate. rewrite !same_if_eq. intros [A B]. auto. Qed.
Lemma same_trans l i j k : same l i j = true -> same l j k = true -> same l i k = true.
Proof. unfold same. destruct (nth_error l i), (nth_error l j), (nth_error l k); try discriminate. rewrite !same_if_eq. intros [A B] [C D]. split; congruence. Qed.
Lemma same_refl l i : (i < List.length l)%nat -> same l i i = true.
Proof. intro H. unfold same. destruct (nth_error l i) eqn:E; [apply same_if_eq; auto|]. apply nth_error_None in E. lia. Qed.

Lemma in_members l j k i : In i (members l j k) <-> (i < k)%nat /\ same l j i = true.
Proof. unfold members. rewrite <- in_rev, filter_In, in_seq. split; intros [A B]; split; auto; lia. Qed.
Lemma in_firsts l k j : In j (firsts l k) <-> (j < k)%nat /\ is_first l j = true.
Proof. unfold firsts. rewrite <- in_rev, filter_In, in_seq. split; intros [A B]; split; auto; lia. Qed.
Lemma is_first_spec l i : is_first l i = true <-> forall x, (x < i)%nat -> same l x i = false.
Proof.
  unfold is_first. rewrite forallb_forall. split; intros H x Hx.
  - specialize (H x). rewrite in_seq in H. apply negb_true_iff. apply H. lia.
  - apply in_seq in Hx. apply negb_true_iff. apply H. lia.
Qed.
Lemma nodup_firsts l k : NoDup (firsts l k).
Proof. unfold firsts. apply NoDup_rev, NoDup_filter, seq_NoDup. Qed.
Lemma nodup_members l j k : NoDup (members l j k).
Proof. unfold members. apply NoDup_rev, NoDup_filter, seq_NoDup. Qed.
Lemma members_S l j k : members l j (Datatypes.S k) = (if same l j k then [k] else []) ++ members l j k.
Proof. unfold members. rewrite seq_S, filter_app, rev_app_distr. cbn [filter plus]. destruct (same l j k); reflexivity. Qed.
Lemma firsts_S l k : firsts l (Datatypes.S k) = (if is_first l k then [k] else []) ++ firsts l k.
Proof. unfold firsts. rewrite seq_S, filter_app, rev_app_distr. cbn [filter plus]. destruct (is_first l k); reflexivity. Qed.
Lemma firsts_inj l k i j : In i (firsts l k) -> In j (firsts l k) -> same l i j = true -> i = j.
Proof.
  rewrite !in_firsts. intros [A B] [C D] H. rewrite is_first_spec in B, D. destruct (lt_eq_lt_dec i j) as [[X|X]|X]; [|exact X|].
  - rewrite (D i X) in H. discriminate.
  - apply same_sym in H. rewrite (B j X) in H. discriminate.
Qed.
(** Each instance has its interface. *)
Lemma has_first l k i : (i < k)%nat -> (i < List.length l)%nat -> exists j, In j (firsts l k) /\ same l j i = true.
Proof.
  revert k. induction i as [i IH] using lt_wf_ind. intros k H L. destruct (is_first l i) eqn:F.
  - exists i. split; [apply in_firsts; auto|apply same_refl, L].
  - apply not_true_iff_false in F. rewrite is_first_spec in F.
    assert (X : exists x, (x < i)%nat /\ same l x i = true).
    { clear - F. assert (D : forall n, (n <= i)%nat -> (exists x, (x < n)%nat /\ same l x i = true) \/ forall x, (x < n)%nat -> same l x i = false).
      { induction n as [|n IHn]; intro Hn; [right; intros; lia|]. destruct IHn as [(x & A & B)|A]; [lia|left; exists x; split; [lia|exact B]|].
        destruct (same l n i) eqn:E; [left; exists n; split; [lia|exact E]|]. right. intros x Hx. destruct (Nat.eq_dec x n) as [->|N]; [exact E|apply A; lia]. }
      destruct (D i (le_n _)) as [H|H]; [exact H|]. destruct (F H). }
    destruct X as (x & X1 & X2). destruct (IH x X1 k) as (j & J1 & J2); [lia|lia|]. exists j. split; [exact J1|eapply same_trans; eauto].
Qed.

Lemma defaults_key c : f_if (defaults c) = f_if c /\ f_af (defaults c) = f_af c /\ f_dom (defaults c) = f_dom c /\
  f_sync_mc (defaults c) = f_sync_mc c /\ f_resp_mc (defaults c) = f_resp_mc c /\ f_needed (defaults c) = f_needed c.
Proof. repeat split. Qed.
Definition conf_at (l : list conf) (k : nat) : list conf := map defaults (firstn k l) ++ skipn k l.
Lemma nth_conf_at l k i : nth_error (conf_at l k) i = option_map (if (i <? k)%nat then defaults else fun c => c) (nth_error l i).
Proof.
  unfold conf_at. destruct (Nat.ltb_spec i k) as [H|H].
  - destruct (nth_error l i) as [c|] eqn:E; cbn.
    + assert (i < List.length l)%nat by (apply nth_error_Some; congruence).
      rewrite nth_error_app1 by (rewrite map_length, firstn_length; lia). apply map_nth_error.
      rewrite <- (firstn_skipn k l) in E. rewrite nth_error_app1 in E by (rewrite firstn_length; lia). exact E.
    + apply nth_error_None in E. apply nth_error_None. rewrite app_length, map_length, firstn_length, skipn_length. lia.
  - destruct (le_lt_dec (List.length l) i) as [L|L].
    + rewrite (proj2 (nth_error_None l i) L). apply nth_error_None. rewrite app_length, map_length, firstn_length, skipn_length. lia.
    + rewrite nth_error_app2 by (rewrite map_length, firstn_length; lia). rewrite map_length, firstn_length.
      assert (Hs : nth_error l i = nth_error (firstn k l ++ skipn k l) i) by (rewrite firstn_skipn; reflexivity). rewrite Hs.
      rewrite nth_error_app2 by (rewrite firstn_length; lia). rewrite firstn_length. destruct (nth_error (skipn k l) _); reflexivity.
Qed.
Lemma set_nth_nth i c l x : nth_error (set_nth i c l) x = if (x =? i)%nat then (if (i <? List.length l)%nat then Some c else None) else nth_error l x.
Proof.
  revert i x. induction l as [|a l IH]; intros i x; cbn.
  - destruct (x =? i)%nat; [|reflexivity]. destruct x; reflexivity.
  - destruct i as [|i], x as [|x]; cbn; try reflexivity. rewrite IH. destruct (x =? i)%nat; [|reflexivity]. reflexivity.
Qed.
Lemma set_nth_length i c l : List.length (set_nth i c l) = List.length l.
Proof. revert i. induction l as [|a l IH]; intros [|i]; cbn; auto. Qed.
Lemma ext_nth {A} (a b : list A) : (forall i, nth_error a i = nth_error b i) -> a = b.
Proof.
  revert b. induction a as [|x a IH]; intros [|y b] H; auto; try (specialize (H 0%nat); discriminate).
  f_equal; [specialize (H 0%nat); cbn in H; congruence|]. apply IH. intro i. exact (H (Datatypes.S i)).
Qed.
Lemma conf_at_S l k c : nth_error l k = Some c -> set_nth k (defaults c) (conf_at l k) = conf_at l (Datatypes.S k).
Proof.
  intro E. apply ext_nth. intro i. rewrite set_nth_nth, !nth_conf_at.
  assert (L : List.length (conf_at l k) = List.length l).
  { unfold conf_at. rewrite app_length, map_length, firstn_length, skipn_length. lia. }
  rewrite L. assert (k < List.length l)%nat by (apply nth_error_Some; congruence).
  destruct (Nat.eqb_spec i k) as [->|N].
  - destruct (Nat.ltb_spec k (List.length l)); [|lia]. rewrite E. destruct (Nat.ltb_spec k (Datatypes.S k)); [reflexivity|lia].
  - destruct (Nat.ltb_spec i k), (Nat.ltb_spec i (Datatypes.S k)); try lia; reflexivity.
Qed.

(** The world after [k] instances have been created. *)
Definition made (l : list conf) (k : nat) (w : world) : Prop :=
  w_conf w = conf_at l k /\ w_intfs w = groups l k /\ w_ports w = [] /\ w_alarm w = [] /\ w_ctxs w = [] /\ w_count w = 0 /\
  forall o, In o (w_live w) <-> (exists i, o = OInst i /\ (i < k)%nat) \/ (exists j, o = OIntf j /\ In j (firsts l k)).
Lemma made_0 l : made l 0 (empty l).
Proof. repeat split; try reflexivity. - intros []. - intros [(i & _ & H)|(j & _ & [])]. lia. Qed.
Lemma groups_reps l k : map n_rep (groups l k) = firsts l k.
Proof. unfold groups. rewrite map_map. cbn. apply map_id. Qed.

Lemma find_if_made l k w c d i : w_conf w = d -> (forall x, option_map (fun c => (f_if c, f_af c)) (nth_error d x) = option_map (fun c => (f_if c, f_af c)) (nth_error l x)) ->
  nth_error l i = Some c -> forall ns, map n_rep ns = firsts l k -> w_intfs w = ns ->
  forall c', f_if c' = f_if c -> f_af c' = f_af c ->
  find_if c' w = find (fun j => same l j i) (firsts l k).
Proof.
  intros E D N ns Hr Hw c' H1 H2. unfold find_if. rewrite Hw, E. clear Hw. revert Hr. generalize (firsts l k). induction ns as [|n ns IH]; intros f Hr; subst f; [reflexivity|].
  cbn [find map]. assert (X : match nth_error d (n_rep n) with Some d0 => same_if d0 c' | None => false end = same l (n_rep n) i).
  { unfold same. rewrite N. specialize (D (n_rep n)). destruct (nth_error d (n_rep n)), (nth_error l (n_rep n)); cbn in D; try discriminate; [|reflexivity].
    injection D as D1 D2. unfold same_if. rewrite H1, H2, D1, D2. reflexivity. }
  rewrite X. destruct (same l (n_rep n) i); [reflexivity|]. apply IH. reflexivity.
Qed.
Lemma conf_at_key l k x : option_map (fun c => (f_if c, f_af c)) (nth_error (conf_at l k) x) = option_map (fun c => (f_if c, f_af c)) (nth_error l x).
Proof. rewrite nth_conf_at. destruct (nth_error l x); [|reflexivity]. destruct (x <? k)%nat; reflexivity. Qed.
Lemma find_first l k i : match find (fun j => same l j i) (firsts l k) with
  | Some j => In j (firsts l k) /\ same l j i = true
  | None => forall j, In j (firsts l k) -> same l j i = false end.
Proof.
  destruct (find _ _) as [j|] eqn:E; [apply find_some in E; exact E|]. intros j H. apply (find_none _ _ E j H).
Qed.

(** The instances already there use another domain. *)
Definition free_dom (l : list conf) (k : nat) : Prop :=
  forall i c d, (i < k)%nat -> nth_error l i = Some c -> nth_error l k = Some d -> same_if c d = true -> f_dom c <> f_dom d.

Lemma groups_first l k : is_first l k = true -> (k < List.length l)%nat -> groups l (Datatypes.S k) = mkIntf k [k] false false None :: groups l k.
Proof.
  intros F L. unfold groups. rewrite firsts_S, F. cbn [app map]. rewrite is_first_spec in F. f_equal.
  - f_equal. rewrite members_S, (same_refl l k L). cbn [app]. f_equal. destruct (members l k k) as [|x r] eqn:E; [reflexivity|].
    assert (X : In x (members l k k)) by (rewrite E; left; reflexivity). apply in_members in X as [X1 X2]. apply same_sym in X2. rewrite F in X2 by exact X1. discriminate.
  - apply map_ext_in. intros j Hj. apply in_firsts in Hj as [Hj _]. f_equal. rewrite members_S, F by exact Hj. reflexivity.
Qed.
Lemma groups_more l k a j b : is_first l k = false -> same l j k = true -> firsts l k = a ++ j :: b ->
  exists ga gb, groups l k = ga ++ mkIntf j (members l j k) false false None :: gb /\
    groups l (Datatypes.S k) = ga ++ mkIntf j (k :: members l j k) false false None :: gb.
Proof.
  intros F S E. pose proof (nodup_firsts l k) as ND. assert (Inj : forall x, In x (firsts l k) -> x <> j -> same l x k = false).
  { intros x Hx N. destruct (same l x k) eqn:Q; [|reflexivity]. exfalso. apply N. apply (firsts_inj l k); [exact Hx|rewrite E; apply in_elt|]. eapply same_trans; [exact Q|apply same_sym, S]. }
  unfold groups. rewrite firsts_S, F. cbn [app]. rewrite E in *. rewrite !map_app. cbn [map]. do 2 eexists. split; [reflexivity|].
  apply NoDup_remove_2 in ND.
  assert (X : forall f, (forall x, In x f -> In x (a ++ b)) -> map (fun j0 => mkIntf j0 (members l j0 (Datatypes.S k)) false false None) f = map (fun j0 => mkIntf j0 (members l j0 k) false false None) f).
  { intros f H. apply map_ext_in. intros x Hx. f_equal. rewrite members_S, Inj; [reflexivity| |].
    - apply H in Hx. apply in_app_or in Hx as [Hx|Hx]; apply in_or_app; [left|right; right]; exact Hx.
    - intros ->. apply ND, H, Hx. }
  rewrite !X by (intros x Hx; apply in_or_app; auto). rewrite members_S, S. reflexivity.
Qed.

Lemma create_one_spec l k w : made l k w -> (k < List.length l)%nat ->
  exists rc w', create_one k w = Some (rc, w') /\ (rc = 0 \/ rc = EBUSY) /\ (rc = 0 <-> free_dom l k) /\
  (rc = 0 -> made l (Datatypes.S k) w') /\
  (rc <> 0 -> w_conf w' = conf_at l k /\ w_intfs w' = groups l (Datatypes.S k) /\ w_ports w' = [] /\ w_ctxs w' = [] /\
    forall o, In o (w_live w') <-> (exists i, o = OInst i /\ (i < Datatypes.S k)%nat) \/ (exists j, o = OIntf j /\ In j (firsts l (Datatypes.S k)))).
Proof.
  intros (C & G & P & A & X & N & Lv) L. destruct (nth_error l k) as [c|] eqn:Ec; [|apply nth_error_None in Ec; lia].
  unfold create_one. rewrite C. assert (Ec' : nth_error (conf_at l k) k = Some c).
  { rewrite nth_conf_at, Ec. destruct (Nat.ltb_spec k k); [lia|reflexivity]. }
  rewrite Ec'. cbn [bind].
  rewrite (find_if_made l k (alloc (OInst k) w) c (conf_at l k) k C (conf_at_key l k) Ec (groups l k) (groups_reps l k) G c eq_refl eq_refl).
  pose proof (find_first l k k) as Ff.
  (* the interface, present before or new *)
  assert (S1 : exists j w1 n, (match find (fun j => same l j k) (firsts l k) with
      | Some j => (j, alloc (OInst k) w)
      | None => (k, alloc (OIntf k) (set_intfs (alloc (OInst k) w) (mkIntf k [] false false None :: w_intfs (alloc (OInst k) w)))) end) = (j, w1) /\
      get j w1 = Some n /\ n_insts n = filter (fun i => negb (Nat.eqb i k)) (members l j (Datatypes.S k)) /\ same l j k = true /\
      w_intfs (put (with_insts n (k :: n_insts n)) w1) = groups l (Datatypes.S k) /\
      w_conf w1 = conf_at l k /\ w_ports w1 = [] /\ w_alarm w1 = [] /\ w_ctxs w1 = [] /\ w_count w1 = 0 /\
      forall o, In o (w_live w1) <-> (exists i, o = OInst i /\ (i < Datatypes.S k)%nat) \/ (exists j, o = OIntf j /\ In j (firsts l (Datatypes.S k)))).
  { assert (Mk : forall j, same l j k = true -> members l j k = filter (fun i => negb (Nat.eqb i k)) (members l j (Datatypes.S k))).
    { intros j Sj. rewrite members_S, Sj. cbn [app filter]. rewrite Nat.eqb_refl. cbn [negb]. assert (H : forall x, In x (members l j k) -> (x < k)%nat) by (intros x Hx; apply in_members in Hx; tauto).
      revert H. generalize (members l j k). induction l0 as [|x r IH]; intro H; [reflexivity|]. cbn. destruct (Nat.eqb_spec x k) as [E|E]; [specialize (H x (or_introl eq_refl)); lia|]. cbn. f_equal. apply IH. intros; apply H; right; assumption. }
    destruct (find (fun j => same l j k) (firsts l k)) as [j|] eqn:Ef.
    - destruct Ff as [F1 F2]. assert (NF : is_first l k = false).
      { destruct (is_first l k) eqn:Q; [|reflexivity]. rewrite is_first_spec in Q. apply in_firsts in F1 as [F1 _]. rewrite Q in F2 by exact F1. discriminate. }
      destruct (in_split _ _ F1) as (a & b & Eab). destruct (groups_more l k a j b NF F2 Eab) as (ga & gb & G1 & G2).
      exists j, (alloc (OInst k) w), (mkIntf j (members l j k) false false None). split; [reflexivity|].
      assert (ND : NoDup (map n_rep (w_intfs (alloc (OInst k) w)))) by (change (w_intfs (alloc (OInst k) w)) with (w_intfs w); rewrite G, groups_reps; apply nodup_firsts).
      split. { apply (get_spec (mkIntf j (members l j k) false false None)); [exact ND| |].
        - change (w_intfs (alloc (OInst k) w)) with (w_intfs w). rewrite G, G1. apply in_elt.
        - right. apply Lv. right. exists j. auto. }
      split; [apply Mk, F2|]. split; [exact F2|].
      split. { rewrite (put_spec _ ga (mkIntf j (members l j k) false false None) gb _ ND); [symmetry; exact G2| |reflexivity]. change (w_intfs (alloc (OInst k) w)) with (w_intfs w). rewrite G. exact G1. }
      split; [exact C|]. split; [exact P|]. split; [exact A|]. split; [exact X|]. split; [exact N|].
      intro o. cbn [w_live alloc set_live In]. rewrite Lv, firsts_S, NF. cbn [app]. split.
      + intros [<-|[(i & -> & H)|H]]; [left; exists k; split; [reflexivity|lia]|left; exists i; split; [reflexivity|lia]|right; exact H].
      + intros [(i & -> & H)|H]; [|auto]. destruct (Nat.eq_dec i k) as [->|Q]; [auto|]. right. left. exists i. split; [reflexivity|lia].
    - assert (F : is_first l k = true).
      { destruct (is_first l k) eqn:Q; [reflexivity|]. exfalso. destruct (has_first l (Datatypes.S k) k (Nat.lt_succ_diag_r k) L) as (j & J1 & J2). rewrite firsts_S, Q in J1. cbn in J1. rewrite (Ff j J1) in J2. discriminate. }
      exists k. eexists. exists (mkIntf k [] false false None). split; [reflexivity|].
      assert (NDg : NoDup (map n_rep (mkIntf k [] false false None :: groups l k))).
      { cbn [map]. rewrite groups_reps. constructor; [|apply nodup_firsts]. rewrite in_firsts. cbn [n_rep]. intros [H _]. lia. }
      split. { apply (get_spec (mkIntf k [] false false None)).
        - cbn [w_intfs alloc set_live set_intfs]. rewrite G. exact NDg.
        - cbn [w_intfs alloc set_live set_intfs]. left. reflexivity.
        - left. reflexivity. }
      split. { rewrite members_S, (same_refl l k L). cbn [app filter]. rewrite Nat.eqb_refl. cbn [negb].
        destruct (members l k k) as [|x r] eqn:E; [reflexivity|]. assert (Y : In x (members l k k)) by (rewrite E; left; reflexivity).
        apply in_members in Y as [Y1 Y2]. apply same_sym in Y2. rewrite is_first_spec in F. rewrite F in Y2 by exact Y1. discriminate. }
      split; [apply same_refl, L|].
      split. { rewrite (put_spec _ [] (mkIntf k [] false false None) (groups l k)); [rewrite (groups_first l k F L); reflexivity| | |reflexivity].
        - cbn [w_intfs alloc set_live set_intfs]. rewrite G. exact NDg.
        - cbn [w_intfs alloc set_live set_intfs]. rewrite G. reflexivity. }
      split; [exact C|]. split; [exact P|]. split; [exact A|]. split; [exact X|]. split; [exact N|].
      intro o. cbn [w_live alloc set_live set_intfs In]. rewrite Lv, firsts_S, F. cbn [app In]. split.
      + intros [<-|[<-|[(i & -> & H)|(j & -> & H)]]]; [right; exists k; auto|left; exists k; split; [reflexivity|lia]|left; exists i; split; [reflexivity|lia]|right; exists j; auto].
      + intros [(i & -> & H)|(j & -> & [<-|H])]; [|auto|right; right; right; exists j; auto]. destruct (Nat.eq_dec i k) as [->|Q]; [auto|]. right. right. left. exists i. split; [reflexivity|lia]. }
  destruct S1 as (j & w1 & n & E1 & E2 & E3 & E4 & E5 & E6 & E7 & E8 & E9 & E10 & E11). rewrite E1. rewrite E2. cbn [bind].
  set (w2 := put (with_insts n (k :: n_insts n)) w1) in *. cbn [n_insts with_insts].
  assert (Cw2 : w_conf w2 = conf_at l k) by exact E6.
  set (bz := existsb _ _).
  assert (Bz : bz = true <-> ~ free_dom l k).
  { unfold bz. rewrite existsb_exists. split.
    - intros (i & H & Q) Fd. apply andb_prop in Q as [Q1 Q2]. apply negb_true_iff, Nat.eqb_neq in Q1. destruct H as [H|H]; [congruence|].
      rewrite E3 in H. apply filter_In in H as [H _]. apply in_members in H as [H1 H2].
      unfold dom_of in Q2. rewrite Cw2, nth_conf_at in Q2. destruct (nth_error l i) as [ci|] eqn:Ei; cbn [option_map] in Q2; [|discriminate].
      assert (Z.eqb (f_dom ci) (f_dom c) = true) by (destruct (i <? k)%nat; exact Q2). apply Z.eqb_eq in H.
      assert (Hik : (i < k)%nat) by (clear - H1 Q1; lia). refine (Fd i ci c Hik Ei Ec _ H). apply same_sym in H2. pose proof (same_trans _ _ _ _ H2 E4) as T. unfold same in T. rewrite Ei, Ec in T. exact T.
    - intro Nf. destruct (existsb (fun i => match nth_error l i, nth_error l k with Some a, Some b => same_if a b && (f_dom a =? f_dom b) | _, _ => false end) (seq 0 k)) eqn:Q.
      + apply existsb_exists in Q as (i & Hi & Q). apply in_seq in Hi. rewrite Ec in Q. destruct (nth_error l i) as [ci|] eqn:Ei; [|discriminate]. apply andb_prop in Q as [Q1 Q2].
        exists i. split.
        * right. rewrite E3. apply filter_In. split; [|apply negb_true_iff, Nat.eqb_neq; lia]. apply in_members. split; [lia|]. eapply same_trans; [exact E4|]. apply same_sym. unfold same. rewrite Ei, Ec. exact Q1.
        * apply andb_true_iff. split; [apply negb_true_iff, Nat.eqb_neq; lia|]. unfold dom_of. rewrite Cw2, nth_conf_at, Ei. cbn [option_map]. destruct (i <? k)%nat; exact Q2.
      + exfalso. apply Nf. intros i ci d Hi H1 H2 H3 H4. rewrite Ec in H2. injection H2 as <-.
        assert (T : existsb (fun i => match nth_error l i, nth_error l k with Some a, Some b => same_if a b && (f_dom a =? f_dom b) | _, _ => false end) (seq 0 k) = true).
        { apply existsb_exists. exists i. split; [apply in_seq; lia|]. rewrite H1, Ec, H3. apply Z.eqb_eq in H4. rewrite H4. reflexivity. }
        congruence. }
  destruct bz.
  - exists EBUSY, w2. split; [reflexivity|]. split; [auto|]. split; [split; [discriminate|intro H; exfalso; apply Bz in H; [exact H|reflexivity]]|].
    split; [discriminate|]. intros _. split; [exact Cw2|]. split; [exact E5|]. split; [exact E7|]. split; [exact E9|exact E11].
  - exists 0. eexists. split; [reflexivity|]. split; [auto|].
    split. { split; [|reflexivity]. intros _ i ci d A1 A2 A3 A4 A5. assert (Q : false = true); [|discriminate]. apply Bz. intro Fd. exact (Fd i ci d A1 A2 A3 A4 A5). }
    split; [|congruence]. intros _. split; [cbn [w_conf set_conf]; rewrite Cw2; apply conf_at_S, Ec|]. split; [exact E5|]. split; [exact E7|]. split; [exact E8|]. split; [exact E9|]. split; [exact E10|exact E11].
Qed.
