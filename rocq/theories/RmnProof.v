(** Proofs for C77. *)
Require Import ZArith List Bool Lia Permutation Sorted.
From Verif Require Import Base RmnSpec RmnModel.
Import ListNotations.
Open Scope Z_scope.

Lemma same_iff a b : same a b = true <-> a = b.
Proof.
  destruct a as [[p q] r], b as [[x y] z]. unfold same. rewrite !andb_true_iff, !Z.eqb_eq. split; [intros [[-> ->] ->]; reflexivity|intro E; injection E as -> -> ->; auto].
Qed.
Lemma number_app {A B} (f : Z -> A -> B) l r : forall n, number f n (l ++ r) = number f n l ++ number f (n + Z.of_nat (List.length l)) r.
Proof. induction l as [|a l IH]; intro n; cbn [number app List.length]; [f_equal; lia|]. rewrite IH. do 3 f_equal. lia. Qed.
Lemma number_len {A B} (f : Z -> A -> B) l : forall n, List.length (number f n l) = List.length l.
Proof. induction l as [|a l IH]; intro n; cbn; [reflexivity|]. rewrite IH. reflexivity. Qed.
(** Records numbered consecutively up to [c]. *)
Definition ids {A} (f : A -> Z) (l : list A) (c : Z) : Prop := map f l = number (fun n _ => n) (c - Z.of_nat (List.length l)) l.
Lemma ids_nil {A} (f : A -> Z) c : ids f [] c.
Proof. reflexivity. Qed.
Lemma ids_snoc {A} (f : A -> Z) l a c : ids f l c -> f a = c -> ids f (l ++ [a]) (c + 1).
Proof. unfold ids. intros H E. rewrite map_app, number_app, app_length. cbn [List.length map number]. rewrite H, E. replace (c + 1 - Z.of_nat (List.length l + 1)) with (c - Z.of_nat (List.length l)) by lia. f_equal. f_equal. lia. Qed.
Lemma sort_from {A} (f : A -> Z) l : forall n, map f l = number (fun n _ => n) n l -> sort f l = l.
Proof.
  induction l as [|a l IH]; intros n H; [reflexivity|]. cbn [map number] in H. injection H as H1 H2. unfold sort in *. cbn [fold_right]. rewrite (IH _ H2). destruct l as [|b l]; [reflexivity|]. cbn [map number] in H2. injection H2 as H2 _. cbn [insert]. destruct (Z.leb_spec (f a) (f b)); [reflexivity|lia].
Qed.
Lemma sort_ids {A} (f : A -> Z) l c : ids f l c -> sort f l = l.
Proof. apply sort_from. Qed.
Lemma filter_sort {A} (f : A -> Z) p l : forall n, map f l = number (fun n _ => n) n l -> sort f (filter p l) = filter p l.
Proof.
  assert (Lb : forall l n, map f l = number (fun n _ => n) n l -> forall x, In x l -> n <= f x).
  { clear. induction l as [|a l IH]; intros n H x Hx; [destruct Hx|]. cbn in H. injection H as H1 H2. destruct Hx as [->|Hx]; [lia|]. specialize (IH _ H2 x Hx). lia. }
  induction l as [|a l IH]; intros n H; [reflexivity|]. cbn [map number] in H. injection H as H1 H2. cbn [filter]. destruct (p a); [|exact (IH _ H2)]. unfold sort in *. cbn [fold_right]. rewrite (IH _ H2). destruct (filter p l) as [|b r] eqn:E; [reflexivity|].
  assert (Hb : In b l) by (assert (X : In b (filter p l)) by (rewrite E; left; reflexivity); apply filter_In in X; apply X). pose proof (Lb _ _ H2 b Hb). cbn [insert]. destruct (Z.leb_spec (f a) (f b)); [reflexivity|lia].
Qed.
Lemma insert_perm {A} (f : A -> Z) a l : Permutation (insert f a l) (a :: l).
Proof. induction l as [|b l IH]; [reflexivity|]. cbn. destruct (f a <=? f b); [reflexivity|]. rewrite IH. apply perm_swap. Qed.
Lemma sort_perm {A} (f : A -> Z) l : Permutation (sort f l) l.
Proof. induction l as [|a l IH]; [reflexivity|]. unfold sort in *. cbn [fold_right]. rewrite insert_perm, IH. reflexivity. Qed.
Lemma insert_sorted {A} (f : A -> Z) a l : StronglySorted (fun x y => f x <= f y) l -> StronglySorted (fun x y => f x <= f y) (insert f a l).
Proof.
  induction l as [|b l IH]; intro H; [constructor; constructor|]. cbn. inversion_clear H as [|? ? H1 H2]. destruct (Z.leb_spec (f a) (f b)).
  - constructor; [constructor; assumption|]. constructor; [exact H|]. eapply Forall_impl; [|exact H2]. cbn. intros; lia.
  - constructor; [apply IH, H1|]. rewrite Forall_forall in *. intros x Hx. apply (Permutation_in _ (insert_perm f a l)) in Hx as [<-|Hx]; [lia|exact (H2 x Hx)].
Qed.
Lemma sort_sorted {A} (f : A -> Z) l : StronglySorted (fun x y => f x <= f y) (sort f l).
Proof. induction l as [|a l IH]; [constructor|]. apply insert_sorted, IH. Qed.

(** Lookup and update of the one record with a key. *)
Lemma position_none {A} (f : A -> bool) l : position f l = None -> forall x, In x l -> f x = false.
Proof. induction l as [|a l IH]; intros H x Hx; [destruct Hx|]. cbn in H. destruct (f a) eqn:E; [discriminate|]. destruct (position f l); [discriminate|]. destruct Hx as [->|Hx]; auto. Qed.
Lemma position_some {A K} (f : A -> bool) (k : A -> K) k0 (g : A -> A) : (forall x, f x = true <-> k x = k0) -> forall l i, NoDup (map k l) -> position f l = Some i ->
  exists x, nth_error l i = Some x /\ In x l /\ f x = true /\ replace i (g x) l = map (fun y => if f y then g y else y) l.
Proof.
  intro F. induction l as [|a l IH]; intros i ND H; [discriminate|]. cbn [map] in ND. inversion_clear ND as [|? ? N1 N2]. cbn [position] in H. destruct (f a) eqn:E.
  - injection H as <-. exists a. split; [reflexivity|]. split; [left; reflexivity|]. split; [exact E|]. cbn [replace map]. rewrite E. f_equal. rewrite <- (map_id l) at 1. apply map_ext_in. intros y Hy. destruct (f y) eqn:Ey; [|reflexivity]. exfalso. apply N1. apply F in E, Ey. rewrite E, <- Ey. apply in_map, Hy.
  - destruct (position f l) as [j|]; [|discriminate]. injection H as <-. destruct (IH j N2 eq_refl) as (x & A1 & A2 & A3 & A4). exists x. split; [exact A1|]. split; [right; exact A2|]. split; [exact A3|]. cbn [replace map]. rewrite E, A4. reflexivity.
Qed.
Lemma replace_last {A} (v j : A) l : replace (List.length (l ++ [j]) - 1) v (l ++ [j]) = l ++ [v].
Proof. rewrite app_length. cbn [List.length]. replace (List.length l + 1 - 1)%nat with (List.length l) by lia. induction l as [|a l IH]; [reflexivity|]. cbn. rewrite IH. reflexivity. Qed.

(** Received events. *)
Definition xkey (x : rx) := (x_port x, x_ref x, x_seq x).
Definition rxinv (T : list rx) (rs : list (bool * stats * elt)) : Prop :=
  map xkey T = firsts rs /\ Forall (fun x => x_timing x = last_of true (xkey x) rs /\ x_comp x = last_of false (xkey x) rs /\ Some (x_time x) = first_time (xkey x) rs) T.
Lemma firsts_snoc rs r : firsts (rs ++ [r]) = if existsb (same (key r)) (firsts rs) then firsts rs else firsts rs ++ [key r].
Proof. unfold firsts. rewrite fold_left_app. reflexivity. Qed.
Lemma ex_same k l : existsb (same k) l = true <-> In k l.
Proof. rewrite existsb_exists. split; [intros (x & A & B); apply same_iff in B; subst; exact A|intro H; exists k; split; [exact H|apply same_iff; reflexivity]]. Qed.
Lemma firsts_spec rs : NoDup (firsts rs) /\ forall k, In k (firsts rs) <-> exists r, In r rs /\ key r = k.
Proof.
  induction rs as [|r rs [IH1 IH2]] using rev_ind; [split; [constructor|]; intro k; split; [intros []|intros (r & [] & _)]|]. rewrite firsts_snoc. destruct (existsb (same (key r)) (firsts rs)) eqn:E.
  - split; [exact IH1|]. intro k. rewrite IH2. split; intros (x & A & B); [exists x; split; [apply in_app_iff; auto|exact B]|]. apply in_app_iff in A as [A|[A|[]]]; [eauto|]. subst x. apply ex_same in E. apply IH2. rewrite <- B. exact E.
  - split.
    + assert (N : ~ In (key r) (firsts rs)) by (intro X; apply ex_same in X; congruence). clear -IH1 N. induction (firsts rs) as [|b l IH]; [constructor; [intros []|constructor]|]. inversion_clear IH1 as [|? ? H1 H2]. cbn. constructor; [|apply IH; [exact H2|intro; apply N; right; assumption]]. intro X. apply in_app_iff in X as [X|[X|[]]]; [contradiction|]. apply N. left. auto.
    + intro k. rewrite in_app_iff, IH2. cbn [In]. split; [intros [(x & A & B)|[<-|[]]]; [exists x|exists r]; (split; [apply in_app_iff; cbn; auto|auto])|]. intros (x & A & B). apply in_app_iff in A as [A|[A|[]]]; [left; eauto|right; left; congruence].
Qed.
Lemma last_snoc b k rs r : last_of b k (rs ++ [r]) = if same (key r) k && Bool.eqb (fst (fst r)) b then Some (e_data (snd r)) else last_of b k rs.
Proof. unfold last_of. rewrite fold_left_app. reflexivity. Qed.
Lemma find_snoc {A} (f : A -> bool) l a : find f (l ++ [a]) = match find f l with Some x => Some x | None => if f a then Some a else None end.
Proof. induction l as [|b l IH]; [reflexivity|]. cbn. destruct (f b); [reflexivity|exact IH]. Qed.
Lemma first_snoc k rs r : first_time k (rs ++ [r]) = match first_time k rs with Some x => Some x | None => if same (key r) k then Some (e_now (snd r)) else None end.
Proof. unfold first_time. rewrite find_snoc. destruct (find (fun r0 => same (key r0) k) rs); [reflexivity|]. cbn. destruct (same (key r) k); reflexivity. Qed.
Lemma last_none b k rs : ~ In k (firsts rs) -> last_of b k rs = None /\ first_time k rs = None.
Proof.
  induction rs as [|r rs IH] using rev_ind; intro N; [split; reflexivity|]. rewrite last_snoc, first_snoc. assert (Q : ~ In k (firsts rs) /\ key r <> k).
  { split; intro X; apply N; apply (firsts_spec (rs ++ [r])); [apply (firsts_spec rs) in X as (x & A & B); exists x; split; [apply in_app_iff; auto|exact B]|exists r; split; [apply in_app_iff; cbn; auto|exact X]]. }
  destruct Q as [Q1 Q2]. destruct (IH Q1) as [-> ->]. destruct (same (key r) k) eqn:E; [apply same_iff in E; contradiction|]. auto.
Qed.
Lemma rx_one_spec g b s e m rs : rxinv (m_rx m) rs -> ids x_id (m_rx m) (c_rx m) -> c_rx m < 2147483647 ->
  exists T c, rx_one (Some g) b s e m = Some (set_rx m T c) /\ rxinv T (rs ++ [(b, s, e)]) /\ ids x_id T c /\ c_rx m <= c <= c_rx m + 1.
Proof.
  intros [K F] I L. unfold rx_one. set (f := fun x => (x_port x =? s_port s) && (x_ref x =? s_ref s) && (x_seq x =? e_seq e)). set (r := (b, s, e)).
  assert (Ff : forall x, f x = true <-> xkey x = key r). { intro x. unfold f, xkey, r, key. rewrite !andb_true_iff, !Z.eqb_eq. split; [intros [[-> ->] ->]; reflexivity|intro E; injection E as -> -> ->; auto]. }
  destruct (firsts_spec rs) as [Fn Fi]. assert (ND : NoDup (map xkey (m_rx m))) by (rewrite K; exact Fn). destruct (position f (m_rx m)) as [i|] eqn:Ep.
  - destruct (position_some f xkey (key r) (fill b e) Ff _ _ ND Ep) as (x & A1 & A2 & A3 & A4). rewrite A1. cbn [bind]. rewrite A4. eexists. eexists. split; [reflexivity|].
    assert (Kf : forall y, xkey (if f y then fill b e y else y) = xkey y /\ x_id (if f y then fill b e y else y) = x_id y /\ x_time (if f y then fill b e y else y) = x_time y). { intro y. destruct (f y); [|auto]. unfold fill. destruct b; auto. }
    split; [|split; [|lia]].
    + split.
      * rewrite map_map. rewrite (map_ext _ _ (fun y => proj1 (Kf y))), firsts_snoc, K. destruct (existsb (same (key r)) (firsts rs)) eqn:E; [reflexivity|]. exfalso. apply not_true_iff_false in E. apply E, ex_same. rewrite <- K. apply in_map_iff. exists x. split; [apply Ff, A3|exact A2].
      * rewrite Forall_forall in *. intros y Hy. apply in_map_iff in Hy as (z & <- & Hz). destruct (Kf z) as (Q1 & _ & Q2). rewrite Q1, Q2. destruct (F z Hz) as (F1 & F2 & F3). rewrite !last_snoc, first_snoc, <- F1, <- F2, <- F3. split; [|split; [|reflexivity]].
        -- destruct (f z) eqn:Ez; [apply Ff in Ez; rewrite Ez, (proj2 (same_iff _ _) eq_refl); unfold fill, r; destruct b; reflexivity|]. destruct (same (key r) (xkey z)) eqn:Es; [|reflexivity]. apply same_iff in Es. symmetry in Es. apply Ff in Es. congruence.
        -- destruct (f z) eqn:Ez; [apply Ff in Ez; rewrite Ez, (proj2 (same_iff _ _) eq_refl); unfold fill, r; destruct b; reflexivity|]. destruct (same (key r) (xkey z)) eqn:Es; [|reflexivity]. apply same_iff in Es. symmetry in Es. apply Ff in Es. congruence.
    + unfold ids in *. rewrite map_map, (map_ext _ _ (fun y => proj1 (proj2 (Kf y)))), I, map_length. clear. generalize (c_rx m - Z.of_nat (List.length (m_rx m))). induction (m_rx m) as [|a l IH]; intro n; [reflexivity|]. cbn. rewrite <- IH. reflexivity.
  - unfold bump. destruct (Z.eqb_spec (c_rx m) 2147483647); [lia|]. cbn [bind]. cbn [m_rx c_rx set_rx]. rewrite replace_last. eexists. eexists. split; [reflexivity|]. pose proof (position_none _ _ Ep) as No.
    assert (Nk : ~ In (key r) (firsts rs)). { rewrite <- K. intro X. apply in_map_iff in X as (x & E & Hx). apply Ff in E. rewrite (No x Hx) in E. discriminate. }
    split; [|split; [|lia]].
    + split.
      * rewrite map_app, K, firsts_snoc. destruct (existsb (same (key r)) (firsts rs)) eqn:E; [apply ex_same in E; contradiction|]. unfold fill. destruct b; reflexivity.
      * apply Forall_app. split.
        -- rewrite Forall_forall in *. intros y Hy. destruct (F y Hy) as (F1 & F2 & F3). rewrite !last_snoc, first_snoc, <- F1, <- F2, <- F3. destruct (same (key r) (xkey y)) eqn:Es; [|auto]. apply same_iff in Es. symmetry in Es. apply Ff in Es. rewrite (No y Hy) in Es. discriminate.
        -- constructor; [|constructor]. set (x0 := fill b e _). assert (E0 : xkey x0 = key r) by (unfold x0, fill; destruct b; reflexivity). rewrite E0, !last_snoc, first_snoc. destruct (last_none true _ _ Nk) as [-> ->]. destruct (last_none false _ _ Nk) as [-> _]. rewrite (proj2 (same_iff _ _) eq_refl). unfold x0, fill, r. destruct b; cbn; auto.
    + apply ids_snoc; [exact I|]. unfold fill. destruct b; reflexivity.
Qed.
Lemma set_rx_twice m a b c d : set_rx (set_rx m a b) c d = set_rx m c d.
Proof. reflexivity. Qed.
Lemma rx_all_spec g b s : forall l m rs, rxinv (m_rx m) rs -> ids x_id (m_rx m) (c_rx m) -> c_rx m + Z.of_nat (List.length l) <= 2147483647 ->
  exists T c, rx_all (Some g) b s l m = Some (set_rx m T c) /\ rxinv T (rs ++ map (fun e => (b, s, e)) l) /\ ids x_id T c /\ c_rx m <= c <= c_rx m + Z.of_nat (List.length l).
Proof.
  induction l as [|e l IH]; intros m rs R I L; cbn [rx_all map List.length] in *.
  - exists (m_rx m), (c_rx m). split; [destruct m; reflexivity|]. rewrite app_nil_r. split; [exact R|]. split; [exact I|lia].
  - destruct (rx_one_spec g b s e m rs R I ltac:(lia)) as (T & c & A1 & A2 & A3 & A4). rewrite A1. cbn [bind]. destruct (IH (set_rx m T c) (rs ++ [(b, s, e)]) A2 A3) as (T2 & c2 & B1 & B2 & B3 & B4); [cbn; lia|]. cbn [c_rx set_rx] in B4.
    exists T2, c2. rewrite set_rx_twice in B1. split; [exact B1|]. rewrite <- app_assoc in B2. split; [exact B2|]. split; [exact B3|lia].
Qed.
(** Messages sent. *)
Lemma tx_all_spec s t : forall l m, ids t_id (m_tx m) (c_tx m) -> c_tx m + Z.of_nat (List.length l) <= 2147483647 ->
  exists T c, tx_all s t l m = Some (set_tx m T c) /\ T = m_tx m ++ number mk_tx (c_tx m) (map (fun e => (s, t, e)) l) /\ ids t_id T c /\ c = c_tx m + Z.of_nat (List.length l).
Proof.
  induction l as [|e l IH]; intros m I L; cbn [tx_all map List.length number] in *.
  - exists (m_tx m), (c_tx m). split; [destruct m; reflexivity|]. rewrite app_nil_r. split; [reflexivity|]. split; [exact I|lia].
  - unfold bump. destruct (Z.eqb_spec (c_tx m) 2147483647); [lia|]. cbn [bind]. match goal with |- context [tx_all s t l ?u] => destruct (IH u) as (T & c & B1 & B2 & B3 & B4) end; [cbn; apply ids_snoc; [exact I|reflexivity]|cbn; lia|]. cbn [c_tx m_tx set_tx] in *.
    exists T, c. split; [exact B1|]. rewrite <- app_assoc in B2. split; [exact B2|]. split; [exact B3|lia].
Qed.
(** Statuses. *)
Definition linv (L all : list status) : Prop :=
  NoDup (map z_port L) /\ (forall z, In z L -> find (fun y => z_port y =? z_port z) (rev all) = Some z) /\ (forall y, In y all -> In (z_port y) (map z_port L)).
Lemma status_spec s d g now m all : linv (m_latest m) all -> ids z_id (m_st m) (c_st m) -> c_st m < 2147483647 ->
  exists L, status_one s d g now m = Some (set_st m (m_st m ++ [mk_st (c_st m) (s, d, g, now)]) L (c_st m + 1)) /\ linv L (all ++ [mk_st (c_st m) (s, d, g, now)]).
Proof.
  intros (N & F & C) I L. unfold status_one, bump. destruct (Z.eqb_spec (c_st m) 2147483647); [lia|]. cbn [bind]. change (mk_st (c_st m) (s, d, g, now)) with (mkSt (s_port s) 0 (c_st m) now d g). set (z0 := mkSt (s_port s) 0 (c_st m) now d g). cbn zeta.
  assert (Ff : forall x, (z_port x =? s_port s) = true <-> z_port x = s_port s) by (intro; apply Z.eqb_eq). destruct (position (fun x => z_port x =? s_port s) (m_latest m)) as [i|] eqn:Ep.
  - destruct (position_some (fun x => z_port x =? s_port s) z_port (s_port s) (fun _ => z0) Ff _ _ N Ep) as (x & A1 & A2 & A3 & A4). cbn beta in A4. rewrite A4. eexists. split; [reflexivity|].
    assert (Kp : map z_port (map (fun y => if z_port y =? s_port s then z0 else y) (m_latest m)) = map z_port (m_latest m)). { rewrite map_map. apply map_ext. intro y. destruct (Z.eqb_spec (z_port y) (s_port s)); [symmetry; assumption|reflexivity]. }
    split; [rewrite Kp; exact N|]. split.
    + intros z Hz. rewrite rev_unit. cbn [find]. apply in_map_iff in Hz as (y & E & Hy). destruct (Z.eqb_spec (z_port y) (s_port s)) as [Q|Q]; [rewrite <- E, Z.eqb_refl; reflexivity|]. subst z. destruct (Z.eqb_spec (z_port z0) (z_port y)); [cbn in *; congruence|]. apply F, Hy.
    + intros y Hy. rewrite Kp. apply in_app_iff in Hy as [Hy|[<-|[]]]; [apply C, Hy|]. apply Ff in A3. change (z_port z0) with (s_port s). rewrite <- A3. apply in_map, A2.
  - pose proof (position_none _ _ Ep) as No. eexists. split; [reflexivity|]. assert (Np : ~ In (s_port s) (map z_port (m_latest m))). { intro X. apply in_map_iff in X as (y & E & Hy). apply Ff in E. rewrite (No y Hy) in E. discriminate. }
    split; [|split].
    + rewrite map_app. cbn [map]. change (z_port z0) with (s_port s). clear -N Np. induction (map z_port (m_latest m)) as [|b l IH]; [constructor; [intros []|constructor]|]. inversion_clear N as [|? ? H1 H2]. cbn. constructor; [|apply IH; [exact H2|intro; apply Np; right; assumption]]. intro X. apply in_app_iff in X as [X|[X|[]]]; [contradiction|]. apply Np. left. auto.
    + intros z Hz. rewrite rev_unit. cbn [find]. apply in_app_iff in Hz as [Hz|[<-|[]]]; [|rewrite Z.eqb_refl; reflexivity]. destruct (Z.eqb_spec (z_port z0) (z_port z)) as [E|]; [exfalso; apply Np; change (s_port s) with (z_port z0); rewrite E; apply in_map, Hz|]. apply F, Hz.
    + intros y Hy. rewrite map_app, in_app_iff. apply in_app_iff in Hy as [Hy|[<-|[]]]; [left; apply C, Hy|right; left; reflexivity].
Qed.
(** Nodes. *)
Definition ninv (N : list node) (rs : list stats) : Prop :=
  NoDup (map n_port N) /\ (forall n, In n N -> exists s, find (fun s => s_port s =? n_port n) rs = Some s /\ n_addr n = s_addr s /\ n_dom n = s_dom s) /\ (forall s, In s rs -> In (s_port s) (map n_port N)).
Lemma register_spec s m rs : ninv (m_nodes m) rs -> exists N, register s m = set_nodes m N /\ ninv N (rs ++ [s]).
Proof.
  intros (N & F & C). unfold register. destruct (existsb (fun n => n_port n =? s_port s) (m_nodes m)) eqn:E.
  - exists (m_nodes m). split; [destruct m; reflexivity|]. split; [exact N|]. split.
    + intros n Hn. destruct (F n Hn) as (x & A & B). exists x. rewrite find_snoc, A. auto.
    + intros x Hx. apply in_app_iff in Hx as [Hx|[<-|[]]]; [apply C, Hx|]. apply existsb_exists in E as (n & Hn & En). apply Z.eqb_eq in En. rewrite <- En. apply in_map, Hn.
  - eexists. split; [reflexivity|]. assert (Np : ~ In (s_port s) (map n_port (m_nodes m))). { intro X. apply in_map_iff in X as (y & Q & Hy). apply not_true_iff_false in E. apply E. apply existsb_exists. exists y. split; [exact Hy|apply Z.eqb_eq, Q]. }
    split; [|split].
    + rewrite map_app. cbn [map n_port]. clear -N Np. induction (map n_port (m_nodes m)) as [|b l IH]; [constructor; [intros []|constructor]|]. inversion_clear N as [|? ? H1 H2]. cbn. constructor; [|apply IH; [exact H2|intro; apply Np; right; assumption]]. intro X. apply in_app_iff in X as [X|[X|[]]]; [contradiction|]. apply Np. left. auto.
    + intros n Hn. rewrite find_snoc. apply in_app_iff in Hn as [Hn|[<-|[]]].
      * destruct (F n Hn) as (x & A & B). exists x. rewrite A. auto.
      * cbn [n_port n_addr n_dom]. destruct (find (fun s0 => s_port s0 =? s_port s) rs) as [y|] eqn:Ef; [|rewrite Z.eqb_refl; exists s; auto]. apply find_some in Ef as [Hy Q]. apply Z.eqb_eq in Q. exfalso. apply Np. rewrite <- Q. apply C, Hy.
    + intros x Hx. rewrite map_app, in_app_iff. apply in_app_iff in Hx as [Hx|[<-|[]]]; [left; apply C, Hx|right; left; reflexivity].
Qed.
