(** Proofs for C75: the module. *)
Require Import ZArith List Bool Arith Lia Permutation.
From Verif Require Import Base PmcSpec PmcModel PmcProof PmcProof2 PmcProof3 PmcProof4 PmcProof5 PmcProof6.
Import ListNotations.
Open Scope Z_scope.

Lemma number_ups c r : ups_of (number c r) = [].
Proof. revert c. induction r as [|i r IH]; intro c; [reflexivity|]. exact (IH (c + 1)). Qed.
Lemma number_ports c r : map fst (ports_of (number c r)) = r.
Proof. revert c. induction r as [|i r IH]; intro c; [reflexivity|]. cbn. f_equal. apply (IH (c + 1)). Qed.
Lemma number_snd c r : map snd (ports_of (number c r)) = map (fun k => c + Z.of_nat k) (seq 1 (List.length r)).
Proof.
  revert c. induction r as [|i r IH]; intro c; [reflexivity|]. cbn [number ports_of flat_map app map List.length seq snd]. fold (ports_of (number (c + 1) r)). rewrite (IH (c + 1)). f_equal.
  rewrite <- (seq_shift _ 1), map_map. apply map_ext. intro k. lia.
Qed.
Lemma number_on cur c r : ports_on cur (number c r) = map (fun i => (i, cur)) r.
Proof. revert c. induction r as [|i r IH]; intro c; [reflexivity|]. cbn. f_equal. apply IH. Qed.
Lemma ports_on_app cur r t c : ports_on cur (number c r ++ t) = map (fun i => (i, cur)) r ++ ports_on cur t.
Proof. revert c. induction r as [|i r IH]; intro c; [reflexivity|]. cbn. f_equal. apply IH. Qed.
Lemma ups_of_app a b : ups_of (a ++ b) = ups_of a ++ ups_of b.
Proof. apply flat_map_app. Qed.
Lemma ports_of_app a b : ports_of (a ++ b) = ports_of a ++ ports_of b.
Proof. apply flat_map_app. Qed.
Lemma ups_ups l c ns : ups_of (ups l c ns) = map n_rep ns.
Proof. revert c. induction ns as [|n ns IH]; intro c; [reflexivity|]. cbn [ups map]. change (n_rep n :: ups_of (number c (n_insts n) ++ ups l (c + Z.of_nat (List.length (n_insts n))) ns) = n_rep n :: map n_rep ns). rewrite ups_of_app, number_ups, IH. reflexivity. Qed.
Lemma ups_ports l c ns : map fst (ports_of (ups l c ns)) = all ns.
Proof.
  revert c. induction ns as [|n ns IH]; intro c; [reflexivity|]. unfold all. cbn [ups flat_map]. change (map fst (ports_of (number c (n_insts n) ++ ups l (c + Z.of_nat (List.length (n_insts n))) ns)) = n_insts n ++ all ns).
  rewrite ports_of_app, map_app, number_ports, IH. reflexivity.
Qed.
Lemma seq_add a n : forall b, map (fun k => (a + k)%nat) (seq b n) = seq (b + a) n.
Proof. induction n as [|n IH]; intro b; [reflexivity|]. cbn [seq map]. f_equal; [lia|]. rewrite IH. f_equal. Qed.
Lemma ups_snd l c ns : map snd (ports_of (ups l c ns)) = map (fun k => c + Z.of_nat k) (seq 1 (List.length (all ns))).
Proof.
  revert c. induction ns as [|n ns IH]; intro c; [reflexivity|]. unfold all. cbn [ups flat_map]. change (map snd (ports_of (number c (n_insts n) ++ ups l (c + Z.of_nat (List.length (n_insts n))) ns)) = map (fun k => c + Z.of_nat k) (seq 1 (List.length (n_insts n ++ all ns)))).
  rewrite ports_of_app, map_app, number_snd, IH, app_length, seq_app, map_app. f_equal.
  replace (seq (1 + List.length (n_insts n)) (List.length (all ns))) with (map (fun k => (List.length (n_insts n) + k)%nat) (seq 1 (List.length (all ns)))).
  - rewrite map_map. apply map_ext. intro k. lia.
  - apply seq_add.
Qed.
Lemma ups_on l ns : forall c cur, ports_on cur (ups l c ns) = flat_map (fun n => map (fun i => (i, Some (n_rep n))) (n_insts n)) ns.
Proof. induction ns as [|n ns IH]; intros c cur; [reflexivity|]. cbn [ups ports_on flat_map]. rewrite ports_on_app, IH. reflexivity. Qed.
Lemma number_no_up c r i o m : ~ In (Up i o m) (number c r).
Proof. revert c. induction r as [|x r IH]; intro c; [intros []|]. intros [H|H]; [discriminate|exact (IH _ H)]. Qed.
Lemma ups_in l c ns i o m : In (Up i o m) (ups l c ns) -> In i (map n_rep ns) /\ o = i /\ m = joins l i.
Proof.
  revert c. induction ns as [|n ns IH]; intro c; [intros []|]. cbn [ups map]. intros [H|H]; [injection H as <- <- <-; split; [left; reflexivity|auto]|].
  apply in_app_or in H as [H|H]; [destruct (number_no_up _ _ _ _ _ H)|]. destruct (IH _ H) as (A & B). split; [right; exact A|exact B].
Qed.

Lemma enoent rc : (if rc =? ENOENT then EINVAL else rc) = 0 <-> rc = 0.
Proof. destruct (Z.eqb_spec rc ENOENT) as [->|]; split; intro H; try discriminate; auto. Qed.
Lemma module_spec l e entries : l <> [] ->
  match module_create l e entries with
  | Some (rc, evs, info, w) => (rc = 0 <-> e_table e = 0 /\ no_clash l /\ e_thread e = 0 /\ works l e) /\
      (rc = 0 -> running l e w /\ evs = ups l 0 (groups l (List.length l)) /\ info = map Some (firstn entries (walk (w_intfs w))) ++ repeat None (entries - List.length (firstn entries (walk (w_intfs w)))))
  | None => ~ (e_table e = 0 /\ no_clash l /\ e_thread e = 0 /\ works l e)
  end /\
  ((forall i, first l i -> e_ctx e i = 0) -> (forall i, (i < List.length l)%nat -> e_port e i = 0) ->
     exists rc evs info w, module_create l e entries = Some (rc, evs, info, w) /\
       (rc <> 0 -> (forall o, In o (w_live w) -> o = OGlob) /\ w_intfs w = [] /\ (e_init e <> 0 -> w_live w = []))).
Proof.
  intro Nl. unfold module_create. destruct (Z.eqb_spec (e_table e) 0) as [Z1|Z1]; cbn [negb].
  2:{ split; [split; [rewrite enoent; split; [intro; contradiction|intros [Q _]; contradiction]|rewrite enoent; intro; contradiction]|]. intros _ _. do 4 eexists. split; [reflexivity|]. intros _. split; [intros o []|]. split; reflexivity. }
  destruct (create_spec l) as (rc & w & C & D). rewrite C. cbn [bind]. destruct D as [(-> & Nc & M)|(-> & Nc & D1 & D2)].
  2:{ change (EBUSY =? 0) with false. cbn [negb]. split; [split; [split; [discriminate|intros (_ & Q & _); contradiction]|discriminate]|]. intros _ _. do 4 eexists. split; [reflexivity|]. intros _. rewrite D2. split; [intros o []|]. auto. }
  cbn [negb Z.eqb]. pose proof (made_plain l _ w M) as P0. destruct (plain_wf l _ w (Nat.le_refl _) P0) as (W0 & X0 & G0).
  destruct (Z.eqb_spec (e_thread e) 0) as [Z2|Z2]; cbn [negb].
  2:{ destruct (destroy_spec w W0) as (w1 & B1 & B2 & B3 & B4 & _). rewrite B1. cbn [bind]. split; [split; [rewrite enoent; split; [intro; contradiction|intros (_ & _ & Q & _); contradiction]|rewrite enoent; intro; contradiction]|].
      intros _ _. do 4 eexists. split; [reflexivity|]. intros _. split; [exact B3|]. split; [exact B2|]. intros _. destruct (w_live w1) as [|o r] eqn:E; [reflexivity|]. exfalso. apply G0, B4. rewrite <- (B3 o (or_introl eq_refl)). left. reflexivity. }
  destruct (startup_spec l e w M Nl) as [S1 S2]. destruct (startup e w) as [[[rc evs] w1]|]; cbn [bind].
  - destruct S1 as [S1 S3]. destruct (Z.eqb_spec rc 0) as [->|N]; cbn [negb].
    + split; [split; [split; [intros _; split; [exact Z1|]; split; [exact Nc|]; split; [exact Z2|]; apply S1; reflexivity|reflexivity]|]|].
      * intros _. destruct (S3 eq_refl) as [Q1 Q2]. auto.
      * intros _ _. do 4 eexists. split; [reflexivity|]. intro Q. destruct Q. reflexivity.
    + split.
      * destruct (destroy_instances w1); cbn [bind]; [|intros (_ & _ & _ & Q); apply N, S1, Q]. rewrite enoent. split; [split; [intro; contradiction|intros (_ & _ & _ & Q); apply S1, Q]|intro; contradiction].
      * intros H1 H2. destruct (S2 H1 H2) as (rc' & evs' & w' & E & W & G). injection E as -> -> ->. destruct (destroy_spec w' W) as (w2 & B1 & B2 & B3 & B4 & _). rewrite B1. cbn [bind]. do 4 eexists. split; [reflexivity|].
        intros _. split; [exact B3|]. split; [exact B2|]. intro Zi. destruct (w_live w2) as [|o r] eqn:E; [reflexivity|]. exfalso. apply (G Zi), B4. rewrite <- (B3 o (or_introl eq_refl)). left. reflexivity.
  - split; [intros (_ & _ & _ & Q); exact (S1 Q)|]. intros H1 H2. destruct (S2 H1 H2) as (rc' & evs' & w' & E & _). discriminate.
Qed.
Lemma created l e entries evs info w : l <> [] -> module_create l e entries = Some (0, evs, info, w) ->
  running l e w /\ evs = ups l 0 (groups l (List.length l)) /\ info = map Some (firstn entries (all (w_intfs w))) ++ repeat None (entries - List.length l).
Proof.
  intros Nl H. destruct (module_spec l e entries Nl) as [Q _]. rewrite H in Q. destruct Q as [_ Q]. destruct (Q eq_refl) as (R & E & I). split; [exact R|]. split; [exact E|].
  rewrite (walk_all w (proj1 (ru_good _ _ _ R))) in I. rewrite I. f_equal. f_equal. rewrite firstn_length.
  pose proof (ru_shape _ _ _ R) as S. assert (P : Permutation (all (w_intfs w)) (seq 0 (List.length l))).
  { apply NoDup_Permutation; [eapply shape_nodup; eauto|apply seq_NoDup|]. intro x. rewrite (in_all l _ _ x S (Nat.le_refl _)), in_seq. lia. }
  apply Permutation_length in P. rewrite seq_length in P. rewrite P. lia.
Qed.
Lemma all_perm l w : shape l (List.length l) (w_intfs w) -> Permutation (all (w_intfs w)) (seq 0 (List.length l)).
Proof. intro S. apply NoDup_Permutation; [eapply shape_nodup; eauto|apply seq_NoDup|]. intro x. rewrite (in_all l _ _ x S (Nat.le_refl _)), in_seq. lia. Qed.
Lemma all_groups l w : shape l (List.length l) (w_intfs w) -> all (groups l (List.length l)) = all (w_intfs w).
Proof. intro S. rewrite (shape_all _ _ _ S), (shape_all _ _ _ (shape_groups l _)). reflexivity. Qed.

Lemma started l e entries evs info w : l <> [] -> module_create l e entries = Some (0, evs, info, w) ->
  NoDup (ups_of evs) /\ (forall i, In i (ups_of evs) <-> first l i) /\ (forall i o m, In (Up i o m) evs -> o = i) /\
  Permutation (map fst (ports_of evs)) (seq 0 (List.length l)) /\ map snd (ports_of evs) = map Z.of_nat (seq 1 (List.length l)) /\
  (forall i j, In (i, j) (ports_on None evs) -> exists k, j = Some k /\ first l k /\ shares l k i) /\
  info = map Some (firstn entries (map fst (ports_of evs))) ++ repeat None (entries - List.length l) /\
  (forall i, In i (w_alarm w) <-> exists k, first l k /\ shares l k i /\ e_phys e k = 0).
Proof.
  intros Nl H. destruct (created _ _ _ _ _ _ Nl H) as (R & E & I). pose proof (ru_shape _ _ _ R) as S. rewrite E.
  rewrite ups_ups, ups_ports, ups_snd, groups_reps, (all_groups l w S). pose proof (all_perm l w S) as P.
  split; [apply nodup_firsts|]. split; [intro i; symmetry; apply first_iff|]. split; [intros i o m Hi; apply ups_in in Hi; tauto|]. split; [exact P|].
  split; [apply Permutation_length in P; rewrite P, seq_length; apply map_ext; intro; lia|]. split; [|split; [exact I|]].
  - intros i j Hi. rewrite ups_on in Hi. apply in_flat_map in Hi as (n & Hn & Hi). apply in_map_iff in Hi as (x & Ex & Hx). injection Ex as -> <-. exists (n_rep n). split; [reflexivity|].
    destruct (shape_in _ _ _ _ (shape_groups l (List.length l)) Hn) as [F M]. split; [apply first_iff, F|]. apply shares_same. rewrite M in Hx. apply in_members in Hx. tauto.
  - intro i. rewrite (ru_alarm _ _ _ R). split.
    + intros [L Q]. exists (first_on l i). split; [apply first_on_first, L|]. split; [apply shares_same, (first_on_ex l i L)|exact Q].
    + intros (k & F & Sh & Q). rewrite (first_on_shares l i k F Sh). split; [apply shares_lt in Sh; tauto|exact Q].
Qed.

Lemma multicast_one l e entries evs info w i o m c : l <> [] -> module_create l e entries = Some (0, evs, info, w) -> In (Up i o m) evs -> nth_error l i = Some c ->
  ((forall k, shares l i k -> k = i) -> m = wants_multicast c) /\ ((exists k, k <> i /\ shares l i k) -> m = f_needed c).
Proof.
  intros Nl H Hi Ec. destruct (created _ _ _ _ _ _ Nl H) as (R & E & I). rewrite E in Hi. apply ups_in in Hi as (A & _ & ->). unfold joins. rewrite Ec.
  assert (Li : (i < List.length l)%nat) by (apply nth_error_Some; congruence).
  assert (Mi : forall k, In k (members l i (List.length l)) <-> shares l i k). { intro k. rewrite in_members, shares_same. split; [tauto|]. intro Q. split; [|exact Q]. apply shares_same, shares_lt in Q. tauto. }
  assert (Hself : In i (members l i (List.length l))) by (apply in_members; split; [exact Li|apply same_refl, Li]).
  pose proof (nodup_members l i (List.length l)) as ND. destruct (members l i (List.length l)) as [|x [|y t]]; [destruct Hself| |].
  - split; [reflexivity|]. intros (k & K1 & K2). apply Mi in K2 as [K2|[]]. destruct Hself as [Hs|[]]. congruence.
  - split; [|reflexivity]. intro Q. exfalso. inversion_clear ND as [|? ? N1 _]. apply N1. left. rewrite (Q x), (Q y); [reflexivity|apply Mi; right; left; reflexivity|apply Mi; left; reflexivity].
Qed.

Lemma shutdown_spec l e entries evs info w : l <> [] -> module_create l e entries = Some (0, evs, info, w) -> exists w', shutdown w = Some w' /\ w_live w' = [].
Proof.
  intros Nl H. destruct (created _ _ _ _ _ _ Nl H) as (R & _ & _). destruct (ru_good _ _ _ R) as (W & X & G). unfold shutdown. destruct (destroy_spec w W) as (w1 & B1 & B2 & B3 & B4 & B5 & B6 & B7). rewrite B1. cbn [bind]. rewrite (B6 X).
  destruct (free_spec OGlob w1 (proj2 B4 G)) as (w2 & F1 & F2 & _). exists w2. split; [exact F1|]. destruct (w_live w2) as [|o r] eqn:E; [reflexivity|]. exfalso. destruct (proj1 (F2 o) (or_introl eq_refl)) as [Q1 Q2]. apply Q2, B3, Q1.
Qed.

Lemma run_ok add socks : forall ns, (forall n, In n ns -> n_ok n = true /\ n_ctx n <> None) ->
  (forall n fd, In n ns -> fd = fst (socks (n_rep n)) \/ fd = snd (socks (n_rep n)) -> fd <> -1 -> add fd = 0) ->
  exists fds, run_loop add socks ns = Some fds /\ forall fd, In fd fds <-> fd <> -1 /\ exists n, In n ns /\ (fd = fst (socks (n_rep n)) \/ fd = snd (socks (n_rep n))).
Proof.
  induction ns as [|n ns IH]; intros H A; cbn [run_loop].
  - exists []. split; [reflexivity|]. intro fd. split; [intros []|intros (_ & n & [] & _)].
  - destruct (H n (or_introl eq_refl)) as [H1 H2]. rewrite H1. cbn [negb]. destruct (n_ctx n) as [q|]; [|contradiction]. pose proof (A n) as An. unfold start_interface.
    destruct IH as (fds & B1 & B2); [intros; apply H; right; assumption|intros m fd Hm; apply A; right; exact Hm|].
    exists ((if fst (socks (n_rep n)) =? -1 then [] else [fst (socks (n_rep n))]) ++ (if snd (socks (n_rep n)) =? -1 then [] else [snd (socks (n_rep n))]) ++ fds). destruct (socks (n_rep n)) as [f g] eqn:Es. cbn [fst snd] in *. split.
    + destruct (Z.eqb_spec f (-1)) as [F|F].
      * cbn [Z.eqb negb]. destruct (Z.eqb_spec g (-1)) as [F2|F2]; [cbn [Z.eqb negb]; rewrite B1; reflexivity|]. rewrite (An g (or_introl eq_refl)) by auto. cbn [Z.eqb negb]. rewrite B1. reflexivity.
      * rewrite (An f (or_introl eq_refl)) by auto. cbn [Z.eqb negb]. destruct (Z.eqb_spec g (-1)) as [F2|F2]; [cbn [Z.eqb negb]; rewrite B1; reflexivity|]. rewrite (An g (or_introl eq_refl)) by auto. cbn [Z.eqb negb]. rewrite B1. reflexivity.
    + intro fd. rewrite !in_app_iff, B2. clear - Es. split.
      * intros [Q|[Q|(Q & m & Q1 & Q2)]]; [| |split; [exact Q|]; exists m; split; [right; exact Q1|exact Q2]].
        -- destruct (Z.eqb_spec f (-1)); [destruct Q|]. destruct Q as [<-|[]]. split; [assumption|]. exists n. rewrite Es. split; [left; reflexivity|left; reflexivity].
        -- destruct (Z.eqb_spec g (-1)); [destruct Q|]. destruct Q as [<-|[]]. split; [assumption|]. exists n. rewrite Es. split; [left; reflexivity|right; reflexivity].
      * intros (Q & m & [<-|Q1] & Q2); [|right; right; eauto]. rewrite Es in Q2. cbn [fst snd] in Q2. destruct Q2 as [Q2|Q2]; subst fd.
        -- left. destruct (Z.eqb_spec f (-1)); [contradiction|left; reflexivity].
        -- right. left. destruct (Z.eqb_spec g (-1)); [contradiction|left; reflexivity].
Qed.
Lemma run_bad add socks n fd : forall ns, In n ns -> (forall m, In m ns -> n_ok m = true) -> fd = fst (socks (n_rep n)) \/ fd = snd (socks (n_rep n)) -> fd <> -1 -> add fd <> 0 ->
  run_loop add socks ns = None.
Proof.
  induction ns as [|m ns IH]; [intros []|]. intros Hn Ok Q1 Q2 Q3. cbn [run_loop]. rewrite (Ok m (or_introl eq_refl)). cbn [negb]. destruct (n_ctx m); [|reflexivity]. destruct Hn as [->|Hn].
  - unfold start_interface. destruct (socks (n_rep n)) as [f g]. cbn [fst snd] in *. destruct Q1 as [<-|<-].
    + destruct (Z.eqb_spec fd (-1)); [contradiction|]. destruct (Z.eqb_spec (add fd) 0) as [Z|Z]; [contradiction|]. cbn [negb]. destruct (Z.eqb_spec (add fd) 0) as [Z'|_]; [contradiction|]. reflexivity.
    + destruct (f =? -1) eqn:Ef; cbn [Z.eqb negb].
      * destruct (Z.eqb_spec fd (-1)); [contradiction|]. destruct (Z.eqb_spec (add fd) 0) as [Z|Z]; [contradiction|]. reflexivity.
      * destruct (add f =? 0) eqn:Ea; cbn [negb]; [|rewrite Ea; reflexivity]. destruct (Z.eqb_spec fd (-1)); [contradiction|]. destruct (Z.eqb_spec (add fd) 0) as [Z|Z]; [contradiction|]. reflexivity.
  - destruct (start_interface add (socks (n_rep m))) as [rc fds]. destruct (negb (rc =? 0)); [reflexivity|]. rewrite IH; auto. intros; apply Ok; right; assumption.
Qed.
Lemma rep_first l w : shape l (List.length l) (w_intfs w) -> forall i, first l i <-> exists n, In n (w_intfs w) /\ n_rep n = i.
Proof. intros S i. rewrite first_iff, <- (shape_reps _ _ _ S), in_map_iff. split; intros (n & A & B); eauto. Qed.
