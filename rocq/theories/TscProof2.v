(** Histories of the timestamp cache. *)
Require Import ZArith List Bool Lia ZifyBool.
Import ListNotations.
From Verif Require Import Base ListLib TimeSpec TimeModel TimeProof TscSpec TscModel TscProof.
Open Scope Z_scope.

Definition slot_of (q : request) : Z := snd (q_ticket q).

Lemma request_same : forall c c' x, packet c' x = packet c x -> request_at c' x = request_at c x.
Proof. intros c c' x E. unfold request_at. rewrite E. reflexivity. Qed.
Lemma request_slot : forall c x, slot_of (request_at c x) = Z.of_nat x.
Proof. reflexivity. Qed.

Lemma expect_waiting : forall ln c u d t now c' tk, wf c -> expect ln c u d t now = Some (c', tk) ->
  0 <= snd tk < 32 /\ fst tk = u32 (next_seq c) /\
  forall q, In q (waiting c') <-> q = mkReq tk (firstn max_pdu d) t u now \/ (In q (waiting c) /\ slot_of q <> snd tk).
Proof.
  intros ln c u d t now c' tk W H. destruct (expect_spec _ _ _ _ _ _ _ _ W H) as [s [ET [S0 [W' [_ [_ [PS [PO [_ FR]]]]]]]]]. subst tk.
  cbn [fst snd]. split; [unfold size in S0; lia|]. split; [reflexivity|].
  assert (RS : request_at c' s = mkReq (u32 (next_seq c), Z.of_nat s) (firstn max_pdu d) t u now) by (unfold request_at; rewrite PS; reflexivity).
  intros q. rewrite !in_waiting. split.
  - intros [x [X [F E]]]. rewrite (FR x X) in F. destruct (Nat.eqb_spec s x) as [->|N].
    + left. rewrite E. exact RS.
    + right. cbn [negb] in F. rewrite andb_true_r in F. rewrite E, (request_same c c') by (apply PO; auto). split.
      * exists x. auto.
      * rewrite request_slot. lia.
  - intros [E|[[x [X [F E]]] N]].
    + exists s. split; [exact S0|]. split; [rewrite FR by exact S0; rewrite Nat.eqb_refl; apply andb_false_r|]. congruence.
    + exists x. subst q. rewrite request_slot in N. assert (NX : x <> s) by lia. split; [exact X|].
      split; [rewrite FR, F by exact X; reflexivity|]. symmetry. apply request_same. apply PO. exact NX.
Qed.

Lemma match_waiting : forall c seen c' a, wf c -> match_packet c seen = Some (c', a) ->
  (a = NotFound /\ c' = c /\ forall q, In q (waiting c) -> ~ ends_with q seen) \/
  (exists q, In q (waiting c) /\ a = Found (q_ticket q) (q_user q) /\ ends_with q seen /\
     (forall q', In q' (waiting c) -> ends_with q' seen -> slot_of q <= slot_of q') /\
     (forall q', In q' (waiting c') <-> In q' (waiting c) /\ slot_of q' <> slot_of q)).
Proof.
  intros c seen c' a W H. apply match_spec in H; [|exact W]. destruct H as [H|[s [S0 [F [EA [EW [W' [_ [PK [FR [FST _]]]]]]]]]]]; [left; exact H|].
  right. exists (request_at c s).
  assert (PS : forall x, packet c' x = packet c x) by (intros x; unfold packet; rewrite PK; reflexivity).
  split; [apply in_waiting; exists s; auto|]. split; [exact EA|]. split; [exact EW|]. split.
  - intros q' I E. apply in_waiting in I. destruct I as [x [X [FX ->]]]. rewrite !request_slot.
    destruct (Nat.lt_ge_cases x s) as [L|L]; [|lia]. exfalso. exact (FST x L FX E).
  - intros q'. rewrite !in_waiting. split.
    + intros [x [X [FX E]]]. rewrite FR in FX by exact X. apply orb_false_iff in FX. destruct FX as [FX NX]. apply Nat.eqb_neq in NX.
      subst q'. rewrite (request_same c c') by apply PS. split; [exists x; auto|]. rewrite !request_slot. lia.
    + intros [[x [X [FX E]]] N]. subst q'. rewrite !request_slot in N. exists x. split; [exact X|].
      split; [rewrite FR, FX by exact X; apply Nat.eqb_neq; lia|]. symmetry. apply request_same. apply PS.
Qed.

Lemma expired_spec : forall port now c s b, normal now -> normal (q_sent (request_at c s)) -> expired port now (packet c s) = Some b ->
  (b = true <-> port_of (q_user (request_at c s)) = port /\ waited 10 now (request_at c s)).
Proof.
  intros port now c s b N1 N2 H. unfold expired in H. cbn [request_at q_user q_sent] in *. unfold waited. cbn [q_sent].
  destruct (port_of (k_user (packet c s)) =? port) eqn:E.
  - apply Z.eqb_eq in E. destruct (subtract now (k_sent (packet c s))) as [e|] eqn:ES; [cbn [bind] in H|discriminate H].
    destruct (subtract_exact _ _ _ N1 N2 ES) as [NE IE].
    assert (N10 : normal (mkTs 10 0 0)) by (unfold normal; cbn [sec nsec frac]; lia).
    rewrite (is_ge_spec _ _ _ NE N10 H). rewrite IE.
    replace (instant (mkTs 10 0 0)) with (10 * s_unit) by reflexivity. tauto.
  - apply Z.eqb_neq in E. injection H as H. subst b. split; [discriminate|]. intros [X _]. contradiction (E X).
Qed.

Lemma check_waiting : forall c port now c' a, wf c -> check c port now = Some (c', a) ->
  normal now -> (forall q, In q (waiting c) -> normal (q_sent q)) ->
  a = 1 /\ forall q, In q (waiting c') <-> In q (waiting c) /\ ~ (port_of (q_user q) = port /\ waited 10 now q).
Proof.
  intros c port now c' a W H N NW. unfold check in H.
  destruct (check_slots_spec port now (busy c) c c' a W (fun s I => proj1 (proj1 (in_busy c s W) I)) H) as [EA [W' [PK [_ [_ [EX FR]]]]]].
  split; [exact EA|].
  assert (PS : forall x, packet c' x = packet c x) by (intros x; unfold packet; rewrite PK; reflexivity).
  assert (KEY : forall x, (x < size)%nat -> is_free (free c) x = false ->
            (is_free (free c') x = true <-> port_of (q_user (request_at c x)) = port /\ waited 10 now (request_at c x))).
  { intros x X F. assert (IB : In x (busy c)) by (apply in_busy; auto). destruct (EX x IB) as [b EB].
    assert (NX : normal (q_sent (request_at c x))) by (apply NW; apply in_waiting; exists x; auto).
    rewrite <- (expired_spec _ _ _ _ _ N NX EB). rewrite (FR x X), F. cbn [orb]. rewrite existsb_exists. split.
    - intros [y [_ E]]. apply andb_true_iff in E. destruct E as [E1 E2]. apply Nat.eqb_eq in E1. subst y. rewrite EB in E2. exact E2.
    - intros ->. exists x. split; [exact IB|]. rewrite Nat.eqb_refl, EB. reflexivity. }
  intros q. rewrite !in_waiting. split.
  - intros [x [X [F E]]]. assert (FX : is_free (free c) x = false) by (rewrite FR in F by exact X; apply orb_false_iff in F; apply F).
    subst q. rewrite (request_same c c') by apply PS. split; [exists x; auto|]. intros G. apply (KEY x X FX) in G. congruence.
  - intros [[x [X [F E]]] G]. subst q. exists x. split; [exact X|]. split; [|symmetry; apply request_same; apply PS].
    destruct (is_free (free c') x) eqn:E; [|reflexivity]. contradiction G. apply (KEY x X F). exact E.
Qed.

Lemma step_wf : forall ln o c c' a, wf c -> step ln o c = Some (c', a) -> wf c' /\ next_seq c' = (if is_expect o then u64 (next_seq c + 1) else next_seq c).
Proof.
  intros ln o c c' a W H. destruct o; cbn [step is_expect] in *.
  - destruct (expect ln c u data trailer now) as [[c1 tk]|] eqn:E; [cbn [bind fst snd] in H|discriminate H]. injection H as H1 H2. subst.
    destruct (expect_spec _ _ _ _ _ _ _ _ W E) as [s [_ [_ [W' [NS _]]]]]. split; assumption.
  - apply match_spec in H; [|exact W]. destruct H as [[_ [-> _]]|[s [_ [_ [_ [_ [W' [NS _]]]]]]]]; [split; [exact W|reflexivity]|split; assumption].
  - destruct (check c port now) as [[c1 a1]|] eqn:E; [cbn [bind fst snd] in H|discriminate H]. injection H as H1 H2. subst.
    unfold check in E. destruct (check_slots_spec port now (busy c) c c' a1 W (fun s I => proj1 (proj1 (in_busy c s W) I)) E) as [_ [W' [_ [NS _]]]].
    split; assumption.
Qed.

(** A request that still waits after a step waited before it, or was made by it; and is not the one answered. *)
Lemma step_waiting : forall ln o c c' a q, wf c -> step ln o c = Some (c', a) -> In q (waiting c') ->
  (In q (waiting c) /\ (forall u, a <> Found (q_ticket q) u)) \/
  (exists u d t now, o = OExpect u d t now /\ a = Ticket (q_ticket q) /\ q = mkReq (q_ticket q) (firstn max_pdu d) t u now /\
     fst (q_ticket q) = u32 (next_seq c)).
Proof.
  intros ln o c c' a q W H I. destruct o; cbn [step] in H.
  - destruct (expect ln c u data trailer now) as [[c1 tk]|] eqn:E; [cbn [bind fst snd] in H|discriminate H]. injection H as H1 H2. subst.
    destruct (expect_waiting _ _ _ _ _ _ _ _ W E) as [_ [SQ WT]]. apply WT in I. destruct I as [I|[I _]].
    + right. exists u, data, trailer, now. subst q. cbn [q_ticket]. repeat split; auto.
    + left. split; [exact I|discriminate].
  - destruct (match_waiting _ _ _ _ W H) as [[-> [-> _]]|[q0 [I0 [EA [_ [_ WT]]]]]].
    + left. split; [exact I|discriminate].
    + apply WT in I. destruct I as [I N]. left. split; [exact I|]. subst a. intros u X. injection X as X1 X2. unfold slot_of in N. congruence.
  - destruct (check c port now) as [[c1 a1]|] eqn:E; [cbn [bind fst snd] in H|discriminate H]. injection H as H1 H2. subst.
    left. split; [|discriminate]. unfold check in E.
    destruct (check_slots_spec port now (busy c) c c' a1 W (fun s I => proj1 (proj1 (in_busy c s W) I)) E) as [_ [_ [PK [_ [_ [_ FR]]]]]].
    apply in_waiting in I. destruct I as [x [X [F EQ]]]. rewrite FR in F by exact X. apply orb_false_iff in F. destruct F as [F _].
    apply in_waiting. exists x. split; [exact X|]. split; [exact F|]. subst q. apply request_same. unfold packet. rewrite PK. reflexivity.
Qed.

Lemma run_snoc : forall ln h o c c' as', run ln (h ++ [o]) c = Some (c', as') ->
  exists c1 as1 a, run ln h c = Some (c1, as1) /\ step ln o c1 = Some (c', a) /\ as' = as1 ++ [a].
Proof.
  intros ln h o. induction h as [|x h IH]; intros c c' as' H.
  - cbn [app run] in H. destruct (step ln o c) as [[c1 a]|] eqn:E; [cbn [bind fst snd] in H|discriminate H]. injection H as H1 H2. subst.
    exists c, [], a. repeat split. exact E.
  - cbn [app run] in *. destruct (step ln x c) as [[c1 a]|] eqn:E; [cbn [bind fst snd] in *|discriminate H].
    destruct (run ln (h ++ [o]) c1) as [[c2 as2]|] eqn:R; [cbn [bind fst snd] in *|discriminate H]. injection H as H1 H2. subst.
    destruct (IH _ _ _ R) as [c3 [as3 [a3 [R3 [S3 E3]]]]]. rewrite R3. cbn [bind fst snd]. exists c3, (a :: as3), a3. subst. repeat split; auto.
Qed.
Lemma run_snoc_intro : forall ln h o c c1 as1 c' a, run ln h c = Some (c1, as1) -> step ln o c1 = Some (c', a) -> run ln (h ++ [o]) c = Some (c', as1 ++ [a]).
Proof.
  intros ln h o. induction h as [|x h IH]; intros c c1 as1 c' a R S0.
  - injection R as R1 R2. subst. cbn [app run]. rewrite S0. reflexivity.
  - cbn [app run] in *. destruct (step ln x c) as [[c2 a2]|]; [cbn [bind fst snd] in *|discriminate R].
    destruct (run ln h c2) as [[c3 as3]|] eqn:R3; [cbn [bind fst snd] in *|discriminate R]. injection R as R1 R2. subst.
    rewrite (IH _ _ _ _ _ R3 S0). reflexivity.
Qed.

Lemma count_app : forall h o, count (h ++ [o]) = count h + if is_expect o then 1 else 0.
Proof. intros h o. unfold count. rewrite filter_app, app_length. cbn [filter]. destruct (is_expect o); cbn [length]; lia. Qed.

(** Where a waiting request comes from. *)
Definition origin (ln : bool) (c0 : cache) (h : list op) (c : cache) (q : request) : Prop :=
  exists h1 u d t now h2 c1 as1 c2 as2,
    h = h1 ++ OExpect u d t now :: h2 /\ run ln h1 c0 = Some (c1, as1) /\
    step ln (OExpect u d t now) c1 = Some (c2, Ticket (q_ticket q)) /\ run ln h2 c2 = Some (c, as2) /\
    (forall u', ~ In (Found (q_ticket q) u') as2) /\
    q = mkReq (q_ticket q) (firstn max_pdu d) t u now /\ fst (q_ticket q) = u32 (count h1).

Lemma u32_u64 : forall x, u32 (u64 x) = u32 x.
Proof. intros x. unfold u32, u64. rewrite <- Znumtheory.Zmod_div_mod; [reflexivity|lia|lia|]. exists (2^32). reflexivity. Qed.

Lemma inv_run : forall ln c0 h c as_, wf c0 -> next_seq c0 = 0 -> waiting c0 = [] -> run ln h c0 = Some (c, as_) ->
  wf c /\ next_seq c = u64 (count h) /\ forall q, In q (waiting c) -> origin ln c0 h c q.
Proof.
  intros ln c0 h. induction h as [|o h IH] using rev_ind; intros c as_ W0 N0 E0 R.
  - injection R as R1 R2. subst. split; [exact W0|]. split; [rewrite N0; reflexivity|]. rewrite E0. intros q [].
  - destruct (run_snoc _ _ _ _ _ _ R) as [c1 [as1 [a [R1 [S1 EA]]]]]. destruct (IH _ _ W0 N0 E0 R1) as [W1 [N1 O1]].
    destruct (step_wf _ _ _ _ _ W1 S1) as [W N]. split; [exact W|]. split.
    { rewrite N, N1, count_app. destruct (is_expect o); [|rewrite Z.add_0_r; reflexivity]. unfold u64. rewrite Zplus_mod_idemp_l. reflexivity. }
    intros q I. destruct (step_waiting _ _ _ _ _ _ W1 S1 I) as [[I1 NF]|[u [d [t [now [EO [ET [EQ FQ]]]]]]]].
    + destruct (O1 q I1) as [h1 [u [d [t [now [h2 [ca [asa [cb [asb [E [RA [SA [RB [NB [EQ FQ]]]]]]]]]]]]]]]].
      exists h1, u, d, t, now, (h2 ++ [o]), ca, asa, cb, (asb ++ [a]). split; [subst h; rewrite <- app_assoc; reflexivity|].
      split; [exact RA|]. split; [exact SA|]. split; [eapply run_snoc_intro; eassumption|]. split; [|split; assumption].
      intros u' X. apply in_app_iff in X. destruct X as [X|[X|[]]]; [exact (NB u' X)|exact (NF u' X)].
    + subst o a. exists h, u, d, t, now, [], c1, as1, c, []. split; [reflexivity|]. split; [exact R1|]. split; [exact S1|].
      split; [reflexivity|]. split; [intros u' []|]. split; [exact EQ|]. rewrite FQ, N1. apply u32_u64.
Qed.

(** ** Definedness. *)
Definition sane (t : ts) : Prop := normal t /\ 0 <= sec t < 2^40.
Definition sane_op (o : op) : Prop := match o with OExpect _ _ _ now => sane now | OMatch _ => True | OCheck _ now => sane now end.
Definition sane_cache (c : cache) : Prop := sane (last_ok c) /\ forall q, In q (waiting c) -> sane (q_sent q).

Lemma sane_ge : forall a b, sane a -> sane b -> exists r, is_ge a b = Some r.
Proof. intros a b [A1 A2] [B1 B2]. apply is_ge_defined; auto; lia. Qed.
Lemma sane_elapsed : forall a b, sane a -> sane b -> exists e, subtract a b = Some e /\ normal e /\ - 2^62 < sec e < 2^62.
Proof.
  intros a b [A1 A2] [B1 B2]. destruct (proj2 (subtract_defined a b A1 B1)) as [e E].
  - split; [lia|]. destruct A1 as [_ [A3 A4]], B1 as [_ [B3 B4]]. unfold representable, instant, s_unit in *. lia.
  - exists e. split; [exact E|]. destruct (subtract_exact _ _ _ A1 B1 E) as [N I]. split; [exact N|].
    destruct A1 as [_ [A3 A4]], B1 as [_ [B3 B4]], N as [_ [N3 N4]]. unfold instant in I. lia.
Qed.
Lemma check_slots_defined : forall port now ss c, sane now -> sane (last_ok c) -> (forall s, In s ss -> sane (k_sent (packet c s))) ->
  exists r, check_slots port now ss (c, 1) = Some r.
Proof.
  intros port now ss. induction ss as [|s ss IH]; intros c N L H; [eexists; reflexivity|]. cbn [check_slots check_slot].
  destruct (port_of (k_user (packet c s)) =? port).
  - destruct (sane_elapsed now (k_sent (packet c s)) N (H s (or_introl eq_refl))) as [e [E [EN ES]]]. rewrite E. cbn [bind].
    assert (N1 : normal (mkTs 1 0 0)) by (unfold normal; cbn [sec nsec frac]; lia).
    assert (N10 : normal (mkTs 10 0 0)) by (unfold normal; cbn [sec nsec frac]; lia).
    destruct (is_ge_defined e (mkTs 1 0 0) EN N1 ES ltac:(cbn [sec]; lia)) as [late EL]. rewrite EL. cbn [bind].
    assert (X : exists ua, (if late then is_ge (k_sent (packet c s)) (last_ok c) else Some false) = Some ua).
    { destruct late; [|eexists; reflexivity]. apply sane_ge; [apply H; left; reflexivity|exact L]. }
    destruct X as [ua EU]. rewrite EU. cbn [bind]. replace (late && ua && negb (1 =? 1)) with false by (destruct late, ua; reflexivity).
    destruct (is_ge_defined e (mkTs 10 0 0) EN N10 ES ltac:(cbn [sec]; lia)) as [gone EG]. rewrite EG. cbn [bind].
    destruct gone; apply IH; auto; intros x X; apply H; right; exact X.
  - cbn [bind]. apply IH; auto. intros x X. apply H. right. exact X.
Qed.

Lemma step_sane : forall ln o c c' a, wf c -> sane_cache c -> sane_op o -> step ln o c = Some (c', a) -> sane_cache c'.
Proof.
  intros ln o c c' a W [L Q] O ST. assert (ST' := ST). split.
  - destruct o; cbn [step] in ST.
    + destruct (expect ln c u data trailer now) as [[c1 tk]|] eqn:E; [cbn [bind fst snd] in ST|discriminate ST]. injection ST as H1 H2. subst.
      destruct (expect_spec _ _ _ _ _ _ _ _ W E) as [s [_ [_ [_ [_ [LO _]]]]]]. rewrite LO. exact L.
    + apply match_spec in ST; [|exact W]. destruct ST as [[_ [-> _]]|[s [S0 [F [_ [_ [_ [_ [_ [_ [_ [newer [_ LO]]]]]]]]]]]]]; [exact L|].
      rewrite LO. destruct newer; [|exact L]. change (k_sent (packet c s)) with (q_sent (request_at c s)). apply Q. apply in_waiting. exists s. auto.
    + destruct (check c port now) as [[c1 a1]|] eqn:E; [cbn [bind fst snd] in ST|discriminate ST]. injection ST as H1 H2. subst.
      unfold check in E. destruct (check_slots_spec port now (busy c) c c' a1 W (fun s I => proj1 (proj1 (in_busy c s W) I)) E) as [_ [_ [_ [_ [LO _]]]]].
      rewrite LO. exact L.
  - intros q I. destruct (step_waiting _ _ _ _ _ _ W ST' I) as [[I1 _]|[u [d [t [now [EO [_ [EQ _]]]]]]]]; [apply Q; exact I1|].
    rewrite EQ. cbn [q_sent]. subst o. exact O.
Qed.
Lemma step_defined : forall ln o c, wf c -> sane_cache c -> sane_op o -> (is_expect o = true -> ln = true \/ (length (waiting c) < size)%nat) ->
  exists r, step ln o c = Some r.
Proof.
  intros ln o c W [L Q] O F. destruct o; cbn [step is_expect sane_op] in *.
  - destruct (expect_defined ln c u data trailer now W) as [r E]; [|rewrite E; eexists; reflexivity].
    destruct (F eq_refl) as [->|G]; [left; reflexivity|right]. intros Z0. apply full_zero in Z0; [lia|exact W].
  - unfold match_packet, match_among. destruct (find _ (busy c)) as [s|] eqn:EF; [|eexists; reflexivity].
    apply find_some in EF. destruct EF as [IB _]. apply in_busy in IB; [|exact W]. destruct IB as [S0 FS].
    destruct (sane_ge (k_sent (packet c s)) (last_ok c)) as [r E]; [|exact L|rewrite E; eexists; reflexivity].
    change (k_sent (packet c s)) with (q_sent (request_at c s)). apply Q. apply in_waiting. exists s. auto.
  - unfold check. destruct (check_slots_defined port now (busy c) c O L) as [r E]; [|rewrite E; eexists; reflexivity].
    intros s IB. apply in_busy in IB; [|exact W]. change (k_sent (packet c s)) with (q_sent (request_at c s)). apply Q. apply in_waiting. exists s. tauto.
Qed.

Lemma run_sane : forall ln c0 h c as_, wf c0 -> sane_cache c0 -> Forall sane_op h -> run ln h c0 = Some (c, as_) -> wf c /\ sane_cache c.
Proof.
  intros ln c0 h. induction h as [|o h IH] using rev_ind; intros c as_ W S0 F R.
  - injection R as R1 R2. subst. auto.
  - destruct (run_snoc _ _ _ _ _ _ R) as [c1 [as1 [a [R1 [S1 _]]]]]. apply Forall_app in F. destruct F as [F1 F2]. inversion F2; subst.
    destruct (IH _ _ W S0 F1 R1) as [W1 SA1]. split; [apply (step_wf _ _ _ _ _ W1 S1)|eapply step_sane; eassumption].
Qed.

Lemma init_wf : forall ps, length ps = size -> wf (init ps).
Proof. intros ps H. split; [exact H|cbn [free init]; lia]. Qed.
Lemma init_waiting : forall ps, waiting (init ps) = [].
Proof. intros ps. reflexivity. Qed.
Lemma init_sane : forall ps, sane_cache (init ps).
Proof. intros ps. split; [|intros q []]. split; [unfold normal|]; cbn [last_ok init null_time sec nsec frac]; lia. Qed.
