(** Multicast groups: invariants. *)
Require Import ZArith List Bool Lia ZifyBool.
Import ListNotations.
From Verif Require Import Base McSpec McModel.
Open Scope Z_scope.

Lemma find_map : forall (f : group -> group) i gs, (forall x, In x gs -> g_id (f x) = g_id x) ->
  find (fun g => g_id g =? i) (map f gs) = option_map f (find (fun g => g_id g =? i) gs).
Proof.
  intros f i gs. induction gs as [|x gs IH]; intros H; [reflexivity|]. cbn [map find]. rewrite (H x (or_introl eq_refl)).
  destruct (g_id x =? i); [reflexivity|]. apply IH. intros y Y. apply H. right. exact Y.
Qed.
Lemma find_filter : forall (p : group -> bool) i gs, (forall x, In x gs -> p x = false -> g_id x <> i) ->
  find (fun g => g_id g =? i) (filter p gs) = find (fun g => g_id g =? i) gs.
Proof.
  intros p i gs. induction gs as [|x gs IH]; intros H; [reflexivity|]. cbn [filter find].
  assert (IH' := IH (fun y Y => H y (or_intror Y))). destruct (p x) eqn:P.
  - cbn [find]. destruct (g_id x =? i); [reflexivity|exact IH'].
  - rewrite IH'. assert (N := H x (or_introl eq_refl) P). apply Z.eqb_neq in N. rewrite N. reflexivity.
Qed.
Lemma find_none_ids : forall i gs, find (fun g => g_id g =? i) gs = None <-> ~ In i (map g_id gs).
Proof.
  intros i gs. split.
  - intros H X. apply in_map_iff in X. destruct X as [g [E I]]. apply find_none with (x := g) in H; [|exact I]. apply Z.eqb_neq in H. contradiction.
  - intros H. destruct (find (fun g => g_id g =? i) gs) as [g|] eqn:E; [|reflexivity]. exfalso. apply find_some in E. destruct E as [I E]. apply Z.eqb_eq in E.
    apply H. apply in_map_iff. exists g. auto.
Qed.
Lemma nodup_inj : forall (f : group -> Z) gs a b, NoDup (map f gs) -> In a gs -> In b gs -> f a = f b -> a = b.
Proof.
  intros f gs. induction gs as [|x gs IH]; intros a b N A B E; [destruct A|]. cbn [map] in N. inversion N as [|? ? NI ND]; subst.
  destruct A as [->|A], B as [->|B]; [reflexivity| | |apply IH; assumption]; exfalso; apply NI; apply in_map_iff; [exists b|exists a]; auto.
Qed.
Lemma nodup_map_filter : forall (f : group -> Z) p gs, NoDup (map f gs) -> NoDup (map f (filter p gs)).
Proof.
  intros f p gs. induction gs as [|x gs IH]; intros N; [exact N|]. cbn [map filter] in *. inversion N as [|? ? NI ND]; subst.
  destruct (p x); [|apply IH; exact ND]. cbn [map]. constructor; [|apply IH; exact ND]. intros X. apply NI. apply in_map_iff in X. destruct X as [y [E Y]].
  apply filter_In in Y. apply in_map_iff. exists y. tauto.
Qed.
Lemma find_addr : forall gs a g, NoDup (map g_addr gs) -> In g gs -> g_addr g = a -> find (fun g => g_addr g =? a) gs = Some g.
Proof.
  intros gs a g N I E. destruct (find (fun g => g_addr g =? a) gs) as [x|] eqn:F.
  - apply find_some in F. destruct F as [IX EX]. apply Z.eqb_eq in EX. f_equal. apply (nodup_inj g_addr gs); auto. congruence.
  - apply find_none with (x := g) in F; [|exact I]. apply Z.eqb_neq in F. contradiction.
Qed.

Lemma take_leave : forall t l, (forall u l', take_user t l = Some (u, l') -> l' = leave t l /\ fst u = t /\ exists l1 l2, l = l1 ++ u :: l2 /\ l' = l1 ++ l2) /\
  (take_user t l = None <-> ~ In t (map fst l)).
Proof.
  intros t l. induction l as [|x l [IH1 IH2]]; [split; [discriminate|split; [intros _ []|reflexivity]]|]. cbn [take_user leave map In]. destruct (fst x =? t) eqn:E.
  - split; [intros u l' H; injection H as <- <-; split; [reflexivity|]; split; [apply Z.eqb_eq; exact E|exists [], l; split; reflexivity]|].
    split; [discriminate|]. intros H. contradiction H. left. apply Z.eqb_eq. exact E.
  - split.
    + intros u l' H. destruct (take_user t l) as [[u0 l0]|]; [cbn [bind fst snd] in H|discriminate H]. injection H as <- <-.
      destruct (IH1 u0 l0 eq_refl) as [E1 [E2 [l1 [l2 [E3 E4]]]]]. split; [rewrite E1; reflexivity|]. split; [exact E2|]. exists (x :: l1), l2. split; [rewrite E3; reflexivity|rewrite E4; reflexivity].
    + destruct (take_user t l) as [[u0 l0]|]; cbn [bind].
      * split; [discriminate|]. intros H. exfalso. assert (X : ~ In t (map fst l)) by tauto. apply IH2 in X. discriminate X.
      * split; [|reflexivity]. intros _ [X|X]; [apply Z.eqb_neq in E; contradiction|]. apply (proj1 IH2 eq_refl). exact X.
Qed.

(** What a group number means. *)
Definition members_of (s : state) (r : role) (i : Z) : list member :=
  match find_group s i with Some g => users r g | None => [] end.
Definition group_writers (g : group) : list Z := by_event (g_subs g) ++ by_event (g_pubs g).

Record inv (s : state) : Prop := {
  i_addr : NoDup (map g_addr (groups s));
  i_next : forall g, In g (groups s) -> g_addr g < next_addr s;
  i_ids : NoDup (map g_id (groups s));
  i_used : forall g, In g (groups s) -> is_empty g = false;
  i_found : forall t a id d, sending s t = FoundAt a id d -> a < next_addr s /\ forall g, In g (groups s) -> g_addr g = a -> g_id g = id;
  i_dests : forall t id d ds, sending s t = Posting id d ds -> ds <> [];
  i_writers : forall w, count_occ Z.eq_dec (writers s) w = count_occ Z.eq_dec (flat_map group_writers (groups s)) w }.

Lemma find_group_in : forall s i g, find_group s i = Some g -> In g (groups s) /\ g_id g = i.
Proof. intros s i g H. apply find_some in H. destruct H as [I E]. apply Z.eqb_eq in E. auto. Qed.

Lemma put_members : forall s g g' i, inv s -> In g (groups s) -> g_addr g' = g_addr g -> g_id g' = g_id g ->
  find_group (put_group s g') i = if i =? g_id g then Some g' else find_group s i.
Proof.
  intros s g g' i I G EA EI. unfold find_group, put_group. cbn [groups with_groups].
  rewrite find_map; [|intros x X; destruct (g_addr x =? g_addr g') eqn:E; [|reflexivity]; apply Z.eqb_eq in E; assert (x = g) by (apply (nodup_inj g_addr (groups s)); [apply (i_addr s I)|exact X|exact G|congruence]); subst; exact EI].
  destruct (i =? g_id g) eqn:E.
  - apply Z.eqb_eq in E. subst i. assert (F : find (fun x => g_id x =? g_id g) (groups s) = Some g).
    { destruct (find (fun x => g_id x =? g_id g) (groups s)) as [x|] eqn:F; [|apply find_none with (x := g) in F; [apply Z.eqb_neq in F; contradiction|exact G]].
      apply find_some in F. destruct F as [X EX]. apply Z.eqb_eq in EX. f_equal. apply (nodup_inj g_id (groups s)); [apply (i_ids s I)| | |]; assumption. }
    rewrite F. cbn [option_map]. rewrite EA, Z.eqb_refl. reflexivity.
  - destruct (find (fun x => g_id x =? i) (groups s)) as [x|] eqn:F; [|reflexivity]. cbn [option_map]. apply find_some in F. destruct F as [X EX]. apply Z.eqb_eq in EX.
    destruct (g_addr x =? g_addr g') eqn:EQ; [|reflexivity]. apply Z.eqb_eq in EQ.
    assert (x = g) by (apply (nodup_inj g_addr (groups s)); [apply (i_addr s I)|exact X|exact G|congruence]). subst x. apply Z.eqb_neq in E. congruence.
Qed.
Lemma remove_members : forall s g i, NoDup (map g_addr (groups s)) -> NoDup (map g_id (groups s)) -> In g (groups s) ->
  find_group (remove_group s g) i = if i =? g_id g then None else find_group s i.
Proof.
  intros s g i NA NI G. unfold find_group, remove_group. cbn [groups with_groups]. destruct (i =? g_id g) eqn:E.
  - apply Z.eqb_eq in E. subst i. apply find_none_ids. intros X. apply in_map_iff in X. destruct X as [x [EX IX]]. apply filter_In in IX. destruct IX as [IX NX].
    assert (x = g) by (apply (nodup_inj g_id (groups s)); auto). subst x. rewrite Z.eqb_refl in NX. discriminate NX.
  - apply find_filter. intros x X P. apply negb_false_iff in P. apply Z.eqb_eq in P. assert (x = g) by (apply (nodup_inj g_addr (groups s)); auto). subst x.
    apply Z.eqb_neq in E. congruence.
Qed.

Lemma put_ids : forall (f : group -> Z) g' gs, (forall x, In x gs -> g_addr x = g_addr g' -> f x = f g') ->
  map f (map (fun x => if g_addr x =? g_addr g' then g' else x) gs) = map f gs.
Proof.
  intros f g' gs H. rewrite map_map. apply map_ext_in. intros x X. destruct (g_addr x =? g_addr g') eqn:E; [|reflexivity]. apply Z.eqb_eq in E. symmetry. apply H; assumption.
Qed.

Lemma count_put : forall gs g g' w, NoDup (map g_addr gs) -> In g gs -> g_addr g' = g_addr g ->
  (count_occ Z.eq_dec (flat_map group_writers (map (fun x => if Z.eqb (g_addr x) (g_addr g') then g' else x) gs)) w + count_occ Z.eq_dec (group_writers g) w =
   count_occ Z.eq_dec (flat_map group_writers gs) w + count_occ Z.eq_dec (group_writers g') w)%nat.
Proof.
  intros gs g g' w. induction gs as [|x gs IH]; intros N G E; [destruct G|]. cbn [map flat_map]. cbn [map] in N. inversion N as [|? ? NI ND]; subst.
  rewrite !count_occ_app. destruct G as [->|G].
  - rewrite E, Z.eqb_refl. assert (SAME : map (fun x => if g_addr x =? g_addr g then g' else x) gs = gs).
    { rewrite <- (map_id gs) at 2. apply map_ext_in. intros x X. destruct (g_addr x =? g_addr g) eqn:EX; [|reflexivity]. apply Z.eqb_eq in EX.
      exfalso. apply NI. apply in_map_iff. exists x. auto. }
    rewrite SAME. lia.
  - assert (IH' := IH ND G E). destruct (g_addr x =? g_addr g') eqn:EX; [|lia]. apply Z.eqb_eq in EX. exfalso. apply NI. apply in_map_iff. exists g. split; [congruence|exact G].
Qed.
Lemma count_remove : forall gs g w, NoDup (map g_addr gs) -> In g gs ->
  (count_occ Z.eq_dec (flat_map group_writers (filter (fun x => negb (Z.eqb (g_addr x) (g_addr g))) gs)) w + count_occ Z.eq_dec (group_writers g) w =
   count_occ Z.eq_dec (flat_map group_writers gs) w)%nat.
Proof.
  intros gs g w. induction gs as [|x gs IH]; intros N G; [destruct G|]. cbn [filter flat_map]. cbn [map] in N. inversion N as [|? ? NI ND]; subst. rewrite count_occ_app.
  destruct G as [->|G].
  - rewrite Z.eqb_refl. cbn [negb]. assert (SAME : filter (fun x => negb (g_addr x =? g_addr g)) gs = gs).
    { clear - NI. induction gs as [|y gs IH]; [reflexivity|]. cbn [filter map In] in *. destruct (g_addr y =? g_addr g) eqn:E; [apply Z.eqb_eq in E; tauto|]. cbn [negb]. f_equal. apply IH. tauto. }
    rewrite SAME. lia.
  - assert (IH' := IH ND G). destruct (g_addr x =? g_addr g) eqn:EX; [apply Z.eqb_eq in EX; exfalso; apply NI; apply in_map_iff; exists g; auto|].
    cbn [negb flat_map]. rewrite count_occ_app. lia.
Qed.

Definition kind_writers (u : member) : list Z := match snd u with ByEvent w => [w] | ByMessage => [] end.
Lemma writers_cons : forall r g u l w, count_occ Z.eq_dec (group_writers (with_users r g (u :: l))) w =
  (count_occ Z.eq_dec (kind_writers u) w + count_occ Z.eq_dec (group_writers (with_users r g l)) w)%nat.
Proof.
  intros r g u l w. unfold group_writers, kind_writers. destruct r; cbn [with_users g_subs g_pubs by_event flat_map]; rewrite !count_occ_app; unfold by_event; lia.
Qed.
Lemma writers_mid : forall r g u l1 l2 w, count_occ Z.eq_dec (group_writers (with_users r g (l1 ++ u :: l2))) w =
  (count_occ Z.eq_dec (kind_writers u) w + count_occ Z.eq_dec (group_writers (with_users r g (l1 ++ l2))) w)%nat.
Proof.
  intros r g u l1 l2 w. unfold group_writers, kind_writers, by_event.
  destruct r; cbn [with_users g_subs g_pubs]; rewrite !flat_map_app; cbn [flat_map]; rewrite !count_occ_app; lia.
Qed.
Lemma count_close : forall w ws x, (0 < count_occ Z.eq_dec ws w)%nat ->
  (count_occ Z.eq_dec (close w ws) x + count_occ Z.eq_dec [w] x = count_occ Z.eq_dec ws x)%nat.
Proof.
  intros w ws x. induction ws as [|y ws IH]; intros H; [cbn in H; lia|]. cbn [close]. destruct (y =? w) eqn:E.
  - apply Z.eqb_eq in E. subst y. cbn [count_occ]. destruct (Z.eq_dec w x); lia.
  - apply Z.eqb_neq in E. cbn [count_occ] in H. destruct (Z.eq_dec y w) as [EQ|_]; [contradiction|]. assert (IH' := IH H). cbn [count_occ] in *.
    destruct (Z.eq_dec y x), (Z.eq_dec w x); lia.
Qed.
Lemma finit_groups : forall s u, groups (finit s u) = groups s /\ next_addr (finit s u) = next_addr s /\ sending (finit s u) = sending s.
Proof. intros s u. unfold finit. destruct (snd u); auto. Qed.
Lemma finit_writers : forall s u x, (forall w, In w (kind_writers u) -> (0 < count_occ Z.eq_dec (writers s) w)%nat) ->
  (count_occ Z.eq_dec (writers (finit s u)) x + count_occ Z.eq_dec (kind_writers u) x = count_occ Z.eq_dec (writers s) x)%nat.
Proof.
  intros s u x H. unfold finit, kind_writers in *. destruct (snd u) as [|w]; cbn [writers]; [cbn [count_occ]; lia|]. apply count_close. apply H. left. reflexivity.
Qed.

Lemma with_users_same : forall r g, with_users r g (users r g) = g.
Proof. intros [|] [a i s p]; reflexivity. Qed.
Lemma with_users_addr : forall r g l, g_addr (with_users r g l) = g_addr g /\ g_id (with_users r g l) = g_id g.
Proof. intros [|] g l; split; reflexivity. Qed.
Lemma users_with : forall r r' g l, users r (with_users r' g l) = if role_eqb r r' then l else users r g.
Proof. intros [|] [|] g l; reflexivity. Qed.

(** Adding a member.  [s] is the state in which the member's writer, if any, is open already. *)
Definition pre (s : state) (u : member) : Prop :=
  NoDup (map g_addr (groups s)) /\ (forall g, In g (groups s) -> g_addr g < next_addr s) /\ NoDup (map g_id (groups s)) /\
  (forall g, In g (groups s) -> is_empty g = false) /\
  (forall t a id d, sending s t = FoundAt a id d -> a < next_addr s /\ forall g, In g (groups s) -> g_addr g = a -> g_id g = id) /\
  (forall t id d ds, sending s t = Posting id d ds -> ds <> []) /\
  (forall w, count_occ Z.eq_dec (writers s) w = (count_occ Z.eq_dec (kind_writers u) w + count_occ Z.eq_dec (flat_map group_writers (groups s)) w)%nat).

Lemma pre_finit : forall s u, pre s u -> inv (finit s u) /\ forall r i, members_of (finit s u) r i = members_of s r i.
Proof.
  intros s u [P1 [P2 [P3 [P4 [P5 [P6 P7]]]]]]. destruct (finit_groups s u) as [G [N S0]]. split.
  - constructor; rewrite ?G, ?N, ?S0; auto. intros w. assert (F := finit_writers s u w). rewrite P7 in F.
    assert (H : forall v, In v (kind_writers u) -> (0 < count_occ Z.eq_dec (writers s) v)%nat).
    { intros v V. rewrite P7. apply (count_occ_In Z.eq_dec) in V. lia. }
    specialize (F H). lia.
  - intros r i. unfold members_of, find_group. rewrite G. reflexivity.
Qed.

Lemma nonempty_with : forall r g l, l <> [] -> is_empty (with_users r g l) = false.
Proof. intros [|] g l N; unfold is_empty; cbn [with_users g_subs g_pubs]; destruct l as [|x l]; try contradiction; [|destruct (g_subs g)]; reflexivity. Qed.

Lemma add_spec : forall s r u id um gm s' os, pre s u -> add_user s r u id um gm = (s', os) ->
  inv s' /\ sending s' = sending s /\
  ((os = [Done] /\ um = true /\ forall r' i, members_of s' r' i = if role_eqb r' r && (i =? id) then u :: members_of s r' i else members_of s r' i) \/
   (os = [Fails] /\ (um = false \/ (gm = false /\ find_group s id = None)) /\ forall r' i, members_of s' r' i = members_of s r' i)).
Proof.
  intros s r u id um gm s' os P H. assert (P' := P). destruct P as [P1 [P2 [P3 [P4 [P5 [P6 P7]]]]]]. unfold add_user in H. destruct um; cbn [negb] in H.
  2:{ injection H as <- <-. destruct (pre_finit s u P') as [I M]. split; [exact I|]. split; [apply finit_groups|]. right. auto. }
  destruct (find_group s id) as [g|] eqn:F.
  - injection H as <- <-. destruct (find_group_in s id g F) as [G EI]. destruct (with_users_addr r g (u :: users r g)) as [WA WI].
    set (g' := with_users r g (u :: users r g)) in *.
    assert (SAME : forall x, In x (groups s) -> g_addr x = g_addr g' -> x = g) by (intros x X E; apply (nodup_inj g_addr (groups s)); auto; congruence).
    assert (MEM : forall x, In x (groups (put_group s g')) -> x = g' \/ In x (groups s)).
    { intros x X. cbn [groups put_group with_groups] in X. apply in_map_iff in X. destruct X as [y [E Y]]. destruct (g_addr y =? g_addr g'); subst; auto. }
    split; [constructor|split].
    + cbn [groups put_group with_groups]. rewrite put_ids; [exact P1|]. auto.
    + intros x X. destruct (MEM x X) as [->|X']; [rewrite WA; apply P2; exact G|apply P2; exact X'].
    + cbn [groups put_group with_groups]. rewrite put_ids; [exact P3|]. intros x X E. rewrite (SAME x X E). symmetry. exact WI.
    + intros x X. destruct (MEM x X) as [->|X']; [apply nonempty_with; discriminate|apply P4; exact X'].
    + intros t a i d S0. destruct (P5 t a i d S0) as [A B]. split; [exact A|]. intros x X EX. destruct (MEM x X) as [->|X']; [rewrite WI; apply B; [exact G|congruence]|apply B; assumption].
    + exact P6.
    + intros w. cbn [groups put_group with_groups writers]. rewrite P7. assert (C := count_put (groups s) g g' w P1 G WA).
      assert (GW : count_occ Z.eq_dec (group_writers g') w = (count_occ Z.eq_dec (kind_writers u) w + count_occ Z.eq_dec (group_writers g) w)%nat) by (unfold g'; rewrite writers_cons, with_users_same; reflexivity). lia.
    + reflexivity.
    + left. split; [reflexivity|]. split; [reflexivity|]. intros r' i. unfold members_of.
      assert (PM : find_group (put_group s g') i = if i =? g_id g then Some g' else find_group s i).
      { unfold find_group, put_group. cbn [groups with_groups]. rewrite find_map by (intros x X; destruct (g_addr x =? g_addr g') eqn:E; [|reflexivity]; apply Z.eqb_eq in E; rewrite (SAME x X E); exact WI).
        destruct (i =? g_id g) eqn:E.
        - apply Z.eqb_eq in E. subst i. rewrite EI. unfold find_group in F. rewrite F. cbn [option_map]. rewrite WA, Z.eqb_refl. reflexivity.
        - destruct (find (fun x => g_id x =? i) (groups s)) as [x|] eqn:FX; [|reflexivity]. cbn [option_map]. apply find_some in FX. destruct FX as [X EX]. apply Z.eqb_eq in EX.
          destruct (g_addr x =? g_addr g') eqn:EQ; [|reflexivity]. apply Z.eqb_eq in EQ. rewrite (SAME x X EQ) in EX. apply Z.eqb_neq in E. congruence. }
      rewrite PM, EI. destruct (i =? id) eqn:E; [|rewrite andb_false_r; reflexivity]. apply Z.eqb_eq in E. subst i. rewrite F. unfold g'. rewrite users_with, andb_true_r.
      destruct r, r'; reflexivity.
  - destruct gm; cbn [negb] in H.
    + injection H as <- <-. set (g := with_users r (mkGroup (next_addr s) id [] []) [u]). destruct (with_users_addr r (mkGroup (next_addr s) id [] []) [u]) as [WA WI]. fold g in WA, WI. cbn [g_addr g_id] in WA, WI.
      split; [constructor|split]; cbn [groups next_addr sending writers].
      * cbn [map]. constructor; [|exact P1]. rewrite WA. intros X. apply in_map_iff in X. destruct X as [x [E X]]. apply P2 in X. lia.
      * intros x [<-|X]; [lia|]. apply P2 in X. lia.
      * cbn [map]. constructor; [|exact P3]. rewrite WI. apply find_none_ids. exact F.
      * intros x [<-|X]; [apply nonempty_with; discriminate|apply P4; exact X].
      * intros t a i d S0. destruct (P5 t a i d S0) as [A B]. split; [lia|]. intros x [<-|X] EX; [lia|apply B; assumption].
      * exact P6.
      * intros w. rewrite P7. cbn [flat_map]. rewrite count_occ_app. f_equal. unfold g, group_writers, kind_writers, by_event.
        destruct r; cbn [with_users g_subs g_pubs flat_map]; rewrite ?app_nil_r; reflexivity.
      * reflexivity.
      * left. split; [reflexivity|]. split; [reflexivity|]. intros r' i. unfold members_of, find_group. cbn [groups find]. rewrite WI, (Z.eqb_sym id i).
        destruct (i =? id) eqn:E; [|rewrite andb_false_r; reflexivity]. apply Z.eqb_eq in E. subst i. unfold find_group in F. rewrite F. unfold g. rewrite users_with, andb_true_r.
        destruct r, r'; reflexivity.
    + injection H as <- <-. destruct (pre_finit s u P') as [I M]. split; [exact I|]. split; [apply finit_groups|]. right. auto.
Qed.

Lemma empty_users : forall g, is_empty g = true -> forall r, users r g = [].
Proof. intros g H r. unfold is_empty in H. destruct (g_subs g) eqn:E1; [|discriminate H]. destruct (g_pubs g) eqn:E2; [|discriminate H]. destruct r; assumption. Qed.

Lemma remove_spec : forall s r t id s' os, inv s -> remove_user s r t id = (s', os) ->
  inv s' /\ sending s' = sending s /\
  ((os = [Done] /\ In t (map fst (members_of s r id)) /\ forall r' i, members_of s' r' i = if role_eqb r' r && (i =? id) then leave t (members_of s r' i) else members_of s r' i) \/
   (os = [Fails] /\ ~ In t (map fst (members_of s r id)) /\ s' = s)).
Proof.
  intros s r t id s' os I H. unfold remove_user in H. destruct (find_group s id) as [g|] eqn:F.
  2:{ injection H as <- <-. split; [exact I|]. split; [reflexivity|]. right. unfold members_of. rewrite F. auto. }
  destruct (find_group_in s id g F) as [G EI]. destruct (take_leave t (users r g)) as [TL1 TL2]. destruct (take_user t (users r g)) as [[u l]|] eqn:T.
  2:{ rewrite (i_used s I g G) in H. injection H as <- <-. split; [exact I|]. split; [reflexivity|]. right. unfold members_of. rewrite F. split; [reflexivity|]. split; [apply TL2; reflexivity|reflexivity]. }
  destruct (TL1 u l eq_refl) as [EL [EU [l1 [l2 [ES EL2]]]]].
  set (g' := with_users r g l) in *. destruct (with_users_addr r g l) as [WA WI]. fold g' in WA, WI.
  set (s1 := finit (put_group s g') u) in *. destruct (finit_groups (put_group s g') u) as [G1 [N1 S1]]. fold s1 in G1, N1, S1.
  assert (SAME : forall x, In x (groups s) -> g_addr x = g_addr g' -> x = g) by (intros x X E; apply (nodup_inj g_addr (groups s)); [apply (i_addr s I)|exact X|exact G|congruence]).
  assert (MEM : forall x, In x (groups s1) -> x = g' \/ In x (groups s)).
  { intros x X. rewrite G1 in X. cbn [groups put_group with_groups] in X. apply in_map_iff in X. destruct X as [y [E Y]]. destruct (g_addr y =? g_addr g'); subst; auto. }
  assert (IN' : In g' (groups s1)). { rewrite G1. cbn [groups put_group with_groups]. apply in_map_iff. exists g. split; [rewrite WA, Z.eqb_refl; reflexivity|exact G]. }
  assert (A1 : NoDup (map g_addr (groups s1))) by (rewrite G1; cbn [groups put_group with_groups]; rewrite put_ids; [apply (i_addr s I)|auto]).
  assert (A2 : NoDup (map g_id (groups s1))) by (rewrite G1; cbn [groups put_group with_groups]; rewrite put_ids; [apply (i_ids s I)|intros x X E; rewrite (SAME x X E); symmetry; exact WI]).
  assert (A3 : forall x, In x (groups s1) -> g_addr x < next_addr s1).
  { intros x X. rewrite N1. cbn [next_addr put_group with_groups]. destruct (MEM x X) as [->|X']; [rewrite WA; apply (i_next s I); exact G|apply (i_next s I); exact X']. }
  assert (A4 : forall u0 a i d, sending s1 u0 = FoundAt a i d -> a < next_addr s1 /\ forall x, In x (groups s1) -> g_addr x = a -> g_id x = i).
  { intros u0 a i d S0. rewrite S1 in S0. destruct (i_found s I u0 a i d S0) as [B1 B2]. rewrite N1. split; [exact B1|]. intros x X EX.
    destruct (MEM x X) as [->|X']; [rewrite WI; apply B2; [exact G|congruence]|apply B2; assumption]. }
  assert (A5 : forall u0 i d ds, sending s1 u0 = Posting i d ds -> ds <> []) by (intros u0 i d ds S0; rewrite S1 in S0; exact (i_dests s I u0 i d ds S0)).
  assert (A6 : forall w, count_occ Z.eq_dec (writers s1) w = count_occ Z.eq_dec (flat_map group_writers (groups s1)) w).
  { intros w. rewrite G1. cbn [groups put_group with_groups]. assert (C := count_put (groups s) g g' w (i_addr s I) G WA).
    assert (GW : forall v, count_occ Z.eq_dec (group_writers g) v = (count_occ Z.eq_dec (kind_writers u) v + count_occ Z.eq_dec (group_writers g') v)%nat).
    { intros v. rewrite <- (with_users_same r g) at 1. rewrite ES, writers_mid. unfold g'. rewrite EL2. reflexivity. }
    assert (OPEN : forall v, In v (kind_writers u) -> (0 < count_occ Z.eq_dec (writers (put_group s g')) v)%nat).
    { intros v V. cbn [writers put_group with_groups]. rewrite (i_writers s I). apply (count_occ_In Z.eq_dec) in V. assert (GV := GW v). assert (CP := count_put (groups s) g g' v (i_addr s I) G WA).
      assert (LE : (count_occ Z.eq_dec (group_writers g) v <= count_occ Z.eq_dec (flat_map group_writers (groups s)) v)%nat).
      { assert (CR := count_remove (groups s) g v (i_addr s I) G). lia. }
      lia. }
    assert (FW := finit_writers (put_group s g') u w OPEN). fold s1 in FW. cbn [writers put_group with_groups] in FW. rewrite (i_writers s I) in FW. rewrite GW in C. lia. }
  assert (FG : forall i, find_group s1 i = if i =? id then Some g' else find_group s i).
  { intros i. unfold find_group at 1. rewrite G1. change (find (fun g0 => g_id g0 =? i) (groups (put_group s g'))) with (find_group (put_group s g') i).
    rewrite (put_members s g g' i I G WA WI), EI. reflexivity. }
  assert (TI : In t (map fst (members_of s r id))) by (unfold members_of; rewrite F, ES, map_app; cbn [map]; apply in_app_iff; right; left; exact EU).
  destruct (is_empty g') eqn:EMP; injection H as <- <-.
  - assert (SUB : forall x, In x (groups (remove_group s1 g')) -> In x (groups s1) /\ g_addr x <> g_addr g').
    { intros x X. cbn [groups remove_group with_groups] in X. apply filter_In in X. destruct X as [X NX]. apply negb_true_iff in NX. apply Z.eqb_neq in NX. auto. }
    split; [constructor|split].
    + cbn [groups remove_group with_groups]. apply nodup_map_filter. exact A1.
    + intros x X. apply A3. apply SUB. exact X.
    + cbn [groups remove_group with_groups]. apply nodup_map_filter. exact A2.
    + intros x X. destruct (SUB x X) as [X1 X2]. destruct (MEM x X1) as [->|X']; [contradiction|apply (i_used s I); exact X'].
    + intros u0 a i d S0. destruct (A4 u0 a i d S0) as [B1 B2]. split; [exact B1|]. intros x X. apply B2. apply SUB. exact X.
    + exact A5.
    + intros w. change (writers (remove_group s1 g')) with (writers s1). change (groups (remove_group s1 g')) with (filter (fun x => negb (g_addr x =? g_addr g')) (groups s1)). rewrite A6. assert (C := count_remove (groups s1) g' w A1 IN').
      assert (E0 : group_writers g' = []). { unfold group_writers. rewrite (empty_users g' EMP Subscriber : g_subs g' = []), (empty_users g' EMP Publisher : g_pubs g' = []). reflexivity. }
      rewrite E0 in C. cbn [count_occ] in C. lia.
    + exact S1.
    + left. split; [reflexivity|]. split; [exact TI|]. intros r' i. unfold members_of. rewrite (remove_members s1 g' i A1 A2 IN'), WI, EI, FG. destruct (i =? id) eqn:E; [|rewrite andb_false_r; reflexivity].
      apply Z.eqb_eq in E. subst i. rewrite F, andb_true_r. assert (EE := empty_users g' EMP r'). unfold g' in EE. rewrite users_with in EE.
      destruct (role_eqb r' r) eqn:ER; [|symmetry; exact EE]. assert (r' = r) by (destruct r, r'; try reflexivity; discriminate ER). subst r'. rewrite <- EL. symmetry. exact EE.
  - split; [constructor; try assumption|split].
    + intros x X. destruct (MEM x X) as [->|X']; [exact EMP|apply (i_used s I); exact X'].
    + exact S1.
    + left. split; [reflexivity|]. split; [exact TI|]. intros r' i. unfold members_of. rewrite FG. destruct (i =? id) eqn:E; [|rewrite andb_false_r; reflexivity].
      apply Z.eqb_eq in E. subst i. rewrite F. unfold g'. rewrite users_with, andb_true_r. destruct (role_eqb r' r) eqn:ER; [|reflexivity].
      assert (r' = r) by (destruct r, r'; try reflexivity; discriminate ER). subst r'. exact EL.
Qed.

Lemma inv_start : inv start.
Proof. constructor; cbn; try contradiction; try discriminate; try constructor. Qed.
Lemma inv_sending : forall s t x, inv s -> (forall a id d, x = FoundAt a id d -> a < next_addr s /\ forall g, In g (groups s) -> g_addr g = a -> g_id g = id) ->
  (forall id d ds, x = Posting id d ds -> ds <> []) -> inv (with_sending s t x).
Proof.
  intros s t x I H1 H2. constructor; cbn [groups next_addr writers with_sending sending]; try apply I.
  - intros u a id d. destruct (u =? t); [apply H1|apply (i_found s I)].
  - intros u id d ds. destruct (u =? t); [apply H2|apply (i_dests s I)].
Qed.
Lemma pre_inv : forall s t, inv s -> pre s (t, ByMessage).
Proof. intros s t I. repeat split; try apply I; intros; eapply (i_found s I); eassumption. Qed.
Lemma pre_writer : forall s t w, inv s -> pre (mkSt (groups s) (next_addr s) (sending s) (w :: writers s)) (t, ByEvent w).
Proof.
  intros s t w I. split; [apply (i_addr s I)|]. split; [apply (i_next s I)|]. split; [apply (i_ids s I)|]. split; [apply (i_used s I)|]. split; [apply (i_found s I)|]. split; [apply (i_dests s I)|].
  intros v. cbn [writers groups kind_writers snd]. assert (W := i_writers s I v). cbn [count_occ]. destruct (Z.eq_dec w v); lia.
Qed.

Lemma step_inv : forall o s s' os, inv s -> in_turn o s -> step o s = Some (s', os) ->
  inv s' /\ forall r i, members_of s' r i = member_step r i (members_of s r i) (o, os).
Proof.
  intros o s s' os I T ST. destruct o as [t id u g|t id [w|] u g|t id u g|t id|t id|t id d|t n|t ok]; cbn [step] in ST.
  - injection ST as ST. destruct (add_spec s Subscriber (t, ByMessage) id u g s' os (pre_inv s t I) ST) as [I' [_ [[-> [_ M]]|[-> [_ M]]]]]; split; try exact I'; intros r i; rewrite M; reflexivity.
  - injection ST as ST. destruct (add_spec _ Subscriber (t, ByEvent w) id u g s' os (pre_writer s t w I) ST) as [I' [_ [[-> [_ M]]|[-> [_ M]]]]]; split; try exact I'; intros r i; rewrite M; reflexivity.
  - injection ST as <- <-. split; [exact I|]. intros r i. reflexivity.
  - injection ST as ST. destruct (add_spec s Publisher (t, ByMessage) id u g s' os (pre_inv s t I) ST) as [I' [_ [[-> [_ M]]|[-> [_ M]]]]]; split; try exact I'; intros r i; rewrite M; reflexivity.
  - injection ST as ST. destruct (remove_spec s Subscriber t id s' os I ST) as [I' [_ [[-> [_ M]]|[-> [_ ->]]]]]; split; try exact I'; intros r i; [rewrite M|]; reflexivity.
  - injection ST as ST. destruct (remove_spec s Publisher t id s' os I ST) as [I' [_ [[-> [_ M]]|[-> [_ ->]]]]]; split; try exact I'; intros r i; [rewrite M|]; reflexivity.
  - injection ST as ST. unfold send_find in ST. destruct (find_group s id) as [g|] eqn:F; injection ST as <- <-.
    + split; [|reflexivity]. destruct (find_group_in s id g F) as [G EI]. apply inv_sending; [exact I| |discriminate]. intros a i d0 E. injection E as <- <- <-.
      split; [apply (i_next s I); exact G|]. intros x X EX. rewrite <- EI. f_equal. apply (nodup_inj g_addr (groups s)); [apply (i_addr s I)| | |]; assumption.
    + split; [|reflexivity]. apply inv_sending; [exact I|discriminate|discriminate].
  - destruct (sending s t) as [|a id d|id d ds] eqn:E; try discriminate ST. unfold send_copy in ST. destruct (find (fun g => g_addr g =? a) (groups s)) as [g|]; [cbn [bind] in ST|discriminate ST].
    destruct (Nat.leb _ _); injection ST as <- <-; (split; [|reflexivity]); apply inv_sending; try exact I; try discriminate.
    + destruct (by_message (g_subs g)); discriminate.
    + destruct (by_message (g_subs g)) as [|x l]; [discriminate|]. intros i d0 ds H. injection H as <- <- <-. discriminate.
  - destruct (sending s t) as [|a id d|id d ds] eqn:E; try discriminate ST. injection ST as ST. unfold send_post in ST. destruct ds as [|x ds]; injection ST as <- <-; (split; [|reflexivity]); apply inv_sending; try exact I; try discriminate.
    + destruct ds; discriminate.
    + destruct ds as [|y ds]; [discriminate|]. intros i d0 l H. injection H as <- <- <-. discriminate.
Qed.

Lemma history_inv : forall l s, history l s -> inv s /\ forall r i, members_of s r i = members r i l.
Proof.
  intros l s H. induction H as [|l s o s' os H IH T ST]; [split; [exact inv_start|reflexivity]|]. destruct IH as [I M]. destruct (step_inv o s s' os I T ST) as [I' M'].
  split; [exact I'|]. intros r i. rewrite M', M. unfold members. rewrite fold_left_app. reflexivity.
Qed.

Lemma sending_step : forall o s s' os t, step o s = Some (s', os) -> in_turn o s ->
  sending s' t = sending s t \/
  (exists id d, o = OFind t id d /\ (sending s' t = Idle \/ exists a, sending s' t = FoundAt a id d)) \/
  (exists n a id d, o = OCopy t n /\ sending s t = FoundAt a id d /\ (sending s' t = Idle \/ exists ds, sending s' t = Posting id d ds)) \/
  (exists ok id d ds, o = OPost t ok /\ sending s t = Posting id d ds /\ (sending s' t = Idle \/ exists ds', sending s' t = Posting id d ds')).
Proof.
  assert (ADD : forall s r u id um gm s' os, add_user s r u id um gm = (s', os) -> sending s' = sending s).
  { intros s r u id um gm s' os H. unfold add_user in H. destruct um; cbn [negb] in H; [|injection H as <- <-; apply finit_groups].
    destruct (find_group s id); [injection H as <- <-; reflexivity|]. destruct gm; cbn [negb] in H; injection H as <- <-; [reflexivity|apply finit_groups]. }
  assert (REM : forall s r t id s' os, remove_user s r t id = (s', os) -> sending s' = sending s).
  { intros s r t id s' os H. unfold remove_user in H. destruct (find_group s id) as [g|]; [|injection H as <- <-; reflexivity].
    destruct (take_user t (users r g)) as [[u l]|]; [|destruct (is_empty g); injection H as <- <-; reflexivity].
    destruct (is_empty (with_users r g l)); injection H as <- <-; cbn [remove_group with_groups sending]; destruct (finit_groups (put_group s (with_users r g l)) u) as [_ [_ E]]; rewrite E; reflexivity. }
  intros o s s' os t ST T. destruct o as [t0 id u g|t0 id [w|] u g|t0 id u g|t0 id|t0 id|t0 id d|t0 n|t0 ok]; cbn [step] in ST.
  - left. injection ST as ST. rewrite (ADD _ _ _ _ _ _ _ _ ST). reflexivity.
  - left. injection ST as ST. rewrite (ADD _ _ _ _ _ _ _ _ ST). reflexivity.
  - left. injection ST as <- <-. reflexivity.
  - left. injection ST as ST. rewrite (ADD _ _ _ _ _ _ _ _ ST). reflexivity.
  - left. injection ST as ST. rewrite (REM _ _ _ _ _ _ ST). reflexivity.
  - left. injection ST as ST. rewrite (REM _ _ _ _ _ _ ST). reflexivity.
  - injection ST as ST. unfold send_find in ST. destruct (find_group s id) as [g|]; injection ST as <- <-; cbn [sending with_sending]; destruct (Z.eqb_spec t t0) as [->|N]; auto; right; left; exists id, d; eauto.
  - destruct (sending s t0) as [|a id d|id d ds] eqn:E; try discriminate ST. unfold send_copy in ST. destruct (find _ (groups s)) as [g|]; [cbn [bind] in ST|discriminate ST].
    destruct (Nat.leb _ _); injection ST as <- <-; cbn [sending with_sending]; destruct (Z.eqb_spec t t0) as [->|N]; auto; right; right; left; exists n, a, id, d; (split; [reflexivity|]); (split; [exact E|]).
    + destruct (by_message (g_subs g)); eauto.
    + auto.
  - destruct (sending s t0) as [|a id d|id d ds] eqn:E; try discriminate ST. injection ST as ST. unfold send_post in ST.
    destruct ds as [|x ds]; injection ST as <- <-; cbn [sending with_sending]; destruct (Z.eqb_spec t t0) as [->|N]; auto; right; right; right.
    + exists ok, id, d, []. auto.
    + exists ok, id, d, (x :: ds). split; [reflexivity|]. split; [exact E|]. destruct ds; eauto.
Qed.

Lemma asked_snoc : forall t l e, asked t (l ++ [e]) = asked_step t (asked t l) e.
Proof. intros. unfold asked. rewrite fold_left_app. reflexivity. Qed.
Lemma history_asked : forall l s, history l s -> forall t,
  (forall a id d, sending s t = FoundAt a id d -> asked t l = Some (id, d)) /\ (forall id d ds, sending s t = Posting id d ds -> asked t l = Some (id, d)).
Proof.
  intros l s H. induction H as [|l s o s' os H IH T ST]; intros t; [split; discriminate|]. destruct (IH t) as [IH1 IH2]. rewrite asked_snoc.
  assert (KEEP : sending s' t = sending s t -> (forall id d, o = OFind t id d -> False) -> asked_step t (asked t l) (o, os) = asked t l).
  { intros _ N. unfold asked_step. cbn [fst]. destruct o; try reflexivity. destruct (Z.eqb_spec t0 t) as [->|NE]; [exfalso; eapply N; reflexivity|reflexivity]. }
  assert (KEEP2 : (forall id d, o = OFind t id d -> False) -> asked_step t (asked t l) (o, os) = asked t l).
  { intros N. unfold asked_step. cbn [fst]. destruct o; try reflexivity. destruct (Z.eqb_spec t0 t) as [->|NE]; [exfalso; eapply N; reflexivity|reflexivity]. }
  destruct (sending_step o s s' os t ST T) as [E|[[id [d [-> X]]]|[[n [a [id [d [-> [E X]]]]]]|[ok [id [d [ds [-> [E X]]]]]]]]].
  - destruct (sending s t) eqn:ES.
    + rewrite E. split; discriminate.
    + rewrite KEEP2; [rewrite E; split; [intros a i d X; injection X as <- <- <-; eapply IH1; reflexivity|discriminate]|]. intros i d ->. cbn [in_turn] in T. congruence.
    + rewrite KEEP2; [rewrite E; split; [discriminate|intros i d ds X; injection X as <- <- <-; eapply IH2; reflexivity]|]. intros i d ->. cbn [in_turn] in T. congruence.
  - unfold asked_step. cbn [fst]. rewrite Z.eqb_refl. destruct X as [X|[a X]]; rewrite X; split; try discriminate. intros ? ? ? Y. injection Y as <- <- <-. reflexivity.
  - rewrite KEEP2 by discriminate. destruct X as [X|[ds X]]; rewrite X; split; try discriminate. intros ? ? ? Y. injection Y as <- <- <-. eapply IH1. exact E.
  - rewrite KEEP2 by discriminate. destruct X as [X|[ds' X]]; rewrite X; split; try discriminate. intros ? ? ? Y. injection Y as <- <- <-. eapply IH2. exact E.
Qed.

(** One step of a send: what is signalled and taken. *)
Lemma copy_step : forall l s t n s' os, history l s -> step (OCopy t n) s = Some (s', os) ->
  exists id d, asked t l = Some (id, d) /\
  (if Nat.leb (length (by_message (members Subscriber id l))) n
   then os = map Signal (by_event (members Subscriber id l)) ++ [Take (length (by_message (members Subscriber id l)))] /\
        sending s' t = match by_message (members Subscriber id l) with [] => Idle | _ => Posting id d (by_message (members Subscriber id l)) end
   else os = map Signal (by_event (members Subscriber id l)) ++ [Take n; Give n; Fails] /\ sending s' t = Idle).
Proof.
  intros l s t n s' os H ST. destruct (history_inv l s H) as [I M]. cbn [step] in ST. destruct (sending s t) as [|a id d|] eqn:E; try discriminate ST.
  exists id, d. split; [eapply (proj1 (history_asked l s H t)); exact E|]. unfold send_copy in ST. destruct (find (fun g => g_addr g =? a) (groups s)) as [g|] eqn:F; [cbn [bind] in ST|discriminate ST].
  apply find_some in F. destruct F as [G EA]. apply Z.eqb_eq in EA. assert (EI : g_id g = id) by (eapply (i_found s I); eassumption).
  assert (ES : g_subs g = members Subscriber id l).
  { rewrite <- M. unfold members_of. destruct (find_group s id) as [x|] eqn:FX.
    - destruct (find_group_in s id x FX) as [X EX]. assert (x = g) by (apply (nodup_inj g_id (groups s)); [apply (i_ids s I)| | |]; congruence). subst x. reflexivity.
    - apply find_none_ids in FX. exfalso. apply FX. apply in_map_iff. exists g. auto. }
  rewrite ES in ST. destruct (Nat.leb _ _); injection ST as <- <-; (split; [reflexivity|]); cbn [sending with_sending]; rewrite Z.eqb_refl; reflexivity.
Qed.

Lemma history_snoc : forall l e s', history (l ++ [e]) s' -> exists s, history l s /\ in_turn (fst e) s /\ step (fst e) s = Some (s', snd e).
Proof.
  intros l e s' H. inversion H as [E|l0 s o s0 os H0 T ST E]; [destruct l; discriminate|]. apply app_inj_tail in E. destruct E as [-> <-]. exists s. auto.
Qed.
Lemma history_app : forall l1 l2 s', history (l1 ++ l2) s' -> exists s, history l1 s.
Proof.
  intros l1 l2. induction l2 as [|e l2 IH] using rev_ind; intros s' H; [rewrite app_nil_r in H; eauto|]. rewrite app_assoc in H. apply history_snoc in H. destruct H as [s [H _]]. eapply IH. exact H.
Qed.

Lemma delivery_inv : forall l t n os l2 s2, history (l ++ (OCopy t n, os) :: l2) s2 -> existsb (finds t) l2 = false ->
  exists id d, asked t l = Some (id, d) /\
  let ds := by_message (members Subscriber id l) in
  exists dn rest, (if Nat.leb (length ds) n then ds else []) = dn ++ rest /\ length (posts t l2) = length dn /\
    copies t l2 = map (delivery id d) (combine (posts t l2) dn) /\
    sending s2 t = match rest with [] => Idle | _ => Posting id d rest end.
Proof.
  intros l t n os l2. induction l2 as [|e l2 IH] using rev_ind; intros s2 H NF.
  - apply (history_snoc l (OCopy t n, os)) in H. destruct H as [s [H [T ST]]]. cbn [fst snd] in *. destruct (copy_step l s t n s2 os H ST) as [id [d [A C]]]. exists id, d. split; [exact A|].
    cbv zeta. set (ds := by_message (members Subscriber id l)) in *. exists [], (if Nat.leb (length ds) n then ds else []). split; [reflexivity|]. split; [reflexivity|]. split; [reflexivity|]. destruct (Nat.leb (length ds) n); apply C.
  - rewrite existsb_app in NF. apply orb_false_iff in NF. destruct NF as [NF1 NF2]. cbn [existsb] in NF2. rewrite orb_false_r in NF2.
    rewrite app_comm_cons, app_assoc in H. apply history_snoc in H. destruct H as [s [H [T ST]]]. destruct (IH s H NF1) as [id [d [A [dn [rest [E1 [E2 [E3 E4]]]]]]]].
    exists id, d. split; [exact A|]. cbv zeta. cbv zeta in E1. set (ds := by_message (members Subscriber id l)) in *. destruct e as [o os0]. cbn [fst snd] in *.
    assert (PS : posts t (l2 ++ [(o, os0)]) = posts t l2 ++ posts t [(o, os0)]) by (unfold posts; apply flat_map_app).
    assert (CS : copies t (l2 ++ [(o, os0)]) = copies t l2 ++ copies t [(o, os0)]) by (unfold copies; apply flat_map_app).
    destruct (sending_step o s s2 os0 t ST T) as [E|[[i0 [d0 [-> X]]]|[[n0 [a [i0 [d0 [-> [E X]]]]]]|[ok [i0 [d0 [l0 [-> [E X]]]]]]]]].
    + assert (NP : (forall ok, o = OPost t ok -> False) -> posts t [(o, os0)] = [] /\ copies t [(o, os0)] = []).
      { intros N. unfold posts, copies, copies_of. cbn [flat_map fst]. destruct o; auto. destruct (Z.eqb_spec t0 t) as [->|NE]; [exfalso; eapply N; reflexivity|auto]. }
      destruct NP as [NP1 NP2].
      { intros ok ->. cbn [step] in ST. destruct T as [i0 [d0 [l0 T]]]. rewrite T in ST. injection ST as ST. unfold send_post in ST. destruct l0 as [|x l0].
        - rewrite E4 in T. destruct rest; discriminate T.
        - injection ST as <- <-. cbn [sending with_sending] in E. rewrite Z.eqb_refl, T in E. destruct l0 as [|y l0]; [discriminate E|]. apply (f_equal (fun z => match z with Posting _ _ q => length q | _ => O end)) in E. cbn [length] in E. lia. }
      exists dn, rest. rewrite PS, CS, NP1, NP2, !app_nil_r. split; [exact E1|]. split; [exact E2|]. split; [exact E3|]. congruence.
    + cbn [finds fst] in NF2. rewrite Z.eqb_refl in NF2. discriminate NF2.
    + rewrite E in E4. destruct rest; discriminate E4.
    + rewrite E in E4. destruct rest as [|x rest]; [discriminate E4|]. injection E4 as -> -> ->. cbn [step] in ST. rewrite E in ST. unfold send_post in ST. injection ST as <- <-.
      exists (dn ++ [x]), rest. split; [rewrite E1, <- app_assoc; reflexivity|]. rewrite PS, CS. unfold posts at 2 4, copies at 2. cbn [flat_map fst copies_of]. rewrite Z.eqb_refl. cbn [app].
      split; [rewrite !app_length, E2; reflexivity|]. split; [|cbn [sending with_sending]; rewrite Z.eqb_refl; reflexivity].
      rewrite E3. assert (CB : forall (p : list bool) (q : list Z), length p = length q -> combine (p ++ [ok]) (q ++ [x]) = combine p q ++ [(ok, x)]).
      { induction p as [|b p IHp]; intros [|c q] LE; try discriminate LE; [reflexivity|]. cbn [app combine]. rewrite IHp; [reflexivity|]. cbn [length] in LE. lia. }
      rewrite CB by exact E2. rewrite map_app. cbn [map]. unfold delivery at 3. cbn [fst snd]. destruct ok; reflexivity.
Qed.

(** A group with members keeps its place. *)
Lemma stay_step : forall o s s' os g, inv s -> in_turn o s -> step o s = Some (s', os) -> In g (groups s) ->
  (members_of s' Subscriber (g_id g) <> [] \/ members_of s' Publisher (g_id g) <> []) ->
  exists g', In g' (groups s') /\ g_addr g' = g_addr g /\ g_id g' = g_id g.
Proof.
  assert (PUT : forall s x g, inv s -> In g (groups s) -> (forall y, In y (groups s) -> g_addr y = g_addr x -> g_id y = g_id x) -> exists g', In g' (groups (put_group s x)) /\ g_addr g' = g_addr g /\ g_id g' = g_id g).
  { intros s x g I G EI. exists (if g_addr g =? g_addr x then x else g). split; [cbn [groups put_group with_groups]; apply in_map_iff; exists g; auto|]. destruct (Z.eqb_spec (g_addr g) (g_addr x)) as [E|E]; [|auto].
    split; [auto|]. symmetry. apply EI; assumption. }
  assert (OK : forall s r x l, inv s -> In x (groups s) -> forall y, In y (groups s) -> g_addr y = g_addr (with_users r x l) -> g_id y = g_id (with_users r x l)).
  { intros s r x l I X y Y E. destruct (with_users_addr r x l) as [WA WI]. rewrite WI. rewrite WA in E. f_equal. apply (nodup_inj g_addr (groups s)); auto. apply (i_addr s I). }
  assert (ADD : forall s0 s r u id um gm s' os g, inv s0 -> groups s = groups s0 -> add_user s r u id um gm = (s', os) -> In g (groups s0) -> exists g', In g' (groups s') /\ g_addr g' = g_addr g /\ g_id g' = g_id g).
  { intros s0 s r u id um gm s' os g I EG H G. unfold add_user in H. destruct um; cbn [negb] in H; [|injection H as <- <-; destruct (finit_groups s u) as [E _]; exists g; rewrite E, EG; auto].
    destruct (find_group s id) as [x|] eqn:F.
    - injection H as <- <-. destruct (find_group_in s id x F) as [X _]. rewrite EG in X. cbn [groups put_group with_groups]. rewrite EG. apply (PUT s0 (with_users r x (u :: users r x)) g I G). apply OK; assumption.
    - destruct gm; cbn [negb] in H; injection H as <- <-; [exists g; split; [right; rewrite EG; exact G|auto]|destruct (finit_groups s u) as [E _]; exists g; rewrite E, EG; auto]. }
  assert (REM : forall s r t id s' os g, inv s -> remove_user s r t id = (s', os) -> In g (groups s) -> (members_of s' Subscriber (g_id g) <> [] \/ members_of s' Publisher (g_id g) <> []) ->
                exists g', In g' (groups s') /\ g_addr g' = g_addr g /\ g_id g' = g_id g).
  { intros s r t id s' os g I H G NE. unfold remove_user in H. destruct (find_group s id) as [x|] eqn:F; [|injection H as <- <-; eauto].
    destruct (find_group_in s id x F) as [X EX]. destruct (take_user t (users r x)) as [[u l]|]; [|rewrite (i_used s I x X) in H; injection H as <- <-; eauto].
    set (x' := with_users r x l) in *. destruct (finit_groups (put_group s x') u) as [G1 _]. destruct (PUT s x' g I G (OK s r x l I X)) as [g' [G' [EA EI]]]. rewrite <- G1 in G'.
    destruct (is_empty x') eqn:EMP; injection H as <- <-; [|eauto]. exists g'. split; [|auto]. cbn [groups remove_group with_groups]. apply filter_In. split; [exact G'|]. apply negb_true_iff. apply Z.eqb_neq. intros E.
    destruct (with_users_addr r x l) as [WA WI]. fold x' in WA, WI. assert (g = x) by (apply (nodup_inj g_addr (groups s)); [apply (i_addr s I)| | |]; congruence). subst g.
    assert (NONE : find_group (remove_group (finit (put_group s x') u) x') (g_id x) = None).
    { apply find_none_ids. cbn [groups remove_group with_groups]. rewrite G1. intros Y. apply in_map_iff in Y. destruct Y as [y [EY IY]]. apply filter_In in IY. destruct IY as [IY NY].
      apply negb_true_iff in NY. apply Z.eqb_neq in NY. cbn [groups put_group with_groups] in IY. apply in_map_iff in IY. destruct IY as [z [EZ IZ]].
      destruct (Z.eqb_spec (g_addr z) (g_addr x')) as [EE|EE]; subst y; [contradiction|]. assert (z = x) by (apply (nodup_inj g_id (groups s)); [apply (i_ids s I)| | |]; assumption). subst z. congruence. }
    unfold members_of in NE. rewrite NONE in NE. destruct NE as [NE|NE]; contradiction NE; reflexivity. }
  assert (SND : forall s t x g, In g (groups s) -> exists g', In g' (groups (with_sending s t x)) /\ g_addr g' = g_addr g /\ g_id g' = g_id g) by (intros; eauto).
  intros o s s' os g I T ST G NE. destruct o as [t id u k|t id [w|] u k|t id u k|t id|t id|t id d|t n|t ok]; cbn [step] in ST.
  - injection ST as ST. eapply ADD; [exact I|reflexivity|exact ST|exact G].
  - injection ST as ST. eapply ADD; [exact I| |exact ST|exact G]. reflexivity.
  - injection ST as <- <-. eauto.
  - injection ST as ST. eapply ADD; [exact I|reflexivity|exact ST|exact G].
  - injection ST as ST. eapply REM; eassumption.
  - injection ST as ST. eapply REM; eassumption.
  - injection ST as ST. unfold send_find in ST. destruct (find_group s id) as [x|]; injection ST as <- <-; apply SND; exact G.
  - destruct (sending s t) as [|a id d|id d ds] eqn:E; try discriminate ST. unfold send_copy in ST. destruct (find _ (groups s)) as [x|]; [cbn [bind] in ST|discriminate ST].
    destruct (Nat.leb _ _); injection ST as <- <-; apply SND; exact G.
  - destruct (sending s t) as [|a id d|id d ds] eqn:E; try discriminate ST. unfold send_post in ST. destruct ds as [|x ds]; injection ST as <- <-; apply SND; exact G.
Qed.

Lemma stay : forall l t id d l2 s2, history (l ++ (OFind t id d, []) :: l2) s2 -> never_empty id (l ++ [(OFind t id d, [])]) l2 ->
  forall a, sending s2 t = FoundAt a id d -> existsb (finds t) l2 = false -> exists g, In g (groups s2) /\ g_addr g = a /\ g_id g = id.
Proof.
  intros l t id d l2. induction l2 as [|e l2 IH] using rev_ind; intros s2 H NE a SN NF.
  - apply (history_snoc l (OFind t id d, [])) in H. destruct H as [s [H [T ST]]]. cbn [fst snd step] in ST. injection ST as ST. unfold send_find in ST. destruct (find_group s id) as [g|] eqn:F; [|discriminate ST].
    injection ST as <-. cbn [sending with_sending] in SN. rewrite Z.eqb_refl in SN. injection SN as <-. destruct (find_group_in s id g F) as [G E]. exists g. auto.
  - rewrite existsb_app in NF. apply orb_false_iff in NF. destruct NF as [NF1 NF2]. cbn [existsb] in NF2. rewrite orb_false_r in NF2.
    assert (H' := H). rewrite app_comm_cons, app_assoc in H. apply history_snoc in H. destruct H as [s [H [T ST]]]. destruct e as [o os0]. cbn [fst snd] in *.
    assert (SS : sending s t = FoundAt a id d).
    { destruct (sending_step o s s2 os0 t ST T) as [E|[[i0 [d0 [-> X]]]|[[n0 [a0 [i0 [d0 [-> [E X]]]]]]|[ok [i0 [d0 [l0 [-> [E X]]]]]]]]].
      - congruence.
      - cbn [finds fst] in NF2. rewrite Z.eqb_refl in NF2. discriminate NF2.
      - rewrite SN in X. destruct X as [X|[x X]]; discriminate X.
      - rewrite SN in X. destruct X as [X|[x X]]; discriminate X. }
    destruct (IH s H) with (a := a) as [g [G [EA EI]]]; try assumption.
    { intros p q EQ. apply (NE p (q ++ [(o, os0)])). rewrite EQ, app_assoc. reflexivity. }
    destruct (history_inv _ s H) as [I M]. destruct (history_inv _ s2 H') as [I2 M2].
    destruct (stay_step o s s2 os0 g I T ST G) as [g' [G' [EA' EI']]].
    { rewrite EI, !M2. assert (X := NE (l2 ++ [(o, os0)]) [] (eq_sym (app_nil_r _))). rewrite <- app_assoc in X. exact X. }
    exists g'. split; [exact G'|]. split; congruence.
Qed.

Lemma publishers_plain : forall l id, by_event (members Publisher id l) = [].
Proof.
  intros l id. assert (LV : forall t m, by_event m = [] -> by_event (leave t m) = []).
  { intros t m. induction m as [|u m IH]; intros H; [reflexivity|]. unfold by_event in *. cbn [flat_map] in H. apply app_eq_nil in H. destruct H as [H1 H2]. cbn [leave]. destruct (fst u =? t); [exact H2|]. cbn [flat_map]. rewrite H1, IH; auto. }
  induction l as [|e l IH] using rev_ind; [reflexivity|]. unfold members in *. rewrite fold_left_app. cbn [fold_left]. set (m := fold_left (member_step Publisher id) l []) in *.
  destruct e as [o os]. unfold member_step. destruct o as [t i u g|t i [w|] u g|t i u g|t i|t i|t i d|t n|t ok]; cbn [joins leaves]; try exact IH;
    destruct os as [|[| | | | |] [|? ?]]; try exact IH; cbn [joins leaves role_eqb andb]; try exact IH; destruct (id =? i); try exact IH.
  apply LV. exact IH.
Qed.
