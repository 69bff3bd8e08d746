(** C46: multicast groups.

    Full statement: sending to a multicast group delivers exactly one copy to each current subscriber of that message
    id, or, if buffers run out, to none; publish, unpublish, subscribe and unsubscribe affect only that group; a
    group with no publishers and subscribers leaves no residue.

    What fails: a sender looks the group up before it takes the lock, so that it can use a group that the last member's leaving freed
    in between ([C46_race_refuted]; it does not happen while some member stays, [C46_defined_partial]); and subscribers that asked for an event
    rather than for a copy have been signalled when buffers run out ([C46_all_or_none_refuted]). *)
Require Import ZArith List Bool Lia ZifyBool Permutation.
Import ListNotations.
From Verif Require Import Base McSpec McModel McProof.
Open Scope Z_scope.

(** Who belongs to which group is what the calls that succeeded say. *)
Theorem C46_registry : forall l s, history l s -> forall r id,
  match find_group s id with Some g => users r g | None => [] end = members r id l.
Proof. intros l s H r id. exact (proj2 (history_inv l s H) r id). Qed.
Print Assumptions C46_registry.

(** When calls succeed: joining needs memory (and a writer), leaving needs a membership. *)
Theorem C46_calls : forall l s o s' os, history l s -> in_turn o s -> step o s = Some (s', os) ->
  let some_member (id : Z) := match members Subscriber id l, members Publisher id l with [], [] => false | _, _ => true end in
  let is_member (r : role) (t id : Z) := existsb (fun u : member => fst u =? t) (members r id l) in
  match o with
  | OSubscribe t id user grp | OPublish t id user grp | OSubscribeEvent t id (Some _) user grp =>
      os = if user && (grp || some_member id) then [Done] else [Fails]
  | OSubscribeEvent t id None _ _ => os = [Fails]
  | OUnsubscribe t id => os = if is_member Subscriber t id then [Done] else [Fails]
  | OUnpublish t id => os = if is_member Publisher t id then [Done] else [Fails]
  | OFind t id _ => os = if some_member id then [] else [Fails]
  | _ => True
  end.
Proof.
  intros l s o s' os H T ST some_member is_member. destruct (history_inv l s H) as [I M].
  assert (SM : forall id, some_member id = match find_group s id with Some _ => true | None => false end).
  { intros id. unfold some_member. rewrite <- !M. unfold members_of. destruct (find_group s id) as [g|] eqn:F; [|reflexivity]. destruct (find_group_in s id g F) as [G _]. assert (U := i_used s I g G). unfold is_empty in U.
    cbn [users]. destruct (g_subs g); [|reflexivity]. destruct (g_pubs g); [discriminate U|reflexivity]. }
  assert (ADD : forall s0 r u id um gm x y, find_group s0 id = find_group s id -> add_user s0 r u id um gm = (x, y) -> y = if um && (gm || some_member id) then [Done] else [Fails]).
  { intros s0 r u id um gm x y E A. unfold add_user in A. rewrite SM, <- E. destruct um; cbn [negb andb] in *; [|injection A as <- <-; reflexivity]. destruct (find_group s0 id); [injection A as <- <-; rewrite orb_true_r; reflexivity|].
    rewrite orb_false_r. destruct gm; cbn [negb] in A; injection A as <- <-; reflexivity. }
  assert (REM : forall r t id x y, remove_user s r t id = (x, y) -> y = if is_member r t id then [Done] else [Fails]).
  { intros r t id x y A. destruct (remove_spec s r t id x y I A) as [_ [_ [[-> [IN _]]|[-> [NI _]]]]]; unfold is_member; rewrite M in *.
    - assert (E : existsb (fun u : member => fst u =? t) (members r id l) = true). { apply existsb_exists. apply in_map_iff in IN. destruct IN as [u [E U]]. exists u. split; [exact U|apply Z.eqb_eq; exact E]. }
      rewrite E. reflexivity.
    - destruct (existsb (fun u : member => fst u =? t) (members r id l)) eqn:E; [|reflexivity]. exfalso. apply NI. apply existsb_exists in E. destruct E as [u [U E]]. apply Z.eqb_eq in E. apply in_map_iff. exists u. auto. }
  destruct o as [t id u k|t id [w|] u k|t id u k|t id|t id|t id d|t n|t ok]; cbn [step] in ST; try exact Logic.I; try (injection ST as ST).
  - eapply ADD; [reflexivity|exact ST].
  - eapply ADD; [|exact ST]. reflexivity.
  - subst. reflexivity.
  - eapply ADD; [reflexivity|exact ST].
  - eapply REM. exact ST.
  - eapply REM. exact ST.
  - rewrite SM. unfold send_find in ST. destruct (find_group s id); injection ST as <- <-; reflexivity.
Qed.
Print Assumptions C46_calls.

(** A call about one group leaves the members of every other as they were, and sending changes no group. *)
Theorem C46_only_that_group : forall l s o s' os, history l s -> in_turn o s -> step o s = Some (s', os) ->
  forall id, about o <> Some id ->
  forall r, match find_group s' id with Some g => users r g | None => [] end = match find_group s id with Some g => users r g | None => [] end.
Proof.
  intros l s o s' os H T ST id N r. destruct (history_inv l s H) as [I _]. destruct (step_inv o s s' os I T ST) as [_ M]. assert (E := M r id). unfold members_of in E. rewrite E. clear E M ST.
  assert (NE : forall i, Some i <> Some id -> (id =? i) = false) by (intros i X; apply Z.eqb_neq; congruence).
  unfold member_step. destruct o as [t i u k|t i [w|] u k|t i u k|t i|t i|t i d|t n|t ok]; cbn [about joins leaves] in *; try reflexivity;
    destruct os as [|[| | | | |] [|? ?]]; try reflexivity; rewrite (NE i N), andb_false_r; reflexivity.
Qed.
Print Assumptions C46_only_that_group.

(** A send: every current event subscriber is signalled once; a buffer is taken for each current message subscriber, or, if there are too few,
    all that were taken are given back and the send fails. *)
Theorem C46_send : forall l s t n s' os, history l s -> step (OCopy t n) s = Some (s', os) ->
  exists id data, asked t l = Some (id, data) /\
  let subs := members Subscriber id l in
  os = map Signal (by_event subs) ++
       (if Nat.leb (length (by_message subs)) n then [Take (length (by_message subs))] else [Take n; Give n; Fails]).
Proof.
  intros l s t n s' os H ST. destruct (copy_step l s t n s' os H ST) as [id [d [A C]]]. exists id, d. split; [exact A|]. cbv zeta. destruct (Nat.leb _ _); apply C.
Qed.
Print Assumptions C46_send.

(** Afterwards, whatever other threads do: the copies the send has posted so far are one for each of the first of those who subscribed when
    the buffers were taken (a buffer is given back for each post that fails), and when the send ends there are none left; without enough buffers no copy is posted. *)
Theorem C46_delivery : forall l t n os l2 s2, history (l ++ (OCopy t n, os) :: l2) s2 -> existsb (finds t) l2 = false ->
  exists id data, asked t l = Some (id, data) /\
  let dests := by_message (members Subscriber id l) in
  exists so_far rest : list Z,
    (if Nat.leb (length dests) n then dests else []) = so_far ++ rest /\
    length (posts t l2) = length so_far /\
    copies t l2 = map (delivery id data) (combine (posts t l2) so_far) /\
    (sending s2 t = Idle <-> rest = []).
Proof.
  intros l t n os l2 s2 H NF. destruct (delivery_inv l t n os l2 s2 H NF) as [id [d [A [a [b [E1 [E2 [E3 E4]]]]]]]]. exists id, d. split; [exact A|]. exists a, b.
  split; [exact E1|]. split; [exact E2|]. split; [exact E3|]. rewrite E4. destruct b; split; try reflexivity; discriminate.
Qed.
Print Assumptions C46_delivery.

(** In particular: exactly one copy to each, once the send has ended, if posting worked. *)
Theorem C46_exactly_one_each : forall l t n os l2 s2, history (l ++ (OCopy t n, os) :: l2) s2 -> existsb (finds t) l2 = false ->
  sending s2 t = Idle -> Forall (fun b : bool => b = true) (posts t l2) ->
  exists id data, asked t l = Some (id, data) /\
  let dests := by_message (members Subscriber id l) in
  copies t l2 = if Nat.leb (length dests) n then map (fun d => Copy d id data) dests else [].
Proof.
  intros l t n os l2 s2 H NF ID OK. destruct (C46_delivery l t n os l2 s2 H NF) as [id [d [A [a [b [E1 [E2 [E3 E4]]]]]]]]. exists id, d. split; [exact A|]. cbv zeta.
  rewrite (proj1 E4 ID), app_nil_r in E1. rewrite E3. assert (X : map (delivery id d) (combine (posts t l2) a) = map (fun d0 => Copy d0 id d) a).
  { revert E2 OK. generalize (posts t l2) as p. clear. intros p. revert a. induction p as [|b p IH]; intros [|x a] E F; try discriminate E; [reflexivity|]. cbn [combine map]. inversion F as [|? ? B F']; subst.
    rewrite IH; [reflexivity| |exact F']. cbn [length] in E. lia. }
  rewrite X, <- E1. destruct (Nat.leb _ _); reflexivity.
Qed.
Print Assumptions C46_exactly_one_each.

(** No residue: the groups there are are those that have members, and the writers that are open are those of the event subscriptions. *)
Theorem C46_residue : forall l s, history l s ->
  NoDup (map g_id (groups s)) /\
  (forall id, In id (map g_id (groups s)) <-> (members Subscriber id l <> [] \/ members Publisher id l <> [])) /\
  Permutation (writers s) (flat_map (fun id => by_event (members Subscriber id l)) (map g_id (groups s))).
Proof.
  intros l s H. destruct (history_inv l s H) as [I M]. split; [apply (i_ids s I)|]. split.
  - intros id. rewrite <- !M. unfold members_of. split.
    + intros X. destruct (find_group s id) as [g|] eqn:F; [|apply find_none_ids in F; contradiction]. destruct (find_group_in s id g F) as [G _]. assert (U := i_used s I g G). unfold is_empty in U. cbn [users].
      destruct (g_subs g); [|left; discriminate]. destruct (g_pubs g); [discriminate U|right; discriminate].
    + intros X. destruct (find_group s id) as [g|] eqn:F; [|destruct X as [X|X]; contradiction X; reflexivity]. destruct (find_group_in s id g F) as [G E]. apply in_map_iff. exists g. auto.
  - apply (Permutation_count_occ Z.eq_dec). intros w. rewrite (i_writers s I). f_equal. rewrite flat_map_concat_map, flat_map_concat_map, map_map. f_equal. apply map_ext_in. intros g G.
    assert (F : find_group s (g_id g) = Some g).
    { destruct (find_group s (g_id g)) as [x|] eqn:F; [|apply find_none_ids in F; exfalso; apply F; apply in_map_iff; exists g; auto]. destruct (find_group_in s _ x F) as [X EX]. f_equal. apply (nodup_inj g_id (groups s)); [apply (i_ids s I)| | |]; assumption. }
    assert (MS := M Subscriber (g_id g)). assert (MP := M Publisher (g_id g)). unfold members_of in MS, MP. rewrite F in MS, MP. cbn [users] in MS, MP. unfold group_writers. rewrite MS, MP, publishers_plain, app_nil_r. reflexivity.
Qed.
Print Assumptions C46_residue.

(** A send that found its group does not use memory that was freed as long as the group keeps a member. *)
Theorem C46_defined_partial : forall l t id data l2 s n, history (l ++ (OFind t id data, []) :: l2) s ->
  never_empty id (l ++ [(OFind t id data, [])]) l2 -> existsb (finds t) l2 = false ->
  in_turn (OCopy t n) s -> step (OCopy t n) s <> None.
Proof.
  intros l t id data l2 s n H NE NF T. destruct T as [a [i [d SN]]]. cbn [step]. rewrite SN. assert (A := proj1 (history_asked _ s H t) a i d SN).
  assert (AS : asked t (l ++ (OFind t id data, []) :: l2) = Some (id, data)).
  { clear - NF. induction l2 as [|e l2 IH] using rev_ind.
    - rewrite asked_snoc. unfold asked_step. cbn [fst]. rewrite Z.eqb_refl. reflexivity.
    - rewrite existsb_app in NF. apply orb_false_iff in NF. destruct NF as [NF1 NF2]. cbn [existsb] in NF2. rewrite orb_false_r in NF2. rewrite app_comm_cons, app_assoc, asked_snoc, (IH NF1).
      unfold asked_step, finds in *. destruct (fst e); try reflexivity. rewrite NF2. reflexivity. }
  rewrite AS in A. injection A as -> ->. destruct (stay l t i d l2 s H NE a SN NF) as [g [G [EA EI]]]. destruct (history_inv _ s H) as [I _]. unfold send_copy.
  rewrite (find_addr (groups s) a g (i_addr s I) G EA). cbn [bind]. destruct (Nat.leb _ _); discriminate.
Qed.
Print Assumptions C46_defined_partial.

(** ** Examples and refutations. *)
Definition turnb (o : op) (s : state) : bool :=
  match o with
  | OCopy t _ => match sending s t with FoundAt _ _ _ => true | _ => false end
  | OPost t _ => match sending s t with Posting _ _ _ => true | _ => false end
  | OSubscribe t _ _ _ | OSubscribeEvent t _ _ _ _ | OPublish t _ _ _ | OUnsubscribe t _ | OUnpublish t _ | OFind t _ _ =>
      match sending s t with Idle => true | _ => false end
  end.
Lemma turnb_ok : forall o s, turnb o s = true -> in_turn o s.
Proof. intros o s H. destruct o; cbn [turnb in_turn] in *; destruct (sending s t); try discriminate H; eauto. Qed.
Fixpoint run (os : list op) (s : state) (l : log) : option (state * log) :=
  match os with
  | [] => Some (s, l)
  | o :: os => if turnb o s then do r <- step o s; run os (fst r) (l ++ [(o, snd r)]) else None
  end.
Lemma run_history : forall os s l s' l', history l s -> run os s l = Some (s', l') -> history l' s'.
Proof.
  intros os. induction os as [|o os IH]; intros s l s' l' H R; cbn [run] in R; [injection R as <- <-; exact H|]. destruct (turnb o s) eqn:T; [|discriminate R].
  destruct (step o s) as [[s1 os1]|] eqn:ST; [cbn [bind fst snd] in R|discriminate R]. eapply IH; [|exact R]. eapply h_step; [exact H|apply turnb_ok; exact T|exact ST].
Qed.

(** Threads 1 and 2 subscribe to group 7, thread 3 for an event; 4 publishes and sends; 5 subscribes to another group, 2 leaves and 6 joins while the copies are posted. *)
Definition before : list op := [OSubscribe 1 7 true true; OSubscribe 2 7 true false; OSubscribeEvent 3 7 (Some 30) true true; OPublish 4 7 true true; OSubscribe 5 8 true true; OFind 4 7 [1; 2]].
Definition sent : list op := [OCopy 4 5; OPost 4 true; OUnsubscribe 2 7; OSubscribe 6 7 true true; OPost 4 true].
Example before_history : exists s l, run before start [] = Some (s, l) /\ history l s /\ length l = 6%nat /\
  members Subscriber 7 l = [(3, ByEvent 30); (2, ByMessage); (1, ByMessage)] /\ members Publisher 7 l = [(4, ByMessage)] /\ asked 4 l = Some (7, [1; 2]) /\
  turnb (OCopy 4 5) s = true /\ exists s', step (OCopy 4 5) s = Some (s', [Signal 30; Take 2]).
Proof.
  destruct (run before start []) as [[s l]|] eqn:R; [|vm_compute in R; discriminate R]. exists s, l. split; [reflexivity|]. split; [eapply run_history; [apply h_start|exact R]|].
  vm_compute in R. injection R as <- <-. repeat (split; [vm_compute; reflexivity|]). eexists. vm_compute. reflexivity.
Qed.
Example sent_history : exists s l, run (before ++ sent) start [] = Some (s, l) /\ history l s /\
  exists l1 l2, l = l1 ++ (OCopy 4 5, [Signal 30; Take 2]) :: l2 /\ existsb (finds 4) l2 = false /\ sending s 4 = Idle /\ posts 4 l2 = [true; true] /\
  copies 4 l2 = [Copy 2 7 [1; 2]; Copy 1 7 [1; 2]] /\ members Subscriber 7 l = [(6, ByMessage); (3, ByEvent 30); (1, ByMessage)] /\ writers s = [30].
Proof.
  destruct (run (before ++ sent) start []) as [[s l]|] eqn:R; [|vm_compute in R; discriminate R]. exists s, l. split; [reflexivity|]. split; [eapply run_history; [apply h_start|exact R]|].
  vm_compute in R. injection R as <- <-. eexists (_ :: _ :: _ :: _ :: _ :: _ :: []), _. split; [reflexivity|]. repeat (split; [vm_compute; reflexivity|]). vm_compute. reflexivity.
Qed.
(** Others join and leave between the look-up and the copying, but some member stays. *)
Example stays : exists s l l2, run (before ++ [OUnsubscribe 1 7; OSubscribe 9 7 true true]) start [] = Some (s, l ++ (OFind 4 7 [1; 2], []) :: l2) /\
  never_empty 7 (l ++ [(OFind 4 7 [1; 2], [])]) l2 /\ existsb (finds 4) l2 = false /\ turnb (OCopy 4 5) s = true.
Proof.
  eexists _, (_ :: _ :: _ :: _ :: _ :: []), [_; _]. split; [vm_compute; reflexivity|]. split; [|split; vm_compute; reflexivity].
  intros a b E. left. destruct a as [|x [|y [|z a]]]; cbn [app] in E; [vm_compute; discriminate| | |discriminate E].
  - injection E as <- _. vm_compute. discriminate.
  - injection E as <- <- _. vm_compute. discriminate.
Qed.
(** Everyone leaves: nothing is left. *)
Example left : exists s l, run [OSubscribe 1 7 true true; OSubscribeEvent 3 7 (Some 30) true true; OUnsubscribe 3 7; OUnsubscribe 1 7; OUnsubscribe 1 7; OFind 2 7 []] start [] = Some (s, l) /\
  history l s /\ groups s = [] /\ writers s = [] /\ map snd l = [[Done]; [Done]; [Done]; [Done]; [Fails]; [Fails]].
Proof.
  match goal with |- exists s l, ?r = Some _ /\ _ => destruct r as [[s l]|] eqn:R; [|vm_compute in R; discriminate R] end. exists s, l. split; [reflexivity|]. split; [eapply run_history; [apply h_start|exact R]|].
  vm_compute in R. injection R as <- <-. auto.
Qed.

(** Refuted: a send never uses a group that was freed.  It finds the group, the only member leaves, and it goes on with the group. *)
Theorem C46_race_refuted : exists l s t n, history l s /\ in_turn (OCopy t n) s /\ step (OCopy t n) s = None.
Proof.
  destruct (run [OSubscribe 1 7 true true; OFind 4 7 [1]; OUnsubscribe 1 7] start []) as [[s l]|] eqn:R; [|vm_compute in R; discriminate R].
  exists l, s, 4, 5%nat. split; [eapply run_history; [apply h_start|exact R]|]. vm_compute in R. injection R as <- <-. split; [apply turnb_ok; vm_compute; reflexivity|vm_compute; reflexivity].
Qed.
Print Assumptions C46_race_refuted.

(** Refuted: if buffers run out the message reaches none of the subscribers.  The one that asked for an event is signalled. *)
Theorem C46_all_or_none_refuted : exists l s t n s' os w, history l s /\ in_turn (OCopy t n) s /\ step (OCopy t n) s = Some (s', os) /\
  In Fails os /\ In (Signal w) os.
Proof.
  destruct (run before start []) as [[s l]|] eqn:R; [|vm_compute in R; discriminate R].
  exists l, s, 4, 1%nat. eexists _, _, 30. split; [eapply run_history; [apply h_start|exact R]|]. vm_compute in R. injection R as <- <-.
  split; [apply turnb_ok; vm_compute; reflexivity|]. split; [vm_compute; reflexivity|]. split; cbn; tauto.
Qed.
Print Assumptions C46_all_or_none_refuted.
