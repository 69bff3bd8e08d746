(** C58: transmit timestamps go to the packet they belong to.

    Full statement: a transmit timestamp that comes back with a copy of a packet is given to the
    request made for that packet, and to no other, at most once; nothing but an answer or ten seconds
    of waiting takes a request away, except that, when 32 wait already, the oldest makes room for the new one; and
    a warning is raised when a timestamp is a second late. *)
Require Import ZArith List Bool Lia ZifyBool.
Import ListNotations.
From Verif Require Import Base ListLib TimeSpec TimeModel TimeProof TscSpec TscModel TscProof TscProof2.
Open Scope Z_scope.

(** The cache after a history that started with whatever the memory held. *)
Definition after (ln : bool) (h : list op) (c : cache) : Prop :=
  exists ps as_, length ps = 32%nat /\ run ln h (init ps) = Some (c, as_).
Definition times_ok (o : op) : Prop :=
  match o with OExpect _ _ _ now | OCheck _ now => normal now /\ 0 <= sec now < 2^40 | OMatch _ => True end.

Lemma after_wf : forall ln h c, after ln h c -> wf c.
Proof. intros ln h c [ps [as_ [L R]]]. apply (inv_run ln (init ps) h c as_ (init_wf ps L) eq_refl (init_waiting ps) R). Qed.
Lemma times_sane : forall h, Forall times_ok h -> Forall sane_op h.
Proof. intros h H. eapply Forall_impl; [|exact H]. intros o. destruct o; exact (fun x => x). Qed.

(** At most 32 requests wait, no two in one slot. *)
Theorem C58_slots : forall ln h c, after ln h c ->
  (length (waiting c) <= 32)%nat /\ NoDup (map (fun q => snd (q_ticket q)) (waiting c)).
Proof. intros ln h c A. split; [apply waiting_length|apply waiting_slots]. Qed.
Print Assumptions C58_slots.

(** With fewer than 32 waiting, a new request takes a slot of its own, disturbs no other, and its ticket
    bears the number of requests made so far. *)
Theorem C58_expect : forall ln h c u d t now, after ln h c -> (length (waiting c) < 32)%nat ->
  exists c' tk, step ln (OExpect u d t now) c = Some (c', Ticket tk) /\
    fst tk = count h mod 2^32 /\ 0 <= snd tk < 32 /\ (forall q, In q (waiting c) -> snd (q_ticket q) <> snd tk) /\
    forall q, In q (waiting c') <-> q = mkReq tk (firstn 54 d) t u now \/ In q (waiting c).
Proof.
  intros ln h c u d t now A L. assert (W := after_wf _ _ _ A). destruct A as [ps [as_ [LP R]]].
  destruct (inv_run ln (init ps) h c as_ (init_wf ps LP) eq_refl (init_waiting ps) R) as [_ [NS _]].
  assert (NZ : free c <> 0). { intros Z0. apply full_zero in Z0; [unfold size in Z0; lia|exact W]. }
  destruct (expect_defined ln c u d t now W (or_intror NZ)) as [[c' tk] E]. exists c', tk.
  cbn [step]. rewrite E. cbn [bind fst snd]. split; [reflexivity|].
  destruct (expect_waiting _ _ _ _ _ _ _ _ W E) as [T1 [T2 WT]]. split; [rewrite T2, NS; apply u32_u64|]. split; [exact T1|].
  destruct (expect_spec _ _ _ _ _ _ _ _ W E) as [s [ET [S0 [_ [_ [_ [_ [_ [FS _]]]]]]]]]. destruct FS as [[_ FS]|[Z0 _]]; [|contradiction (NZ Z0)].
  assert (NEW : forall q, In q (waiting c) -> snd (q_ticket q) <> snd tk).
  { intros q I EQ. apply in_waiting in I. destruct I as [x [X [F ->]]]. subst tk. cbn [q_ticket request_at snd] in EQ. assert (x = s) by lia. congruence. }
  split; [exact NEW|]. intros q. rewrite WT. change max_pdu with 54%nat. unfold slot_of. split; [intros [H|[H _]]; auto|].
  intros [H|H]; [auto|]. right. split; [exact H|apply NEW; exact H].
Qed.
Print Assumptions C58_expect.

(** A packet that comes back ends the wait of one request that it ends with, the one in the lowest slot,
    or else none that waits is the tail of it. *)
Theorem C58_match : forall ln h c seen c' a, after ln h c -> step ln (OMatch seen) c = Some (c', a) ->
  (a = NotFound /\ c' = c /\ forall q, In q (waiting c) -> ~ ends_with q seen) \/
  (exists q, In q (waiting c) /\ a = Found (q_ticket q) (q_user q) /\ ends_with q seen /\
     (forall q', In q' (waiting c) -> ends_with q' seen -> snd (q_ticket q) <= snd (q_ticket q')) /\
     (forall q', In q' (waiting c') <-> In q' (waiting c) /\ q' <> q)).
Proof.
  intros ln h c seen c' a A H. assert (W := after_wf _ _ _ A). cbn [step] in H.
  destruct (match_waiting _ _ _ _ W H) as [X|[q [I [EA [EW [LW WT]]]]]]; [left; exact X|]. right. exists q.
  split; [exact I|]. split; [exact EA|]. split; [exact EW|]. split; [exact LW|]. intros q'. rewrite WT.
  split; intros [I' N]; (split; [exact I'|]); [intros ->; apply N; reflexivity|].
  intros EQ. apply N. apply in_waiting in I, I'. destruct I as [x [_ [_ ->]]], I' as [y [_ [_ ->]]]. rewrite !request_slot in EQ.
  assert (x = y) by lia. subst. reflexivity.
Qed.
Print Assumptions C58_match.

(** The check of a port takes away that port's requests that waited ten seconds, and nothing else. *)
Theorem C58_check : forall ln h c port now c' a, after ln h c -> Forall times_ok (OCheck port now :: h) ->
  step ln (OCheck port now) c = Some (c', a) ->
  forall q, In q (waiting c') <-> In q (waiting c) /\ ~ (port_of (q_user q) = port /\ waited 10 now q).
Proof.
  intros ln h c port now c' a A T H. assert (W := after_wf _ _ _ A). destruct A as [ps [as_ [LP R]]]. inversion T as [|? ? T1 T2]; subst.
  destruct (run_sane _ _ _ _ _ (init_wf ps LP) (init_sane ps) (times_sane _ T2) R) as [_ [_ SQ]].
  cbn [step] in H. destruct (check c port now) as [[c1 a1]|] eqn:E; [cbn [bind fst snd] in H|discriminate H]. injection H as H1 H2. subst c1 a.
  apply (check_waiting _ _ _ _ _ W E); [apply T1|]. intros q I. apply SQ. exact I.
Qed.
Print Assumptions C58_check.

(** Whatever happened, an answer goes to a request that was made, for the packet seen, with the ticket its
    maker was given, and that was not answered before. *)
Theorem C58_found : forall ln ps h c as_ seen c' tk u, length ps = 32%nat -> run ln h (init ps) = Some (c, as_) ->
  step ln (OMatch seen) c = Some (c', Found tk u) ->
  exists h1 d t now h2 c1 as1 c2 as2,
    h = h1 ++ OExpect u d t now :: h2 /\ run ln h1 (init ps) = Some (c1, as1) /\
    step ln (OExpect u d t now) c1 = Some (c2, Ticket tk) /\ run ln h2 c2 = Some (c, as2) /\
    fst tk = count h1 mod 2^32 /\ ends_with (mkReq tk (firstn 54 d) t u now) seen /\
    forall u', ~ In (Found tk u') as2.
Proof.
  intros ln ps h c as_ seen c' tk u LP R H. destruct (inv_run ln (init ps) h c as_ (init_wf ps LP) eq_refl (init_waiting ps) R) as [W [_ OR]].
  cbn [step] in H. destruct (match_waiting _ _ _ _ W H) as [[X _]|[q [I [EA [EW _]]]]]; [discriminate X|]. injection EA as E1 E2. subst tk u.
  destruct (OR q I) as [h1 [u [d [t [now [h2 [c1 [as1 [c2 [as2 [E [R1 [S1 [R2 [NF [EQ FQ]]]]]]]]]]]]]]]].
  assert (EU : q_user q = u) by (rewrite EQ; reflexivity).
  exists h1, d, t, now, h2, c1, as1, c2, as2. rewrite EU. change 54%nat with max_pdu. rewrite <- EQ. repeat split; assumption.
Qed.
Print Assumptions C58_found.

(** No step fails unless a request finds 32 waiting, and even that only if the read beyond the table matters. *)
Theorem C58_defined_partial : forall ln h c o, after ln h c -> Forall times_ok (o :: h) ->
  (is_expect o = true -> ln = true \/ (length (waiting c) < 32)%nat) -> exists r, step ln o c = Some r.
Proof.
  intros ln h c o [ps [as_ [LP R]]] T F. inversion T as [|? ? T1 T2]; subst.
  destruct (run_sane _ _ _ _ _ (init_wf ps LP) (init_sane ps) (times_sane _ T2) R) as [W S0].
  apply step_defined; [exact W|exact S0|destruct o; exact T1|exact F].
Qed.
Print Assumptions C58_defined_partial.

(** When 32 wait and the read beyond the table does no harm, the request in slot 0 gives way. *)
Theorem C58_full_partial : forall h c u d t now, after true h c -> length (waiting c) = 32%nat ->
  exists c', step true (OExpect u d t now) c = Some (c', Ticket (count h mod 2^32, 0)) /\
    forall q, In q (waiting c') <-> q = mkReq (count h mod 2^32, 0) (firstn 54 d) t u now \/ (In q (waiting c) /\ snd (q_ticket q) <> 0).
Proof.
  intros h c u d t now A L. assert (W := after_wf _ _ _ A). destruct A as [ps [as_ [LP R]]].
  destruct (inv_run true (init ps) h c as_ (init_wf ps LP) eq_refl (init_waiting ps) R) as [_ [NS _]].
  assert (Z0 : free c = 0) by (apply full_zero; assumption).
  destruct (expect_defined true c u d t now W (or_introl eq_refl)) as [[c' tk] E]. exists c'.
  destruct (expect_spec _ _ _ _ _ _ _ _ W E) as [s [ET [S0 [_ [_ [_ [_ [_ [FS _]]]]]]]]]. destruct FS as [[NZ _]|[_ [_ ES]]]; [contradiction (NZ Z0)|].
  subst s. assert (ET' : tk = (count h mod 2^32, 0)) by (rewrite ET, NS, u32_u64; reflexivity). clear ET. subst tk.
  cbn [step]. rewrite E. cbn [bind fst snd]. split; [reflexivity|].
  destruct (expect_waiting _ _ _ _ _ _ _ _ W E) as [_ [_ WT]]. exact WT.
Qed.
Print Assumptions C58_full_partial.

(** The check never reports a late timestamp: whatever waits and for how long, it says that the warning is off. *)
Theorem C58_never_alarmed : forall ln h c port now c' a, after ln h c -> step ln (OCheck port now) c = Some (c', a) -> a = Alarm 1.
Proof.
  intros ln h c port now c' a A H. assert (W := after_wf _ _ _ A).
  cbn [step] in H. destruct (check c port now) as [[c1 a1]|] eqn:E; [cbn [bind fst snd] in H|discriminate H]. injection H as H1 H2. subst c1 a.
  unfold check in E. destruct (check_slots_spec port now (busy c) c c' a1 W (fun s I => proj1 (proj1 (in_busy c s W) I)) E) as [-> _]. reflexivity.
Qed.
Print Assumptions C58_never_alarmed.

(** Examples. *)
Definition ex_mem : list pkt := repeat no_pkt 32.
Definition ex_at (n : Z) : ts := mkTs n 0 0.
Definition ex_send (n : Z) : op := OExpect (7, 0, n) [0; 2; n] 2%nat (ex_at n).
Definition ex_sends (n : nat) : list op := map (fun k => ex_send (Z.of_nat k)) (seq 0 n).
Definition answers (ln : bool) (h : list op) : option (list answer) := option_map snd (run ln h (init ex_mem)).
Definition wait_list (ln : bool) (h : list op) : option (list (ticket * user)) :=
  option_map (fun r => map (fun q => (q_ticket q, q_user q)) (waiting (fst r))) (run ln h (init ex_mem)).

Example ex_history : answers false [ex_send 5; ex_send 6; OMatch [9; 9; 0; 2; 6; 1; 1]; OMatch [9; 9; 0; 2; 6; 1; 1]; OMatch [0; 2; 5; 0; 0];
    ex_send 7; OCheck 7 (ex_at 16); OCheck 7 (ex_at 17); OMatch [0; 2; 7; 0; 0]] =
  Some [Ticket (0, 0); Ticket (1, 1); Found (1, 1) (7, 0, 6); NotFound; Found (0, 0) (7, 0, 5); Ticket (2, 0); Alarm 1; Alarm 1; NotFound].
Proof. vm_compute. reflexivity. Qed.
Example ex_after : exists c, after false [ex_send 5; ex_send 6] c /\ length (waiting c) = 2%nat /\ Forall times_ok [ex_send 5; ex_send 6].
Proof.
  eexists. split; [exists ex_mem; eexists; split; [reflexivity|vm_compute; reflexivity]|]. split; [vm_compute; reflexivity|].
  repeat (apply Forall_cons; [unfold times_ok, normal, ex_send, ex_at; cbn [sec nsec frac]; lia|]). apply Forall_nil.
Qed.
Example ex_full : exists c, after true (ex_sends 32) c /\ length (waiting c) = 32%nat.
Proof. eexists. split; [exists ex_mem; eexists; split; [reflexivity|vm_compute; reflexivity]|]. vm_compute. reflexivity. Qed.

(** The clause about late timestamps is false. *)
Theorem C58_alarm_refuted : exists h c port now c' a q, after false h c /\ Forall times_ok (OCheck port now :: h) /\
  In q (waiting c) /\ port_of (q_user q) = port /\ waited 1 now q /\ (forall tk u as_ ps, run false h (init ps) = Some (c, as_) -> ~ In (Found tk u) as_) /\
  step false (OCheck port now) c = Some (c', Alarm a) /\ a <> 0.
Proof.
  exists [ex_send 5]. eexists. exists 7, (ex_at 9). eexists. exists 1. eexists.
  split; [exists ex_mem; eexists; split; [reflexivity|vm_compute; reflexivity]|].
  split; [repeat (apply Forall_cons; [unfold times_ok, normal, ex_send, ex_at; cbn [sec nsec frac]; lia|]); apply Forall_nil|].
  split; [vm_compute; left; reflexivity|]. split; [reflexivity|]. split; [unfold waited; vm_compute; discriminate|]. split.
  - intros tk u as_ ps R. unfold run, ex_send, step, expect in R. cbn [init free] in R.
    change (2^32 - 1 =? 0) with false in R. cbn [bind fst snd] in R. injection R as _ R. subst as_. intros [X|[]]. discriminate X.
  - split; [vm_compute; reflexivity|]. discriminate.
Qed.
Print Assumptions C58_alarm_refuted.

(** The thirty-third request reads beyond the table. *)
Theorem C58_bounds_refuted : exists h c o, after false h c /\ Forall times_ok (o :: h) /\ step false o c = None.
Proof.
  exists (ex_sends 32). eexists. exists (ex_send 40).
  split; [exists ex_mem; eexists; split; [reflexivity|vm_compute; reflexivity]|]. split; [|vm_compute; reflexivity].
  apply Forall_cons; [unfold times_ok, normal, ex_send, ex_at; cbn [sec nsec frac]; lia|].
  unfold ex_sends. apply Forall_map. apply Forall_forall. intros k I. apply in_seq in I.
  unfold times_ok, normal, ex_send, ex_at; cbn [sec nsec frac]; lia.
Qed.
Print Assumptions C58_bounds_refuted.

(** And where that does no harm, the request that gives way may be the newest. *)
Theorem C58_oldest_refuted : exists h c o c' tk q, after true h c /\ length (waiting c) = 32%nat /\ is_expect o = true /\ step true o c = Some (c', Ticket tk) /\
  In q (waiting c) /\ ~ In q (waiting c') /\ forall q', In q' (waiting c) -> instant (q_sent q') <= instant (q_sent q).
Proof.
  exists (ex_sends 32 ++ [OMatch [0; 2; 0; 1; 1]; ex_send 32]). eexists. exists (ex_send 33). eexists. exists (33, 0).
  exists (mkReq (32, 0) [0; 2; 32] 2%nat (7, 0, 32) (ex_at 32)).
  split; [exists ex_mem; eexists; split; [reflexivity|vm_compute; reflexivity]|]. split; [vm_compute; reflexivity|]. split; [reflexivity|].
  split; [vm_compute; reflexivity|]. split; [vm_compute; left; reflexivity|]. split.
  - intros X. vm_compute in X. repeat (destruct X as [X|X]; [discriminate X|]). exact X.
  - intros q' X. vm_compute in X. repeat (destruct X as [X|X]; [subst q'; vm_compute; discriminate|]). destruct X.
Qed.
Print Assumptions C58_oldest_refuted.
