(** C23: messages between threads.

    Statement: for every interleaving of allocate, free, send and receive, each message buffer is at any time in
    exactly one of: its free pool, one queue, or the hands of one thread; nothing is lost or duplicated; messages
    are delivered to a thread in the order they were posted, as they were posted; an allocation fails only when all buffers
    of the pool are in use.

    [history h s es]: the threads did [h] in this order, the state is [s], and [es] was seen to happen.  [made p h] are
    the buffers of pool [p]. *)
Require Import ZArith List Bool Lia ZifyBool.
Import ListNotations.
From Verif Require Import Base ThrSpec ThrModel ThrProof ThrProof2.
Open Scope Z_scope.

(** Every buffer of a pool is in exactly one place, once, and if it is free it is in the pool it came from. *)
Theorem C23_one_place : forall h s es p m, history h s es -> In m (made p h) ->
  exists q, count_occ Z.eq_dec (at_ s q) m = 1%nat /\ (forall q', q' <> q -> ~ In m (at_ s q')) /\ (forall p', q = Free p' -> p' = p).
Proof.
  intros h s es p m H M. assert (I := history_inv _ _ _ H). apply (proj2 (history_home _ _ _ H)) in M.
  destruct (i_home s I m p M) as [q Q]. exists q. split; [|split].
  - assert (D := proj1 (i_apart s I) q). assert (A := proj1 (NoDup_count_occ Z.eq_dec _) D m). assert (B := proj1 (count_occ_In Z.eq_dec _ _) Q). lia.
  - intros q' N X. apply N. apply (proj2 (i_apart s I) q' q m); assumption.
  - intros p' ->. assert (E := i_free s I p' m Q). congruence.
Qed.
Print Assumptions C23_one_place.

(** No message at all, of a pool or not, is in two places or twice in one. *)
Theorem C23_no_duplicate : forall h s es, history h s es ->
  (forall q, NoDup (at_ s q)) /\ (forall q q' m, In m (at_ s q) -> In m (at_ s q') -> q = q') /\
  (forall p m, In m (at_ s (Free p)) -> In m (made p h)).
Proof.
  intros h s es H. assert (I := history_inv _ _ _ H). split; [apply (i_apart s I)|]. split; [apply (i_apart s I)|].
  intros p m X. apply (proj2 (history_home _ _ _ H)). apply (i_free s I). exact X.
Qed.
Print Assumptions C23_no_duplicate.

(** In order, once each, and with the contents they were posted with: what was posted to a queue is what was taken from it followed by what is in it. *)
Theorem C23_in_order : forall h s es q, history h s es -> is_queue q ->
  flat_map (posted q) es = flat_map (got q) es ++ map (fun m => (m, hdrs s m)) (at_ s q).
Proof. intros h s es q H Q. exact (history_fifo h s es H q Q). Qed.
Print Assumptions C23_in_order.

(** The thread that takes a message takes the first one and then has it. *)
Theorem C23_receive : forall h s es t, history h s es -> does s t = Runs ->
  (at_ s (General t) = [] /\ step (OReceive t) s = Some (s, [])) \/
  (exists m rest s', at_ s (General t) = m :: rest /\ step (OReceive t) s = Some (s', [Got (General t) m (hdrs s m)]) /\
     at_ s' (General t) = rest /\ at_ s' (Held t) = at_ s (Held t) ++ [m] /\ hdrs s' m = hdrs s m).
Proof.
  intros h s es t H R. cbn [step]. unfold receive. destruct (at_ s (General t)) as [|m rest] eqn:E; [left; auto|]. right.
  exists m, rest. eexists. split; [reflexivity|]. split; [reflexivity|]. split; [|split].
  - rewrite take_at by exact Logic.I. rewrite place_refl. reflexivity.
  - unfold take, write. cbn [at_ with_at]. rewrite updq_same, updq_other by discriminate. reflexivity.
  - reflexivity.
Qed.
Print Assumptions C23_receive.

(** An allocation gives a free buffer of the pool; or none, and then all of the pool's are queued or held.  This holds whether
    or not the thread waited. *)
Definition allocates (o : op) (s : state) (t : Z) (p : pool) : Prop := o = OAlloc t p \/ (o = ORead t /\ does s t = Woken p).
Theorem C23_alloc : forall h s es o t p s' es', history h s es -> allowed o s -> allocates o s t p -> step o s = Some (s', es') ->
  (exists m, es' = [Allocated t p m] /\ In m (made p h) /\ at_ s (Free p) = m :: at_ s' (Free p) /\ at_ s' (Held t) = at_ s (Held t) ++ [m]) \/
  (es' = [NoMessage t p] /\ forall m, In m (made p h) -> exists u, In m (at_ s (General u)) \/ In m (at_ s (Replies u)) \/ In m (at_ s (Held u))).
Proof.
  intros h s es o t p s' es' H A AL ST.
  assert (E : (s', es') = pool_receive s t p \/ (s', es') = pool_receive (with_does s t Runs) t p).
  { destruct AL as [->|[-> D]]; cbn [step] in ST; [left; congruence|]. rewrite D in ST. right. congruence. }
  assert (G : (exists m rest, at_ s (Free p) = m :: rest /\ es' = [Allocated t p m] /\ at_ s' (Free p) = rest /\ at_ s' (Held t) = at_ s (Held t) ++ [m]) \/
              (at_ s (Free p) = [] /\ es' = [NoMessage t p])).
  { destruct E as [E|E]; unfold pool_receive in E; cbn [at_ with_does] in E; destruct (at_ s (Free p)) as [|m rest] eqn:EF; injection E as -> ->; auto;
      (left; exists m, rest; split; [reflexivity|]; split; [reflexivity|]; cbn [at_ count_free take write with_at with_does]; split; [rewrite updq_other by discriminate; apply updq_same|rewrite updq_same, updq_other by discriminate; reflexivity]). }
  destruct G as [[m [rest [EF [-> [R1 R2]]]]]|[EF ->]].
  - left. exists m. split; [reflexivity|]. split; [apply (C23_no_duplicate h s es H); rewrite EF; left; reflexivity|]. rewrite R1. auto.
  - right. split; [reflexivity|]. intros m M. destruct (C23_one_place h s es p m H M) as [q [C [_ F]]].
    assert (Q : In m (at_ s q)) by (apply (count_occ_In Z.eq_dec); lia).
    destruct q as [p'|u|u|u]; [|exists u; auto|exists u; auto|exists u; auto]. rewrite (F p' eq_refl), EF in Q. contradiction Q.
Qed.
Print Assumptions C23_alloc.

(** A message sent is at the end of the receiver's queue, or, when that fails, free again; a message freed is free in its pool. *)
Theorem C23_send : forall h s es t m to id r ok, history h s es -> has s t m -> (exists p, In m (made p h)) ->
  exists s' es' p, step (OSend t m to id r ok) s = Some (s', es') /\ In m (made p h) /\
    (ok = true -> at_ s' (General to) = at_ s (General to) ++ [m] /\ h_id (hdrs s' m) = id /\ h_data (hdrs s' m) = h_data (hdrs s m) /\
                  h_reply (hdrs s' m) = if r then Some (General t) else None) /\
    (ok = false -> at_ s' (Free p) = at_ s (Free p) ++ [m]).
Proof.
  intros h s es t m to id r ok H [R HM] [p M]. assert (E := proj2 (proj2 (history_home _ _ _ H) p m) M).
  cbn [step]. unfold msg_send. rewrite E. cbn [bind]. destruct ok; eexists; eexists; exists p; (split; [reflexivity|]); (split; [exact M|]); (split; [|]); intros X; try discriminate X.
  - rewrite hand_at by exact Logic.I. rewrite place_refl. cbn. rewrite updz_same. auto.
  - unfold hand_over, write, drop. cbn [at_ with_at with_hdr]. rewrite updq_same, updq_other by discriminate. reflexivity.
Qed.
Print Assumptions C23_send.

Theorem C23_free : forall h s es t m p, history h s es -> has s t m -> In m (made p h) ->
  exists s', step (OFree t m) s = Some (s', []) /\ at_ s' (Free p) = at_ s (Free p) ++ [m] /\ ~ In m (at_ s' (Held t)).
Proof.
  intros h s es t m p H [R HM] M. assert (E := proj2 (proj2 (history_home _ _ _ H) p m) M).
  cbn [step]. unfold msg_free. rewrite E. eexists. split; [reflexivity|]. split.
  - unfold hand_over, write, drop. cbn [at_ with_at with_hdr count_free]. rewrite updq_same, updq_other by discriminate. reflexivity.
  - unfold hand_over, write, drop. cbn [at_ with_at with_hdr count_free]. rewrite updq_other by discriminate. rewrite updq_same, in_drop. tauto.
Qed.
Print Assumptions C23_free.

(** A send that waits returns with the very message that was sent; it is then the sender's again. *)
Theorem C23_send_wait : forall h s es t m s' es' x r, history h s es -> does s t = WaitsReply m -> step (OReplied t) s = Some (s', es') ->
  In (Returned t x r) es' -> x = m /\ r = m /\ does s' t = Runs /\ In m (at_ s' (Held t)) /\ h_reply (hdrs s' m) = None /\ at_ s' (Replies t) = [].
Proof.
  intros h s es t m s' es' x r H D ST X. assert (I := history_inv _ _ _ H).
  cbn [step] in ST. unfold replied in ST. rewrite D in ST. destruct (at_ s (Replies t)) as [|r0 rest] eqn:E; injection ST as <- <-; [destruct X|].
  destruct (i_wait s I t r0 ltac:(rewrite E; left; reflexivity)) as [W _]. assert (r0 = m) by congruence. subst r0.
  assert (rest = []). { destruct rest as [|y rest]; [reflexivity|]. destruct (i_wait s I t y ltac:(rewrite E; right; left; reflexivity)) as [W' _]. assert (y = m) by congruence. subst.
    assert (DD := proj1 (i_apart s I) (Replies t)). rewrite E in DD. inversion DD as [|? ? NI _]; subst. contradiction NI. left. reflexivity. }
  subst rest. destruct X as [X|[X|[]]]; [discriminate X|]. injection X as <- <-. split; [reflexivity|]. split; [reflexivity|].
  split; [cbn; apply updz_same|]. split; [|split].
  - cbn [at_ with_hdr with_does take write with_at]. rewrite updq_same. apply in_app_iff. right. left. reflexivity.
  - cbn. rewrite updz_same. reflexivity.
  - cbn [at_ with_hdr with_does take write with_at]. rewrite updq_other by discriminate. apply updq_same.
Qed.
Print Assumptions C23_send_wait.

(** While a thread waits for a reply, only the message it sent can be in its reply queue. *)
Theorem C23_replies : forall h s es t m, history h s es -> In m (at_ s (Replies t)) -> does s t = WaitsReply m /\ at_ s (Replies t) = [m].
Proof.
  intros h s es t m H X. assert (I := history_inv _ _ _ H). destruct (i_wait s I t m X) as [W _]. split; [exact W|].
  assert (ALL : forall y, In y (at_ s (Replies t)) -> y = m) by (intros y Y; destruct (i_wait s I t y Y) as [W' _]; congruence).
  assert (D := proj1 (i_apart s I) (Replies t)). destruct (at_ s (Replies t)) as [|a [|b l]]; [destruct X|f_equal; apply ALL; left; reflexivity|].
  assert (a = m) by (apply ALL; left; reflexivity). assert (b = m) by (apply ALL; right; left; reflexivity). subst. inversion D as [|? ? NI _]; subst. contradiction NI. left. reflexivity.
Qed.
Print Assumptions C23_replies.

(** The pipe of a pool never has to hold more than the pool's messages; no step trips an assertion. *)
Theorem C23_bounded : forall h s es p, history h s es -> (length (at_ s (Free p)) <= length (made p h))%nat.
Proof. intros h s es p H. destruct (C23_no_duplicate h s es H) as [D [_ F]]. apply NoDup_incl_length; [apply D|]. intros m. apply F. Qed.
Print Assumptions C23_bounded.
Theorem C23_defined : forall h s es o, history h s es -> allowed o s -> exists r, step o s = Some r.
Proof. intros h s es o _ A. apply allowed_defined. exact A. Qed.
Print Assumptions C23_defined.

(** The free count kept as a statistic is right as long as no send failed. *)
Theorem C23_statistics_partial : forall h s es p, history h s es -> Forall sends_ok h -> free_count s p = Z.of_nat (length (at_ s (Free p))).
Proof. intros h s es p H F. apply (history_counted h s es H F). Qed.
Print Assumptions C23_statistics_partial.

(** ** Examples. *)
Fixpoint follows (h : list op) (s : state) : Prop :=
  match h with
  | [] => True
  | o :: h' => allowed o s /\ match step o s with Some r => follows h' (fst r) | None => False end
  end.
Lemma follows_history : forall h h0 s es s' es', history h0 s es -> follows h s -> run h s = Some (s', es') -> history (h0 ++ h) s' (es ++ es').
Proof.
  intros h. induction h as [|o h IH]; intros h0 s es s' es' H F R; cbn [run follows] in *.
  - injection R as <- <-. rewrite !app_nil_r. exact H.
  - destruct F as [A F]. destruct (step o s) as [[s1 es1]|] eqn:E; [cbn [bind fst snd] in *|contradiction F].
    destruct (run h s1) as [[s2 es2]|] eqn:R2; [cbn [bind fst snd] in R|discriminate R]. injection R as <- <-.
    rewrite app_assoc. change (o :: h) with ([o] ++ h). rewrite app_assoc. apply (IH _ _ _ _ _ (h_step _ _ _ _ _ _ H A E) F R2).
Qed.
Lemma from_start : forall h s es, follows h start -> run h start = Some (s, es) -> history h s es.
Proof. intros h s es F R. exact (follows_history h [] start [] s es h_start F R). Qed.
Lemma pool_first : forall t p ms h, NoDup ms -> follows h (pool_allocate start p ms) -> follows (OPool t p ms :: h) start.
Proof. intros t p ms h N F. split; [|exact F]. split; [reflexivity|]. split; [exact N|]. apply Forall_forall. intros m _ q []. Qed.
Ltac nodup := repeat (apply NoDup_cons; [cbn; lia|]); apply NoDup_nil.
Ltac follow := repeat (match goal with |- True => exact Logic.I | |- follows [] _ => exact Logic.I | |- follows (_ :: _) _ => cbn [follows] | |- _ /\ _ => split | |- exists _, _ => eexists end);
  try (vm_compute; reflexivity); try (vm_compute; tauto); try (vm_compute; discriminate); vm_compute; repeat split; (reflexivity || tauto || discriminate || eauto).

Definition ex_script : list op :=
  [OPool 0 PGlobal [10; 11]; OAlloc 1 PGlobal; OFill 1 10 [7]; OSend 1 10 2 99 false true; OAlloc 1 PGlobal; OSend 1 11 2 98 true true;
   OAlloc 1 PGlobal; OReceive 2; OFree 2 10; OReceive 2; OReply 2 11 true; OReceive 1; OFree 1 11].
Example ex_history : exists s es, history ex_script s es /\ made PGlobal ex_script = [10; 11] /\ at_ s (Free PGlobal) = [10; 11] /\
  flat_map (got (General 2)) es = [(10, mkHdr None (Some PGlobal) 99 [7]); (11, mkHdr (Some (General 1)) (Some PGlobal) 98 [])] /\
  flat_map (got (General 1)) es = [(11, mkHdr None (Some PGlobal) 98 [])] /\ In (NoMessage 1 PGlobal) es.
Proof.
  eexists. eexists. split.
  - apply from_start; [|vm_compute; reflexivity]. apply pool_first; [nodup|]. follow.
  - split; [reflexivity|]. split; [vm_compute; reflexivity|]. split; [vm_compute; reflexivity|]. split; [vm_compute; reflexivity|]. vm_compute. tauto.
Qed.

(** A message of one's own sent with a wait; the other thread starts and answers, too. *)
Definition ex_wait : list op :=
  [OPool 0 (PLocal 1) [10]; OAlloc 1 (PLocal 1); OSendWait 1 10 2 5 true; OReplied 1; OReceive 2; OFill 2 10 [42]; OReply 2 10 true].
Example ex_waits : exists s es s' es', history ex_wait s es /\ does s 1 = WaitsReply 10 /\ step (OReplied 1) s = Some (s', es') /\ In (Returned 1 10 10) es'.
Proof.
  eexists. eexists. eexists. eexists. split.
  - apply from_start; [|vm_compute; reflexivity]. apply pool_first; [nodup|]. follow.
  - split; [vm_compute; reflexivity|]. split; [vm_compute; reflexivity|]. vm_compute. tauto.
Qed.

(** A thread that is willing to wait for a message can still be told that there is none, when two wait for one. *)
Theorem C23_waiting_refuted : exists h s es t p s' es', history h s es /\ In (OAllocWait t p) h /\ does s t = Woken p /\
  step (ORead t) s = Some (s', es') /\ In (NoMessage t p) es'.
Proof.
  exists [OPool 0 PGlobal [10]; OAllocWait 1 PGlobal; OAllocWait 2 PGlobal; OWake 1; OWake 2; ORead 1]. eexists. eexists. exists 2, PGlobal. eexists. eexists.
  split.
  - apply from_start; [|vm_compute; reflexivity]. apply pool_first; [nodup|]. follow.
  - split; [cbn; tauto|]. split; [vm_compute; reflexivity|]. split; [vm_compute; reflexivity|]. vm_compute. tauto.
Qed.
Print Assumptions C23_waiting_refuted.

(** After a send that failed the statistics are wrong, although the message is back in the pool. *)
Theorem C23_statistics_refuted : exists h s es p, history h s es /\ at_ s (Free p) = made p h /\ free_count s p <> Z.of_nat (length (at_ s (Free p))).
Proof.
  exists [OPool 0 PGlobal [10]; OAlloc 1 PGlobal; OSend 1 10 2 5 false false]. eexists. eexists. exists PGlobal. split.
  - apply from_start; [|vm_compute; reflexivity]. apply pool_first; [nodup|]. follow.
  - split; [vm_compute; reflexivity|]. vm_compute. discriminate.
Qed.
Print Assumptions C23_statistics_refuted.

(** Starting a thread: the parent waits for the status message of the child. *)
Definition ex_start : list op := [OLocal 1 20; OStart 1 2 20; OReply 2 20 true].
Example ex_starts : exists s es s' es', history ex_start s es /\ does s 1 = WaitsReply 20 /\ at_ s (Replies 1) = [20] /\
  step (OReplied 1) s = Some (s', es') /\ In (Returned 1 20 20) es'.
Proof.
  eexists. eexists. eexists. eexists. split.
  - apply from_start; [|vm_compute; reflexivity]. cbn [ex_start follows]. split; [split; [reflexivity|intros q []]|]. follow.
  - split; [vm_compute; reflexivity|]. split; [vm_compute; reflexivity|]. split; [vm_compute; reflexivity|]. vm_compute. tauto.
Qed.
