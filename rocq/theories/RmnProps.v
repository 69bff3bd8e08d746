(** C77: the collection of what other slaves report. *)
Require Import ZArith List Bool Lia Permutation Sorted.
From Verif Require Import Base RmnSpec RmnModel RmnProof RmnProof2.
Import ListNotations.
Open Scope Z_scope.

Lemma reach g l : small l -> exists m js, run (Some g) l empty = Some (m, js) /\ Inv l (since_flush l) js m.
Proof. intro S. destruct (run_inv g l [] [] [] empty S empty_inv) as (m & js & A & B). exists m, js. auto. Qed.

(** FULL: every history of reports and outputs is handled, whatever lies behind a local variable.
    PARTIAL: at most 2^31 - 1 of a kind, and if what lies behind the pointer [event] on the stack
    can be read ([Some junk]), see C77_insert_refuted. *)
Theorem C77_handled_partial : forall junk l, small l -> exists m js, run (Some junk) l empty = Some (m, js).
Proof. intros g l S. destruct (reach g l S) as (m & js & A & _). exists m, js. exact A. Qed.
Print Assumptions C77_handled_partial.

(** The output: since the last one, for each Sync reported one record, in the order in which they
    were first reported, with the last timing data and the last computed data reported for it and
    the time of the first report, whatever [junk]. *)
Theorem C77_rx : forall junk l m js t, small l -> run (Some junk) l empty = Some (m, js) ->
  exists m' o j, step (Some junk) (Flush t true) m = Some (m', o, Some j) /\
    map (fun x => (x_port x, x_ref x, x_seq x)) (j_rx j) = firsts (syncs (since_flush l)) /\
    Forall (fun x => let k := (x_port x, x_ref x, x_seq x) in
      x_timing x = last_of true k (syncs (since_flush l)) /\ x_comp x = last_of false k (syncs (since_flush l)) /\ Some (x_time x) = first_time k (syncs (since_flush l))) (j_rx j) /\
    m_rx m' = [] /\ m_tx m' = [] /\ m_st m' = [].
Proof.
  intros g l m js t S E. destruct (reach g l S) as (m1 & js1 & E1 & V). rewrite E in E1. injection E1 as <- <-. eexists. eexists. eexists. split; [reflexivity|]. cbn [output_json j_rx m_rx m_tx m_st]. rewrite (sort_ids _ _ _ (v_xid _ _ _ _ V)). destruct (v_rx _ _ _ _ V) as [K F]. split; [exact K|]. split; [exact F|]. auto.
Qed.
Print Assumptions C77_rx.

(** What [firsts] is: each Sync reported, once. *)
Theorem C77_firsts : forall l, NoDup (firsts l) /\ forall k, In k (firsts l) <-> exists r, In r l /\ key r = k.
Proof. exact firsts_spec. Qed.
Print Assumptions C77_firsts.

(** Over all outputs, if each can be written, and what waits for the next one: every message sent
    and every status exactly once, in order, numbered from 0; the Syncs numbered from 0. *)
Theorem C77_log : forall junk l m js, small l -> all_json l -> run (Some junk) l empty = Some (m, js) ->
  concat (map j_tx js) ++ m_tx m = number mk_tx 0 (sents l) /\
  concat (map j_st js) ++ m_st m = number mk_st 0 (statuses l) /\
  let x := concat (map j_rx js) ++ m_rx m in map x_id x = number (fun n _ => n) 0 x.
Proof.
  intros g l m js S A E. destruct (reach g l S) as (m1 & js1 & E1 & V). rewrite E in E1. injection E1 as <- <-. destruct (v_j _ _ _ _ V A) as (Q1 & Q2 & Q3 & _). auto.
Qed.
Print Assumptions C77_log.

(** The nodes: each port that has ever reported, once, with the address and domain of its first
    report. *)
Theorem C77_nodes : forall junk l m js, small l -> run (Some junk) l empty = Some (m, js) ->
  let nodes := j_nodes (output_json m) in
  NoDup (map n_port nodes) /\ (forall p, In p (map n_port nodes) <-> exists s, In s (reporters l) /\ s_port s = p) /\
  forall n, In n nodes -> exists s, find (fun s => s_port s =? n_port n) (reporters l) = Some s /\ n_addr n = s_addr s /\ n_dom n = s_dom s.
Proof.
  intros g l m js S E. destruct (reach g l S) as (m1 & js1 & E1 & V). rewrite E in E1. injection E1 as <- <-. cbn. destruct (v_no _ _ _ _ V) as (N1 & N2 & N3). split; [exact N1|]. split; [|exact N2].
  intro p. split; [|intros (s & H & <-); apply N3, H]. intro H. apply in_map_iff in H as (n & <- & Hn). destruct (N2 n Hn) as (s & F & _). apply find_some in F as [F1 F2]. apply Z.eqb_eq in F2. eauto.
Qed.
Print Assumptions C77_nodes.

(** The text: nodes in the order of their ports; below each exactly its events, received and sent,
    in order; no event without its node; the statuses in order; the latest status of every port
    that has ever sent one, by age. *)
Theorem C77_text : forall junk l m js j, small l -> run (Some junk) l empty = Some (m, js) ->
  exists m' o jo, step (Some junk) (Flush true j) m = Some (m', Some o, jo) /\
    let nodes := map (fun x => fst (fst x)) (o_nodes o) in
    Permutation nodes (m_nodes m) /\ StronglySorted (fun a b => n_port a <= n_port b) nodes /\
    Forall (fun x => let '(n, r, s) := x in r = filter (fun e => x_port e =? n_port n) (m_rx m) /\ s = filter (fun e => t_port e =? n_port n) (m_tx m)) (o_nodes o) /\
    (forall e, In e (m_rx m) -> In (x_port e) (map n_port nodes)) /\ (forall e, In e (m_tx m) -> In (t_port e) (map n_port nodes)) /\
    o_log o = m_st m /\
    NoDup (map z_port (o_latest o)) /\ (forall z, In z (o_latest o) -> find (fun y => z_port y =? z_port z) (rev (number mk_st 0 (statuses l))) = Some z) /\
    (forall y, In y (statuses l) -> In (s_port (fst (fst (fst y)))) (map z_port (o_latest o))) /\ StronglySorted (fun a b => z_id a <= z_id b) (o_latest o).
Proof.
  intros g l m js j S E. destruct (reach g l S) as (m1 & js1 & E1 & V). rewrite E in E1. injection E1 as <- <-. eexists. eexists. eexists. split; [reflexivity|]. cbn [output_text o_nodes o_log o_latest]. rewrite map_map. cbn [fst]. rewrite map_id. cbn zeta. pose proof (sort_perm n_port (m_nodes m)) as Pn. pose proof (sort_perm z_id (m_latest m)) as Pl.
  split; [exact Pn|]. split; [apply sort_sorted|]. split; [|].
  - apply Forall_forall. intros [[n r] s] H. apply in_map_iff in H as (n0 & Q & _). injection Q as <- <- <-. split; [eapply filter_sort, (v_xid _ _ _ _ V)|eapply filter_sort, (v_tx _ _ _ _ V)].
  - destruct (v_own _ _ _ _ V) as [O1 O2]. assert (Pm : forall p, In p (map n_port (m_nodes m)) -> In p (map n_port (sort n_port (m_nodes m)))) by (intro p; apply Permutation_in, Permutation_map, Permutation_sym, Pn).
    split; [intros e H; apply Pm, O1, H|]. split; [intros e H; apply Pm, O2, H|]. split; [exact (sort_ids _ _ _ (v_st _ _ _ _ V))|]. destruct (v_la _ _ _ _ V) as (L1 & L2 & L3). split; [eapply Permutation_NoDup; [apply Permutation_map, Permutation_sym, Pl|exact L1]|].
    split; [intros z H; apply L2; exact (Permutation_in _ Pl H)|]. split; [|apply sort_sorted].
    intros y H. eapply Permutation_in; [apply Permutation_map, Permutation_sym, Pl|]. assert (Q : exists n, In (mk_st n y) (number mk_st 0 (statuses l))). { clear -H. revert H. generalize 0. induction (statuses l) as [|a r IH]; intros n H; [destruct H|]. cbn. destruct H as [->|H]; [exists n; left; reflexivity|]. destruct (IH (n + 1) H) as (k & Hk). exists k. right. exact Hk. }
    destruct Q as (n & Q). apply L3 in Q. destruct y as [[[s d] gm] now]. exact Q.
Qed.
Print Assumptions C77_text.

(** A new Sync is undefined behaviour if what lies behind the pointer cannot be read: the code
    depends on it. *)
Theorem C77_insert_refuted : forall b s e l m, position (fun x => (x_port x =? s_port s) && (x_ref x =? s_ref s) && (x_seq x =? e_seq e)) (m_rx m) = None ->
  step None (if b : bool then Timing s (e :: l) else Computed s (e :: l)) m = None.
Proof.
  intros b s e l m H. assert (Q : m_rx (register s m) = m_rx m) by (unfold register; destruct (existsb _ (m_nodes m)); reflexivity).
  assert (R : forall t, rx_all None t s (e :: l) (register s m) = None). { intro t. cbn [rx_all]. unfold rx_one. rewrite Q, H. destruct (bump (c_rx (register s m))); reflexivity. }
  destruct b; cbn [step]; rewrite R; reflexivity.
Qed.
Print Assumptions C77_insert_refuted.

(** FULL: a status gives the grandmaster of the slave.  In the text it does; in JSON it is always
    the null identity. *)
Theorem C77_gm_partial : forall junk l m js j z, small l -> run (Some junk) l empty = Some (m, js) ->
  exists m' o jo, step (Some junk) (Flush true j) m = Some (m', Some o, jo) /\
    (In z (o_log o) -> exists s d gm now, In (Status s d gm now) (since_flush l) /\ z_port z = s_port s /\ z_data z = d /\ z_time z = now /\ text_gm z = gm).
Proof.
  intros g l m js j z S E. destruct (reach g l S) as (m1 & js1 & E1 & V). rewrite E in E1. injection E1 as <- <-. eexists. eexists. eexists. split; [reflexivity|]. cbn [output_text o_log]. rewrite (sort_ids _ _ _ (v_st _ _ _ _ V)), (v_sr _ _ _ _ V). intro H.
  assert (Q : exists n y, In y (statuses (since_flush l)) /\ z = mk_st n y). { revert H. generalize (c_st m - Z.of_nat (List.length (statuses (since_flush l)))). induction (statuses (since_flush l)) as [|a r IH]; intros n H; [destruct H|]. cbn in H. destruct H as [<-|H]; [exists n, a; split; [left; reflexivity|reflexivity]|]. destruct (IH _ H) as (k & y & A & B). exists k, y. split; [right; exact A|exact B]. }
  destruct Q as (n & [[[s d] gm] now] & A & ->). exists s, d, gm, now. cbn. split; [|auto]. unfold statuses in A. apply in_flat_map in A as (o & Ho & A). destruct o; cbn in A; try (destruct A; fail). destruct A as [A|[]]. injection A as -> -> -> ->. exact Ho.
Qed.
Print Assumptions C77_gm_partial.
Theorem C77_gm_refuted : forall junk l m js j z, small l -> all_json l -> run (Some junk) l empty = Some (m, js) -> In j js -> In z (j_st j) -> json_gm z = 0.
Proof.
  intros g l m js j z S A E Hj Hz. destruct (C77_log g l m js S A E) as (_ & Q & _). assert (X : In z (number mk_st 0 (statuses l))) by (rewrite <- Q; apply in_app_iff; left; apply in_concat; exists (j_st j); split; [apply in_map, Hj|exact Hz]).
  clear Q. revert X. generalize 0 at 1. induction (statuses l) as [|[[[s d] gm] now] r IH]; intros n X; [destruct X|]. cbn in X. destruct X as [<-|X]; [reflexivity|exact (IH _ X)].
Qed.
Print Assumptions C77_gm_refuted.

(** Examples. *)
Definition s1 := mkStats 11 90 1001 0.
Definition s2 := mkStats 7 90 1002 0.
Definition h := [Timing s1 [mkElt 5 100 1; mkElt 6 101 2]; Computed s1 [mkElt 6 200 3; mkElt 5 201 4]; Sent s2 1 [mkElt 9 300 5]; Status s2 400 77 6; Timing s1 [mkElt 5 102 7];
  Flush true true; Computed (mkStats 11 90 1009 0) [mkElt 5 202 8]; Status s1 401 78 9; Status s2 402 79 10; Sent s2 0 [mkElt 10 301 11]; Flush true true; Timing s2 [mkElt 1 1 12]].
Definition dirt := mkRx (-1) (-2) (-3) (-4) (-5) None (Some 8).
Example C77_run : exists m, run (Some dirt) h empty = Some (m,
  [mkJson [mkNode 11 1001 0; mkNode 7 1002 0] [mkRx 11 90 5 0 1 (Some 102) (Some 201); mkRx 11 90 6 1 2 (Some 101) (Some 200)] [mkTx 7 90 9 0 5 300 1] [mkSt 7 0 0 6 400 77];
   mkJson [mkNode 11 1001 0; mkNode 7 1002 0] [mkRx 11 90 5 2 8 None (Some 202)] [mkTx 7 90 10 1 11 301 0] [mkSt 11 0 1 9 401 78; mkSt 7 0 2 10 402 79]]) /\
  o_latest (output_text m) = [mkSt 11 0 1 9 401 78; mkSt 7 0 2 10 402 79] /\ map (fun x => n_port (fst (fst x))) (o_nodes (output_text m)) = [7; 11].
Proof. eexists. split; [vm_compute; reflexivity|]. split; reflexivity. Qed.
Example C77_small : small h /\ all_json h.
Proof. split; [intros n [->|[->| ->]]; vm_compute; discriminate|]. repeat (apply Forall_cons; [first [exact Logic.I|reflexivity]|]). apply Forall_nil. Qed.
Example C77_spec : firsts (syncs (since_flush (firstn 5 h))) = [(11, 90, 5); (11, 90, 6)] /\ last_of true (11, 90, 5) (syncs (firstn 5 h)) = Some 102 /\ first_time (11, 90, 6) (syncs (firstn 5 h)) = Some 2 /\ since_flush (firstn 7 h) = [Computed (mkStats 11 90 1009 0) [mkElt 5 202 8]].
Proof. repeat split. Qed.
Example C77_insert_ex : run None h empty = None /\ run None [Sent s1 1 [mkElt 1 2 3]; Status s1 1 2 3; Flush true true] empty <> None.
Proof. split; [reflexivity|discriminate]. Qed.
