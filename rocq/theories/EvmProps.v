(** C59: event monitoring.

    Full statement: every event that the options select is reported exactly once, in order, in reports of eight, with the right master and
    the right contents, to every destination, in messages numbered in sequence; nothing else is reported.

    Proved for every history: which events are selected and how they are grouped, the number, sizes, sources and order of the reports, their numbering and destinations,
    and their contents except for (1) the first record of a group begun because the master changed while records were waiting ([C59_change_refuted])
    and (2) messages sent, when more than one kind of them is sent ([C59_tx_refuted]).  So the contents are right with one master ([C59_one_master_partial]).
    An option outside 0..32767 is accepted and does something else ([C59_skip_refuted]). *)
Require Import ZArith List Bool Lia ZifyBool.
Import ListNotations.
From Verif Require Import Base EvmSpec EvmModel EvmProof.
Open Scope Z_scope.

(** ** The specification of groups says what it should. *)
Definition spread (g : group) : list (identity * rec) := map (fun r => (g_source g, r)) (g_recs g).
Lemma grouping_inv : forall l, flat_map spread (groups l) ++ spread (waiting l) = l /\ Forall (fun g => (1 <= length (g_recs g) <= 8)%nat) (groups l) /\ (length (g_recs (waiting l)) < 8)%nat.
Proof.
  intros l. induction l as [|[p r] l [IH1 [IH2 IH3]]] using rev_ind; [split; [reflexivity|]; split; [constructor|cbn; lia]|].
  unfold groups, waiting in *. rewrite grouping_snoc. unfold group_step. cbn [fst snd]. destruct (grouping l) as [done g]. cbn [fst snd] in *.
  assert (AP : forall g0, spread (mkG (g_source g0) (g_recs g0 ++ [r]) (g_interrupting g0)) = spread g0 ++ [(g_source g0, r)]) by (intros g0; unfold spread; cbn [g_source g_recs]; rewrite map_app; reflexivity).
  assert (FIN : forall done0 g0, flat_map spread done0 ++ spread g0 = l -> g_source g0 = p -> Forall (fun g => (1 <= length (g_recs g) <= 8)%nat) done0 -> (length (g_recs g0) < 8)%nat ->
    let res := let g := mkG (g_source g0) (g_recs g0 ++ [r]) (g_interrupting g0) in if Nat.eqb (length (g_recs g)) PER then (done0 ++ [g], mkG (g_source g) [] false) else (done0, g) in
    flat_map spread (fst res) ++ spread (snd res) = l ++ [(p, r)] /\ Forall (fun g => (1 <= length (g_recs g) <= 8)%nat) (fst res) /\ (length (g_recs (snd res)) < 8)%nat).
  { intros done0 g0 E S F L. cbv zeta. assert (LG : length (g_recs (mkG (g_source g0) (g_recs g0 ++ [r]) (g_interrupting g0))) = (length (g_recs g0) + 1)%nat) by (cbn [g_recs]; rewrite app_length; reflexivity).
    unfold PER. destruct (Nat.eqb_spec (length (g_recs (mkG (g_source g0) (g_recs g0 ++ [r]) (g_interrupting g0)))) 8) as [X|X]; cbn [fst snd].
    - split; [|split; [apply Forall_app; split; [exact F|constructor; [lia|constructor]]|cbn; lia]]. rewrite flat_map_app. cbn [flat_map]. rewrite AP, !app_nil_r, app_assoc, E, S. reflexivity.
    - split; [|split; [exact F|lia]]. rewrite AP, app_assoc, E, S. reflexivity. }
  destruct (Z.eqb_spec p (g_source g)) as [E|N]; [exact (FIN done g IH1 (eq_sym E) IH2 IH3)|]. destruct (g_recs g) as [|r0 rs] eqn:RG.
  - apply (FIN done (mkG p [] false)); [|reflexivity|exact IH2|cbn; lia]. unfold spread in IH1 at 2. rewrite RG in IH1. exact IH1.
  - apply (FIN (done ++ [g]) (mkG p [] true)); [|reflexivity| |cbn; lia].
    + rewrite flat_map_app. cbn [flat_map]. rewrite <- IH1, app_nil_r. f_equal. apply app_nil_r.
    + apply Forall_app. split; [exact IH2|]. constructor; [rewrite RG; cbn [length] in *; lia|constructor].
Qed.
(** Every selected event is in exactly one group, in order, under its own master; groups have one to eight events; at most seven events wait. *)
Theorem C59_groups : forall l, flat_map spread (groups l ++ [waiting l]) = l /\ Forall (fun g => (1 <= length (g_recs g) <= 8)%nat) (groups l) /\ (length (g_recs (waiting l)) < 8)%nat.
Proof. intros l. destruct (grouping_inv l) as [A B]. split; [|exact B]. rewrite flat_map_app. cbn [flat_map]. rewrite app_nil_r. exact A. Qed.
Print Assumptions C59_groups.

(** ** What is sent. *)
(** Whatever happens, nothing undefined does; every report goes to every destination, the reports are numbered 0, 1, 2, ... modulo 65536, and, for each kind, there is one
    report for each group due, in order, from the right source and with the right number of records; all records but the first of a group begun by a change of master with records waiting
    are those of the events. *)
Theorem C59_reports : forall c es, proper c -> exists s os rs, run c es = Some (s, os) /\ os = messages c 0 rs /\
  (forall k, k <> Status -> Forall2 (fun x g => fst x = source_of c k g /\ length (snd x) = length (g_recs g)) (of_kind k rs) (due c k es)) /\
  (forall k, k = Timing \/ k = Computed \/ (exists t, k = Tx t /\ only t es) ->
     Forall2 (fun x g => (g_interrupting g = false -> snd x = g_recs g) /\ tl (snd x) = tl (g_recs g)) (of_kind k rs) (due c k es)).
Proof.
  intros c es P. destruct (run_INV c es P) as [s [os [R [rs [EO [_ [H _]]]]]]]. exists s, os, rs. split; [exact R|]. split; [exact EO|]. split.
  - intros k NS. destruct (H k NS) as [_ F]. fold (due c k es) in F. induction F as [|x g a b [A [B _]] F IH]; constructor; auto.
  - intros k KK. assert (NS : k <> Status) by (destruct KK as [-> |[-> |[t [-> _]]]]; discriminate). assert (OK : okk k es) by (destruct KK as [-> |[-> |[t [-> O]]]]; [exact Logic.I|exact Logic.I|exact O]).
    destruct (H k NS) as [_ F]. fold (due c k es) in F. induction F as [|x g a b [_ [_ [A B]]] F IH]; constructor; auto.
Qed.
Print Assumptions C59_reports.

(** A report of the state is sent whenever one is due and that is on, with its contents. *)
Theorem C59_status : forall c es, proper c -> exists s os rs, run c es = Some (s, os) /\ os = messages c 0 rs /\
  of_kind Status rs = if on_status c then map (fun r => (own c, [r])) (statuses es) else [].
Proof. intros c es P. destruct (run_INV c es P) as [s [os [R [rs [EO [_ [_ S]]]]]]]. exists s, os, rs. auto. Qed.
Print Assumptions C59_status.

(** With one master throughout, the reports of a kind are exactly the selected events, eight by eight; fewer than eight wait. *)
Lemma one_master_groups : forall p l, Forall (fun x : identity * rec => fst x = p) l -> l <> [] ->
  Forall (fun g => g_source g = p /\ length (g_recs g) = 8%nat /\ g_interrupting g = false) (groups l) /\ g_source (waiting l) = p /\ g_interrupting (waiting l) = false.
Proof.
  intros p l. induction l as [|[q r] l IH] using rev_ind; [contradiction|]. intros F _. apply Forall_app in F. destruct F as [F1 F2]. inversion F2 as [|? ? Q _]; subst. cbn [fst] in *.
  unfold groups, waiting. rewrite grouping_snoc. destruct l as [|x l].
  - change (grouping []) with (@nil group, mkG 0 [] false). unfold group_step. cbn [fst snd g_source g_recs]. destruct (Z.eqb_spec q 0) as [E|E]; cbn; auto.
  - destruct (IH F1 ltac:(discriminate)) as [A [B C]]. unfold groups, waiting in A, B, C. destruct (grouping (x :: l)) as [done g]. cbn [fst snd] in *. unfold group_step. cbn [fst snd]. rewrite B, Z.eqb_refl.
    cbn [g_source g_recs g_interrupting]. destruct (Nat.eqb_spec (length (g_recs g ++ [r])) PER) as [E|E]; cbn [fst snd g_source g_interrupting]; [|auto].
    split; [|auto]. apply Forall_app. split; [exact A|]. constructor; [|constructor]. cbn [g_source g_recs g_interrupting]. auto.
Qed.
Theorem C59_one_master_partial : forall c es p k, proper c -> on c k = true -> k = Timing \/ k = Computed \/ (exists t, k = Tx t /\ only t es) -> Forall (fun x => fst x = p) (occurrences k es) ->
  exists s os rs, run c es = Some (s, os) /\ os = messages c 0 rs /\
    let selected := map snd (sampled (skip c k) (occurrences k es)) in
    flat_map snd (of_kind k rs) = firstn (8 * (length selected / 8)) selected /\
    Forall (fun x => fst x = (match k with Tx _ => own c | _ => p end) /\ length (snd x) = 8%nat) (of_kind k rs).
Proof.
  intros c es p k P ON KK F. destruct (C59_reports c es P) as [s [os [rs [R [EO [A B]]]]]]. exists s, os, rs. split; [exact R|]. split; [exact EO|]. cbv zeta.
  assert (NS : k <> Status) by (destruct KK as [-> |[-> |[t [-> _]]]]; discriminate). specialize (A k NS). specialize (B k KK). unfold due in A, B. rewrite ON in A, B. set (l := sampled (skip c k) (occurrences k es)) in *.
  assert (FL : Forall (fun x : identity * rec => fst x = p) l).
  { unfold l, sampled. rewrite Forall_forall in *. intros x IN. apply in_map_iff in IN. destruct IN as [[i y] [E IN]]. cbn [snd] in E. subst y. apply filter_In in IN. destruct IN as [IN _]. apply in_combine_r in IN. apply F. exact IN. }
  assert (G : Forall (fun g => g_source g = p /\ length (g_recs g) = 8%nat /\ g_interrupting g = false) (groups l)).
  { destruct l as [|x l0]; [constructor|]. apply (one_master_groups p (x :: l0) FL). discriminate. }
  assert (X : flat_map snd (of_kind k rs) = flat_map g_recs (groups l)).
  { clear - B G. induction B as [|x g a b [E _] B IH]; [reflexivity|]. inversion G as [|? ? [_ [_ NI]] G']; subst. cbn [flat_map]. rewrite (E NI), (IH G'). reflexivity. }
  assert (LN : length (flat_map g_recs (groups l)) = (8 * length (groups l))%nat).
  { clear - G. induction G as [|g gs [_ [L _]] G IH]; [reflexivity|]. cbn [flat_map length]. rewrite app_length, L, IH. lia. }
  assert (SP : flat_map g_recs (groups l) ++ g_recs (waiting l) = map snd l).
  { destruct (grouping_inv l) as [E _]. rewrite <- E at 3. rewrite map_app. assert (MS : forall g, map snd (spread g) = g_recs g) by (intros g; unfold spread; rewrite map_map; apply map_id). rewrite MS. f_equal.
    clear - MS. induction (groups l) as [|g gs IH]; [reflexivity|]. cbn [flat_map]. rewrite map_app, MS, IH. reflexivity. }
  split.
  - rewrite X. destruct (grouping_inv l) as [_ [_ W]]. assert (D : (length (map snd l) / 8 = length (groups l))%nat).
    { rewrite <- SP, app_length, LN. symmetry. apply (Nat.div_unique _ 8 (length (groups l)) (length (g_recs (waiting l)))); [exact W|lia]. }
    rewrite D, <- LN, <- SP, firstn_app, Nat.sub_diag, firstn_all. cbn [firstn]. rewrite app_nil_r. reflexivity.
  - clear - A G NS. induction A as [|x g a b [E L] A IH]; [constructor|]. inversion G as [|? ? [S [L8 _]] G']; subst. constructor; [|exact (IH G')]. split; [rewrite E; destruct k; cbn [source_of]; auto; contradiction|congruence].
Qed.
Print Assumptions C59_one_master_partial.

(** ** Examples. *)
Definition every_kind : config := mkCfg true true true true 1 0 0 2 77.
Fixpoint syncs (p : identity) (n : nat) (i : Z) : list event := match n with O => [] | S n => SyncDone p [i; 100 + i] [i; 200 + i] :: syncs p n (i + 1) end.
Example C59_reports_example : proper every_kind /\
  exists s os, run every_kind (syncs 5 16 0 ++ [StatusDue [9]]) = Some (s, os) /\
  os = messages every_kind 0
    [(Computed, 5, map (fun i => [i; 200 + i]) [0; 1; 2; 3; 4; 5; 6; 7]); (Timing, 5, map (fun i => [i; 100 + i]) [0; 2; 4; 6; 8; 10; 12; 14]);
     (Computed, 5, map (fun i => [i; 200 + i]) [8; 9; 10; 11; 12; 13; 14; 15]); (Status, 77, [[9]])] /\ length os = 8%nat.
Proof. split; [cbv; intuition discriminate|]. eexists _, _. split; [vm_compute; reflexivity|]. split; vm_compute; reflexivity. Qed.
Example C59_one_master_example : Forall (fun x => fst x = 5) (occurrences Timing (syncs 5 16 0)) /\ length (sampled 1 (occurrences Timing (syncs 5 16 0))) = 8%nat.
Proof. split; [repeat (constructor; [reflexivity|]); constructor|vm_compute; reflexivity]. Qed.

(** ** What fails. *)
(** Three Syncs from master 5, then eight from master 6: the report about master 6 has the first record of master 5, and the first Sync from master 6 is not reported. *)
Theorem C59_change_refuted : exists c es s os rs, proper c /\ run c es = Some (s, os) /\ os = messages c 0 rs /\
  map (fun g => (g_source g, g_recs g)) (due c Timing es) = [(5, [[1]; [2]; [3]]); (6, [[11]; [12]; [13]; [14]; [15]; [16]; [17]; [18]])] /\
  of_kind Timing rs = [(5, [[1]; [2]; [3]]); (6, [[1]; [12]; [13]; [14]; [15]; [16]; [17]; [18]])].
Proof.
  exists (mkCfg true false false false 0 0 0 0 77), (map (fun i => SyncDone 5 [i] []) [1; 2; 3] ++ map (fun i => SyncDone 6 [i] []) [11; 12; 13; 14; 15; 16; 17; 18]). eexists _, _.
  exists [(Timing, 5, [[1]; [2]; [3]]); (Timing, 6, [[1]; [12]; [13]; [14]; [15]; [16]; [17]; [18]])]. split; [cbv; intuition discriminate|]. split; [vm_compute; reflexivity|]. split; [vm_compute; reflexivity|]. split; vm_compute; reflexivity.
Qed.
Print Assumptions C59_change_refuted.

(** Peer delay requests and answers alternate: the report about answers has what belongs to requests. *)
Theorem C59_tx_refuted : exists c es s os rs, proper c /\ run c es = Some (s, os) /\ os = messages c 0 rs /\
  map (fun g => g_recs g) (due c (Tx PDelayResp) es) = [[[101]; [102]; [103]; [104]; [105]; [106]; [107]; [108]]] /\
  of_kind (Tx PDelayResp) rs = [(77, [[4]; [5]; [6]; [7]; [8]; [106]; [107]; [108]])].
Proof.
  exists (mkCfg false false true false 0 0 0 0 77), (flat_map (fun i => [MsgSent PDelayReq 5 [i]; MsgSent PDelayResp 5 [100 + i]]) [1; 2; 3; 4; 5; 6; 7; 8]). eexists _, _.
  eexists [(Tx PDelayReq, 77, _); (Tx PDelayResp, 77, _)]. split; [cbv; intuition discriminate|]. split; [vm_compute; reflexivity|]. split; [vm_compute; reflexivity|]. split; vm_compute; reflexivity.
Qed.
Print Assumptions C59_tx_refuted.

(** An option of 40000 is accepted; then no report is ever made, although one in 40001 events is to be recorded. *)
Theorem C59_skip_refuted : exists n : Z, 0 <= n /\ let c := mkCfg true false false false (skip_option n) 0 0 0 77 in
  (forall es, Z.of_nat (length es) < 2147483647 -> exists s, run c es = Some (s, [])) /\
  forall p r, due (mkCfg true false false false n 0 0 0 77) Timing (repeat (SyncDone p r []) (Z.to_nat (8 * (n + 1)))) <> [].
Proof.
  exists 40000. split; [lia|]. change (skip_option 40000) with (-25536). cbv zeta. set (c := mkCfg true false false false (-25536) 0 0 0 77). split.
  - intros es. enough (H : Z.of_nat (length es) < 2147483647 -> exists s, run c es = Some (s, []) /\ 0 <= skip_count (m_timing s) <= Z.of_nat (length es) /\ (skip_count (m_timing s) = 0 -> m_timing s = zero)).
    { intros L. destruct (H L) as [s [R _]]. exists s. exact R. }
    induction es as [|e es IH] using rev_ind; intros L; [exists start; split; [reflexivity|]; split; [cbn; lia|reflexivity]|]. rewrite app_length in *. cbn [length] in *. destruct (IH ltac:(lia)) as [s [R [B ZR]]].
    unfold run in *. rewrite run_snoc, R. cbn [bind fst snd app]. destruct e as [p a b|t p r|r]; [|exists s; split; [reflexivity|]; split; [lia|exact ZR]|exists s; split; [reflexivity|]; split; [lia|exact ZR]].
    cbn [step]. unfold timing_monitor. cbn [c on_timing skip_timing]. unfold monitor. destruct (Z.eqb_spec (skip_count (m_timing s)) 0) as [E|E].
    + rewrite (ZR E). cbn. destruct (p =? 0); eexists; (split; [reflexivity|]); cbn; (split; [lia|intros X; discriminate X]).
    + cbn [bind]. destruct (Z.eqb_spec (skip_count (m_timing s)) (-25536)) as [X|_]; [lia|]. destruct (Z.leb_spec 2147483647 (skip_count (m_timing s))) as [X|_]; [lia|]. cbn [bind send fst snd app computed_monitor c on_computed].
      eexists. split; [reflexivity|]. cbn [m_timing skip_count]. split; [lia|lia].
  - intros p r. unfold due. cbn [on on_timing skip skip_timing].
    assert (OC : forall n, occurrences Timing (repeat (SyncDone p r []) n) = repeat (p, r) n) by (induction n as [|n IH]; [reflexivity|]; transitivity ((p, r) :: occurrences Timing (repeat (SyncDone p r []) n)); [reflexivity|rewrite IH; reflexivity]).
    rewrite OC. generalize (Z2Nat.id (8 * (40000 + 1)) ltac:(lia)). generalize (Z.to_nat (8 * (40000 + 1))). intros n0 N0. change (8 * (40000 + 1)) with 320008 in N0. set (l := sampled 40000 (repeat (p, r) n0)).
    destruct (groups l) as [|g gs] eqn:G; [|discriminate]. intros _. destruct (grouping_inv l) as [A [_ W]]. rewrite G in A. cbn [flat_map app] in A. apply (f_equal (@length _)) in A. unfold spread in A. rewrite map_length in A.
    assert (LS : forall m, length (sampled 40000 (repeat (p, r) m)) = Z.to_nat ((Z.of_nat m + 40000) / 40001)).
    { induction m as [|m IHm]; [reflexivity|]. replace (Datatypes.S m) with (m + 1)%nat by lia. rewrite repeat_app. cbn [repeat]. rewrite sampled_snoc, app_length, IHm, repeat_length. change (40000 + 1) with 40001.
      destruct (Z.eqb_spec (Z.of_nat m mod 40001) 0) as [E|E]; cbn [length]; lia. }
    assert (LL : length l = 8%nat) by (unfold l; rewrite LS, N0; reflexivity). rewrite LL in A. lia.
Qed.
Print Assumptions C59_skip_refuted.
