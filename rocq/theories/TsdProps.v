(** C09, C10: PTP timestamp data set. Histories have the most recent call first. *)
Require Import ZArith QArith List Lia.
Require Import Verif.TimeSpec Verif.TsdSpec Verif.TsdModel Verif.TsdProof.
Import ListNotations.
Open Scope Z_scope.

(** C10: for every history of calls (any order, any losses) with sane timestamps no
    call misbehaves, and a result is available only if a current master-to-slave
    measurement and a current return (or peer delay) measurement both exist. *)
Theorem C10_complete_only_when_measured : forall h, Forall sane_op h ->
  exists t, run h = Some t /\
   (get_offset t <> None \/ get_path_delay t <> None ->
    latest_m2s h <> None /\ (latest_s2m h <> None \/ latest_p2p h <> None)).
Proof.
  intros h Hs. destruct (run_inv h Hs) as [t [Hr Hi]]. exists t. split; [assumption|].
  intros H. destruct Hi as [_ [_ [_ [_ [_ [_ [_ [_ [I _]]]]]]]]].
  assert (Hc : complete t = true).
  { unfold get_offset, get_path_delay in H. destruct (complete t); [reflexivity|]. tauto. }
  destruct (I Hc) as [m [E1 [[s [E2 _]]|[_ [a [b [E2 _]]]]]]].
  - split; [congruence|left; congruence].
  - split; [congruence|right; congruence].
Qed.
Print Assumptions C10_complete_only_when_measured.

(** ... and supplying a measurement reports completeness exactly then. *)
Theorem C10_set_reports_completeness : forall o h, Forall sane_op (o :: h) ->
  match o with SetM2S _ _ | SetS2M _ _ | SetP2P _ _ _ _ _ _ => True | _ => False end ->
  exists t, run (o :: h) = Some t /\
   (complete t = true <-> latest_m2s (o :: h) <> None /\
      (latest_s2m (o :: h) <> None \/ latest_p2p (o :: h) <> None)).
Proof.
  intros o h Hs Ho. destruct (run_inv _ Hs) as [t [Hr Hi]]. exists t. split; [assumption|].
  destruct Hi as [_ [_ [_ [_ [_ [_ [_ [_ [_ I]]]]]]]]]. destruct o; tauto.
Qed.
Print Assumptions C10_set_reports_completeness.

(** C09 (end-to-end): the slave reads master + theta; the Sync takes d1 + (its
    correction) to arrive, the DelayReq d2 + (its correction).  Whatever the history
    leading to the result, the reported mean path delay is (d1+d2)/2 and the reported
    offset is theta + (d1-d2)/2: exact on a symmetric path, and in error by exactly
    half the asymmetry otherwise.  All times in units of 2^-32 ns. *)
Theorem C09_e2e_offset : forall h t m s master_tx_sync master_rx_req theta d1 d2,
  Forall sane_op h -> run h = Some t -> complete t = true ->
  latest_m2s h = Some m -> latest_s2m h = Some s ->
  (* Sync left the master at master_tx_sync *)
  instant (m_tx m) = master_tx_sync ->
  instant (m_rx m) = master_tx_sync + d1 + instant (m_corr m) + theta ->
  (* DelayReq arrived at the master at master_rx_req *)
  instant (m_rx s) = master_rx_req ->
  instant (m_tx s) = master_rx_req - d2 - instant (m_corr s) + theta ->
  (path_delay t == ns_of (d1 + d2) / inject_Z 2)%Q /\
  (offset_from_master t == ns_of theta + ns_of (d1 - d2) / inject_Z 2)%Q.
Proof.
  intros h t m s T1 T4 theta d1 d2 Hs Hr Hc Hm Hs2 E1 E2 E3 E4.
  destruct (run_inv h Hs) as [t' [Hr' Hi]]. rewrite Hr in Hr'. injection Hr' as <-.
  destruct Hi as [_ [_ [_ [_ [_ [_ [_ [_ [I _]]]]]]]]].
  destruct (I Hc) as [m' [Em [[s' [Es R]]|[Es _]]]]; [|congruence].
  rewrite Hm in Em; injection Em as <-. rewrite Hs2 in Es; injection Es as <-.
  apply (half_algebra m s theta d1 d2) in R; [exact R| |]; unfold transit; lia.
Qed.
Print Assumptions C09_e2e_offset.

Corollary C09_e2e_symmetric : forall h t m s T1 T4 theta d,
  Forall sane_op h -> run h = Some t -> complete t = true ->
  latest_m2s h = Some m -> latest_s2m h = Some s ->
  instant (m_tx m) = T1 -> instant (m_rx m) = T1 + d + instant (m_corr m) + theta ->
  instant (m_rx s) = T4 -> instant (m_tx s) = T4 - d - instant (m_corr s) + theta ->
  (path_delay t == ns_of d)%Q /\ (offset_from_master t == ns_of theta)%Q.
Proof.
  intros h t m s T1 T4 theta d Hs Hr Hc Hm Hs2 E1 E2 E3 E4.
  destruct (C09_e2e_offset h t m s T1 T4 theta d d Hs Hr Hc Hm Hs2 E1 E2 E3 E4) as [P O].
  split; [rewrite P, ns_of_plus; field; try discriminate|].
  rewrite O. replace (d - d) with 0 by lia. change (ns_of 0) with (0 # 4294967296).
  setoid_replace (0 # 4294967296) with 0%Q by reflexivity. field; try discriminate.
Qed.
Print Assumptions C09_e2e_symmetric.

(** C09 (peer-to-peer): link delay from the peer exchange, turnaround handled by the
    correction; the peer's clock may be anything (reading peer = slave + phi). *)
Theorem C09_p2p_offset : forall h t m a b phi dl theta T1 Ta Tb,
  Forall sane_op h -> run h = Some t -> complete t = true ->
  latest_m2s h = Some m -> latest_p2p h = Some (a, b) ->
  instant (m_tx m) = T1 -> instant (m_rx m) = T1 + dl + instant (m_corr m) + theta ->
  (* request: sent at slave time Ta, received dl later on the peer's clock *)
  instant (m_tx a) = Ta -> instant (m_rx a) = Ta + dl + phi ->
  (* response: sent at peer time Tb, received dl + correction later on our clock *)
  instant (m_tx b) = Tb -> instant (m_rx b) = Tb - phi + dl + instant (m_corr b) ->
  (path_delay t == ns_of dl)%Q /\ (offset_from_master t == ns_of theta)%Q.
Proof.
  intros h t m a b phi dl theta T1 Ta Tb Hs Hr Hc Hm Hp E1 E2 E3 E4 E5 E6.
  destruct (run_inv h Hs) as [t' [Hr' Hi]]. rewrite Hr in Hr'. injection Hr' as <-.
  destruct Hi as [I1 [I2 [I3 [_ [_ [_ [_ [Z0 [I _]]]]]]]]].
  assert (Za : instant (m_corr a) = 0).
  { rewrite Hp in I3. destruct I3 as [I3 _]. unfold view in I3.
    destruct (dd_valid (s2p t)); [|discriminate]. injection I3 as <-. assumption. }
  destruct (I Hc) as [m' [Em [[s' [Es _]]|[_ [a' [b' [Eab [P O]]]]]]]].
  { exfalso. clear - Es Hp. revert Es Hp. induction h as [|o h IH]; cbn; [discriminate|].
    destruct o; auto; discriminate. }
  rewrite Hm in Em; injection Em as <-. rewrite Hp in Eab; injection Eab as <- <-.
  assert (Ht : transit a + transit b = dl + dl) by (unfold transit; lia).
  assert (Hm' : transit m = dl + theta) by (unfold transit; lia).
  rewrite Ht in P, O. rewrite Hm' in O. rewrite ns_of_plus in P, O.
  split; [rewrite P|rewrite O, ns_of_plus]; field; try discriminate.
Qed.
Print Assumptions C09_p2p_offset.

(** A non-trivial instance: clock 3 s ahead, delays 5 us, corrections 1 us. *)
Definition ex_m := mkMeas (mkTs 100 0 0) (mkTs 103 6000 0) (mkTs 0 1000 0).
Definition ex_s := mkMeas (mkTs 203 0 0) (mkTs 200 7000 0) (mkTs 0 2000 0).
Example C09_ex : exists t,
  run [SetS2M ex_s (mkTs 8 0 0); SetM2S ex_m (mkTs 7 0 0); ClearM2S; SetM2S ex_s (mkTs 5 0 0)] = Some t
  /\ complete t = true /\ (offset_from_master t == 3000000000)%Q /\ (path_delay t == 5000)%Q.
Proof.
  eexists. split; [vm_compute; reflexivity|]. split; [reflexivity|].
  split; vm_compute; reflexivity.
Qed.
