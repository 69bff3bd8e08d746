(** C63: the privileged helper does only what it may, answers every request, and each caller
    gets the answer to its own request.  Vocabulary in PrvSpec.v. *)
Require Import ZArith List Bool String Lia.
Require Import Verif.Base Verif.ListLib Verif.CevSpec Verif.CevModel Verif.PrvSpec Verif.PrvModel Verif.PrvProof.
Import ListNotations.
Open Scope Z_scope.

(** Whatever requests it is sent, the helper opens nothing but /dev/pps and /dev/ptp devices. *)
Theorem C63_permitted : forall client l replies acts fds p,
  server client l = Some (replies, acts, fds) -> In (Opened p) acts -> device p.
Proof.
  intros cl l. induction l as [|i l IH]; intros rp acts fds p H I; cbn [server] in H.
  - injection H as <- <- <-. destruct I.
  - destruct i as [r o| |e|]; try discriminate H; [|apply (IH _ _ _ _ H I)].
    destruct (serve cl o r) as [[[[a fd] ac] fs] run] eqn:SV. destruct run.
    + destruct (server cl l) as [[[a' acts'] fds']|]; [|discriminate H]. cbn [bind] in H. injection H as <- <- <-.
      apply in_app_or in I. destruct I as [I|I]; [apply (serve_opened _ _ _ _ _ _ _ _ _ SV I)|apply (IH _ _ _ _ eq_refl I)].
    + injection H as <- <- <-. apply (serve_opened _ _ _ _ _ _ _ _ _ SV I).
Qed.
Print Assumptions C63_permitted.

Definition ex_client := txt "/var/run/chrony/chronyc.7.sock".
Definition ex_os := mkOs (fun _ => inr 9) 10 (fun _ => None) (fun _ => 0).
Definition dev (s : string) : req := OpenDev (to_buf (txt s)).

Example C63_permitted_ex :
  server ex_client [Msg Sync ex_os; Msg (dev "/dev/ptp12") ex_os; Interrupted; Msg (dev "/dev/sda") ex_os; Msg Close ex_os] =
  Some ([(mkResp KOk 0 [], None); (mkResp KDev 0 [], Some 9); (mkResp KDev EPERM [], None); (mkResp KOk 0 [], None)],
        [Opened (txt "/dev/ptp12")], []) /\ device (txt "/dev/ptp12").
Proof. split; [vm_compute; reflexivity|]. apply permitted_iff. vm_compute. reflexivity. Qed.

(** Requests are answered one by one, in order and in kind, until the one that closes. *)
Theorem C63_answers : forall client l replies acts fds,
  server client l = Some (replies, acts, fds) ->
  exists rest, requests_of l = firstn (List.length replies) (requests_of l) ++ rest /\
    map (fun a => r_kind (fst a)) replies = map kind_of (firstn (List.length replies) (requests_of l)) /\
    (rest = [] \/ last (firstn (List.length replies) (requests_of l)) Sync = Close) /\
    (rest <> [] -> ~ In Close (removelast (firstn (List.length replies) (requests_of l)))).
Proof.
  intros cl l. induction l as [|i l IH]; intros rp acts fds H; cbn [server] in H.
  - injection H as <- <- <-. exists []. split; [reflexivity|]. split; [reflexivity|]. split; [left; reflexivity|congruence].
  - destruct i as [r o| |e|]; try discriminate H; [|exact (IH _ _ _ H)].
    destruct (serve cl o r) as [[[[a fd] ac] fs] run] eqn:SV. destruct (serve_kind _ _ _ _ _ _ _ _ SV) as [K1 K2].
    change (requests_of (Msg r o :: l)) with (r :: requests_of l). destruct run.
    + destruct (server cl l) as [[[a' acts'] fds']|]; [|discriminate H]. cbn [bind] in H. injection H as <- <- <-.
      destruct (IH _ _ _ eq_refl) as [rest [H1 [H2 [H3 H4]]]]. exists rest. cbn [List.length firstn map app fst].
      split; [f_equal; exact H1|]. split; [f_equal; [exact K1|exact H2]|].
      assert (NC : r <> Close) by (intros ->; destruct K2 as [_ K2]; specialize (K2 eq_refl); discriminate K2).
      destruct (firstn (List.length a') (requests_of l)) as [|x xs] eqn:F.
      * split; [|intros _ []]. left. destruct H3 as [H3|H3]; [exact H3|discriminate H3].
      * split; [exact H3|]. intros N [X|X]; [congruence|]. exact (H4 N X).
    + injection H as <- <- <-. exists (requests_of l). cbn [List.length firstn map app fst]. split; [reflexivity|].
      split; [rewrite K1; reflexivity|]. split; [right; apply K2; reflexivity|intros _ []].
Qed.
Print Assumptions C63_answers.
Example C63_answers_ex : exists acts fds,
  server ex_client [Msg Sync ex_os; Msg Close ex_os; Msg (dev "/dev/pps0") ex_os] =
  Some ([(mkResp KOk 0 [], None); (mkResp KOk 0 [], None)], acts, fds).
Proof. eexists _, _. vm_compute. reflexivity. Qed.

(** The helper's answer to a request for a device. *)
Theorem C63_device : forall client o buf,
  (~ In 0 buf -> server client [Msg (OpenDev buf) o] = Some ([(mkResp KDev ENAMETOOLONG [], None)], [], [])) /\
  (forall p, holds buf p -> ~ device p ->
     server client [Msg (OpenDev buf) o] = Some ([(mkResp KDev EPERM [], None)], [], [])) /\
  (forall p e, holds buf p -> device p -> o_open o p = inl e ->
     server client [Msg (OpenDev buf) o] = Some ([(mkResp KDev e [], None)], [Opened p], [])) /\
  (forall p fd, holds buf p -> device p -> o_open o p = inr fd ->
     server client [Msg (OpenDev buf) o] = Some ([(mkResp KDev 0 [], Some fd)], [Opened p], [])).
Proof.
  intros cl o buf. cbn [server serve]. unfold path_of. split; [|split; [|split]].
  - intros H. apply cstr_none_iff in H. rewrite H. reflexivity.
  - intros p H D. apply cstr_some in H. rewrite H. apply permitted_false in D. rewrite D. reflexivity.
  - intros p e H D O. apply cstr_some in H. rewrite H. apply permitted_iff in D. rewrite D, O. reflexivity.
  - intros p fd H D O. apply cstr_some in H. rewrite H. apply permitted_iff in D. rewrite D, O. reflexivity.
Qed.
Print Assumptions C63_device.
Example C63_device_ex : holds (to_buf (txt "/dev/pps3")) (txt "/dev/pps3") /\ device (txt "/dev/pps3") /\
  ~ device (txt "/dev/pps") /\ ~ device (txt "/dev/ptp0/../sda") /\ ~ In 0 (repeat 47 128).
Proof.
  split; [apply cstr_some; vm_compute; reflexivity|]. split; [apply permitted_iff; vm_compute; reflexivity|].
  split; [apply permitted_false; vm_compute; reflexivity|]. split; [apply permitted_false; vm_compute; reflexivity|].
  apply cstr_none_iff. vm_compute. reflexivity.
Qed.

(** The helper keeps no descriptor open, provided that connect(2) never reports EINPROGRESS
    (it does not for datagram sockets): then the socket would be neither sent nor closed. *)
Theorem C63_closed_partial : forall client l replies acts fds,
  server client l = Some (replies, acts, fds) ->
  (forall r o, In (Msg r o) l -> o_sock o >= 0 /\ o_fail o 6%nat <> Some EINPROGRESS) -> fds = [].
Proof.
  intros cl l. induction l as [|i l IH]; intros rp acts fds H A; cbn [server] in H.
  - injection H as <- <- <-. reflexivity.
  - destruct i as [r o| |e|]; try discriminate H; [|apply (IH _ _ _ H); intros r' o' X; apply (A r' o'); right; exact X].
    destruct (serve cl o r) as [[[[a fd] ac] fs] run] eqn:SV. destruct (A r o (or_introl eq_refl)) as [A1 A2].
    pose proof (serve_closed _ _ _ _ _ _ _ _ SV A1 A2) as ->. destruct run.
    + destruct (server cl l) as [[[a' acts'] fds']|]; [|discriminate H]. cbn [bind] in H. injection H as <- <- <-.
      apply (IH _ _ _ eq_refl). intros r' o' X. apply (A r' o'). right. exact X.
    + injection H as <- <- <-. reflexivity.
Qed.
Print Assumptions C63_closed_partial.
Example C63_closed_ex : server ex_client [Msg OpenChrony ex_os] =
  Some ([(mkResp KChrony 0 (txt "success"), Some 10)], [Connected], []).
Proof. vm_compute. reflexivity. Qed.
Theorem C63_closed_refuted : exists o, o_sock o >= 0 /\
  server ex_client [Msg OpenChrony o] = Some ([(mkResp KChrony EINPROGRESS (txt "success"), None)], [Connected], [10]).
Proof.
  exists (mkOs (fun _ => inr 9) 10 (fun n => match n with 6%nat => Some EINPROGRESS | _ => None end) (fun _ => 0)).
  split; [cbn; lia|vm_compute; reflexivity].
Qed.
Print Assumptions C63_closed_refuted.

(** A daemon with a helper that serves it: opening a device gives a descriptor of it or the
    error; a path that is too long is not even sent. *)
Theorem C63_open_dev : forall client o n direct path, ~ In 0 path ->
  let r := open_dev true path (with_helper client o n) direct in
  snd r = true /\
  (Z.of_nat (List.length path) >= 128 -> fst r = - ENAMETOOLONG) /\
  (Z.of_nat (List.length path) < 128 -> ~ device path -> fst r = - EPERM) /\
  (Z.of_nat (List.length path) < 128 -> device path -> forall e, o_open o path = inl e -> fst r = - e) /\
  (Z.of_nat (List.length path) < 128 -> device path -> forall fd, o_open o path = inr fd -> fst r = n).
Proof.
  intros cl o n direct path N r. unfold r, open_dev. change PATH_MAX with 128%nat.
  destruct (128 <=? List.length path)%nat eqn:L.
  - apply Nat.leb_le in L. split; [reflexivity|]. split; [reflexivity|]. split; [|split]; intros; lia.
  - apply Nat.leb_gt in L. assert (H : path_of (to_buf path) = Some path) by (apply cstr_some, to_buf_holds; assumption).
    unfold rpc, with_helper, serve. rewrite H. cbn [negb]. destruct (permitted path) eqn:D; cbn [negb].
    + destruct (o_open o path) as [e|fd]; cbn; (split; [reflexivity|]); (split; [lia|]);
        apply permitted_iff in D; (split; [tauto|]); split; congruence.
    + cbn. split; [reflexivity|]. split; [lia|]. apply permitted_false in D. split; [reflexivity|]. split; tauto.
Qed.
Print Assumptions C63_open_dev.
Example C63_open_dev_ex :
  open_dev true (txt "/dev/ptp0") (with_helper ex_client ex_os 5) (inl 13) = (5, true) /\
  open_dev true (txt "/etc/shadow") (with_helper ex_client ex_os 5) (inr 6) = (-1, true).
Proof. split; vm_compute; reflexivity. Qed.

(** Controlling chronyd through the helper gives the helper's result. *)
Theorem C63_chrony_control : forall client o n direct op,
  chrony_control true op (with_helper client o n) direct = (- o_ctl o op, true).
Proof. reflexivity. Qed.
Print Assumptions C63_chrony_control.
Example C63_chrony_control_ex :
  chrony_control true DISABLE (with_helper ex_client (mkOs (fun _ => inr 9) 10 (fun _ => None) (fun _ => 13)) 5) (fun _ => 0) = (-13, true).
Proof. reflexivity. Qed.

(** Connecting to chronyd through the helper gives a connected socket if every system call
    succeeds, and otherwise the error of the first that fails. *)
Theorem C63_open_chrony : forall client o n cl sock fail,
  Z.of_nat (List.length client) < 108 -> n > 0 -> o_sock o >= 0 ->
  let r := fst (fst (open_chrony true (with_helper client o n) cl sock fail)) in
  ((forall k, (k < 7)%nat -> o_fail o k = None) -> r = n) /\
  (forall k e, (k < 7)%nat -> o_fail o k = Some e -> e > 0 -> (forall j, (j < k)%nat -> o_fail o j = None) -> r = - e).
Proof.
  intros client o n cl sock fail L N P r. unfold r, open_chrony, rpc, with_helper, serve, helper_connect.
  replace (SUN_PATH <=? List.length client)%nat with false by (symmetry; apply Nat.leb_gt; unfold SUN_PATH; lia).
  change (SUN_PATH <=? List.length SERVER_PATH)%nat with false. cbn [negb]. split.
  - intros A. cbn [first_failure]. rewrite !A by lia. cbn. destruct (o_sock o =? -1) eqn:E; [lia|]. reflexivity.
  - intros k e K F EP B. assert (E0 : e =? 0 = false) by lia.
    destruct k as [|[|[|[|[|[|[|k]]]]]]]; [..|lia]; cbn [first_failure]; rewrite ?B by lia; rewrite F;
      try (rewrite E0; reflexivity).
    destruct (e =? EINPROGRESS); cbn; rewrite E0; reflexivity.
Qed.
Print Assumptions C63_open_chrony.
Example C63_open_chrony_ex :
  fst (fst (open_chrony true (with_helper ex_client ex_os 5) [] 0 (fun _ => None))) = 5 /\
  fst (fst (open_chrony true (with_helper ex_client (mkOs (fun _ => inr 9) 10 (fun k => if (k =? 4)%nat then Some 13 else None) (fun _ => 0)) 5) [] 0 (fun _ => None))) = -13.
Proof. split; vm_compute; reflexivity. Qed.

(** Without a helper the daemon does it itself. *)
Theorem C63_no_helper : forall ex direct path op dctl, Z.of_nat (List.length path) < 128 ->
  open_dev false path ex direct = (match direct with inr fd => fd | inl e => - e end, false) /\
  chrony_control false op ex dctl = (- dctl op, false).
Proof.
  intros ex direct path op dctl L. unfold open_dev.
  replace (PATH_MAX <=? List.length path)%nat with false by (symmetry; apply Nat.leb_gt; unfold PATH_MAX; lia).
  split; reflexivity.
Qed.
Print Assumptions C63_no_helper.
Example C63_no_helper_ex : open_dev false (txt "/dev/ptp0") (with_helper ex_client ex_os 5) (inl 13) = (-13, false).
Proof. reflexivity. Qed.

(** A connection that fails is given up: the call that found it and all later ones are done
    without the helper. *)
Theorem C63_failure_partial : forall path op ex direct dctl, Z.of_nat (List.length path) < 128 ->
  (ex (OpenDev (to_buf path)) = NotSent \/ ex (OpenDev (to_buf path)) = NotReceived ->
   open_dev true path ex direct = (match direct with inr fd => fd | inl e => - e end, false)) /\
  (ex (Control op) = NotSent \/ ex (Control op) = NotReceived -> chrony_control true op ex dctl = (- dctl op, false)).
Proof.
  intros path op ex direct dctl L. unfold open_dev, chrony_control, rpc.
  replace (PATH_MAX <=? List.length path)%nat with false by (symmetry; apply Nat.leb_gt; unfold PATH_MAX; lia).
  split; intros [->| ->]; reflexivity.
Qed.
Print Assumptions C63_failure_partial.
Example C63_failure_ex : open_dev true (txt "/dev/ptp0") (fun _ => NotSent) (inr 7) = (7, false).
Proof. reflexivity. Qed.

(** "A helper that has died is noticed" is false: if it dies after it has read the request,
    recvmsg(2) returns 0, which is not an error for sfptpd_priv_rpc, and the response is
    still all zeros: opening a device then returns 0, the descriptor of the standard input,
    and a request to control chronyd is reported as done. *)
Theorem C63_dead_helper_refuted : forall path op direct dctl, Z.of_nat (List.length path) < 128 ->
  open_dev true path (fun _ => Received None NoAnc) direct = (0, true) /\
  chrony_control true op (fun _ => Received None NoAnc) dctl = (0, true).
Proof.
  intros path op direct dctl L. unfold open_dev.
  replace (PATH_MAX <=? List.length path)%nat with false by (symmetry; apply Nat.leb_gt; unfold PATH_MAX; lia).
  split; reflexivity.
Qed.
Print Assumptions C63_dead_helper_refuted.
Example C63_dead_helper_ex : Z.of_nat (List.length (txt "/dev/ptp0")) < 128. Proof. vm_compute. reflexivity. Qed.

(** "The helper ends when the daemon has gone" is false: at end of file, or at an error of
    recv(2), it goes on to look at a request that has not been received. *)
Theorem C63_orphan_refuted : forall client l e, (forall i, In i l -> exists o, i = Msg Sync o) ->
  server client (l ++ [EndOfFile]) = None /\ server client (l ++ [RecvError e]) = None.
Proof.
  intros cl l e. induction l as [|i l IH]; intros H; [split; reflexivity|].
  destruct (H i (or_introl eq_refl)) as [o ->]. cbn [app server serve].
  destruct IH as [IH1 IH2]; [intros i X; apply H; right; exact X|]. rewrite IH1, IH2. split; reflexivity.
Qed.
Print Assumptions C63_orphan_refuted.
Example C63_orphan_ex : server ex_client [Msg Sync ex_os; EndOfFile] = None. Proof. reflexivity. Qed.

(** "The log says which step failed" is false when the helper reports the failure:
    sfptpd_priv.c:341 assigns to the parameter instead of copying to the caller's buffer, so
    crny_connect prints a buffer in which nothing has been stored. *)
Theorem C63_failing_step_refuted : forall client o n cl sock fail e, Z.of_nat (List.length client) < 108 ->
  o_fail o 0%nat = Some e -> e > 0 -> e <> EINPROGRESS -> e <> ENOENT ->
  crny_connect (fst (open_chrony true (with_helper client o n) cl sock fail)) false = None.
Proof.
  intros client o n cl sock fail e L F P N1 N2. unfold open_chrony, rpc, with_helper, serve, helper_connect.
  replace (SUN_PATH <=? List.length client)%nat with false by (symmetry; apply Nat.leb_gt; unfold SUN_PATH; lia).
  change (SUN_PATH <=? List.length SERVER_PATH)%nat with false. cbn [negb first_failure]. rewrite F.
  assert (E0 : e =? 0 = false) by lia. rewrite E0. change (crny_connect (- e, None) false = None). unfold crny_connect.
  replace (0 <=? - e) with false by lia. cbv zeta. replace (- - e) with e by lia. rewrite E0.
  replace (e =? EINPROGRESS) with false by lia. replace (e =? ENOENT) with false by lia. reflexivity.
Qed.
Print Assumptions C63_failing_step_refuted.
Example C63_failing_step_ex :
  crny_connect (fst (open_chrony true (with_helper ex_client (mkOs (fun _ => inr 9) 10 (fun _ => Some 24) (fun _ => 0)) 5) [] 0 (fun _ => None))) false = None.
Proof. vm_compute. reflexivity. Qed.

(** Without the helper it does say it. *)
Theorem C63_failing_step_partial : forall ex client sock fail e k, Z.of_nat (List.length client) < 108 ->
  (k < 7)%nat -> fail k = Some e -> e > 0 -> (forall j, (j < k)%nat -> fail j = None) -> e <> EINPROGRESS -> e <> ENOENT ->
  crny_connect (fst (open_chrony false ex client sock fail)) false = Some (e, None, Some (cname k), true).
Proof.
  intros ex client sock fail e k L K F P B N1 N2. unfold open_chrony, rpc, helper_connect. cbn [negb].
  replace (SUN_PATH <=? List.length client)%nat with false by (symmetry; apply Nat.leb_gt; unfold SUN_PATH; lia).
  change (SUN_PATH <=? List.length SERVER_PATH)%nat with false.
  assert (E0 : e =? 0 = false) by lia. assert (E1 : e =? EINPROGRESS = false) by lia.
  assert (X : forall st, crny_connect (- e, Some st) false = Some (e, None, Some st, true)).
  { intros st. unfold crny_connect. replace (0 <=? - e) with false by lia. cbv zeta. replace (- - e) with e by lia. rewrite E0, E1.
    replace (e =? ENOENT) with false by lia. reflexivity. }
  destruct k as [|[|[|[|[|[|[|k]]]]]]]; [..|lia]; cbn [first_failure]; rewrite ?B by lia; rewrite F;
    [..|rewrite E1]; cbn -[crny_connect Z.eqb Z.opp]; rewrite E0; apply X.
Qed.
Print Assumptions C63_failing_step_partial.
Example C63_failing_step_ex2 :
  crny_connect (fst (open_chrony false (fun _ => NotSent) ex_client 4 (fun k => if (k =? 4)%nat then Some 13 else None))) false
  = Some (13, None, Some (txt "bind"), true).
Proof. vm_compute. reflexivity. Qed.

(** ** Several threads *)

(** Whatever the schedule, and whatever fails: at most one thread is talking to the helper,
    and a call that gets an answer gets the helper's answer to its own request. *)
Theorem C63_own_answer : forall client es s, runs client es started s ->
  (forall t u, crit (y_pc s t) = true -> crit (y_pc s u) = true -> t = u) /\
  (forall t r a, y_pc s t = Returned r (Some a) ->
     fst a = r /\ exists o fd acts fds, server client [Msg r o] = Some ([(snd a, fd)], acts, fds)).
Proof.
  intros cl es s R. destruct (inv_runs _ _ _ _ R (inv_started cl)) as [A [_ C]]. split.
  - intros t u T U. apply A in T, U. congruence.
  - intros t r a E. specialize (C t). rewrite E in C. destruct C as [o ->]. split; [reflexivity|]. exists o.
    cbn [server snd fst]. unfold answer. destruct (serve cl o r) as [[[[x fd] ac] fs] run]. exists fd.
    destruct run; cbn; do 2 eexists; reflexivity.
Qed.
Print Assumptions C63_own_answer.

(** While nothing fails, every call can still be answered: no thread is ever shut out. *)
Theorem C63_progress_partial : forall client (o : os) es s t r, runs client es started s ->
  (forall e, In e es -> e = EOk) -> y_pc s t = Entering r ->
  exists es' s' a, runs client es' s s' /\ (forall e, In e es' -> e = EOk) /\ y_pc s' t = Returned r (Some a).
Proof.
  intros cl o es s t r R E P. pose proof (inv_runs _ _ _ _ R (inv_started cl)) as I0.
  assert (G0 : healthy s) by (apply (healthy_runs cl es started s R (inv_started cl)); [split; [reflexivity|discriminate]|exact E]).
  assert (K : exists es' s', runs cl es' s s' /\ (forall e, In e es' -> e = EOk) /\ y_lock s' = None /\ y_pc s' t = Entering r).
  { destruct (y_lock s) as [u|] eqn:L.
    - destruct G0 as [G1 G2]. pose proof (G2 u L) as CU. destruct (crit_inside _ CU) as [ru RU].
      destruct (finish cl o s u ru I0 (conj G1 G2) RU) as [es' [s' [F1 [F2 [F3 [_ F5]]]]]].
      exists es', s'. split; [exact F1|]. split; [exact F2|]. split; [exact F3|]. rewrite F5; [exact P|].
      intros <-. rewrite P in CU. discriminate CU.
    - exists [], s. split; [constructor|]. split; [intros e []|]. split; assumption. }
  destruct K as [es1 [s1 [R1 [E1 [L1 P1]]]]].
  destruct s1 as [fd lk q p f]. cbn [y_lock y_pc] in *. subst lk.
  pose proof (st_lock cl t r fd q p f P1) as S1. set (s2 := mkSys fd (Some t) q p (upd f t (Holding r))) in *.
  assert (R2 : runs cl (es1 ++ [EOk]) s s2) by (eapply runs_app; [exact R1|econstructor; [exact S1|constructor]]).
  assert (E2 : forall e, In e (es1 ++ [EOk]) -> e = EOk).
  { intros e X. apply in_app_or in X. destruct X as [X|[X|[]]]; [apply E1, X|congruence]. }
  pose proof (inv_runs _ _ _ _ R2 I0) as I2. pose proof (healthy_runs _ _ _ _ R2 I0 G0 E2) as G2.
  destruct (finish cl o s2 t r I2 G2) as [es3 [s3 [F1 [F2 [F3 [[a F4] F5]]]]]]; [cbn; rewrite upd_same; reflexivity|].
  exists ((es1 ++ [EOk]) ++ es3), s3, a. split; [eapply runs_app; [exact R2|exact F1]|]. split; [|exact F4].
  intros e X. apply in_app_or in X. destruct X as [X|X]; [apply E2, X|apply F2, X].
Qed.
Print Assumptions C63_progress_partial.

(** Two threads are calling, one has the lock. *)
Example C63_threads_ex : exists es s, runs ex_client es started s /\ (forall e, In e es -> e = EOk) /\
  y_pc s 0%nat = Holding (dev "/dev/ptp0") /\ y_pc s 1%nat = Entering OpenChrony.
Proof.
  exists [EOk; EOk; EOk]. eexists. split.
  { econstructor; [apply (st_call _ 0%nat (dev "/dev/ptp0")); reflexivity|].
    econstructor; [apply (st_call _ 1%nat OpenChrony); reflexivity|].
    econstructor; [apply (st_lock _ 0%nat (dev "/dev/ptp0")); reflexivity|]. constructor. }
  split; [intros e [X|[X|[X|[]]]]; congruence|]. split; reflexivity.
Qed.

(** "No call waits for ever" is false: if send(2) fails, sfptpd_priv.c:166 returns without
    releasing the lock, and a thread that has already seen the connection and is waiting for
    the lock never gets it. *)
Theorem C63_stuck_refuted : exists es s t r, runs ex_client es started s /\ y_pc s t = Entering r /\
  forall es' s', runs ex_client es' s s' -> y_pc s' t = Entering r.
Proof.
  destruct C63_threads_ex as [es [s [R [_ [P0 P1]]]]].
  destruct s as [fd lk q p f]. cbn [y_pc] in *.
  pose proof (inv_runs _ _ _ _ R (inv_started ex_client)) as [A [_ _]].
  assert (LK : lk = Some 0%nat) by (apply (A 0%nat); cbn; rewrite P0; reflexivity). subst lk.
  pose proof (st_send_fails ex_client 0%nat _ fd (Some 0%nat) q p f P0) as S1.
  eexists (es ++ [EFail]), _, 1%nat, OpenChrony. split; [eapply runs_app; [exact R|econstructor; [exact S1|constructor]]|].
  split; [cbn [y_pc]; rewrite upd_other by discriminate; exact P1|].
  set (s1 := mkSys false (Some 0%nat) q p _).
  assert (B : forall x, crit (y_pc s1 x) = false).
  { intros x. unfold s1. cbn [y_pc]. destruct (Nat.eq_dec x 0) as [->|N]; [reflexivity|]. rewrite upd_other by exact N.
    destruct (crit (f x)) eqn:C; [|reflexivity]. specialize (A x C). cbn in A. congruence. }
  assert (G : forall es' s', runs ex_client es' s1 s' ->
    y_lock s1 = Some 0%nat -> y_fd s1 = false -> (forall x, crit (y_pc s1 x) = false) -> y_pc s1 1%nat = Entering OpenChrony ->
    y_pc s' 1%nat = Entering OpenChrony).
  { clear. intros es' s' R. induction R as [s|e es s s1 s2 H R IH]; intros L F C P; [exact P|].
    inversion H; subst; cbn [y_lock y_fd y_pc] in *; try discriminate;
      try (exfalso; match goal with K : ?f ?t = _ |- _ => specialize (C t); rewrite K in C; discriminate C end).
    - subst fd. apply IH; cbn; auto.
      + intros x. destruct (Nat.eq_dec x t) as [->|N]; [rewrite upd_same; reflexivity|]. rewrite upd_other by exact N. apply C.
      + rewrite upd_other; [exact P|]. intros <-. congruence.
    - apply IH; cbn; auto.
    - apply IH; cbn; auto.
      + intros x. destruct (Nat.eq_dec x t) as [->|N]; [rewrite upd_same; reflexivity|]. rewrite upd_other by exact N. apply C.
      + rewrite upd_other; [exact P|]. intros <-. congruence. }
  intros es' s' R'. apply (G es' s' R'); [reflexivity|reflexivity|exact B|unfold s1; cbn [y_pc]; rewrite upd_other by discriminate; exact P1].
Qed.
Print Assumptions C63_stuck_refuted.
