(** C64: commands received on the control socket, and signals. *)
Require Import ZArith List Bool String QArith Lia.
Require Import Verif.Base Verif.ListLib Verif.TimeSpec Verif.TimeModel Verif.TimeProof.
Require Import Verif.CevSpec Verif.CevModel Verif.CtlSpec Verif.CtlModel Verif.CtlProof.
Import ListNotations.
Open Scope Z_scope.

(** Every documented command, in a datagram of at most 127 bytes of text, has its documented
    effect and no other: whatever the name, the numbers and the list of types. *)
Theorem C64_documented : forall t e m, asks t e -> text_of m t -> (List.length t <= 127)%nat ->
  on_control_socket_fd (Some m) = Some [e].
Proof.
  intros t e m A T L. unfold on_control_socket_fd. rewrite (fd_text m t T L). apply (documented t e A); [apply T|exact L].
Qed.
Print Assumptions C64_documented.

Example C64_documented_ex :
  asks (txt "pid_adjust=0.5,,-2e-3,ptp,reset") (PidAdjust (Fin (5 # 10)) NaN (Fin (-2 # 1000)) 2 true) /\
  asks (txt "testmode=utc_offset,-0x1F") (TestMode 6 (-31) 0 0) /\
  on_control_socket_fd (Some (txt "pid_adjust=0.5,,-2e-3,ptp,reset" ++ [0; 7])) = Some [PidAdjust (Fin (5 # 10)) NaN (Fin (-2 # 1000)) 2 true].
Proof.
  assert (D : forall d, 0 <= d <= 9 -> digit_char (48 + d) d /\ d < 10) by (intros d R; split; [left; lia|lia]).
  split; [|split].
  - apply (asks_pid [txt "0.5"; []; txt "-2e-3"] [Fin (5 # 10); NaN; Fin (-2 # 1000)] [PTP; RESET] 2).
    + discriminate.
    + cbn; lia.
    + right; reflexivity.
    + constructor; [|constructor; [left; split; reflexivity|constructor; [|constructor]]].
      * right. exists (5 # 10). split; [|reflexivity]. exists [], 1, [48], [53], [0], [5], [], 0.
        split; [right; reflexivity|]. split; [discriminate|]. split; [left; split; reflexivity|].
        split; [constructor; [apply (D 0); lia|constructor]|]. split; [constructor; [apply (D 5); lia|constructor]|].
        split; [left; split; reflexivity|reflexivity].
      * right. exists (-2 # 1000). split; [|reflexivity]. exists [45], (-1), [50], [], [2], [], [101; 45; 51], (-3).
        split; [left; split; reflexivity|]. split; [discriminate|]. split; [right; right; split; reflexivity|].
        split; [constructor; [apply (D 2); lia|constructor]|]. split; [constructor|].
        split; [|reflexivity]. right. exists 101, [45], (-1), [51], [3]. split; [reflexivity|]. split; [left; reflexivity|].
        split; [right; right; split; reflexivity|]. split; [discriminate|]. split; [constructor; [apply (D 3); lia|constructor]|reflexivity].
    + intros k [<-|[<-|[]]]; cbn; auto.
    + split; [lia|]. change (Z.testbit 2 0) with false. change (Z.testbit 2 1) with true. change (Z.testbit 2 2) with false. unfold named. cbn [In].
      assert (LOCAL <> PTP /\ LOCAL <> RESET /\ PPS <> PTP /\ PPS <> RESET) as [A [B [C E]]] by (vm_compute; intuition congruence).
      intuition congruence.
  - apply (asks_test (txt "utc_offset") 6 [txt "-0x1F"] [-31]).
    + cbn; tauto.
    + cbn; lia.
    + constructor; [|constructor]. exists [45], (-1), (txt "0x1F"), [1; 15], 16. split; [reflexivity|]. split; [right; right; split; reflexivity|].
      split; [reflexivity|]. right; right. split; [reflexivity|]. exists 120, (txt "1F"). split; [reflexivity|]. split; [left; reflexivity|].
      split; [discriminate|]. constructor; [split; [left; cbn; lia|lia]|]. constructor; [split; [right; cbn; lia|lia]|constructor].
    + intros z [<-|[]]. unfold int_range. lia.
  - vm_compute. reflexivity.
Qed.

(** Whatever arrives, no parameter that was not given a value is used; a datagram has at most
    one effect; the effect is one whose command word begins the datagram, the instance or the
    test is one named in it, and the numbers of a test fit in an int. *)
Theorem C64_only : forall m, exists es, on_control_socket_fd m = Some es /\
  forall e, In e es -> es = [e] /\ exists d t, m = Some d /\ text_of (firstn 127 d) t /\ commanded t (word e) /\ fits t e.
Proof. exact only. Qed.
Print Assumptions C64_only.

Example C64_only_ex : on_control_socket_fd (Some (txt "testmode=timestamp_jitter,3")) = Some [TestMode 7 3 0 0] /\
  on_control_socket_fd (Some (txt "exits")) = Some [] /\ on_control_socket_fd (Some (txt "pid_adjust=1,2,3,gps")) = Some [] /\
  on_control_socket_fd None = Some [].
Proof. vm_compute. repeat split. Qed.

(** Signals do what the commands do: SIGINT and SIGTERM exit, SIGHUP rotates logs, SIGUSR1 steps
    clocks, and the real-time signals, which start at [rtmin], are the test modes in order. *)
Theorem C64_signals : forall rtmin, 31 < rtmin ->
  on_control_socket_fd (Some (txt "exit")) = Some (on_signal rtmin 2) /\
  on_control_socket_fd (Some (txt "exit")) = Some (on_signal rtmin 15) /\
  on_control_socket_fd (Some (txt "logrotate")) = Some (on_signal rtmin 1) /\
  on_control_socket_fd (Some (txt "stepclocks")) = Some (on_signal rtmin 10) /\
  (forall name id, In (name, id) tests ->
     on_control_socket_fd (Some (txt "testmode=" ++ name)) = Some (on_signal rtmin (rtmin + id))) /\
  (forall k, 17 <= k -> on_signal rtmin (rtmin + k) = []).
Proof.
  intros rtmin R. split; [reflexivity|]. split; [reflexivity|]. split; [reflexivity|]. split; [reflexivity|].
  assert (S : forall k, 0 <= k -> on_signal rtmin (rtmin + k) = if k <? 17 then [TestMode k 0 0 0] else []).
  { intros k K. unfold on_signal. replace (rtmin + k =? 2) with false by lia. replace (rtmin + k =? 15) with false by lia.
    replace (rtmin + k =? 1) with false by lia. replace (rtmin + k =? 10) with false by lia. cbn [orb].
    replace (rtmin + k - rtmin) with k by lia. reflexivity. }
  split.
  - intros name id I. cbn [tests In] in I.
    repeat (destruct I as [I|I]; [injection I as <- <-; rewrite S by lia; vm_compute; reflexivity|]). destruct I.
  - intros k K. rewrite S by lia. replace (k <? 17) with false by lia. reflexivity.
Qed.
Print Assumptions C64_signals.

Example C64_signals_ex : on_signal 34 40 = [TestMode 6 0 0 0] /\ on_signal 34 60 = [].
Proof. vm_compute. auto. Qed.

(** With names of fewer than 63 bytes, selecting picks the instance with exactly that name, the
    first if there are several, and changes nothing if selection is not manual or there is no
    such instance. *)
Theorem C64_select_partial : forall manual l stale n, (List.length n < 63)%nat ->
  match select_instance manual l stale n with
  | Some i => manual = true /\ nth_error l i = Some n /\ forall j, (j < i)%nat -> nth_error l j <> Some n
  | None => manual = false \/ ~ In n l
  end.
Proof.
  intros manual l stale n L. unfold select_instance. cbv zeta. rewrite firstn_all2 by lia.
  replace (List.length n =? 63)%nat with false by (symmetry; apply Nat.eqb_neq; lia).
  destruct manual; [|left; reflexivity].
  assert (G : forall l k, match find_name n l k with
    | Some i => (k <= i)%nat /\ nth_error l (i - k) = Some n /\ forall j, (j < i - k)%nat -> nth_error l j <> Some n
    | None => ~ In n l end).
  { clear l. induction l as [|x l IH]; intros k; cbn [find_name]; [intros []|].
    destruct (streq n x) eqn:E.
    - apply streq_iff in E. subst x. split; [lia|]. rewrite Nat.sub_diag. split; [reflexivity|]. intros j J. lia.
    - assert (NX : n <> x) by (intros X; apply streq_iff in X; congruence).
      specialize (IH (S k)). destruct (find_name n l (S k)) as [i|].
      + destruct IH as [A [B C]]. split; [lia|]. replace (i - k)%nat with (S (i - S k)) by lia. split; [exact B|].
        intros [|j] J; [cbn; congruence|]. cbn [nth_error]. apply C. lia.
      + intros [X|X]; [congruence|exact (IH X)]. }
  specialize (G l 0%nat). destruct (find_name n l 0) as [i|]; [|right; exact G].
  destruct G as [_ [B C]]. rewrite Nat.sub_0_r in *. auto.
Qed.
Print Assumptions C64_select_partial.

Example C64_select_ex : select_instance true [txt "ptp1"; txt "ntp0"] (txt "x") (txt "ntp0") = Some 1%nat.
Proof. vm_compute. reflexivity. Qed.

(** Gains reach exactly the kinds of servo that were named, all of them if none was. *)
Theorem C64_reach : forall t e m kp ki kd types reset, asks t e -> e = PidAdjust kp ki kd types reset ->
  text_of m t -> (List.length t <= 127)%nat ->
  exists gs ks, t = txt "pid_adjust=" ++ join 44 (gs ++ ks) /\
    on_control_socket_fd (Some m) = Some [PidAdjust kp ki kd types reset] /\
    forall s, In s (fst (pid_fanout types)) <->
      named (match s with LocalServos => LOCAL | PtpServos => PTP | PpsServos => PPS end) ks.
Proof.
  intros t e m kp ki kd types reset A E T L. pose proof (C64_documented t e m A T L) as D.
  destruct A as [| | | |n LN N|name id ps zs TT LP F R|gs vs ks types' NE LG K F KS TY]; try discriminate E.
  injection E as <- <- <- <- <-. exists gs, ks. split; [reflexivity|]. split; [exact D|].
  destruct TY as [R [B0 [B1 B2]]]. apply eight in R. intros s. destruct s.
  - rewrite <- B0. repeat (destruct R as [->|R]); try subst types'; vm_compute; intuition congruence.
  - rewrite <- B1. repeat (destruct R as [->|R]); try subst types'; vm_compute; intuition congruence.
  - rewrite <- B2. repeat (destruct R as [->|R]); try subst types'; vm_compute; intuition congruence.
Qed.
Print Assumptions C64_reach.

Example C64_reach_ex : fst (pid_fanout 5) = [LocalServos; PpsServos]. Proof. reflexivity. Qed.

(** Stepping clocks: nothing with no-adjust, with no selected instance or when its status
    cannot be read.  Otherwise the instance is stepped by its offset, once, each local servo
    whose master is not near the epoch by the sum of the two offsets, once, and no other. *)
Theorem C64_stepclocks : forall no_adjust sel servos l, (forall o, sel = Some (Some o) -> normal o) ->
  (forall b o, In (b, o) servos -> normal o) ->
  on_step_clocks no_adjust sel servos = Some l ->
  match sel with
  | Some (Some off) =>
      if no_adjust then l = [] else
      filter (fun r => match r with StepInstance _ => true | _ => false end) l = [StepInstance off] /\
      (forall i x, In (StepServo i x) l <->
         exists o, nth_error servos i = Some (false, o) /\ normal x /\ instant x = instant o + instant off) /\
      (forall i, count_occ Bool.bool_dec (map (fun r => match r with StepServo j _ => Nat.eqb i j | _ => false end) l) true =
         match nth_error servos i with Some (false, _) => 1%nat | _ => 0%nat end) /\
      In TellNtp l
  | _ => l = []
  end.
Proof.
  intros no_adjust sel servos l NS NV H. unfold on_step_clocks in H.
  destruct sel as [[off|]|].
  2:{ destruct no_adjust; congruence. }
  2:{ destruct no_adjust; congruence. }
  destruct no_adjust; [congruence|].
  destruct (step_servos off 0 servos) as [ss|] eqn:SS; [|discriminate]. cbn [bind] in H. injection H as <-.
  specialize (NS off eq_refl).
  assert (G : forall servos k ss, (forall b o, In (b, o) servos -> normal o) -> step_servos off k servos = Some ss ->
    filter (fun r => match r with StepInstance _ => true | _ => false end) ss = [] /\
    ~ In TellNtp ss /\
    (forall i x, In (StepServo i x) ss <-> (k <= i)%nat /\ exists o, nth_error servos (i - k) = Some (false, o) /\ normal x /\ instant x = instant o + instant off) /\
    (forall i, count_occ Bool.bool_dec (map (fun r => match r with StepServo j _ => Nat.eqb i j | _ => false end) ss) true =
       if (i <? k)%nat then 0%nat else match nth_error servos (i - k) with Some (false, _) => 1%nat | _ => 0%nat end)).
  { clear servos NV ss SS. induction servos as [|[b o] servos IH]; intros k ss NV ST; cbn [step_servos] in ST.
    - injection ST as <-. split; [reflexivity|]. split; [intros []|]. split.
      + intros i x. split; [intros []|]. intros [_ [o [E _]]]. destruct (i - k)%nat; discriminate E.
      + intros i. cbn [map count_occ]. destruct (i <? k)%nat; [reflexivity|]. destruct (i - k)%nat; reflexivity.
    - assert (NV' : forall b o, In (b, o) servos -> normal o) by (intros b' o' I; apply (NV b' o'); right; exact I).
      destruct b.
      + destruct (IH (S k) ss NV' ST) as [A [B [C D]]]. split; [exact A|]. split; [exact B|]. split.
        * intros i x. rewrite C. split.
          -- intros [L [o' E]]. split; [lia|]. exists o'. replace (i - k)%nat with (S (i - S k)) by lia. exact E.
          -- intros [L [o' [E F]]]. destruct (Nat.eq_dec i k) as [->|NE]; [rewrite Nat.sub_diag in E; discriminate E|].
             split; [lia|]. exists o'. replace (i - k)%nat with (S (i - S k)) in E by lia. split; [exact E|exact F].
        * intros i. rewrite D. destruct (Nat.ltb_spec i (S k)); destruct (Nat.ltb_spec i k); try lia.
          -- replace (i - k)%nat with 0%nat by lia. reflexivity.
          -- replace (i - k)%nat with (S (i - S k)) by lia. reflexivity.
      + destruct (add o off) as [x0|] eqn:AD; [|discriminate]. cbn [bind] in ST.
        destruct (step_servos off (Datatypes.S k) servos) as [y|] eqn:SY; [|discriminate]. cbn [bind] in ST. injection ST as <-.
        destruct (add_exact o off x0 (NV false o (or_introl eq_refl)) NS AD) as [X1 X2].
        destruct (IH (Datatypes.S k) y NV' SY) as [A [B [C D]]]. split; [exact A|]. split; [intros [I|I]; [discriminate|exact (B I)]|]. split.
        * intros i x. cbn [In]. rewrite C. split.
          -- intros [E|[L [o' E]]].
             ++ injection E as <- <-. split; [lia|]. exists o. rewrite Nat.sub_diag. auto.
             ++ split; [lia|]. exists o'. replace (i - k)%nat with (Datatypes.S (i - Datatypes.S k)) by lia. exact E.
          -- intros [L [o' [E [F1 F2]]]]. destruct (Nat.eq_dec i k) as [->|NE].
             ++ rewrite Nat.sub_diag in E. injection E as <-. left. f_equal. apply instant_inj; [exact X1|exact F1|lia].
             ++ right. split; [lia|]. exists o'. replace (i - k)%nat with (Datatypes.S (i - Datatypes.S k)) in E by lia. auto.
        * intros i. cbn [map count_occ]. rewrite D. destruct (Nat.ltb_spec i (Datatypes.S k)); destruct (Nat.ltb_spec i k); try lia.
          -- destruct (Nat.eqb_spec i k); [lia|]. destruct (bool_dec false true); [discriminate|reflexivity].
          -- destruct (Nat.eqb_spec i k); [|lia]. subst i. rewrite Nat.sub_diag. destruct (bool_dec true true); [reflexivity|congruence].
          -- destruct (Nat.eqb_spec i k); [lia|]. replace (i - k)%nat with (Datatypes.S (i - Datatypes.S k)) by lia.
             destruct (bool_dec false true); [discriminate|reflexivity]. }
  destruct (G servos 0%nat ss NV SS) as [A [B [C D]]]. split; [|split; [|split]].
  - cbn [filter app]. rewrite filter_app, A. reflexivity.
  - intros i x. cbn [In]. rewrite in_app_iff, C, Nat.sub_0_r. cbn [In]. split.
    + intros [I|[[_ I]|[I|[I|[]]]]]; [discriminate|exact I|discriminate|discriminate].
    + intros I. right. left. split; [lia|exact I].
  - intros i. cbn [map count_occ app]. rewrite map_app, count_occ_app, D, Nat.sub_0_r. cbn. lia.
  - right. apply in_or_app. right. left. reflexivity.
Qed.
Print Assumptions C64_stepclocks.

Example C64_stepclocks_ex :
  on_step_clocks false (Some (Some (mkTs 5 0 0))) [(true, mkTs 9 0 0); (false, mkTs (-2) 500000000 0)] =
  Some [StepInstance (mkTs 5 0 0); StepServo 1 (mkTs 3 500000000 0); TellNtp; TellNtp].
Proof. vm_compute. reflexivity. Qed.

(** Unless test mode is configured, a test mode has no effect. *)
Theorem C64_test_disabled : forall instances id p0 p1 p2,
  configure_test_mode false instances id p0 p1 p2 = Some [].
Proof. reflexivity. Qed.
Print Assumptions C64_test_disabled.

(** Full statement, refuted by [C64_cancel_refuted]: every test mode has its effect.
    What holds: all of them but local_leap_second_cancel; leap seconds of both kinds are asked
    for once, and the tests of the PTP module reach every instance, each once, with their
    parameters. *)
Theorem C64_test_modes_partial : forall instances name id p0 p1 p2, In (name, id) tests ->
  name <> txt "local_leap_second_cancel" ->
  exists l, configure_test_mode true instances id p0 p1 p2 = Some l /\
    (l = [LeapTest 0] <-> name = txt "leap_second_cancel") /\
    (l = [LeapTest 1] <-> name = txt "leap_second_61") /\ (l = [LeapTest 2] <-> name = txt "leap_second_59") /\
    (l = [Schedule 1] <-> name = txt "local_leap_second_61") /\ (l = [Schedule 2] <-> name = txt "local_leap_second_59") /\
    (l = [AdjustFrequency p0] <-> name = txt "adjust_frequency") /\
    (In name (map txt ["utc_offset"; "timestamp_jitter"; "transparent_clock"; "boundary_clock_change";
                       "grandmaster_clock_change"; "no_sync_pkts"; "no_follow_ups"; "no_delay_resps";
                       "bogus_pps_events"; "no_announce_pkts"]%string) ->
     List.length l = instances /\ forall i, (i < instances)%nat -> nth_error l i = Some (ToInstance i id p0 p1 p2)).
Proof.
  intros instances name id p0 p1 p2 I N.
  assert (NE : forall x y z u w, map (fun i => ToInstance i x y z u) (seq 0 instances) = [w] -> exists i, w = ToInstance i x y z u).
  { intros x y z u w E. destruct instances as [|[|n]]; try discriminate E. injection E as <-. eexists. reflexivity. }
  assert (AL : forall x y z u, List.length (map (fun i => ToInstance i x y z u) (seq 0 instances)) = instances /\
    forall i, (i < instances)%nat -> nth_error (map (fun i => ToInstance i x y z u) (seq 0 instances)) i = Some (ToInstance i x y z u)).
  { intros. split; [rewrite map_length, seq_length; reflexivity|]. intros i L.
    erewrite map_nth_error; [reflexivity|]. rewrite (nth_error_nth' _ 0%nat) by (rewrite seq_length; exact L). rewrite seq_nth by exact L. reflexivity. }
  cbn [tests In] in I.
  repeat (destruct I as [I|I]; [injection I as <- <-;
    first [exfalso; apply N; reflexivity|
     eexists; split; [cbn; reflexivity|];
     do 6 (split; [solve [split; intros X; first [reflexivity|discriminate X|vm_compute in X; congruence|
                                         destruct (NE _ _ _ _ _ X) as [? ?]; discriminate]]|]);
     intros X; first [solve [apply AL]|vm_compute in X; exfalso; intuition congruence]]|]).
  destruct I.
Qed.
Print Assumptions C64_test_modes_partial.

Example C64_test_modes_ex : configure_test_mode true 2 6 37 0 0 = Some [ToInstance 0 6 37 0 0; ToInstance 1 6 37 0 0].
Proof. vm_compute. reflexivity. Qed.

(** Full statement, refuted by [C64_dump_refuted] and [C64_leak_refuted]: any sequence of
    commands is carried out.  What holds: any sequence without dumptables and in which every
    pid_adjust is for PTP and PPS servos. *)
Theorem C64_pool_partial : forall l, (forall e, In e l -> e <> DumpTables /\
    forall kp ki kd types r, e = PidAdjust kp ki kd types r -> Z.testbit types 1 = true /\ Z.testbit types 2 = true /\ 0 <= types < 8) ->
  pool_run POOL l = Some (POOL, repeat true (List.length l)).
Proof.
  induction l as [|e l IH]; intros H; [reflexivity|].
  assert (S : pool_step POOL e = Some (POOL, true)).
  { destruct (H e (or_introl eq_refl)) as [A B]. destruct e as [| | | | n | id p0 p1 p2 | kp ki kd types r]; try reflexivity; [congruence|].
    destruct (B _ _ _ _ _ eq_refl) as [B1 [B2 R]]. apply eight in R.
    repeat (destruct R as [->|R]); try subst types; try discriminate; vm_compute; reflexivity. }
  cbn [pool_run]. rewrite S. cbn [bind fst snd]. rewrite IH by (intros e' I; apply H; right; exact I). reflexivity.
Qed.
Print Assumptions C64_pool_partial.

Example C64_pool_ex : pool_run POOL [StepClocks; PidAdjust NaN NaN NaN 7 true; Exit] = Some (POOL, [true; true; true]).
Proof. vm_compute. reflexivity. Qed.

(** The full statement of opening would be that a daemon that cannot open its control socket
    reports it; [C64_open_refuted].  What holds: if nothing fails the socket is bound to the
    configured path, and closing removes it; if there is no memory the error is returned. *)
Theorem C64_open_partial : forall q,
  (works q -> exists p, q_path q = Some p /\ socket_open q unopened = (mkSock true (Points p) (Some p), 0) /\
     exists s, daemon q = Some (s, 0) /\ k_bound s = None) /\
  (q_memory q = false -> exists s, daemon q = Some (s, q_errno q)).
Proof.
  intros q. split.
  - intros [M [S [B [p [P L]]]]]. exists p. split; [exact P|].
    assert (O : socket_open q unopened = (mkSock true (Points p) (Some p), 0)).
    { unfold socket_open. rewrite M, P, S, B. replace (108 <=? List.length p)%nat with false by (symmetry; apply Nat.leb_gt; exact L). reflexivity. }
    split; [exact O|]. unfold daemon. rewrite O. unfold socket_close. cbn [k_path k_bound bind]. rewrite streq_refl.
    eexists. split; reflexivity.
  - intros M. unfold daemon, socket_open. rewrite M. cbn. eexists. reflexivity.
Qed.
Print Assumptions C64_open_partial.

Example C64_open_ex : works (mkOpening (Some (txt "/run/sfptpd-control-v1.sock")) 0 true true true).
Proof. repeat split. eexists. split; [reflexivity|cbn; lia]. Qed.

(** ** Findings *)

(** The full statement would be: anything that is not a documented command changes nothing.
    A gain that is not a number is read as 0: pid_adjust=local sets the proportional gain of
    every servo to 0.  An infinite gain is taken too, and anything beginning with nan leaves the
    gain as it was. *)
Theorem C64_gain_refuted :
  on_control_socket_fd (Some (txt "pid_adjust=local")) = Some [PidAdjust (Fin 0) NaN NaN 7 false] /\
  on_control_socket_fd (Some (txt "pid_adjust=1.5x,reset")) = Some [PidAdjust (Fin (15 # 10)) (Fin 0) NaN 7 false] /\
  on_control_socket_fd (Some (txt "pid_adjust=-Infinity,INF,nano")) = Some [PidAdjust (Inf true) (Inf false) NaN 7 false].
Proof. split; [|split]; vm_compute; reflexivity. Qed.
Print Assumptions C64_gain_refuted.

(** A parameter of a test that is not an integer is read as 0, one that does not fit in an int
    is cut, and parameters after the third are ignored. *)
Theorem C64_integer_refuted :
  on_control_socket_fd (Some (txt "testmode=utc_offset,abc")) = Some [TestMode 6 0 0 0] /\
  on_control_socket_fd (Some (txt "testmode=utc_offset,4294967297")) = Some [TestMode 6 1 0 0] /\
  on_control_socket_fd (Some (txt "testmode=utc_offset,1,2,3,junk")) = Some [TestMode 6 1 2 3].
Proof. split; [|split]; vm_compute; reflexivity. Qed.
Print Assumptions C64_integer_refuted.

(** The name of an instance is cut to 63 bytes, and a datagram to 127, without a word: the
    instance selected may be another one, and the end of a command may be lost. *)
Theorem C64_long_refuted : exists n n' t,
  n <> n' /\ on_control_socket_fd (Some (txt "selectinstance=" ++ n)) = Some [SelectInstance n'] /\
  List.length t = 128%nat /\ asks t (TestMode 6 21 0 0) /\ on_control_socket_fd (Some t) = Some [TestMode 6 2 0 0].
Proof.
  exists (repeat 97 64), (repeat 97 63), (txt "testmode=utc_offset," ++ repeat 48 105 ++ txt "025").
  split; [intros E; apply (f_equal (@List.length Z)) in E; discriminate E|].
  split; [vm_compute; reflexivity|]. split; [reflexivity|]. split; [|vm_compute; reflexivity].
  apply (asks_test (txt "utc_offset") 6 [repeat 48 105 ++ txt "025"] [21]).
  - cbn; tauto.
  - cbn; lia.
  - constructor; [|constructor]. exists [], 1, (repeat 48 105 ++ txt "025"), (repeat 0 105 ++ [2; 5]), 8.
    split; [reflexivity|]. split; [left; split; reflexivity|]. split; [vm_compute; reflexivity|]. right; left. split; [reflexivity|].
    exists (repeat 48 105 ++ txt "25"). split; [reflexivity|]. apply Forall2_app.
    + generalize 105%nat. intros k. induction k; cbn [repeat]; constructor; [split; [left; lia|lia]|assumption].
    + constructor; [split; [left; cbn; lia|lia]|]. constructor; [split; [left; cbn; lia|lia]|constructor].
  - intros z [<-|[]]. unfold int_range. lia.
Qed.
Print Assumptions C64_long_refuted.

(** A name of 63 bytes is copied without a zero after it, into a message that has been used
    before: what is selected depends on the previous use. *)
Theorem C64_name63_refuted : exists n l, List.length n = 63%nat /\ In n l /\
  select_instance true l [] n <> None /\ select_instance true l (txt "s") n = None.
Proof.
  exists (repeat 97 63), [repeat 97 63]. split; [reflexivity|]. split; [left; reflexivity|].
  split; [vm_compute; discriminate|vm_compute; reflexivity].
Qed.
Print Assumptions C64_name63_refuted.

(** The test mode local_leap_second_cancel stops the daemon with a failed assertion, whatever
    its parameters. *)
Theorem C64_cancel_refuted : forall instances p0 p1 p2,
  In (txt "local_leap_second_cancel", 5) tests /\ configure_test_mode true instances 5 p0 p1 p2 = None.
Proof. intros. split; [cbn; tauto|reflexivity]. Qed.
Print Assumptions C64_cancel_refuted.

(** Each dumptables keeps a message of the pool for ever: after 255 of them tables are no
    longer dumped, and a pid_adjust never returns. *)
Theorem C64_dump_refuted : forall kp ki kd types r,
  (exists l, pool_run POOL (repeat DumpTables 256) = Some (1%nat, l) /\ nth_error l 254 = Some true /\ nth_error l 255 = Some false) /\
  pool_run POOL (repeat DumpTables 254 ++ [PidAdjust kp ki kd types r]) = None.
Proof.
  intros. split; [eexists; split; [vm_compute; reflexivity|split; reflexivity]|]. vm_compute. reflexivity.
Qed.
Print Assumptions C64_dump_refuted.

(** A pid_adjust for the local servos keeps two messages: after 127 of them the next one never
    returns, and an exit command sent after it is not obeyed. *)
Theorem C64_leak_refuted : forall kp ki kd r,
  (exists l, pool_run POOL (repeat (PidAdjust kp ki kd 1 r) 127) = Some (2%nat, l)) /\
  pool_run POOL (repeat (PidAdjust kp ki kd 1 r) 128 ++ [Exit]) = None.
Proof. intros. split; [eexists; vm_compute; reflexivity|vm_compute; reflexivity]. Qed.
Print Assumptions C64_leak_refuted.

(** When opening fails for any reason but memory, main closes a socket whose path has been
    freed: it is used to unlink a file, and freed again. *)
Theorem C64_open_refuted : forall q, q_memory q = true -> ~ works q -> daemon q = None.
Proof.
  intros q M W. unfold daemon, socket_open. rewrite M. cbn [negb].
  destruct (q_path q) as [p|] eqn:P; [|reflexivity].
  destruct (108 <=? List.length p)%nat eqn:L; [reflexivity|].
  destruct (q_socket q) eqn:S; [|reflexivity]. destruct (q_bind q) eqn:B; [|reflexivity].
  exfalso. apply W. repeat split; try assumption. exists p. split; [exact P|]. apply Nat.leb_gt in L. exact L.
Qed.
Print Assumptions C64_open_refuted.

Example C64_open_refuted_ex : daemon (mkOpening (Some (txt "/run/x")) 98 true true false) = None.
Proof. reflexivity. Qed.
