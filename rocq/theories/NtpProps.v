(** C67: the NTP synchronisation module. *)
Require Import ZArith QArith Qabs List Bool Lia.
Require Import Verif.FilterModel Verif.StatsSpec Verif.StatsModel Verif.StatsProps.
Require Import Verif.Base Verif.TimeSpec Verif.TimeModel Verif.QLib Verif.ListLib Verif.Nm6Spec Verif.NtpSpec Verif.NtpModel Verif.NtpProof Verif.NtpProof2 Verif.NtpProof3 Verif.NtpProof4 Verif.NtpProof5 Verif.NtpProof6.
Import ListNotations.
Open Scope Z_scope.

(** ** Concrete histories *)
Definition pad (l : list npeer) : list npeer := l ++ repeat zero_peer (32 - List.length l).
Definition P (addr recv : Z) (off : Q) (sel cand : bool) : npeer := mkPeer (Some addr) None 3 cand off (1#2) recv recv false sel false.
Definition good (l : list npeer) : peer_ans := mkPA 0 (List.length l) (pad l).
Definition bad (rc : Z) : peer_ans := mkPA rc 0 (pad []).
Definition score0 (_ : Q) : Z := 7.
Definition T (s : Z) (sys : sys_ans) (ps : peer_ans) : op := Tick (mkTick (mkTs s 0 0) sys ps 0 (Some (mkTs s 0 0)) score0).
Definition TC (s : Z) (sys : sys_ans) (ps : peer_ans) (ctl : Z) : op := Tick (mkTick (mkTs s 0 0) sys ps ctl (Some (mkTs s 0 0)) score0).
Definition ex_conf : conf := mkConf true true false true false 1 3 (100 # 1).
Definition ex_boot : boot := mkBoot 0 (0, Some true) (good [P 5 1 (10#1) true true]) 0 score0.
Definition t0 : ts := mkTs 100 0 0.
Definition ok_sys : sys_ans := (0, Some false).
(** Two polls with a new measurement each, then the peer is lost, then the daemon is. *)
Definition ex_ops : list op :=
  [T 100 ok_sys (bad 0); T 100 (0, None) (good [P 5 2 (20#1) true true; P 6 9 (33#1) false true]); LogStats; T 101 ok_sys (bad 0);
   T 101 ok_sys (bad 0); T 101 ok_sys (good [P 5 3 (30#1) true true]); GetStatus; SaveState; T 103 ok_sys (bad 0); T 103 ok_sys (bad 0);
   T 103 ok_sys (good [P 6 4 (3#1) false true]); GetStatus; T 104 ok_sys (bad 0); T 104 (5, None) (bad 0); GetStatus].
Definition log_of (g : conf) (b : boot) (l : list op) : list (op * list out) :=
  match live g b t0 l with Some (inr (_, _, log)) => log | _ => [] end.
Definition first_of (g : conf) (b : boot) (l : list op) : list out :=
  match live g b t0 l with Some (inr (_, o, _)) => o | _ => [] end.
Definition final_of (g : conf) (b : boot) (l : list op) : nm :=
  match live g b t0 l with Some (inr (m, _, _)) => m | _ => mkM 0 QSys t0 false zero_state false (mkConv 0 0 0 0 0) end.
Definition lives (g : conf) (b : boot) (l : list op) : bool := match live g b t0 l with Some (inr _) => true | _ => false end.
Lemma lives_live : forall g b l, lives g b l = true -> live g b t0 l = Some (inr (final_of g b l, first_of g b l, log_of g b l)).
Proof. intros g b l H. unfold lives, final_of, first_of, log_of in *. destruct (live g b t0 l) as [[e|[[m o] log]]|]; try discriminate. reflexivity. Qed.
Ltac sane_tac := unfold sane, normal; cbn; lia.
Ltac op_tac := repeat first [apply Forall_nil | apply Forall_cons; [cbn [op_ok T TC]; first [exact Logic.I | split; [split; [reflexivity|cbn; lia]|split; [sane_tac|sane_tac]]]|]].
Lemma ex_boot_ok : boot_ok ex_boot. Proof. split; [reflexivity|cbn; lia]. Qed.
Lemma ex_ops_ok : Forall op_ok ex_ops. Proof. unfold ex_ops. op_tac. Qed.
Definition replies (l : list (op * list out)) : list status := flat_map (fun e => flat_map (fun o => match o with Reply s => [s] | _ => [] end) (snd e)) l.
Definition tolds (l : list (op * list out)) : list status := flat_map (fun e => flat_map (fun o => match o with Told s => [s] | _ => [] end) (snd e)) l.

(** ** What is said is true *)
(** In every history from every start, with any answers of the daemon, everything the module says agrees with what
    the daemon last answered: the state is the documented one; the offset, accuracy and steps are those of the peer the daemon
    follows if the last question was answered, and none if it follows none; statistics are only of a followed peer, and of
    the measurement known before the event (long term statistics: after it); the commands sent are exactly those
    expected. *)
Theorem C67_truthful : forall g b now l m o log p e q, boot_ok b -> Forall op_ok l ->
  live g b now l = Some (inr (m, o, log)) -> log = p ++ e :: q ->
  let v := seen (first_view b) p in
  Forall (truthful (g_active g) v (see v e) (flags_after (g_active g) 2 p) (belief_after (first_belief g b) p)) (snd e) /\
  commands (snd e) = expects (g_active g) (flags_after (g_active g) 2 p) (belief_after (first_belief g b) p) e.
Proof.
  intros g b now l m o log p e q BO F H E v. destruct (events _ _ _ _ _ _ _ _ _ _ BO F H E) as (m1 & m2 & l1 & l2 & _ & _ & _ & _ & _ & A & B & _).
  split; [|exact B]. unfold seen in A at 2. rewrite fold_left_app in A. exact A.
Qed.
Print Assumptions C67_truthful.
Example C67_truthful_ex :
  live ex_conf ex_boot t0 ex_ops = Some (inr (final_of ex_conf ex_boot ex_ops, first_of ex_conf ex_boot ex_ops, log_of ex_conf ex_boot ex_ops)) /\
  first_of ex_conf ex_boot ex_ops = [AskSys; AskPeers; Command false; Report (10#1) false false; Told (mkStatus SLAVE false false (10#1) (Some (1#2)) 3 true 7); History (Some (10#1)) false] /\
  map s_state (replies (log_of ex_conf ex_boot ex_ops)) = [SLAVE; SELECTION; FAULTY] /\
  map s_state (tolds (log_of ex_conf ex_boot ex_ops)) = [SLAVE; SLAVE; SELECTION; FAULTY].
Proof. split; [apply lives_live; vm_compute; reflexivity|]. vm_compute. repeat split; reflexivity. Qed.

(** The reply to a request for the status. *)
Theorem C67_state : forall g b now l m o log, boot_ok b -> Forall op_ok l ->
  live g b now (l ++ [GetStatus]) = Some (inr (m, o, log)) ->
  exists p s, log = p ++ [(GetStatus, [Reply s])] /\
    let v := seen (first_view b) p in
    s_state s = documented (v_rc v) (v_was v) (v_peers v) /\ s_remote s = st_eqb (s_state s) SLAVE /\
    (s_state s <> SLAVE -> s_acc s = None /\ s_steps s = 0) /\
    (v_rc v = 0 -> of_chosen (s_state s) (v_peers v) (s_offset s) (s_acc s) (s_steps s)).
Proof.
  intros g b now l m o log BO F H. destruct (start_inv2 _ _ _ _ _ _ _ BO H) as (m0 & I0 & R & _).
  destruct (run_app _ _ _ _ _ _ R) as (m1 & p & q & R1 & R2 & E). cbn in R2. injection R2 as <- <-.
  assert (F' : Forall op_ok (l ++ [GetStatus])) by (apply Forall_app; split; [exact F|repeat constructor]).
  destruct (C67_truthful g b now _ m1 o log p _ [] BO F' H E) as [A _]. cbn [snd] in A. inversion A as [|? ? A1 _]; subst. exists p, (reply_of (m_st m1)). split; [reflexivity|]. exact A1.
Qed.
Print Assumptions C67_state.
Example C67_state_ex : exists m o log, live ex_conf ex_boot t0 (firstn 6 ex_ops ++ [GetStatus]) = Some (inr (m, o, log)) /\
  replies log = [mkStatus SLAVE false false (30#1) (Some (1#2)) 3 true 7].
Proof. eexists _, _, _. split; [apply lives_live; vm_compute; reflexivity|vm_compute; reflexivity]. Qed.

(** The documented offset of an instance that is not a slave is zero; after a failed question the old offset stays in the
    status, and the status message also keeps the old accuracy and steps. *)
Theorem C67_stale_refuted : exists l m o log,
  Forall op_ok l /\ live ex_conf ex_boot t0 l = Some (inr (m, o, log)) /\
  replies log = [mkStatus FAULTY false false (10#1) None 0 false 7] /\
  tolds log = [mkStatus FAULTY false false (10#1) (Some (1#2)) 3 false 7].
Proof.
  exists [T 100 (5, None) (bad 0); GetStatus]. eexists _, _, _. split; [op_tac|]. split; [apply lives_live; vm_compute; reflexivity|]. vm_compute. split; reflexivity.
Qed.
Print Assumptions C67_stale_refuted.

(** ** What the engine was told *)
(** The engine always knows what it would be answered: after every event the last status message of an active instance
    agrees with the reply it would get, in state, offset, whether there is a remote clock, and for a slave in accuracy and
    steps. *)
Theorem C67_told : forall g b now l m o log, boot_ok b -> Forall op_ok l -> g_active g = true ->
  live g b now (l ++ [GetStatus]) = Some (inr (m, o, log)) ->
  exists p s t, log = p ++ [(GetStatus, [Reply s])] /\ told None (o ++ concat (map snd p)) = Some t /\
    s_state t = s_state s /\ (s_offset t == s_offset s)%Q /\ s_remote t = s_remote s /\
    (s_state s = SLAVE -> match s_acc t, s_acc s with Some x, Some y => (x == y)%Q | None, None => True | _, _ => False end /\ s_steps t = s_steps s).
Proof.
  intros g b now l m o log BO F GA H. destruct (live_told _ _ _ _ _ _ _ BO GA H) as (t & T & A & _).
  destruct (start_inv2 _ _ _ _ _ _ _ BO H) as (m0 & I0 & R & _).
  destruct (run_app _ _ _ _ _ _ R) as (m1 & p & q & R1 & R2 & ->). cbn in R2. injection R2 as <- <-.
  exists p, (reply_of (m_st m1)), t. split; [reflexivity|]. split.
  - rewrite map_app, concat_app, app_assoc, told_app in T. exact T.
  - destruct A as (A1 & A2 & A3 & A4 & A5). unfold reply_of. cbn [s_state s_offset s_remote s_acc s_steps]. split; [exact A1|]. split; [exact A2|]. split; [exact A5|].
    intros S. rewrite S. cbn [st_eqb]. auto.
Qed.
Print Assumptions C67_told.
Example C67_told_ex : exists m o log p, live ex_conf ex_boot t0 (firstn 11 ex_ops ++ [GetStatus]) = Some (inr (m, o, log)) /\
  log = p ++ [(GetStatus, [Reply (mkStatus SELECTION false false 0 None 0 false 7)])] /\
  told None (o ++ concat (map snd p)) = Some (mkStatus SELECTION false false 0 None 0 false 7).
Proof.
  eexists _, _, _, (firstn 11 (log_of ex_conf ex_boot (firstn 11 ex_ops ++ [GetStatus]))). split; [apply lives_live; vm_compute; reflexivity|].
  split; vm_compute; reflexivity.
Qed.

(** A command at a tick: if the daemon obeys, no constraint is left in the next status; if it refuses to take the clock, the
    status says that the clock cannot be controlled, and if it refuses to give it up, that it must be. *)
Theorem C67_refused : forall g b now l k m o log want, boot_ok b -> live g b now (l ++ [Tick k; GetStatus]) = Some (inr (m, o, log)) ->
  exists p outs s, log = p ++ [(Tick k, outs); (GetStatus, [Reply s])] /\
  (In (Command want) outs ->
    (k_ctl k = 0 -> s_must s = false /\ s_cannot s = false) /\
    (k_ctl k <> 0 -> if want then s_cannot s = true else s_must s = true)).
Proof.
  intros g b now l k m o log want BO H. destruct (start_inv2 _ _ _ _ _ _ _ BO H) as (m0 & I0 & R & _).
  destruct (run_app _ _ _ _ _ _ R) as (m1 & p & q & R1 & R2 & ->). cbn [run] in R2.
  destruct (step g m1 (Tick k)) as [[m2 outs]|] eqn:ST; cbn [bind fst snd] in R2; [|discriminate]. cbn [step bind fst snd] in R2. injection R2 as <- <-.
  exists p, outs, (reply_of (m_st m2)). split; [reflexivity|]. intro IC. cbn [step] in ST.
  assert (Q : forall ask s rc q, ask <> Command want -> qrel g m1 k ask s rc q m2 outs ->
    (k_ctl k = 0 -> n_must (m_st m2) = false /\ n_cannot (m_st m2) = false) /\ (k_ctl k <> 0 -> if want then n_cannot (m_st m2) = true else n_must (m_st m2) = true)).
  { intros ask s rc q NA (n & n2 & o2 & o3 & o4 & o5 & u' & c & d & P & CC & U & O3 & (a & CA & O4) & CV & M & HI & O).
    assert (RT : forall x, rt_stats (g_active g) m1 = Some x -> ~ In (Command want) x).
    { intros x X. apply rt_outs in X. destruct X as [->|(y & _ & _ & _ & ->)]; [intros []|intros [Z|[]]; discriminate]. }
    assert (CL : forall x, clustering m1 = Some x -> ~ In (Command want) x).
    { intros x X. apply cl_outs in X. destruct X as [->|(y & _ & ->)]; [intros []|intros [Z|[]]; discriminate]. }
    assert (I2 : In (Command want) o2).
    { rewrite O in IC. destruct IC as [X|IC]; [congruence|]. apply in_app_or in IC. destruct IC as [X|IC]; [exact X|]. exfalso.
      apply in_app_or in IC. destruct IC as [X|IC].
      - destruct O3 as [->|(x & y & X1 & Y1 & ->)]; [destruct X|]. apply in_app_or in X. destruct X as [X|X]; [exact (RT _ X1 X)|exact (CL _ Y1 X)].
      - apply in_app_or in IC. destruct IC as [X|X].
        + rewrite O4 in X. apply in_app_or in X. destruct X as [X|X]; [exact (CL _ CA X)|]. destruct (g_active g && differs n2 (m_st m1)); [destruct X as [X|[]]; discriminate|destruct X].
        + apply history_outs in HI. destruct HI as [[_ ->]|(y & _ & _ & ->)]; destruct X as [X|[]]; discriminate. }
    subst m2. cbn [m_st]. destruct (negb (Bool.eqb (n_cc n) (n_cc (m_st m1)))); [|injection CC as _ ->; destruct I2].
    unfold control_change in CC. destruct (g_active g && negb (st_eqb (n_state n) DISABLED)); [|injection CC as _ ->; destruct I2].
    injection CC as -> ->. destruct I2 as [X|[]]. injection X as ->. destruct (k_ctl k =? 0) eqn:E.
    - apply Z.eqb_eq in E. split; [intros _; split; reflexivity|intros; contradiction].
    - apply Z.eqb_neq in E. split; [intros; contradiction|]. intros _. destruct want; reflexivity. }
  change (s_must (reply_of (m_st m2))) with (n_must (m_st m2)). change (s_cannot (reply_of (m_st m2))) with (n_cannot (m_st m2)).
  destruct (timer_cases _ _ _ _ _ ST) as [(_ & X)|[(_ & X)|(_ & -> & _)]]; [eapply Q; [|exact X]; discriminate|eapply Q; [|exact X]; discriminate|destruct IC].
Qed.
Print Assumptions C67_refused.
Example C67_refused_ex : exists m o log, live ex_conf ex_boot t0 ([Control 5 5 0] ++ [TC 100 (0, Some false) (bad 0) 13; GetStatus]) = Some (inr (m, o, log)) /\
  map (fun e => filter (fun x => match x with Command _ => true | _ => false end) (snd e)) log = [[Command true]; [Command true]; []] /\
  map (fun e => match snd e with [Reply s] => Some (s_must s, s_cannot s) | _ => None end) log = [None; None; Some (false, true)].
Proof. eexists _, _, _. split; [apply lives_live; vm_compute; reflexivity|]. split; vm_compute; reflexivity. Qed.

(** Full statement: the last status message also has the constraints of the reply.  It holds while control of the clock is
    neither granted nor withdrawn; see [C67_told_refuted]. *)
Theorem C67_told_constraints_partial : forall g b now l m o log, boot_ok b -> Forall op_ok l -> g_active g = true -> Forall quiet l ->
  live g b now (l ++ [GetStatus]) = Some (inr (m, o, log)) ->
  exists p s t, log = p ++ [(GetStatus, [Reply s])] /\ told None (o ++ concat (map snd p)) = Some t /\
    s_must t = s_must s /\ s_cannot t = s_cannot s.
Proof.
  intros g b now l m o log BO F GA QU H. destruct (live_told _ _ _ _ _ _ _ BO GA H) as (t & T & _ & A).
  destruct (start_inv2 _ _ _ _ _ _ _ BO H) as (m0 & I0 & R & _).
  destruct (run_app _ _ _ _ _ _ R) as (m1 & p & q & R1 & R2 & ->). cbn in R2. injection R2 as <- <-.
  exists p, (reply_of (m_st m1)), t. split; [reflexivity|]. split.
  - rewrite map_app, concat_app, app_assoc, told_app in T. exact T.
  - destruct A as (A1 & A2); [apply Forall_app; split; [exact QU|repeat constructor]|]. auto.
Qed.
Print Assumptions C67_told_constraints_partial.
(** The daemon refuses the command at the start and conflicts are ignored. *)
Definition ex_conf_ign : conf := mkConf true true true true false 1 3 (100 # 1).
Definition ex_boot_ref : boot := mkBoot 0 (0, Some true) (good [P 5 1 (10#1) true true]) 1 score0.
Example C67_told_constraints_partial_ex : exists m o log, Forall quiet ex_ops /\ live ex_conf_ign ex_boot_ref t0 (ex_ops ++ [GetStatus]) = Some (inr (m, o, log)) /\
  map s_must (tolds log) = [false; false; false; false; false] /\ In (Told (mkStatus SLAVE true false (10#1) (Some (1#2)) 3 true 7)) o.
Proof.
  eexists _, _, _. split; [unfold ex_ops; repeat (apply Forall_cons; [exact Logic.I|]); constructor|]. split; [apply lives_live; vm_compute; reflexivity|].
  split; [vm_compute; reflexivity|]. vm_compute. tauto.
Qed.
(** Control is granted, the daemon refuses: the instance cannot be selected any more, and the engine is never told, though it
    is polled for ever. *)
Theorem C67_told_refuted : exists l m o log, Forall op_ok l /\ live ex_conf ex_boot t0 l = Some (inr (m, o, log)) /\
  replies log = [mkStatus SLAVE false true (10#1) (Some (1#2)) 3 true 7] /\ tolds log = [] /\
  told None o = Some (mkStatus SLAVE false false (10#1) (Some (1#2)) 3 true 7).
Proof.
  exists [Control 4 4 1; T 100 ok_sys (bad 0); T 100 ok_sys (good [P 5 2 (10#1) true true]); T 102 ok_sys (bad 0); T 102 ok_sys (bad 0); T 102 ok_sys (good [P 5 3 (10#1) true true]); GetStatus].
  eexists _, _, _. split; [op_tac|]. split; [apply lives_live; vm_compute; reflexivity|]. vm_compute. repeat split; reflexivity.
Qed.
Print Assumptions C67_told_refuted.

(** ** Commands *)
(** A daemon that is only watched is never commanded.  An instance sends a command when control is granted or withdrawn,
    and never another value than the one now wanted. *)
Theorem C67_commands : forall g b now l m o log p e q, boot_ok b -> Forall op_ok l ->
  live g b now l = Some (inr (m, o, log)) -> log = p ++ e :: q ->
  (g_active g = false -> commands (snd e) = []) /\
  (g_active g = true -> forall mask flags c, fst e = Control mask flags c ->
     let f := flags_after true 2 p in let f' := new_flags f mask flags in
     commands (snd e) = if Bool.eqb (wants f') (wants f) then [] else [wants f']) /\
  (forall k, fst e = Tick k -> commands (snd e) = [] \/ commands (snd e) = [wants (flags_after (g_active g) 2 p)]) /\
  (match fst e with Tick _ | Control _ _ _ => True | _ => commands (snd e) = [] end).
Proof.
  intros g b now l m o log p e q BO F H E. destruct (C67_truthful _ _ _ _ _ _ _ _ _ _ BO F H E) as [_ C]. unfold expects in C.
  split; [intros GA; rewrite GA in C; exact C|]. split; [intros GA mask flags c X; rewrite GA, X in C; exact C|].
  destruct (negb (g_active g)); rewrite C; [split; [auto|destruct (fst e); auto]|]. split.
  - intros k X. rewrite X. destruct (negb (Bool.eqb _ _) && negb (gone e)); auto.
  - destruct (fst e); auto.
Qed.
Print Assumptions C67_commands.
Example C67_commands_ex : exists m o log, live ex_conf ex_boot t0 [Control 5 5 0; T 100 (0, Some false) (bad 0); Control 4 0 0] = Some (inr (m, o, log)) /\
  map (fun e => commands (snd e)) log = [[true]; [true]; [false]].
Proof. eexists _, _, _. split; [apply lives_live; vm_compute; reflexivity|]. vm_compute. reflexivity. Qed.

(** ** Constraints *)
(** Full statement: the constraints of the status say what the daemon does: if it disciplines the clock although that is not wanted
    the instance must be selected, if it does not although that is wanted it cannot be selected, and neither is said
    otherwise.  It holds if the belief at the start is right, every question is answered, and truly if the protocol tells;
    see [C67_lost_refuted] and [C67_retry_refuted]. *)
Theorem C67_constraints_partial : forall g b now l m o log, boot_ok b -> Forall op_ok l -> g_active g = true -> b_create b = 0 -> fst (b_sys b) = 0 ->
  live g b now (l ++ [GetStatus]) = Some (inr (m, o, log)) -> honest_all (first_belief g b) log ->
  exists p s, log = p ++ [(GetStatus, [Reply s])] /\
    let d := truth_after (first_belief g b) p in let w := wants (flags_after true 2 p) in
    (d = true -> w = false -> s_must s = true) /\ (d = false -> w = true -> s_cannot s = true) /\
    (s_must s = true -> d = true) /\ (s_cannot s = true -> d = false).
Proof.
  intros g b now l m o log BO F GA BC BS H HO. destruct (start_inv2 _ _ _ _ _ _ _ BO H) as (m0 & I0 & R & _ & _ & _ & _ & o1 & o2 & _ & CF & _).
  destruct (run_app _ _ _ _ _ _ R) as (m1 & p & q & R1 & R2 & ->). cbn in R2. injection R2 as <- <-.
  exists p, (reply_of (m_st m1)). split; [reflexivity|].
  destruct (configure_con _ _ _ _ GA BC BS CF) as [X Y]. pose proof I0 as (_ & FL & CC & _).
  assert (C0 : con m0 2 (first_belief g b)).
  { unfold con. rewrite X, Y. split; [exact CC|]. split; [exact FL|]. repeat split; intros; try congruence; discriminate. }
  assert (HP : honest_all (first_belief g b) p).
  { clear - HO. revert HO. generalize (first_belief g b). induction p as [|e p IH]; intros d; [exact (fun _ => Logic.I)|]. cbn [app honest_all]. intros [A B]. split; [exact A|]. apply IH. exact B. }
  destruct (run_con _ _ _ _ _ _ _ _ _ GA I0 F C0 R1 HP) as (_ & _ & A & B & C & D). cbn zeta. unfold reply_of. cbn [s_must s_cannot]. auto.
Qed.
Print Assumptions C67_constraints_partial.
Definition ex_hon : list op := [Control 4 4 1; T 100 ok_sys (bad 0); T 100 ok_sys (good [P 5 2 (10#1) true true]); T 102 ok_sys (bad 0); T 102 ok_sys (bad 0); GetStatus].
Example C67_constraints_partial_ex : exists m o log, live ex_conf ex_boot t0 (ex_hon ++ [GetStatus]) = Some (inr (m, o, log)) /\ honest_all (first_belief ex_conf ex_boot) log /\
  map s_cannot (replies log) = [true; true].
Proof.
  eexists _, _, _. split; [apply lives_live; vm_compute; reflexivity|]. split; [|vm_compute; reflexivity]. vm_compute. repeat split; auto; try discriminate.
Qed.

(** A daemon in mode 6 that refuses to give up the clock: it must be selected.  Two questions go unanswered; from then on the
    instance says that it need not be selected, though the daemon goes on disciplining the clock. *)
Definition ex_boot_m6 : boot := mkBoot 0 (0, None) (good [P 5 1 (10#1) true true]) 1 score0.
Theorem C67_lost_refuted : exists l m o log, Forall op_ok l /\ live ex_conf_ign ex_boot_m6 t0 l = Some (inr (m, o, log)) /\
  truth_after true log = true /\ wants (flags_after true 2 log) = false /\ map s_must (replies log) = [true; false] /\ map s_state (replies log) = [SLAVE; SLAVE].
Proof.
  exists [GetStatus; TC 100 (5, None) (bad 0) 1; TC 100 (0, None) (bad 5) 1; T 102 (0, None) (bad 0); T 102 (0, None) (bad 0); T 102 (0, None) (good [P 5 3 (10#1) true true]); GetStatus].
  eexists _, _, _. split; [op_tac|]. split; [apply lives_live; vm_compute; reflexivity|]. vm_compute. repeat split; reflexivity.
Qed.
Print Assumptions C67_lost_refuted.

(** A refused command is not tried again as long as the daemon does what is believed. *)
Theorem C67_retry_refuted : forall n, exists l m o log, Forall op_ok l /\ live ex_conf ex_boot t0 l = Some (inr (m, o, log)) /\
  wants (flags_after true 2 log) = true /\ truth_after false log = false /\ commands (concat (map snd log)) = [true] /\ (n <= List.length l)%nat.
Proof.
  intros n. set (k := mkTick (mkTs 50 0 0) ok_sys (good [P 5 1 (10#1) true true]) 0 (Some (mkTs 50 0 0)) score0).
  set (l0 := [Control 4 4 1; T 100 ok_sys (bad 0); T 100 ok_sys (good [P 5 2 (10#1) true true])]).
  set (m := final_of ex_conf ex_boot l0). set (o := first_of ex_conf ex_boot l0). set (log := log_of ex_conf ex_boot l0).
  assert (L : live ex_conf ex_boot t0 l0 = Some (inr (m, o, log))) by (apply lives_live; vm_compute; reflexivity).
  assert (S : step ex_conf m (Tick k) = Some (m, [])) by (vm_compute; reflexivity).
  assert (V1 : wants (flags_after true 2 log) = true) by (vm_compute; reflexivity).
  assert (V2 : truth_after false log = false) by (vm_compute; reflexivity).
  assert (V3 : commands (concat (map snd log)) = [true]) by (vm_compute; reflexivity).
  clearbody m o log.
  assert (RR : forall j, run ex_conf m (repeat (Tick k) j) = Some (m, repeat (Tick k, []) j)).
  { induction j as [|j IH]; [reflexivity|]. cbn [repeat run]. rewrite S. cbn [bind fst snd]. rewrite IH. reflexivity. }
  exists (l0 ++ repeat (Tick k) n), m, o, (log ++ repeat (Tick k, []) n).
  assert (RC : forall (j : nat) (f : Z), flags_after true f (repeat (Tick k, []) j) = f) by (induction j as [|j IH]; intros f; [reflexivity|apply IH]).
  assert (TC0 : forall (j : nat) (d : bool), truth_after d (repeat (Tick k, []) j) = d) by (induction j as [|j IH]; intros d; [reflexivity|apply IH]).
  assert (CC : forall j : nat, commands (concat (map snd (repeat (Tick k, @nil out) j))) = []) by (induction j as [|j IH]; [reflexivity|exact IH]).
  split; [apply Forall_app; split; [unfold l0; op_tac|]; apply Forall_forall; intros x X; apply repeat_spec in X; subst x; split; [split; [reflexivity|cbn; lia]|split; sane_tac]|].
  split.
  - exact (live_join _ _ _ _ _ _ _ _ _ _ L (RR n)).
  - unfold flags_after, truth_after in *. rewrite !fold_left_app, RC, TC0, map_app, concat_app, commands_app, CC, app_nil_r. rewrite app_length, repeat_length. split; [exact V1|]. split; [exact V2|]. split; [exact V3|]. lia.
Qed.
Print Assumptions C67_retry_refuted.

(** ** The clock is stepped *)
(** After a step of the clock the old measurement is not used: as long as every answer shows a measurement that can be told from others, no question
    makes the instance a slave again. *)
Theorem C67_step_partial : forall g b now l m o log p s0 q1 e q2, boot_ok b -> Forall op_ok l -> live g b now l = Some (inr (m, o, log)) ->
  log = p ++ (StepClock, s0) :: q1 ++ e :: q2 -> ident (v_peers (seen (first_view b) p)) <> None -> Forall identified (q1 ++ [e]) -> asks e = true ->
  (forall s, In (Told s) (snd e) -> s_state s <> SLAVE) /\ (forall x y, In (History x y) (snd e) -> x = None) /\
  (forall s, q2 = [] -> forall m' o' log', live g b now (l ++ [GetStatus]) = Some (inr (m', o', log')) -> In (GetStatus, [Reply s]) log' -> log' = log ++ [(GetStatus, [Reply s])] -> s_state s <> SLAVE).
Proof.
  intros g b now l m o log p s0 q1 e q2 BO F H E N ID A.
  set (v1 := see (seen (first_view b) p) (StepClock, s0)). apply Forall_app in ID. destruct ID as [ID1 ID2]. inversion ID2 as [|? ? IDE _]; subst x l0.
  destruct (doubt_run q1 v1 eq_refl N ID1) as [D1 D2]. destruct (doubt_step _ e D1 D2 IDE) as (D3 & D4 & D5). specialize (D5 A).
  assert (E' : log = (p ++ (StepClock, s0) :: q1) ++ e :: q2) by (rewrite E, <- app_assoc; reflexivity).
  destruct (C67_truthful _ _ _ _ _ _ _ _ _ _ BO F H E') as [TR _].
  assert (SV : seen (first_view b) (p ++ (StepClock, s0) :: q1) = seen v1 q1) by (unfold seen; rewrite fold_left_app; reflexivity). rewrite SV in TR.
  split; [|split].
  - intros s X. pose proof (proj1 (Forall_forall _ _) TR _ X) as Y. cbn [truthful] in Y. destruct Y as (_ & -> & _). exact D5.
  - intros x y X. pose proof (proj1 (Forall_forall _ _) TR _ X) as Y. destruct x as [off|]; [|reflexivity]. destruct Y as (Y & _). contradiction.
  - intros s -> m' o' log' H' _ EL. assert (F' : Forall op_ok (l ++ [GetStatus])) by (apply Forall_app; split; [exact F|repeat constructor]).
    destruct (C67_truthful _ _ _ _ _ _ _ _ _ _ BO F' H' EL) as [TR' _]. inversion TR' as [|? ? T1 _]; subst x l0. destruct T1 as (-> & _).
    rewrite E'. unfold seen. rewrite fold_left_app. cbn [fold_left]. fold (seen (first_view b) (p ++ (StepClock, s0) :: q1)). rewrite SV. exact D5.
Qed.
Print Assumptions C67_step_partial.
Definition ex_step : list op :=
  [T 100 ok_sys (bad 0); T 100 ok_sys (good [P 5 2 (20#1) true true]); StepClock; T 101 ok_sys (bad 0); T 101 ok_sys (bad 0); T 101 ok_sys (good [P 5 3 (30#1) true true]);
   T 102 ok_sys (bad 0); T 102 ok_sys (bad 0); T 102 ok_sys (good [P 5 90 (30#1) true true]); GetStatus].
(** The same history refutes recovery: the daemon has since taken many more packets from the peer, the offset is fresh, and
    the instance does not follow it. *)
Example C67_step_partial_ex : exists m o log p s0 q1 e q2, live ex_conf ex_boot t0 ex_step = Some (inr (m, o, log)) /\
  log = p ++ (StepClock, s0) :: q1 ++ e :: q2 /\ ident (v_peers (seen (first_view ex_boot) p)) = Some (5, 2) /\ Forall identified (q1 ++ [e]) /\ asks e = true /\
  map s_state (replies log) = [SELECTION].
Proof.
  set (log := log_of ex_conf ex_boot ex_step). exists (final_of ex_conf ex_boot ex_step), (first_of ex_conf ex_boot ex_step), log, (firstn 2 log), [], (firstn 5 (skipn 3 log)), (nth 8 log (GetStatus, [])), (skipn 9 log).
  split; [apply lives_live; vm_compute; reflexivity|]. split; [vm_compute; reflexivity|]. split; [vm_compute; reflexivity|]. split; [|split; vm_compute; reflexivity].
  vm_compute. repeat (apply Forall_cons; [cbv; intuition discriminate|]). constructor.
Qed.
(** Losing the peer for one answer ends the doubt; then the measurement from before the step, the same packet count, is used. *)
Theorem C67_step_refuted : exists l m o log, Forall op_ok l /\ live ex_conf ex_boot t0 l = Some (inr (m, o, log)) /\
  replies log = [mkStatus SLAVE false false (20#1) (Some (1#2)) 3 true 7; mkStatus SLAVE false false (20#1) (Some (1#2)) 3 true 7] /\
  filter (fun o => match o with StepClock => true | _ => false end) l = [StepClock].
Proof.
  exists [T 100 ok_sys (bad 0); T 100 ok_sys (good [P 5 2 (20#1) true true]); GetStatus; StepClock; T 102 ok_sys (bad 0); T 102 ok_sys (bad 0); T 102 ok_sys (good []);
          T 103 ok_sys (bad 0); T 103 ok_sys (bad 0); T 103 ok_sys (good [P 5 2 (20#1) true true]); GetStatus].
  eexists _, _, _. split; [op_tac|]. split; [apply lives_live; vm_compute; reflexivity|]. split; vm_compute; reflexivity.
Qed.
Print Assumptions C67_step_refuted.

(** ** Cadence *)
(** The daemon is not asked too often: if it was asked [n] times since the start, the timer fired (n - 2) intervals after
    the start or later. *)
Theorem C67_cadence : forall g b now l m o log, conf_ok g -> normal now -> boot_ok b -> Forall op_ok l -> live g b now l = Some (inr (m, o, log)) ->
  asked log <= 1 \/ late log (sec now + g_interval g * (asked log - 2)).
Proof.
  intros g b now l m o log (G1 & _) NN BO F H. destruct (start_inv2 _ _ _ _ _ _ _ BO H) as (m0 & I0 & R & Q & NX & _).
  assert (C0 : cad g now m0 0 0). { unfold cad. rewrite Q, NX. split; [lia|]. split; [|lia]. rewrite Z.mul_0_r, Z.add_0_r. destruct now; reflexivity. }
  assert (RG : - 2^63 <= sec (m_next m0) < 2^63) by (rewrite NX; apply NN).
  destruct (run_cad g now l m0 m log 0 0 [] NN RG F C0 R (or_introl eq_refl)) as (_ & a & (A1 & A2 & A3) & L). fold (asked log) in A3. cbn [app] in L.
  destruct L as [->|(k & outs & IN & L)]; [left; destruct (m_q m); lia|]. right. exists k, outs. split; [exact IN|]. destruct (m_q m); nia.
Qed.
Print Assumptions C67_cadence.
(** Nor too rarely: if three firings in a row come after the next poll is due, one of them asks. *)
Theorem C67_asks : forall g b now l m o log p k1 o1 k2 o2 k3 o3 q, conf_ok g -> normal now -> boot_ok b -> Forall op_ok l -> live g b now l = Some (inr (m, o, log)) ->
  log = p ++ (Tick k1, o1) :: (Tick k2, o2) :: (Tick k3, o3) :: q ->
  due now (g_interval g) (asked p - 1) < instant (k_now k1) -> due now (g_interval g) (asked p - 1) < instant (k_now k2) -> due now (g_interval g) (asked p - 1) < instant (k_now k3) ->
  asks_sys o1 = true \/ asks_sys o2 = true \/ asks_sys o3 = true.
Proof.
  intros g b now l m o log p k1 o1 k2 o2 k3 o3 q (G1 & _) NN BO F H E D1 D2 D3. destruct (start_inv2 _ _ _ _ _ _ _ BO H) as (m0 & I0 & R & Q & NX & _).
  destruct (run_split _ _ _ _ _ _ _ _ R E) as (l1 & l2 & ma & mb & -> & R1 & S1 & R2). cbn [fst snd] in *.
  destruct (run_split _ _ _ _ _ [] _ _ R2 eq_refl) as (la & l3 & mc & md & E2 & RA & S2 & R3). cbn in RA. destruct la as [|z la]; [|cbn in RA; destruct (step g mb z) as [[? ?]|]; cbn [bind] in RA; try discriminate; destruct (run g _ la) as [[? ?]|]; discriminate]. injection RA as <-.
  destruct (run_split _ _ _ _ _ [] _ _ R3 eq_refl) as (lb & l4 & me & mf & E3 & RB & S3 & R4). cbn in RB. destruct lb as [|z lb]; [|cbn in RB; destruct (step g md z) as [[? ?]|]; cbn [bind] in RB; try discriminate; destruct (run g _ lb) as [[? ?]|]; discriminate]. injection RB as <-.
  cbn [app fst snd] in *. subst l2 l3.
  assert (C0 : cad g now m0 0 0). { unfold cad. rewrite Q, NX. split; [lia|]. split; [|lia]. rewrite Z.mul_0_r, Z.add_0_r. destruct now; reflexivity. }
  assert (RG : - 2^63 <= sec (m_next m0) < 2^63) by (rewrite NX; apply NN).
  apply Forall_app in F. destruct F as [F0 F]. pose proof (Forall_inv F) as FA. pose proof (Forall_inv_tail F) as F'. pose proof (Forall_inv F') as FB. pose proof (Forall_inv (Forall_inv_tail F')) as FC.
  destruct (run_cad g now l1 m0 ma p 0 0 [] NN RG F0 C0 R1 (or_introl eq_refl)) as (RGa & a & CA & _). fold (asked p) in CA.
  destruct (step_cad _ _ _ _ _ _ _ _ NN RGa FA CA S1) as (RGb & a1 & CB & X1 & Y1).
  destruct (step_cad _ _ _ _ _ _ _ _ NN RGb FB CB S2) as (RGc & a2 & CC & X2 & Y2).
  destruct (step_cad _ _ _ _ _ _ _ _ NN RGc FC CC S3) as (RGd & a3 & CD & X3 & Y3).
  destruct CA as (_ & _ & CA). destruct CB as (_ & _ & CB). destruct CC as (_ & _ & CC). destruct (m_q ma).
  - left. apply Y1.
  - destruct Y1 as [Y1 Q1]. rewrite Q1 in *. rewrite Y1 in *. assert (a1 = a) by lia. subst a1. replace (asked p - 1) with a in * by lia. specialize (Y2 D2). rewrite Y2 in Y3. right. right. apply Y3.
  - replace (asked p - 1) with a in * by lia. specialize (Y1 D1). rewrite Y1 in Y2. right. left. apply Y2.
Qed.
Print Assumptions C67_asks.
Example C67_asks_ex : exists m o log p k1 o1 k2 o2 k3 o3 q, live ex_conf ex_boot t0 ex_ops = Some (inr (m, o, log)) /\
  log = p ++ (Tick k1, o1) :: (Tick k2, o2) :: (Tick k3, o3) :: q /\ asked p = 2 /\ due t0 (g_interval ex_conf) (asked p - 1) < instant (k_now k1) /\
  k_now k2 = k_now k1 /\ k_now k3 = k_now k1 /\ asks_sys o1 = false /\ asks_sys o2 = true.
Proof.
  set (log := log_of ex_conf ex_boot ex_ops). eexists _, _, log, (firstn 8 log), _, _, _, _, _, _, (skipn 11 log). split; [apply lives_live; vm_compute; reflexivity|].
  split; [vm_compute; reflexivity|]. vm_compute. repeat split; reflexivity.
Qed.
Example C67_cadence_ex : lives ex_conf ex_boot ex_ops = true /\ conf_ok ex_conf /\ normal t0 /\ asked (log_of ex_conf ex_boot ex_ops) = 4 /\
  late (log_of ex_conf ex_boot ex_ops) 102 /\ due t0 1 0 = instant t0.
Proof.
  split; [vm_compute; reflexivity|]. split; [unfold conf_ok; cbn; repeat split; first [lia|reflexivity]|]. split; [unfold normal; cbn; lia|]. split; [vm_compute; reflexivity|]. split; [|vm_compute; reflexivity].
  eexists _, _. split; [vm_compute; do 8 right; left; reflexivity|]. cbn. lia.
Qed.

(** ** Synchronised *)
(** The statistics say synchronised only after a run of measurements of the followed peer within the limit, at least the minimum period
    long, that nothing interrupted; every report repeats what the last long term statistics said. *)
Theorem C67_sync : forall g b now l m o log p e q, 0 < g_min g -> boot_ok b -> Forall op_ok l -> live g b now l = Some (inr (m, o, log)) -> log = p ++ e :: q ->
  (forall x, In (History x true) (snd e) -> exists k t off, fst e = Tick k /\ k_conv k = Some t /\ x = Some off /\ in_range (g_max g) off = true /\
     exists pre t1 x1 mid, measures (g_active g) 2 p = pre ++ CUpdate t1 x1 :: mid /\ in_range (g_max g) x1 = true /\ t1 + g_min g <= sec t /\
       forall c, In c mid -> exists t' x', c = CUpdate t' x' /\ in_range (g_max g) x' = true) /\
  (forall off d y, In (Report off d y) (snd e) -> y = synced false (concat (map snd p))) /\
  (forall s mu ca fl off y a c n1 n2, In (Saved s mu ca fl (Some (off, y, a, c)) n1 n2) (snd e) -> y = synced false (concat (map snd p))).
Proof.
  intros g b now l m o log p e q GM BO F H E. destruct (start_inv2 _ _ _ _ _ _ _ BO H) as (m0 & I0 & R & Q & NX & SY & CI & _).
  destruct (run_split _ _ _ _ _ _ _ _ R E) as (l1 & l2 & m1 & m2 & -> & R1 & S & R2). apply Forall_app in F. destruct F as [F0 F]. inversion F as [|? ? FO _]; subst.
  pose proof (inv2_run _ _ _ _ _ _ _ _ I0 F0 R1) as I1. pose proof I0 as (_ & FL & _).
  assert (I0' : inv2 m0 (first_view b) (m_flags m0) (first_belief g b)) by (rewrite FL; exact I0).
  destruct (run_conv _ _ _ _ _ _ _ I0' F0 R1) as [CR SR]. rewrite FL in CR. rewrite SY in SR.
  destruct (step_sync _ _ _ _ _ _ (proj1 I1) FO S) as (SA & _ & _ & HT). split; [|split].
  - intros x X. destruct (HT x X) as (k & t & off & c' & EK & KC & EX & _ & CU).
    destruct (C33_convergence_sound _ _ _ _ _ _ _ _ GM CI CR CU) as (RA & pre & t1 & x1 & mid & A & B & C & D). exists k, t, off. repeat (split; [assumption|]). exists pre, t1, x1, mid. auto.
  - intros off d y X. pose proof (proj1 (Forall_forall _ _) SA _ X) as Y. cbn [says] in Y. congruence.
  - intros s mu ca fl off y a c n1 n2 X. pose proof (proj1 (Forall_forall _ _) SA _ X) as Y. cbn [says] in Y. congruence.
Qed.
Print Assumptions C67_sync.
Definition ex_sync : list op := [T 100 ok_sys (bad 0); T 100 ok_sys (good [P 5 2 (20#1) true true]); T 101 ok_sys (bad 0); T 102 ok_sys (bad 0); T 103 ok_sys (good [P 5 3 (30#1) true true]); LogStats; SaveState].
Example C67_sync_ex : exists m o log, live ex_conf ex_boot t0 ex_sync = Some (inr (m, o, log)) /\ In (History (Some (30#1)) true) (snd (nth 4 log (GetStatus, []))) /\
  In (Report (30#1) false true) (snd (nth 5 log (GetStatus, []))) /\ ~ In (History (Some (20#1)) true) (snd (nth 3 log (GetStatus, []))).
Proof.
  eexists _, _, _. split; [apply lives_live; vm_compute; reflexivity|]. split; [vm_compute; tauto|]. split; [vm_compute; tauto|].
  vm_compute. intuition discriminate.
Qed.

(** ** Undefined behaviour *)
(** Full statement: no history is undefined.  It holds for histories in which the instance is never the clustering determinant and the topology
    is not asked for; see [C67_defined_refuted]. *)
Theorem C67_defined_partial : forall g b now l, conf_ok g -> sane now -> boot_ok b -> Forall op_ok l -> Forall safe l -> live g b now l <> None.
Proof. exact live_defined. Qed.
Print Assumptions C67_defined_partial.
Example C67_defined_partial_ex : conf_ok ex_conf /\ sane t0 /\ boot_ok ex_boot /\ Forall op_ok ex_ops /\ Forall safe ex_ops /\ Forall safe ex_hon.
Proof.
  split; [unfold conf_ok; cbn; repeat split; first [lia|reflexivity]|]. split; [sane_tac|]. split; [exact ex_boot_ok|]. split; [exact ex_ops_ok|].
  split; [unfold ex_ops|unfold ex_hon]; repeat (apply Forall_cons; [first [exact Logic.I|reflexivity]|]); constructor.
Qed.
(** The daemon follows no peer: as clustering determinant, or selected and asked for the topology, the module reads the peer before
    the first. *)
Theorem C67_defined_refuted : exists b l1 l2, boot_ok b /\ Forall op_ok l1 /\ Forall op_ok l2 /\ fst (b_sys b) = 0 /\
  live ex_conf b t0 l1 = None /\ live ex_conf b t0 l2 = None /\ In LogStats l1 /\ In Topology l2.
Proof.
  exists (mkBoot 0 (0, Some false) (good [P 5 1 (10#1) false true]) 0 score0), [Control 16 16 0; LogStats], [Control 1 1 0; Topology].
  split; [split; [reflexivity|cbn; lia]|]. split; [op_tac|]. split; [op_tac|]. split; [reflexivity|]. split; [vm_compute; reflexivity|]. split; [vm_compute; reflexivity|]. cbn. tauto.
Qed.
Print Assumptions C67_defined_refuted.

(** ** The start *)
(** Full statement: if the module starts and conflicts are not ignored, the daemon is not left disciplining a clock that sfptpd adjusts.
    It holds if the daemon answered both questions; see [C67_start_refuted]. *)
Theorem C67_start_partial : forall g b now l m o log, live g b now l = Some (inr (m, o, log)) -> g_ignore g = false ->
  g_timesyncd g = false /\ (g_active g = true -> g_key g = true) /\ (b_create b = 0 \/ b_create b = ENOPROTOOPT) /\
  (b_create b = 0 -> fst (b_sys b) = 0 -> pa_rc (b_peers b) = 0 /\
    (g_active g = true -> snd (b_sys b) = Some false \/ (In (Command false) o /\ b_ctl b = 0)) /\
    (g_active g = false -> g_writable g = true -> snd (b_sys b) = Some false)).
Proof.
  intros g b now l m o log H IG. destruct (live_split _ _ _ _ _ _ _ H) as (s & o1 & cv & m1 & o2 & C & _ & _ & _ & ->). clear H. unfold configure in C. rewrite IG in C. cbn [negb] in C. rewrite !andb_true_r in C.
  destruct (g_active g && negb (g_key g)) eqn:KE; [discriminate|]. destruct (g_timesyncd g); [discriminate|]. split; [reflexivity|].
  split; [intros GA; rewrite GA in KE; cbn [andb] in KE; apply negb_false_iff in KE; exact KE|].
  destruct (b_create b =? ENOPROTOOPT) eqn:EP; [apply Z.eqb_eq in EP; split; [right; exact EP|intros X; rewrite X in EP; discriminate]|].
  destruct (b_create b =? 0) eqn:CR; cbn [negb] in C; [|discriminate]. apply Z.eqb_eq in CR. split; [left; exact CR|]. intros _ SY. rewrite SY in C. cbn [Z.eqb negb] in C. cbv zeta in C.
  destruct (pa_rc (b_peers b) =? 0) eqn:PR; cbn [negb] in C; [|discriminate]. apply Z.eqb_eq in PR. split; [exact PR|].
  set (s2 := with_peers (with_sys (with_cc zero_state false false true) (b_sys b)) (b_peers b)) in *.
  change (n_cc s2) with (match snd (b_sys b) with Some x => x | None => true end) in C.
  destruct (g_active g) eqn:GA; cbn [andb negb] in C.
  - split; [|discriminate]. intros _. destruct (snd (b_sys b)) as [[|]|]; [| |].
    + destruct (b_ctl b =? 0) eqn:CT; cbn [negb] in C; [|discriminate]. destruct (parse _ _ _ _); cbn [bind] in C; [|discriminate]. injection C as _ <-. right. split; [cbn; tauto|apply Z.eqb_eq; exact CT].
    + left. reflexivity.
    + destruct (b_ctl b =? 0) eqn:CT; cbn [negb] in C; [|discriminate]. destruct (parse _ _ _ _); cbn [bind] in C; [|discriminate]. injection C as _ <-. right. split; [cbn; tauto|apply Z.eqb_eq; exact CT].
  - split; [discriminate|]. intros _ W. rewrite W in C. cbn [s2 with_peers with_sys n_cc] in C. destruct (snd (b_sys b)) as [[|]|]; try discriminate C. reflexivity.
Qed.
Print Assumptions C67_start_partial.
Example C67_start_partial_ex : lives ex_conf ex_boot [] = true /\ g_ignore ex_conf = false /\ In (Command false) (first_of ex_conf ex_boot []) /\ snd (b_sys ex_boot) = Some true /\
  live (mkConf false true false true false 1 3 (100#1)) ex_boot t0 [] = Some (inl 16).
Proof. split; [vm_compute; reflexivity|]. split; [reflexivity|]. split; [vm_compute; tauto|]. split; vm_compute; reflexivity. Qed.
(** The daemon does not answer the first question: the module starts, whether active or watching, without a command, and says
    the daemon may be left alone. *)
Theorem C67_start_refuted : forall act, exists b l m o log, boot_ok b /\ Forall op_ok l /\
  live (mkConf act true false true false 1 3 (100#1)) b t0 l = Some (inr (m, o, log)) /\
  commands (o ++ concat (map snd log)) = [] /\ map s_must (replies log) = [false] /\ map s_state (replies log) = [SLAVE].
Proof.
  intros act. exists (mkBoot 0 (EAGAIN, None) (bad 0) 0 score0), [T 100 (0, None) (bad 0); T 100 (0, None) (good [P 5 2 (20#1) true true]); GetStatus].
  destruct act; eexists _, _, _; (split; [split; [reflexivity|cbn; lia]|]; split; [op_tac|]; split; [apply lives_live; vm_compute; reflexivity|]; vm_compute; repeat split; reflexivity).
Qed.
Print Assumptions C67_start_refuted.
