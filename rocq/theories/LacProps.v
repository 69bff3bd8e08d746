(** C76: the sockets for reaching every link of a bond. *)
Require Import ZArith List Bool Arith Lia.
From Verif Require Import Base LacSpec LacModel LacProof LacProof2.
Import ListNotations.
Open Scope Z_scope.
Opaque bits.

(** A transport after any history, with the descriptors [others] open besides the event and the
    general socket; a socket of the pool. *)
Definition reached (event general : Z) (others : list Z) (t : trans) : Prop :=
  0 < event /\ exists l, Forall fine l /\ run l (start event general others) = Some t.
Definition member (t : trans) (fd : Z) : Prop := exists i, Z.testbit (t_mask t) (Z.of_nat i) = true /\ t_socks t i = fd.

Lemma reached_inv e g o t : reached e g o t -> inv (e :: g :: o) t /\ mapped pos t /\ t_event t = e /\ t_general t = g.
Proof.
  intros [P (l & F & R)]. destruct (run_spec (e :: g :: o) l (start e g o) F (start_inv e g o) P) as (t' & A & B & C & D & E & _); [intros x []|]. rewrite R in A. injection A as <-. auto.
Qed.
Lemma member_pool base t fd : inv base t -> (member t fd <-> In fd (pool t)).
Proof. intro V. rewrite in_pool by apply V. reflexivity. Qed.
Lemma reached_step e g o t op t' s : reached e g o t -> fine op -> step op t = Some (t', s) -> reached e g o t'.
Proof.
  intros [P (l & F & R)] Fo E. split; [exact P|]. exists (l ++ [op]). split; [apply Forall_app; auto|]. revert R. generalize (start e g o). induction l as [|a l IH]; intros u R; cbn [run app] in *.
  - injection R as <-. rewrite E. reflexivity.
  - inversion_clear F. destruct (step a u) as [[u1 s1]|]; [|discriminate]. cbn [bind fst] in *. apply IH; assumption.
Qed.

(** FULL: whatever the bond and the history, the program goes on, and the sockets open are the
    event and general sockets, the others, and those of the pool, which are distinct and none of
    the former; at most 16 interfaces are recorded, each once and each with a socket of its own.
    PARTIAL: with at most 7 links and IPv4 for LACP bonds ([fine]), see below. *)
Theorem C76_pool_partial : forall event general others l, 0 < event -> Forall fine l ->
  exists t, run l (start event general others) = Some t /\
    (forall fd, In fd (t_open t) <-> In fd (event :: general :: others) \/ member t fd) /\
    (forall fd, member t fd -> 0 < fd /\ ~ In fd (event :: general :: others)) /\
    (forall i j, Z.testbit (t_mask t) (Z.of_nat i) = true -> Z.testbit (t_mask t) (Z.of_nat j) = true -> t_socks t i = t_socks t j -> i = j) /\
    (List.length (t_map t) <= 16)%nat /\ NoDup (map fst (t_map t)) /\ NoDup (map snd (t_map t)).
Proof.
  intros e g o l P F. destruct (run_spec (e :: g :: o) l (start e g o) F (start_inv e g o) P) as (t & A & V & _); [intros x []|]. exists t. split; [exact A|]. split; [intro fd; rewrite (member_pool _ t fd V); apply V|]. split.
  - intros fd (i & B & <-). pose proof (i_sock _ _ V i) as Q. unfold bit in Q. rewrite B in Q. exact Q.
  - split; [apply V|]. split; [apply V|]. split; apply V.
Qed.
Print Assumptions C76_pool_partial.

(** Initialisation: 4 sockets for each link of a LACP bond of several links, those that the system
    grants; none for others; nothing is recorded. *)
Theorem C76_init : forall event general others t b y, reached event general others t -> fine (Init b y) ->
  exists t', step (Init b y) t = Some (t', []) /\ reached event general others t' /\ t_map t' = [] /\
    forall i, Z.testbit (t_mask t') (Z.of_nat i) = true <-> b_lacp b = true /\ 1 < b_n b /\ Z.of_nat i < 4 * b_n b /\ works y i.
Proof.
  intros e g o t b y R F. destruct (reached_inv _ _ _ _ R) as (V & _). destruct (step_spec _ (Init b y) t F V) as (t' & s & A & B & _ & _ & -> & D & E). exists t'. split; [exact A|]. split; [exact (reached_step _ _ _ _ _ _ _ R F A)|]. split; [exact D|exact E].
Qed.
Print Assumptions C76_init.

(** A socket option: the sockets that it fails for are closed and leave the pool, the rest stay. *)
Theorem C76_option : forall event general others t rc, reached event general others t ->
  exists t', step (Setopt rc) t = Some (t', []) /\ reached event general others t' /\
    forall i fd, (Z.testbit (t_mask t') (Z.of_nat i) = true /\ t_socks t' i = fd) <-> (Z.testbit (t_mask t) (Z.of_nat i) = true /\ t_socks t i = fd /\ 0 <= rc i).
Proof.
  intros e g o t rc R. destruct (reached_inv _ _ _ _ R) as (V & _). destruct (step_spec _ (Setopt rc) t Logic.I V) as (t' & s & A & B & _ & _ & -> & D & E). exists t'. split; [exact A|]. split; [exact (reached_step _ _ _ _ (Setopt rc) _ _ R Logic.I A)|].
  intros i fd. destruct (E i) as [E1 E2]. unfold bit in *. split.
  - intros [X <-]. specialize (E2 X). rewrite E2. rewrite E1 in X. apply andb_true_iff in X as [X1 X2]. split; [exact X1|]. split; [reflexivity|]. apply negb_true_iff, Z.ltb_ge in X2. exact X2.
  - intros (X1 & <- & X2). assert (X : Z.testbit (t_mask t') (Z.of_nat i) = true) by (rewrite E1, X1; destruct (Z.ltb_spec (rc i) 0); [lia|reflexivity]). split; [exact X|exact (E2 X)].
Qed.
Print Assumptions C76_option.

(** Shutdown: only the event and general sockets and the others are open, nothing is recorded. *)
Theorem C76_shutdown : forall event general others t, reached event general others t ->
  exists t', step Shutdown t = Some (t', []) /\ t_map t' = [] /\ (forall fd, ~ member t' fd) /\
    forall fd, In fd (t_open t') <-> In fd (event :: general :: others).
Proof.
  intros e g o t R. destruct (reached_inv _ _ _ _ R) as (V & _). destruct (step_spec _ Shutdown t Logic.I V) as (t' & s & A & B & _ & _ & -> & D & E). exists t'. split; [exact A|]. split; [exact D|].
  assert (M : forall fd, ~ member t' fd) by (intros fd (i & X & _); rewrite E, Z.bits_0 in X; discriminate). split; [exact M|].
  intro fd. rewrite (i_open _ _ B). split; [|auto]. intros [X|X]; [exact X|]. apply (member_pool _ _ _ B) in X. destruct (M fd X).
Qed.
Print Assumptions C76_shutdown.

(** Probing: a packet over each socket of the pool, once; nothing is recorded any more. *)
Theorem C76_probe : forall event general others t, reached event general others t ->
  exists t' sent, step Probe t = Some (t', sent) /\ t_map t' = [] /\ t_mask t' = t_mask t /\ t_socks t' = t_socks t /\ NoDup sent /\ forall fd, In fd sent <-> member t fd.
Proof.
  intros e g o t R. destruct (reached_inv _ _ _ _ R) as (V & _). destruct (step_spec _ Probe t Logic.I V) as (t' & s & A & B & _ & _ & -> & ->). eexists. eexists. split; [exact A|]. split; [reflexivity|]. split; [reflexivity|]. split; [reflexivity|]. split; [eapply nodup_pool, V|]. intro fd. symmetry. apply (member_pool _ _ _ V).
Qed.
Print Assumptions C76_probe.

(** An observation that a packet of the socket [s] left by the interface [x]: if the socket was
    recorded for another interface then all is forgotten but this, and the pool probed again;
    otherwise it is added unless there is a socket for the interface or there is no room. *)
Theorem C76_tx : forall event general others t k x s, reached event general others t ->
  (k = None /\ s = event \/ exists i, k = Some i /\ Z.testbit (t_mask t) (Z.of_nat i) = true /\ t_socks t i = s) ->
  exists t' sent, step (Tx k x) t = Some (t', sent) /\ t_mask t' = t_mask t /\ t_socks t' = t_socks t /\ t_open t' = t_open t /\
    ((exists z, z <> x /\ In (s, z) (t_map t)) -> t_map t' = [(s, x)] /\ NoDup sent /\ forall fd, In fd sent <-> member t fd) /\
    (~ (exists z, z <> x /\ In (s, z) (t_map t)) -> sent = [] /\
      ((exists fd, recorded (t_map t) x fd) \/ List.length (t_map t) = 16%nat -> t_map t' = t_map t) /\
      (~ (exists fd, recorded (t_map t) x fd) -> List.length (t_map t) <> 16%nat -> t_map t' = t_map t ++ [(s, x)])).
Proof.
  intros e g o t k x s R Hk. destruct (reached_inv _ _ _ _ R) as (V & _ & Ev & _). destruct (step_spec _ (Tx k x) t Logic.I V) as (t' & sent & A & B & _ & _ & D & _). exists t', sent. split; [exact A|].
  assert (Q : t' = set_map t (fst (seen s x (t_map t))) /\ sent = (if snd (seen s x (t_map t)) then pool t else [])).
  { destruct Hk as [[-> ->]|(i & -> & X & <-)]; [specialize (D Logic.I); cbn [source] in D; rewrite Ev in D; exact D|exact (D X)]. }
  clear D A. destruct Q as [-> ->]. cbn [t_mask t_socks t_open t_map set_map]. split; [reflexivity|]. split; [reflexivity|]. split; [reflexivity|].
  assert (C : existsb (fun e => (fst e =? s) && negb (snd e =? x)) (t_map t) = true <-> exists z, z <> x /\ In (s, z) (t_map t)).
  { rewrite existsb_exists. split.
    - intros ([a b] & X & Y). apply andb_true_iff in Y as [Y1 Y2]. apply Z.eqb_eq in Y1. apply negb_true_iff, Z.eqb_neq in Y2. cbn in *. subst. eauto.
    - intros (z & X & Y). exists (s, z). split; [exact Y|]. cbn. rewrite Z.eqb_refl. apply negb_true_iff, Z.eqb_neq, X. }
  assert (Rx : existsb (fun e => snd e =? x) (t_map t) = true <-> exists fd, recorded (t_map t) x fd).
  { rewrite existsb_exists. unfold recorded. split; [intros ([a b] & X & Y); apply Z.eqb_eq in Y; cbn in Y; subst; eauto|intros (fd & X); exists (fd, x); split; [exact X|apply Z.eqb_refl]]. }
  pose proof (i_len _ _ V) as L. unfold seen. cbn zeta. cbn [fst snd]. split.
  - intro H. apply C in H. rewrite H. cbn. split; [reflexivity|]. split; [eapply nodup_pool, V|]. intro fd. symmetry. apply (member_pool _ _ _ V).
  - intro H. destruct (existsb (fun e => (fst e =? s) && negb (snd e =? x)) (t_map t)); [destruct H; apply C; reflexivity|]. split; [reflexivity|]. split.
    + intros [X|X]; [apply Rx in X; rewrite X; reflexivity|]. rewrite X. rewrite orb_true_r. reflexivity.
    + intros X Y. destruct (existsb (fun e => snd e =? x) (t_map t)); [destruct X; apply Rx; reflexivity|]. destruct (Z.leb_spec 16 (Z.of_nat (List.length (t_map t)))); [lia|reflexivity].
Qed.
Print Assumptions C76_tx.

(** The socket for a message: that recorded for the interface asked for, if the message is
    multicast, an interface is asked for and the pool is in use; otherwise the event socket. *)
Theorem C76_send : forall event general others t request bypass multicast fd, reached event general others t ->
  (choose request bypass multicast t = fd <->
   (0 < request /\ Z.odd bypass = true /\ multicast = true /\ recorded (t_map t) request fd) \/
   (~ (0 < request /\ Z.odd bypass = true /\ multicast = true /\ exists fd', recorded (t_map t) request fd') /\ fd = event)).
Proof.
  intros e g o t q b mc fd R. destruct (reached_inv _ _ _ _ R) as (V & M & Ev & _). unfold choose.
  assert (Ob : negb (Z.land b USE_SOCKPOOL =? 0) = Z.odd b).
  { unfold USE_SOCKPOOL. change 1 with (Z.ones 1). rewrite Z.land_ones by lia. change (2 ^ 1) with 2. rewrite Zmod_odd. destruct (Z.odd b); reflexivity. }
  rewrite Ob. rewrite choose_fold by apply V. destruct (Z.ltb_spec 0 q) as [Hq|Hq]; cbn [andb].
  2:{ cbn. rewrite Ev. split; [intros <-; right; split; [lia|reflexivity]|intros [X|[_ X]]; [lia|auto]]. }
  destruct (Z.odd b); cbn [andb]. 2:{ cbn. rewrite Ev. split; [intros <-; right; split; [intros (_ & X & _); discriminate|reflexivity]|intros [(_ & X & _)|[_ X]]; [discriminate|auto]]. }
  destruct mc; cbn [andb]. 2:{ cbn. rewrite Ev. split; [intros <-; right; split; [intros (_ & _ & X & _); discriminate|reflexivity]|intros [(_ & _ & X & _)|[_ X]]; [discriminate|auto]]. }
  destruct (find (fun x => snd x =? q) (t_map t)) as [[a c]|] eqn:Ef.
  - apply find_some in Ef as [H Y]. cbn [fst snd] in *. apply Z.eqb_eq in Y. subst c. pose proof (M _ H) as P. unfold pos in P. cbn in P. destruct (Z.leb_spec a 0); [lia|]. split.
    + intros <-. left. auto.
    + intros [(_ & _ & _ & X)|[X _]]; [|destruct X; eauto 6].
      pose proof (i_snd _ _ V) as ND. revert H X ND. unfold recorded. generalize (t_map t). clear. induction l as [|[u w] l IH]; intros H X ND; [destruct H|]. cbn in ND. inversion_clear ND as [|? ? N1 N2].
      destruct H as [H|H], X as [X|X]; [congruence| | |auto].
      * injection H as -> ->. destruct N1. apply (in_map snd _ _ X).
      * injection X as -> ->. destruct N1. apply (in_map snd _ _ H).
  - cbn. rewrite Ev. assert (No : forall f, ~ recorded (t_map t) q f). { intros f X. pose proof (find_none _ _ Ef _ X) as Y. cbn in Y. rewrite Z.eqb_refl in Y. discriminate. }
    split; [intros <-; right; split; [intros (_ & _ & _ & f & X); exact (No f X)|reflexivity]|intros [(_ & _ & _ & X)|[_ X]]; [destruct (No _ X)|auto]].
Qed.
Print Assumptions C76_send.

(** Readiness: events are read if some ready descriptor with data is the event socket or in the
    pool, errors likewise, general messages if the general socket is ready. *)
Theorem C76_ready : forall event general others t l, reached event general others t ->
  exists e g x, flags l t (false, false, false) = Some (e, g, x) /\
    (e = true <-> exists r, In r l /\ r_rd r = true /\ (r_fd r = event \/ member t (r_fd r))) /\
    (g = true <-> exists r, In r l /\ r_fd r = general) /\
    (x = true <-> exists r, In r l /\ r_err r = true /\ (r_fd r = event \/ member t (r_fd r))).
Proof.
  intros e g o t l R. destruct (reached_inv _ _ _ _ R) as (V & _ & Ev & Eg). rewrite flags_spec by apply V. eexists. eexists. eexists. split; [reflexivity|]. cbn [orb].
  assert (P : forall f : ready -> bool, existsb (fun r => ours t r && f r) l = true <-> exists r, In r l /\ f r = true /\ (r_fd r = e \/ member t (r_fd r))).
  { intro f. rewrite existsb_exists. split; intros (r & A & B); exists r; (split; [exact A|]).
    - apply andb_true_iff in B as [B C]. apply ours_iff in B; [|apply V]. rewrite Ev, <- (member_pool _ _ _ V) in B. auto.
    - destruct B as [B C]. rewrite B, andb_true_r. apply ours_iff; [apply V|]. rewrite Ev, <- (member_pool _ _ _ V). exact C. }
  split; [apply P|]. split; [|apply P]. rewrite existsb_exists, <- Eg. split; intros (r & A & B); exists r; (split; [exact A|]); apply Z.eqb_eq; exact B.
Qed.
Print Assumptions C76_ready.

(** What is read then: the event socket and the sockets of the pool, each once. *)
Theorem C76_handled : forall event general others t, reached event general others t ->
  handled false t = Some [] /\
  exists l, handled true t = Some (event :: l) /\ NoDup (event :: l) /\ forall fd, In fd l <-> member t fd.
Proof.
  intros e g o t R. destruct (reached_inv _ _ _ _ R) as (V & _ & Ev & _). split; [reflexivity|]. exists (pool t). rewrite (handled_spec _ _ V), Ev. split; [reflexivity|]. split; [|intro fd; symmetry; apply (member_pool _ _ _ V)].
  constructor; [|eapply nodup_pool, V]. intro X. apply in_pool in X; [|apply V]. destruct X as (i & B & E). pose proof (i_sock _ _ V i) as Q. rewrite B in Q. apply (proj2 Q). rewrite E. left. reflexivity.
Qed.
Print Assumptions C76_handled.

(** The index of a socket in the pool, -1 for others. *)
Theorem C76_index : forall event general others t fd, reached event general others t ->
  exists i, pool_index fd t = Some i /\ ((i = -1 /\ ~ member t fd) \/ (0 <= i < 64 /\ Z.testbit (t_mask t) i = true /\ t_socks t (Z.to_nat i) = fd)).
Proof.
  intros e g o t fd R. destruct (reached_inv _ _ _ _ R) as (V & _). pose proof (i_sm _ _ V) as Sm. unfold pool_index. rewrite (index_bits fd t Sm (bits (t_mask t)) 64 (t_mask t) eq_refl (bits_len _) Sm). eexists. split; [reflexivity|].
  destruct (find (fun i => t_socks t i =? fd) (bits (t_mask t))) as [i|] eqn:E.
  - right. apply find_some in E as [E1 E2]. apply in_bits in E1; [|exact Sm]. apply Z.eqb_eq in E2. rewrite Nat2Z.id. unfold bit in E1. pose proof (proj2 Sm _ E1). split; [lia|]. auto.
  - left. split; [reflexivity|]. intros (i & X & Y). apply in_bits in X; [|exact Sm]. pose proof (find_none _ _ E i X) as Z0. cbn in Z0. apply Z.eqb_neq in Z0. contradiction.
Qed.
Print Assumptions C76_index.

(** FULL: the socket recorded for an interface is open.  PARTIAL: if no socket option fails. *)
Theorem C76_map_partial : forall event general others l t ifindex fd, 0 < event -> Forall fine l -> Forall calm l ->
  run l (start event general others) = Some t -> recorded (t_map t) ifindex fd -> In fd (t_open t).
Proof.
  intros e g o l t x fd P F C R H. destruct (run_spec (e :: g :: o) l (start e g o) F (start_inv e g o) P) as (t' & A & V & Ev & _ & _ & L); [intros y []|]. rewrite R in A. injection A as <-.
  apply (i_open _ _ V). destruct (L C (fun y Hy => match Hy with end) _ H) as [X|X]; [left|right; exact X]. cbn in X. rewrite X, Ev. left. reflexivity.
Qed.
Print Assumptions C76_map_partial.

(** Bonds of 8 to 16 links: making the socket number 31 is undefined behaviour. *)
Theorem C76_many_refuted : forall event general others t b y, reached event general others t -> sound y ->
  b_lacp b = true -> 8 <= b_n b <= 16 -> works y 31 -> step (Init b y) t = None.
Proof.
  intros e g o t b y R Sy Lb Nb (W1 & W2 & W3 & W4). destruct (reached_inv _ _ _ _ R) as (V & _). cbn [step]. destruct (destroy_spec _ t V) as (t1 & A1 & A2 & A3 & _). rewrite A1. cbn [bind]. unfold create. rewrite Lb. destruct (Z.leb_spec (b_n b) 1); [lia|]. cbn [negb orb].
  destruct (16 <? b_len b); [reflexivity|]. rewrite A3. cbn [Z.eqb negb]. destruct (64 <? b_n b * 4); [reflexivity|].
  assert (App : forall l m u, create_loop y (l ++ m) u = (do u <- create_loop y l u; create_loop y m u)). { induction l as [|a l IH]; intros m u; [reflexivity|]. cbn [app create_loop]. destruct (create_one y a u); [|reflexivity]. cbn [bind]. apply IH. }
  replace (Z.to_nat (b_n b * 4)) with (31 + Datatypes.S (Z.to_nat (b_n b * 4) - 32))%nat by lia. rewrite seq_app, App.
  destruct (create_loop_spec _ y Sy 31 0 t1 A2 (Nat.le_refl _)) as (t2 & B1 & B2 & _). { intros i _. rewrite A3. apply Z.bits_0. } rewrite B1. cbn [bind Nat.add seq create_loop].
  replace (create_one y 31 t2) with (@None trans); [reflexivity|]. unfold create_one. destruct (negb (t_socks t2 31 =? 0)); [reflexivity|].
  rewrite (proj2 (Z.ltb_ge _ _) W1), (proj2 (Z.ltb_ge _ _) W2), (proj2 (Z.ltb_ge _ _) W3), W4. reflexivity.
Qed.
Print Assumptions C76_many_refuted.

(** IPv6: the copy of the address overruns. *)
Theorem C76_ipv6_refuted : forall event general others t b y, reached event general others t ->
  b_lacp b = true -> 1 < b_n b -> 16 < b_len b -> step (Init b y) t = None.
Proof.
  intros e g o t b y R Lb Nb L. destruct (reached_inv _ _ _ _ R) as (V & _). cbn [step]. destruct (destroy_spec _ t V) as (t1 & A1 & _). rewrite A1. cbn [bind]. unfold create. rewrite Lb. destruct (Z.leb_spec (b_n b) 1); [lia|]. destruct (Z.ltb_spec 16 (b_len b)); [reflexivity|lia].
Qed.
Print Assumptions C76_ipv6_refuted.

(** Examples.  The system hands out the descriptor after the largest; all calls succeed. *)
Definition y_all := mkSys (fun _ => 3) (fun _ l => 1 + fold_right Z.max 0 l) (fun _ => 0) (fun _ => 0) (fun _ => 0).
Lemma y_all_sound : sound y_all.
Proof.
  intros i l. cbn [y_fd y_all]. assert (H : forall x, In x l -> x <= fold_right Z.max 0 l). { induction l as [|a l IH]; intros x Hx; [destruct Hx|]. cbn. destruct Hx as [->|Hx]; [lia|]. specialize (IH x Hx). lia. }
  assert (0 <= fold_right Z.max 0 l) by (clear H; induction l as [|a l IH]; cbn; lia). split; [lia|]. intro X. specialize (H _ X). lia.
Qed.
Definition b2 := mkBond true 2 16.
Definition h := [Init b2 y_all; Probe; Tx (Some 0%nat) 7; Tx (Some 3%nat) 8; Tx None 8].
Example C76_fine : Forall fine h.
Proof. assert (Q : fine (Init b2 y_all)) by (split; [exact y_all_sound|cbn; intros _; split; discriminate]). repeat (apply Forall_cons; [first [exact Q|exact Logic.I]|]). apply Forall_nil. Qed.
Example C76_run : exists t, run h (start 3 4 [1; 2]) = Some t /\ t_mask t = 255 /\ t_map t = [(5, 7); (8, 8)] /\
  t_open t = [12; 11; 10; 9; 8; 7; 6; 5; 3; 4; 1; 2] /\ choose 8 3 true t = 8 /\ choose 9 3 true t = 3 /\ choose 8 2 true t = 3 /\ choose 8 3 false t = 3 /\
  pool_index 7 t = Some 2 /\ pool_index 3 t = Some (-1) /\ handled true t = Some [3; 5; 6; 7; 8; 9; 10; 11; 12] /\
  flags [mkReady 9 true false; mkReady 4 true false] t (false, false, false) = Some (true, true, false) /\ flags [mkReady 3 false true; mkReady 99 true true] t (false, false, false) = Some (false, false, true).
Proof. eexists. split; [vm_compute; reflexivity|]. vm_compute. repeat split. Qed.
(** A socket that moves to another link: everything is forgotten and probed again. *)
Example C76_moves : exists t, run h (start 3 4 [1; 2]) = Some t /\ exists t', step (Tx (Some 0%nat) 8) t = Some (t', [5; 6; 7; 8; 9; 10; 11; 12]) /\ t_map t' = [(5, 8)].
Proof. eexists. split; [vm_compute; reflexivity|]. eexists. vm_compute. split; reflexivity. Qed.
Example C76_down : exists t, run (h ++ [Shutdown]) (start 3 4 [1; 2]) = Some t /\ t_open t = [3; 4; 1; 2] /\ t_map t = [].
Proof. eexists. split; [vm_compute; reflexivity|]. vm_compute. split; reflexivity. Qed.
(** After an option fails for the socket recorded for the interface 7, the message to it goes to
    a descriptor that is closed (or that something else has got by then). *)
Theorem C76_map_refuted : exists l t, Forall fine l /\ run l (start 3 4 [1; 2]) = Some t /\ recorded (t_map t) 7 5 /\ choose 7 USE_SOCKPOOL true t = 5 /\ ~ In 5 (t_open t) /\ ~ member t 5.
Proof.
  exists (h ++ [Setopt (fun i => if (i =? 0)%nat then -1 else 0)]). eexists. split; [apply Forall_app; split; [exact C76_fine|apply Forall_cons; [exact Logic.I|apply Forall_nil]]|]. split; [vm_compute; reflexivity|]. split; [left; reflexivity|]. split; [reflexivity|].
  split; [vm_compute; intuition discriminate|]. intros (i & B & E). do 8 (destruct i as [|i]; [vm_compute in B, E; discriminate|]). cbn [t_mask] in B.
  vm_compute in E. revert E. discriminate.
Qed.
Print Assumptions C76_map_refuted.
Example C76_many_ex : step (Init (mkBond true 8 16) y_all) (start 3 4 []) = None /\ step (Init (mkBond true 7 16) y_all) (start 3 4 []) <> None /\ works y_all 31.
Proof. split; [vm_compute; reflexivity|]. split; [vm_compute; discriminate|]. unfold works. cbn. lia. Qed.
Example C76_ipv6_ex : step (Init (mkBond true 2 28) y_all) (start 3 4 []) = None /\ step (Init (mkBond false 2 28) y_all) (start 3 4 []) <> None.
Proof. split; [vm_compute; reflexivity|vm_compute; discriminate]. Qed.
