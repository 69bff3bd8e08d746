(** Properties C14-C18 and C53: best master clock algorithm and foreign
    master table. *)
Require Import ZArith QArith List Bool Lia ZifyBool Sorted.
From Verif Require Import Base ListLib BmcSpec BmcModel BmcProof.
Import ListNotations.
Open Scope Z_scope.

(** ** Data used by the examples *)
Definition cid (n : Z) : clock_id := [0; 0; 0; 0; 0; 0; 0; n].
(** announce for grandmaster [g], priority1 [p], [s] steps away, from clock
    [n] port 1 *)
Definition ann (g p s n : Z) : dset :=
  mkDset p 6 32 100 128 (cid g) s (mkPid (cid n) 1) true 1.
(** a local clock with identity [n], class [cl], in state [st], whose parent
    is clock [par] port 1 *)
Definition clk (n cl par : Z) (slave_only : bool) (st : pstate) : clock :=
  mkClock (cid n) 128 128 cl 254 65535 false slave_only false false 0 false None false 0 0
          st (mkPid (cid par) 1) (cid par) 1 0 0.
Lemma ann_ok : forall g p s n, 0 <= s < 2^16 -> dset_ok (ann g p s n).
Proof. intros. unfold dset_ok, is_clock_id. cbn. repeat split; auto; lia. Qed.
(** sizeof(ForeignMasterRecord) is a few hundred bytes; what is left of a
    partly overwritten dead record is the old record in the examples. *)
Definition EX_SZ : Z := 456.
Definition ex_mix (k : Z) (a b : frec) : frec := a.
Lemma ex_mix_ok : mix_ok ex_mix.
Proof. intros k a b H _. exact H. Qed.

(** * C14: the data set comparison *)

(** Except for two paths to the same grandmaster whose lengths differ by
    exactly one, the comparison decides exactly the standard's order. *)
Theorem C14_rank : forall prefer parent A B, dset_ok A -> dset_ok B -> ~ adjacent A B ->
  (compare prefer parent A B = -1 <-> better prefer A B) /\
  (compare prefer parent A B = 1 <-> better prefer B A) /\
  (compare prefer parent A B = 0 <->
     d_gm A = d_gm B /\ d_steps A = d_steps B /\ d_src A = d_src B).
Proof.
  intros pr par A B HA HB N. destruct (compare_better pr par A B HA HB N) as [C1 [C2 C3]].
  split; [exact C1|]. split; [exact C2|]. rewrite C3. unfold topo_key.
  destruct HA as [_ [LA _]], HB as [_ [LB _]]. unfold is_clock_id in *.
  destruct (d_src A) as [ca na], (d_src B) as [cb nb]. cbn in *. split.
  - intros [E1 E2]. injection E2 as E2 E3. apply app_inj_tail in E3. destruct E3 as [-> ->]. auto.
  - intros [E1 [E2 E3]]. injection E3 as -> ->. rewrite E2. auto.
Qed.
Print Assumptions C14_rank.
Example C14_rank_ex :
  compare false (cid 9) (ann 1 10 3 5) (ann 2 20 0 6) = -1 /\ better false (ann 1 10 3 5) (ann 2 20 0 6)
  /\ compare false (cid 9) (ann 1 10 3 5) (ann 1 10 0 6) = 1 /\ ~ adjacent (ann 1 10 3 5) (ann 1 10 0 6).
Proof.
  split; [reflexivity|]. split.
  { left. split; [discriminate|]. apply lex_here. cbn. lia. }
  split; [reflexivity|]. intros [_ [H|H]]; cbn in H; lia.
Qed.

(** Swapping the arguments negates the result - except for adjacent paths. *)
Theorem C14_partial : forall prefer parent A B, dset_ok A -> dset_ok B -> ~ adjacent A B ->
  compare prefer parent B A = - compare prefer parent A B.
Proof. intros. apply compare_anti; assumption. Qed.
Print Assumptions C14_partial.

(** Full statement: [forall A B, compare B A = - compare A B].  It is false:
    for adjacent paths swapping the arguments changes nothing, so the result
    is antisymmetric only if the sender of the longer path is itself the
    current parent (result 0). *)
Theorem C14_refuted : forall prefer parent A B, dset_ok A -> dset_ok B -> is_clock_id parent ->
  adjacent A B ->
  compare prefer parent A B = compare prefer parent B A /\
  (compare prefer parent B A = - compare prefer parent A B <->
   p_clk (d_src (farther A B)) = parent).
Proof.
  intros pr par A B HA HB Hp Ad. rewrite !compare_adjacent by (auto; apply adjacent_sym; assumption).
  rewrite (farther_sym _ _ Ad). split; [reflexivity|].
  assert (LF : is_clock_id (p_clk (d_src (farther B A)))).
  { unfold farther. destruct HA as [_ [X _]], HB as [_ [Y _]]. destruct (_ <? _); assumption. }
  rewrite <- memcmp_eq0 by congruence. lia.
Qed.
Print Assumptions C14_refuted.
(** Each of two masters is "better" than the other, and the one that wins can
    be the one farther from the same grandmaster. *)
Theorem C14_both_better_refuted : exists A B parent, dset_ok A /\ dset_ok B /\ better false B A /\
  compare false parent A B = -1 /\ compare false parent B A = -1.
Proof.
  exists (ann 1 10 3 5), (ann 1 10 2 6), (cid 7).
  split; [apply ann_ok; lia|]. split; [apply ann_ok; lia|].
  split; [right; split; [reflexivity|apply lex_here; cbn; lia]|]. split; reflexivity.
Qed.
Print Assumptions C14_both_better_refuted.

(** [better] is a strict order on data sets of distinct grandmasters (so the
    ranking does not go in circles there). *)
Theorem C14_order : forall prefer A B C,
  dset_ok A -> dset_ok B -> dset_ok C ->
  d_gm A <> d_gm B -> d_gm B <> d_gm C -> d_gm A <> d_gm C ->
  ~ better prefer A A /\
  (better prefer A B \/ better prefer B A) /\
  (better prefer A B -> better prefer B C -> better prefer A C).
Proof.
  intros pr A B C HA HB HC N1 N2 N3. unfold better. split; [|split].
  - intros [[X _]|[_ X]]; [congruence|]. exact (lex_irrefl _ X).
  - destruct HA as [LA _], HB as [LB _].
    destruct (memcmp_cases (gm_key pr A) (gm_key pr B)) as [[_ X]|[[_ X]|[_ X]]].
    + rewrite !gm_key_length by assumption. reflexivity.
    + left. left. auto.
    + apply gm_key_inj in X. congruence.
    + right. left. auto.
  - intros [[_ X]|[X _]] [[_ Y]|[Y _]]; try congruence.
    left. split; [assumption|]. eapply lex_trans; eassumption.
Qed.
Print Assumptions C14_order.

(** * C15: the state decision *)

(** What the local clock would announce about itself. *)
Definition own (c : clock) : dset :=
  mkDset (c_prio1 c) (c_class c) (c_acc c) (c_var c) (c_prio2 c)
         (c_id c) 0 (mkPid (c_id c) 0) (c_utcv c) 0.

(** Whatever the table and the time, a slave-only port is put in SLAVE, left
    in the state it is in, or taken from SLAVE to LISTENING. *)
Theorem C15_slave_only : forall th1 th2 c f st c' f',
  c_slave_only c = true -> bmc th1 th2 c f = Some (st, c', f') ->
  st = SLAVE \/ st = c_state c \/ (c_state c = SLAVE /\ st = LISTENING).
Proof.
  intros th1 th2 c f st c' f' HS H. unfold bmc in H.
  destruct (Nat.eqb (f_num f) 0 || c_master_only c); [injection H as <- _ _; auto|].
  destruct (choose th1 c f) as [[[b|] dq]|]; cbn [bind] in H; [| |discriminate].
  - destruct (delete_unselected _ _ _) as [f1|]; cbn [bind] in H; [|discriminate].
    destruct (nth_error _ _) as [r|]; cbn [bind] in H; [|discriminate].
    unfold state_decision in H. rewrite HS in H. cbn [bind] in H. injection H as <- _ _. auto.
  - injection H as <- _ _.
    destruct dq, (c_state c); cbn; auto.
Qed.
Print Assumptions C15_slave_only.
Corollary C15_slave_only_never : forall th1 th2 c f st c' f',
  c_slave_only c = true -> c_state c <> MASTER -> c_state c <> PASSIVE ->
  bmc th1 th2 c f = Some (st, c', f') -> st <> MASTER /\ st <> PASSIVE.
Proof.
  intros th1 th2 c f st c' f' HS N1 N2 H.
  destruct (C15_slave_only _ _ _ _ _ _ _ HS H) as [->|[->|[_ ->]]]; split; congruence.
Qed.
Print Assumptions C15_slave_only_never.

(** The decision proper, for a clock that is not slave-only and a best master
    that is not the clock itself.  (The full statement has no condition on
    the grandmaster; see the two refutations below.) *)
Theorem C15_decision_partial : forall num c B,
  c_slave_only c = false -> (0 < num)%nat -> is_clock_id (c_id c) -> dset_ok B -> d_gm B <> c_id c ->
  exists st c', state_decision num c B = Some (st, c') /\
  (st = MASTER <-> better (c_prefer c) (own c) B) /\
  (c_class c < 128 -> (st = MASTER \/ st = PASSIVE) /\ (st = PASSIVE <-> better (c_prefer c) B (own c))) /\
  (128 <= c_class c -> (st = MASTER \/ st = SLAVE) /\ (st = SLAVE <-> better (c_prefer c) B (own c))).
Proof.
  intros num c B HS Hn Hc HB N. unfold state_decision. rewrite HS.
  destruct (Nat.eqb_spec num 0); [lia|]. cbn [andb].
  rewrite compare_own_other by assumption. cbn [bind].
  change (own c) with (d0 c).
  assert (NA : ~ adjacent (d0 c) B) by (intros [X _]; cbn in X; congruence).
  destruct (compare_better (c_prefer c) (p_clk (c_parent c)) (d0 c) B (d0_ok c Hc) HB NA) as [C1 [C2 C3]].
  assert (TOT : better (c_prefer c) (d0 c) B \/ better (c_prefer c) B (d0 c)).
  { unfold better.
    destruct (memcmp_cases (gm_key (c_prefer c) (d0 c)) (gm_key (c_prefer c) B)) as [[_ X]|[[_ X]|[_ X]]].
    - destruct HB as [LB _]. rewrite !gm_key_length by assumption. reflexivity.
    - left. left. cbn [d0 d_gm]. split; [congruence|assumption].
    - apply gm_key_inj in X. cbn in X. congruence.
    - right. left. cbn [d0 d_gm]. auto. }
  set (comp := compare (c_prefer c) (p_clk (c_parent c)) (d0 c) B) in *.
  assert (CC : (comp = -1 /\ better (c_prefer c) (d0 c) B /\ ~ better (c_prefer c) B (d0 c)) \/
               (comp = 1 /\ better (c_prefer c) B (d0 c) /\ ~ better (c_prefer c) (d0 c) B)).
  { destruct TOT as [X|X].
    - left. split; [tauto|]. split; [assumption|]. intros Y. apply C2 in Y. apply C1 in X. lia.
    - right. split; [tauto|]. split; [assumption|]. intros Y. apply C1 in Y. apply C2 in X. lia. }
  destruct CC as [[-> [X Y]]|[-> [X Y]]]; cbn [Z.ltb Z.compare].
  - destruct (Z.ltb_spec (c_class c) 128); eexists; eexists; (split; [reflexivity|]);
      (split; [tauto|]); (split; intros; [|]); try lia; (split; [auto|]); split; try discriminate; tauto.
  - destruct (Z.ltb_spec (c_class c) 128); eexists; eexists; (split; [reflexivity|]);
      (split; [split; [discriminate|tauto]|]); (split; intros; [|]); try lia; (split; [auto|]); tauto.
Qed.
Print Assumptions C15_decision_partial.
Example C15_decision_ex :
  (exists c', state_decision 1 (clk 1 6 1 false LISTENING) (ann 2 10 0 2) = Some (PASSIVE, c')) /\
  (exists c', state_decision 1 (clk 1 248 1 false LISTENING) (ann 2 10 0 2) = Some (SLAVE, c')) /\
  (exists c', state_decision 1 (clk 1 248 1 false SLAVE) (ann 2 200 0 2) = Some (MASTER, c')).
Proof. split; [|split]; eexists; reflexivity. Qed.

(** The data set updates that go with each decision: a new master is its own
    parent and (unless a boundary grandmaster is configured) its own
    grandmaster; a slave or passive port records the chosen master's port and
    grandmaster; a slave is one step further away; the count of master
    changes goes up exactly when a different master port is adopted; a slave
    takes over whether the UTC offset is valid (or the override). *)
Theorem C15_updates : forall num c B st c',
  state_decision num c B = Some (st, c') -> 0 <= d_steps B < 65535 ->
  is_clock_id (p_clk (c_parent c)) -> is_clock_id (p_clk (d_src B)) ->
  (st = MASTER -> c_parent c' = mkPid (c_id c) 0 /\
     c_gm c' = (match c_bgm c with Some g => g | None => c_id c end) /\
     c_steps c' = c_opt_steps c /\ c_changes c' = c_changes c /\ c_utcv c' = c_opt_utcv c) /\
  (st = PASSIVE -> c_parent c' = d_src B /\ c_gm c' = d_gm B /\ c_steps c' = c_opt_steps c /\
     c_utcv c' = c_opt_utcv c) /\
  (st = SLAVE -> c_parent c' = d_src B /\ c_gm c' = d_gm B /\ c_steps c' = d_steps B + 1 /\
     c_utcv c' = (c_override_utc c || d_utcv B)) /\
  (st = PASSIVE \/ st = SLAVE ->
     c_changes c' = c_changes c + (if pid_dec (d_src B) (c_parent c) then 0 else 1)) /\
  (st = FAULTY -> c_errors c' = c_errors c + 1).
Proof.
  intros num c B st c' H HSt HP HB.
  assert (U : u16 (d_steps B + 1) = d_steps B + 1) by (unfold u16; apply Z.mod_small; lia).
  assert (NB : negb (pid_eqb (d_src B) (c_parent c)) =
               if pid_dec (d_src B) (c_parent c) then false else true).
  { destruct (pid_eqb (d_src B) (c_parent c)) eqn:E; destruct (pid_dec _ _) as [F|F]; try reflexivity.
    - apply pid_eqb_spec in E; auto; contradiction.
    - rewrite F in E. assert (pid_eqb (c_parent c) (c_parent c) = true) by (apply pid_eqb_spec; auto).
      congruence. }
  unfold state_decision in H. rewrite NB in H.
  assert (Close : forall st0 c0,
    Some (st0, c0) = Some (st, c') ->
    (st0 = MASTER /\ c0 = m1 c) \/
    (st0 = PASSIVE /\ c0 = note_change (if pid_dec (d_src B) (c_parent c) then false else true) (p1 B c)) \/
    (st0 = SLAVE /\ c0 = note_change (if pid_dec (d_src B) (c_parent c) then false else true) (s1 B c)) \/
    (st0 = FAULTY /\ c0 = bump_errors c) \/ (st0 = LISTENING /\ c0 = c) ->
    (st = MASTER -> c_parent c' = mkPid (c_id c) 0 /\
       c_gm c' = (match c_bgm c with Some g => g | None => c_id c end) /\
       c_steps c' = c_opt_steps c /\ c_changes c' = c_changes c /\ c_utcv c' = c_opt_utcv c) /\
    (st = PASSIVE -> c_parent c' = d_src B /\ c_gm c' = d_gm B /\ c_steps c' = c_opt_steps c /\
     c_utcv c' = c_opt_utcv c) /\
    (st = SLAVE -> c_parent c' = d_src B /\ c_gm c' = d_gm B /\ c_steps c' = d_steps B + 1 /\
     c_utcv c' = (c_override_utc c || d_utcv B)) /\
    (st = PASSIVE \/ st = SLAVE ->
       c_changes c' = c_changes c + (if pid_dec (d_src B) (c_parent c) then 0 else 1)) /\
    (st = FAULTY -> c_errors c' = c_errors c + 1)).
  { intros st0 c0 E C. injection E as <- <-.
    destruct C as [[-> ->]|[[-> ->]|[[-> ->]|[[-> ->]|[-> ->]]]]];
      (split; [|split; [|split; [|split]]]); intros X; try discriminate X;
      try (destruct X as [X|X]; discriminate X);
      destruct (pid_dec (d_src B) (c_parent c)); cbn; rewrite ?U; repeat split; lia. }
  destruct (c_slave_only c); [eapply Close; [exact H|tauto]|].
  destruct (Nat.eqb num 0 && pstate_eqb (c_state c) LISTENING); [eapply Close; [exact H|tauto]|].
  destruct (compare_own c B) as [comp|]; cbn [bind] in H; [|discriminate].
  destruct (c_class c <? 128), (comp <? 0), (0 <? comp); (eapply Close; [exact H|tauto]).
Qed.
Print Assumptions C15_updates.
Example C15_updates_ex : exists c',
  state_decision 1 (clk 1 248 1 false LISTENING) (ann 2 10 3 2) = Some (SLAVE, c') /\
  c_parent c' = mkPid (cid 2) 1 /\ c_steps c' = 4 /\ c_changes c' = 1.
Proof. eexists. repeat split. Qed.

(** With an empty table, or as master-only, nothing is chosen: the state is
    kept, and a master refreshes its own data. *)
Theorem C15_no_master : forall th1 th2 c f, f_num f = 0%nat \/ c_master_only c = true ->
  bmc th1 th2 c f =
  Some (c_state c, match c_state c with MASTER => m1 c | _ => c end, f).
Proof.
  intros th1 th2 c f H. unfold bmc.
  replace (Nat.eqb (f_num f) 0 || c_master_only c) with true
    by (destruct H as [->| ->]; [reflexivity|rewrite orb_true_r; reflexivity]).
  destruct (c_state c); reflexivity.
Qed.
Print Assumptions C15_no_master.

(** Refuted: with no qualified master a slave-only port does not go to
    LISTENING; it stays SLAVE of the master it had (until a separate timer
    fires).  In general the state is kept unless the discriminator rejected a
    master, in which case SLAVE becomes LISTENING. *)
Theorem C15_no_qualified : forall th1 th2 c f st c' f',
  c_master_only c = false -> (0 < f_num f)%nat ->
  (forall r, In r (live f) -> get_qual th1 c r <> Some QUALIFIED) ->
  bmc th1 th2 c f = Some (st, c', f') ->
  c' = c /\ f' = f /\
  (c_state c = SLAVE /\ (exists r, In r (live f) /\ get_qual th1 c r = Some BY_DISCRIMINATOR) ->
     st = LISTENING) /\
  (~ (c_state c = SLAVE /\ exists r, In r (live f) /\ get_qual th1 c r = Some BY_DISCRIMINATOR) ->
     st = c_state c).
Proof.
  intros th1 th2 c f st c' f' HM Hn HQ H. unfold bmc in H. rewrite HM in H.
  destruct (Nat.eqb_spec (f_num f) 0); [lia|]. cbn [orb] in H.
  destruct (choose th1 c f) as [[[b|] dq]|] eqn:Ec; cbn [bind] in H; [| |discriminate].
  - exfalso. destruct (choose_ok _ _ _ _ _ Ec) as [rb [Er Hq]].
    apply (HQ rb); [eapply nth_error_In; eassumption|]. unfold qual in Hq.
    destruct (get_qual th1 c rb) as [[]|]; try discriminate. reflexivity.
  - injection H as <- <- <-. split; [reflexivity|]. split; [reflexivity|].
    (* the flag is set exactly when some record was rejected by the discriminator *)
    assert (F : forall l i d d', first_qual th1 c l i d = Some (None, d') ->
              (d' = true <-> d = true \/ exists r, In r l /\ get_qual th1 c r = Some BY_DISCRIMINATOR)).
    { clear. intros l. induction l as [|r t IH]; intros i d d' H; cbn [first_qual] in H.
      - injection H as ->. split; [auto|]. intros [?|[r [[] _]]]. assumption.
      - destruct (get_qual th1 c r) as [q|] eqn:Eq; cbn [bind] in H; [|discriminate].
        destruct q; try discriminate; rewrite (IH _ _ _ H); split.
        1,5: intros [?|[r' [I1 I2]]]; [left; assumption|right; exists r'; split; [right; assumption|assumption]].
        1,4: intros [?|[r' [[<-|I1] I2]]]; [left; assumption|congruence|right; exists r'; split; assumption].
        + intros _. right. exists r. split; [left; reflexivity|assumption].
        + intros _. left. reflexivity. }
    unfold choose in Ec. fold (live f) in Ec.
    destruct (first_qual th1 c (live f) 0 false) as [[[b|] d0']|] eqn:E1; cbn [bind] in Ec; [| |discriminate].
    + exfalso. destruct (first_qual_some _ _ _ _ _ _ _ E1) as [k [r [_ [I1 [I2 _]]]]].
      apply (HQ r); [eapply nth_error_In; eassumption|]. unfold qual in I2.
      destruct (get_qual th1 c r) as [[]|]; try discriminate. reflexivity.
    + injection Ec as ->. apply F in E1. split.
      * intros [S1 S2]. rewrite S1. replace dq with true; [reflexivity|].
        symmetry. apply E1. right. assumption.
      * intros N. destruct dq; [|reflexivity]. destruct (c_state c) eqn:Es; try reflexivity.
        exfalso. apply N. split; [reflexivity|]. destruct (proj1 E1 eq_refl) as [?|?]; [discriminate|assumption].
Qed.
Print Assumptions C15_no_qualified.
Definition table1 : fds := match frun EX_SZ ex_mix (finit 4)
   [Announce 10 (ann 2 10 0 2); Announce 20 (ann 2 10 0 2)] with Some f => f | None => finit 4 end.
Theorem C15_listening_refuted : exists c f st c' f',
  c_slave_only c = true /\ c_state c = SLAVE /\ (0 < f_num f)%nat /\
  (forall r, In r (live f) -> get_qual 1000 c r <> Some QUALIFIED) /\
  bmc 1000 1000 c f = Some (st, c', f') /\ st = SLAVE.
Proof.
  exists (clk 1 248 2 true SLAVE), table1. eexists. eexists. eexists.
  split; [reflexivity|]. split; [reflexivity|]. split; [cbn; lia|].
  split; [|split; [vm_compute; reflexivity|reflexivity]].
  intros r [<-|[]]. vm_compute. discriminate.
Qed.
Print Assumptions C15_listening_refuted.
(** Refuted: a master that announces our own clock as its grandmaster, one
    step away, and is our current parent, makes the comparison come out equal
    and the port FAULTY. *)
Theorem C15_faulty_refuted : exists num c B c', c_slave_only c = false /\ (0 < num)%nat /\ dset_ok B /\
  state_decision num c B = Some (FAULTY, c').
Proof.
  exists 1%nat, (clk 1 248 2 false SLAVE), (ann 1 128 1 2). eexists.
  split; [reflexivity|]. split; [lia|]. split; [apply ann_ok; lia|reflexivity].
Qed.
Print Assumptions C15_faulty_refuted.
(** Refuted: if it comes from another port of our own clock, the decision
    reads an uninitialised port number. *)
Theorem C15_uninitialised_refuted : forall num c B,
  c_slave_only c = false -> (0 < num)%nat ->
  d_gm B = c_id c -> d_steps B = 0 -> p_clk (d_src B) = c_id c ->
  state_decision num c B = None.
Proof.
  intros num c B HS Hn E1 E2 E3. unfold state_decision. rewrite HS.
  destruct (Nat.eqb_spec num 0); [lia|]. cbn [andb].
  unfold compare_own, compare_pre. cbn [d0 d_gm d_steps d_src p_clk].
  rewrite E1, E2, E3, memcmp_refl. reflexivity.
Qed.
Print Assumptions C15_uninitialised_refuted.
Example C15_uninitialised_ex :
  dset_ok (ann 1 128 0 1) /\ state_decision 1 (clk 1 248 2 false SLAVE) (ann 1 128 0 1) = None.
Proof. split; [apply ann_ok; lia|reflexivity]. Qed.

(** * C18: the qualification window *)

(** For every history of announces, expiries, decisions and resets (clock
    readings not going backwards): a record of the table is treated as
    qualified at expiry time [th] only if at least two announces from that
    port arrived at or after [th], its discriminator offset is within
    tolerance and it is fewer than 255 steps away. *)
Theorem C18_only_if : forall SZ mix max l f th c r,
  1 < SZ -> mix_ok mix -> (0 < max)%nat -> Forall op_ok l -> monotone 0 l ->
  frun SZ mix (finit max) l = Some f -> In r (live f) ->
  get_qual th c r = Some QUALIFIED ->
  (2 <= count_since th (arrivals (r_pid r) l))%nat /\
  within_discriminator (c_disc c) (c_disc_thr c) (r_off r) /\
  d_steps (r_ds r) < 255.
Proof.
  intros SZ mix max l f th c r HS HM Hm Ho Hl H Hr HQ.
  destruct (inv_run _ _ _ _ _ _ _ _ HS HM (inv_init max 0 Hm) Ho Hl H) as [T [_ L]].
  rewrite Forall_forall in L. destruct (L r Hr) as [_ _ _ [h [R [N [S [_ C]]]]]].
  destruct (get_qual_of th c r h R S) as [q [E Q]]. rewrite HQ in E. injection E as <-.
  destruct (proj1 Q eq_refl) as [Q1 [Q2 Q3]]. specialize (C th). cbn [app] in C.
  split; [lia|]. auto.
Qed.
Print Assumptions C18_only_if.

(** Conversely, a record that has taken the announce times [h] since it was
    created is qualified exactly under those conditions on [h]. *)
Fixpoint announce_all (h : list Z) (r : frec) : option frec :=
  match h with [] => Some r | t :: h' => do r' <- record_announce t r; announce_all h' r' end.
Theorem C18_iff : forall p d o times h th c,
  length times = 2%nat -> StronglySorted Z.le h ->
  exists r q, announce_all h (mkRec p d times 0 0 o) = Some r /\ get_qual th c r = Some q /\
  (q = QUALIFIED <->
   (2 <= count_since th h)%nat /\ within_discriminator (c_disc c) (c_disc_thr c) o /\ d_steps d < 255).
Proof.
  intros p d o times h th c L S.
  assert (G : forall h2 h1 r, ring_of r h1 -> exists r', announce_all h2 r = Some r' /\
              ring_of r' (h1 ++ h2) /\ r_ds r' = r_ds r /\ r_off r' = r_off r).
  { intros h2. induction h2 as [|t h2 IH]; intros h1 r R; cbn [announce_all].
    - exists r. rewrite app_nil_r. auto.
    - destruct (ring_announce t r h1 R) as [r1 [E1 [R1 [P1 [D1 O1]]]]]. rewrite E1. cbn [bind].
      destruct (IH _ _ R1) as [r2 [E2 [R2 [D2 O2]]]]. exists r2. rewrite <- app_assoc in R2.
      split; [assumption|]. split; [assumption|]. split; congruence. }
  assert (R0 : ring_of (mkRec p d times 0 0 o) []).
  { split; [assumption|]. apply ring_inv_init. cbn [r_times]. rewrite L. unfold FM_THRESHOLD. lia. }
  destruct (G h [] _ R0) as [r [E [R [D O]]]]. cbn in R, D, O.
  destruct (get_qual_of th c r h R S) as [q [Eq Q]]. exists r, q. rewrite D, O in Q. auto.
Qed.
Print Assumptions C18_iff.
Example C18_ex : exists r r',
  announce_all [3; 10; 20] (mkRec (mkPid (cid 2) 1) (ann 2 10 0 2) [0; 0] 0 0 None) = Some r /\
  get_qual 10 (clk 1 248 1 true LISTENING) r = Some QUALIFIED /\
  get_qual 11 (clk 1 248 1 true LISTENING) r = Some BY_EXPIRY /\
  announce_all [10] (mkRec (mkPid (cid 2) 1) (ann 2 10 0 2) [0; 0] 0 0 None) = Some r' /\
  get_qual 5 (clk 1 248 1 true LISTENING) r' = Some BY_EXPIRY.
Proof. eexists. eexists. repeat split. Qed.

(** * C16: the chosen master *)

(** Announces that agree with each other: everyone who names the same
    grandmaster gives it the same attributes, and no two such paths are
    adjacent in length. *)
Definition coherent (prefer : bool) (l : list dset) : Prop :=
  forall A B, In A l -> In B l -> d_gm A = d_gm B ->
  gm_key prefer A = gm_key prefer B /\ ~ adjacent A B.

Definition is_qualified (th : Z) (c : clock) (r : frec) : Prop := get_qual th c r = Some QUALIFIED.

Lemma qual_iff : forall th c r, qual th c r = true <-> is_qualified th c r.
Proof.
  intros th c r. unfold qual, is_qualified. destruct (get_qual th c r) as [[]|]; split; congruence.
Qed.

Lemma choose_best : forall th c f b dq,
  Forall (fun r => dset_ok (r_ds r)) (live f) ->
  coherent (c_prefer c) (map r_ds (qualified_of th c (live f))) ->
  choose th c f = Some (Some b, dq) ->
  exists rb, nth_error (live f) b = Some rb /\ qual th c rb = true /\
    forall r, In r (live f) -> qual th c r = true -> ~ better (c_prefer c) (r_ds r) (r_ds rb).
Proof.
  intros th c f b dq HD HC H. unfold choose in H. fold (live f) in H.
  destruct (first_qual th c (live f) 0 false) as [[[b0|] dq0]|] eqn:E; cbn [bind] in H; try discriminate.
  destruct (first_qual_some _ _ _ _ _ _ _ E) as [k [r0 [-> [E1 [E2 E3]]]]]. cbn [Nat.add] in *.
  rewrite E1 in H. cbn [bind] in H.
  destruct (scan_rest _ _ _ _ _) as [s|] eqn:Es; cbn [bind] in H; [|discriminate].
  set (P := fun r => In r (qualified_of th c (live f))).
  set (key := fun r => full_key (c_prefer c) (r_ds r)).
  assert (PD : forall r, P r -> dset_ok (r_ds r)).
  { intros r Hr. unfold P, qualified_of in Hr. apply filter_In in Hr. rewrite Forall_forall in HD. apply HD. tauto. }
  assert (Hcmp : forall A B, P A -> P B ->
    compare (c_prefer c) (p_clk (c_parent c)) (r_ds A) (r_ds B) = memcmp (key A) (key B)).
  { intros A B HA HB. apply compare_full; auto.
    intros Eg. apply HC; auto; apply in_map; assumption. }
  assert (Hlen : forall A B, P A -> P B -> length (key A) = length (key B)).
  { intros A B HA HB. unfold key. rewrite !full_key_length by auto. reflexivity. }
  assert (P0 : P r0).
  { unfold P, qualified_of. apply filter_In. split; [eapply nth_error_In; eassumption|assumption]. }
  assert (SUB : forall r, In r (qualified_of th c (skipn (S k) (live f))) -> P r).
  { intros r Hr. unfold P, qualified_of in *. apply filter_In in Hr. apply filter_In.
    split; [|tauto]. rewrite <- (firstn_skipn (S k) (live f)). apply in_or_app. tauto. }
  assert (PT : Forall P (qualified_of th c (skipn (S k) (live f)))) by (apply Forall_forall; exact SUB).
  destruct (scan_rest_min th c key P Hcmp Hlen _ _ _ _ Es P0 PT) as [J1 [J2 J3]].
  cbn [s_rec] in J2.
  destruct (scan_rest_pick th c _ _ _ _ (firstn (S k) (live f)) Es) as [K1 [K2 _]].
  { cbn [s_best s_rec]. rewrite firstn_skipn. assumption. }
  { rewrite firstn_length. assert (X := nth_error_len _ _ _ _ E1). lia. }
  { cbn [s_rec]. assumption. }
  rewrite firstn_skipn in K1. injection H as Hb _.
  destruct (s_had s || Nat.eqb (s_count s) 1); [|discriminate]. injection Hb as <-.
  exists (s_rec s). split; [assumption|]. split; [assumption|].
  intros r Hr Hq BT.
  assert (Pr : P r) by (unfold P, qualified_of; apply filter_In; auto).
  assert (BL : lex_lt (key r) (key (s_rec s))).
  { apply memcmp_lt; [apply Hlen; assumption|]. rewrite <- Hcmp by assumption.
    apply compare_better; auto.
    intros Ad. pose proof Ad as [Eg _]. destruct (HC (r_ds r) (r_ds (s_rec s))) as [_ X]; auto;
      apply in_map; assumption. }
  assert (CASES : r = r0 \/ In r (qualified_of th c (skipn (S k) (live f)))).
  { rewrite <- (firstn_skipn (S k) (live f)) in Hr. apply in_app_or in Hr. destruct Hr as [Hr|Hr].
    - left. rewrite (firstn_S_nth _ _ _ _ E1) in Hr. apply in_app_or in Hr. destruct Hr as [Hr|[Hr|[]]]; auto.
      rewrite Forall_forall in E3. specialize (E3 _ Hr). congruence.
    - right. unfold qualified_of. apply filter_In. auto. }
  destruct CASES as [->|Hr']; [exact (J2 BL)|exact (J3 r Hr' BL)].
Qed.

(** a decision is made as soon as some record is qualified *)
Lemma choose_decides : forall th c f, 
  Forall (qual_defined th c) (live f) ->
  Forall (fun r => dset_ok (r_ds r) /\ d_src (r_ds r) = r_pid r) (live f) ->
  NoDup (map r_pid (live f)) ->
  coherent (c_prefer c) (map r_ds (qualified_of th c (live f))) ->
  (exists r, In r (live f) /\ qual th c r = true) ->
  exists b dq, choose th c f = Some (Some b, dq).
Proof.
  intros th c f HQ HD ND HC [rq [Hq1 Hq2]].
  pose proof (choose_total th c f HQ) as T. unfold choose in *. fold (live f) in *.
  destruct (first_qual th c (live f) 0 false) as [[[b0|] dq0]|] eqn:E; cbn [bind] in *; [| |congruence].
  2: { exfalso. pose proof (first_qual_none _ _ _ _ _ _ E) as X. rewrite Forall_forall in X.
       specialize (X _ Hq1). congruence. }
  destruct (first_qual_some _ _ _ _ _ _ _ E) as [k [r0 [-> [E1 [E2 E3]]]]]. cbn [Nat.add] in *.
  rewrite E1 in *. cbn [bind] in *.
  destruct (scan_rest _ _ _ _ _) as [s|] eqn:Es; cbn [bind] in *; [|congruence].
  destruct (scan_rest_pick th c _ _ _ _ (firstn (S k) (live f)) Es) as [K1 [K2 [K3 [K4 K5]]]].
  { cbn [s_best s_rec]. rewrite firstn_skipn. assumption. }
  { rewrite firstn_length. assert (X := nth_error_len _ _ _ _ E1). lia. }
  { cbn [s_rec]. assumption. }
  cbn [s_count s_rec] in *.
  destruct (s_had s) eqn:Eh; [cbn [orb]; eexists; eexists; reflexivity|].
  destruct (qualified_of th c (skipn (S k) (live f))) as [|r1 rest] eqn:Er.
  { rewrite K3. cbn. eexists; eexists; reflexivity. }
  exfalso. destruct (K4 eq_refl) as [_ K6]. specialize (K6 r1 (or_introl eq_refl)).
  assert (R1 : In r1 (skipn (S k) (live f)) /\ qual th c r1 = true).
  { apply filter_In. unfold qualified_of in Er. rewrite Er. left. reflexivity. }
  destruct R1 as [R1 R2].
  assert (R3 : In r1 (live f)) by (rewrite <- (firstn_skipn (S k) (live f)); apply in_or_app; auto).
  assert (R0 : In r0 (live f)) by (eapply nth_error_In; eassumption).
  rewrite Forall_forall in HD. destruct (HD _ R3) as [D1 S1]. destruct (HD _ R0) as [D0 S0].
  assert (NA : ~ adjacent (r_ds r1) (r_ds r0)).
  { intros Ad. pose proof Ad as [Eg _]. destruct (HC (r_ds r1) (r_ds r0)) as [_ X]; auto;
      apply in_map; unfold qualified_of; apply filter_In; auto. }
  apply C14_rank in K6; auto. destruct K6 as [_ [_ K6]].
  (* two live records with the same identity *)
  assert (Ep : r_pid r1 = r_pid r0) by congruence.
  assert (Ek : live f = firstn k (live f) ++ r0 :: skipn (S k) (live f)).
  { rewrite <- (nth_error_skipn_cons _ _ _ _ E1). symmetry. apply firstn_skipn. }
  rewrite Ek, map_app in ND. cbn [map] in ND. apply NoDup_remove_2 in ND. apply ND.
  apply in_or_app. right. rewrite <- Ep. apply in_map. assumption.
Qed.

(** Full statement: over any table the chosen record is qualified and no
    qualified record is better.  Proved here for every reachable table with
    distinct port identities whose qualified announces are coherent, the
    expiry time not changing during the run: a choice is made whenever some
    record is qualified; it is a qualified record of the table; no qualified
    record is better; the state is decided from exactly that record; and all
    that is dropped from the table are the other qualified records. *)
Theorem C16_partial : forall SZ mix max l f th c st c' f',
  1 < SZ -> mix_ok mix -> (0 < max)%nat -> Forall op_ok l -> monotone 0 l ->
  frun SZ mix (finit max) l = Some f ->
  NoDup (map r_pid (live f)) ->
  coherent (c_prefer c) (map r_ds (filter (qual th c) (live f))) ->
  (exists r, In r (live f) /\ is_qualified th c r) -> c_master_only c = false ->
  bmc th th c f = Some (st, c', f') ->
  exists rb, In rb (live f) /\ is_qualified th c rb /\
  (forall r, In r (live f) -> is_qualified th c r -> ~ better (c_prefer c) (r_ds r) (r_ds rb)) /\
  nth_error (live f') (f_best f') = Some rb /\
  state_decision (f_num f') c (r_ds rb) = Some (st, c') /\
  (forall r, In r (live f') <-> In r (live f) /\ (is_qualified th c r -> r = rb)).
Proof.
  intros SZ mix max l f th c st c' f' HS HM Hm Ho Hl HR ND HC [rq [Q1 Q2]] HMO H.
  destruct (inv_run _ _ _ _ _ _ _ _ HS HM (inv_init max 0 Hm) Ho Hl HR) as [T [SH L]].
  assert (LQ : Forall (qual_defined th c) (live f)).
  { eapply Forall_impl; [|exact L]. intros r. apply rec_ok_qual. }
  assert (LD : Forall (fun r => dset_ok (r_ds r) /\ d_src (r_ds r) = r_pid r) (live f)).
  { eapply Forall_impl; [|exact L]. intros r [X1 X2 X3 X4]. auto. }
  destruct (choose_decides th c f LQ LD ND HC) as [b [dq Ec]].
  { exists rq. split; [assumption|]. apply qual_iff. assumption. }
  destruct (choose_best th c f b dq ltac:(eapply Forall_impl; [|exact LD]; cbn; tauto) HC Ec)
    as [rb [Eb [Qb Bb]]].
  assert (Lb := nth_error_len _ _ _ _ Eb). unfold live in Lb. rewrite firstn_length in Lb.
  pose proof SH as [SL SP SN SW SB SA SS].
  unfold bmc in H. rewrite HMO in H. destruct (Nat.eqb_spec (f_num f) 0) as [X|_]; [lia|].
  cbn [orb] in H. rewrite Ec in H. cbn [bind] in H.
  destruct (delete_unselected th c _) as [f1|] eqn:Ed; cbn [bind] in H; [|discriminate].
  destruct (delete_ok max th c _ _ (shape_best max f b SH ltac:(lia)) Ed) as [S1 [L1 B1]].
  cbn [f_best f_num f_recs] in *.
  assert (Eb' : nth_error (f_recs f) b = Some rb).
  { unfold live in Eb. rewrite nth_error_firstn in Eb by lia. assumption. }
  destruct (B1 rb ltac:(lia) Eb' Qb) as [B2 B3].
  rewrite B3 in H. cbn [bind] in H.
  destruct (state_decision (f_num f1) c (r_ds rb)) as [sc|] eqn:Esd; cbn [bind] in H; [|discriminate].
  injection H as -> <-.
  exists rb. split; [eapply nth_error_In; eassumption|]. split; [apply qual_iff; assumption|].
  split. { intros r Hr Hq. apply Bb; [assumption|]. apply qual_iff. assumption. }
  split. { unfold live. rewrite nth_error_firstn by assumption. assumption. }
  split; [assumption|].
  intros r. rewrite L1. change (live (mkFds (f_recs f) (f_num f) (f_write f) b)) with (live f).
  pose proof (kept_split th c (live f) b 0 rb Eb) as KS. cbn [Nat.add] in KS. rewrite KS.
  assert (SP3 : live f = firstn b (live f) ++ rb :: skipn (S b) (live f)).
  { rewrite <- (nth_error_skipn_cons _ _ _ _ Eb). symmetry. apply firstn_skipn. }
  assert (NQ : forall x, negb (qual th c x) = true <-> ~ is_qualified th c x).
  { intros x. rewrite <- qual_iff. destruct (qual th c x); cbn; split; congruence. }
  split.
  - intros Hi. apply in_app_or in Hi. rewrite SP3. destruct Hi as [Hi|[Hi|Hi]].
    + apply filter_In in Hi. destruct Hi as [Hi Hn]. apply NQ in Hn.
      split; [apply in_or_app; auto|tauto].
    + subst r. split; [apply in_or_app; right; left; reflexivity|auto].
    + apply filter_In in Hi. destruct Hi as [Hi Hn]. apply NQ in Hn.
      split; [apply in_or_app; right; right; assumption|tauto].
  - intros [Hi Hq]. destruct (qual th c r) eqn:Eq.
    + apply qual_iff in Eq. rewrite (Hq Eq). apply in_or_app. right. left. reflexivity.
    + rewrite SP3 in Hi. apply in_app_or in Hi. apply in_or_app. destruct Hi as [Hi|[Hi|Hi]].
      * left. apply filter_In. rewrite Eq. auto.
      * right. left. assumption.
      * right. right. apply filter_In. rewrite Eq. auto.
Qed.
Print Assumptions C16_partial.
Definition l16 : list fop :=
  [Announce 10 (ann 3 20 0 3); Announce 11 (ann 2 10 1 2); Announce 12 (ann 4 30 0 4);
   Announce 20 (ann 3 20 0 3); Announce 21 (ann 2 10 1 2)].
Example C16_ex : match frun EX_SZ ex_mix (finit 4) l16 with
  | Some f =>
    map r_pid (live f) = [mkPid (cid 3) 1; mkPid (cid 2) 1; mkPid (cid 4) 1] /\
    map r_pid (filter (qual 5 (clk 1 248 1 true LISTENING)) (live f)) = [mkPid (cid 3) 1; mkPid (cid 2) 1] /\
    match bmc 5 5 (clk 1 248 1 true LISTENING) f with
    | Some (st, c', f') => st = SLAVE /\ c_parent c' = mkPid (cid 2) 1 /\
        map r_pid (live f') = [mkPid (cid 2) 1; mkPid (cid 4) 1] /\ f_best f' = 0%nat
    | None => False
    end
  | None => False
  end.
Proof. vm_compute. repeat split. Qed.

(** Refuted without coherence: two qualified paths to one grandmaster, one a
    step longer.  The choice depends on which was heard first, and the longer
    path can win. *)
Theorem C16_order_refuted : exists c f1 f2 rb1 rb2 st1 st2 c1 c2 f1' f2',
  frun EX_SZ ex_mix (finit 4)
    [Announce 10 (ann 9 10 1 3); Announce 11 (ann 9 10 2 2);
     Announce 20 (ann 9 10 1 3); Announce 21 (ann 9 10 2 2)] = Some f1 /\
  frun EX_SZ ex_mix (finit 4)
    [Announce 10 (ann 9 10 2 2); Announce 11 (ann 9 10 1 3);
     Announce 20 (ann 9 10 2 2); Announce 21 (ann 9 10 1 3)] = Some f2 /\
  bmc 5 5 c f1 = Some (st1, c1, f1') /\ bmc 5 5 c f2 = Some (st2, c2, f2') /\
  nth_error (live f1') (f_best f1') = Some rb1 /\ nth_error (live f2') (f_best f2') = Some rb2 /\
  better false (r_ds rb2) (r_ds rb1) /\ In (r_pid rb2) (map r_pid (live f1)).
Proof.
  exists (clk 1 248 8 true SLAVE). eexists. eexists. eexists. eexists.
  eexists. eexists. eexists. eexists. eexists. eexists.
  split; [vm_compute; reflexivity|]. split; [vm_compute; reflexivity|].
  split; [vm_compute; reflexivity|]. split; [vm_compute; reflexivity|].
  split; [vm_compute; reflexivity|]. split; [vm_compute; reflexivity|].
  split; [right; split; [reflexivity|apply lex_here; cbn; lia]|].
  left. reflexivity.
Qed.
Print Assumptions C16_order_refuted.
(** Refuted without coherence: masters that describe one grandmaster
    differently can beat each other in a circle, so whichever is chosen, a
    qualified record is better. *)
Theorem C16_circle_refuted : exists A B C, dset_ok A /\ dset_ok B /\ dset_ok C /\
  better false A C /\ better false C B /\ better false B A /\
  forall parent, compare false parent A C = -1 /\ compare false parent C B = -1 /\
                 compare false parent B A = -1.
Proof.
  exists (ann 2 1 5 3), (ann 2 9 0 4), (ann 7 5 0 7).
  split; [apply ann_ok; lia|]. split; [apply ann_ok; lia|]. split; [apply ann_ok; lia|].
  split; [left; split; [discriminate|apply lex_here; cbn; lia]|].
  split; [left; split; [discriminate|apply lex_here; cbn; lia]|].
  split; [right; split; [reflexivity|apply lex_here; cbn; lia]|].
  intros parent. split; [reflexivity|]. split; reflexivity.
Qed.
Print Assumptions C16_circle_refuted.
(** Refuted: two qualified masters, one of them our parent and one step
    farther than the other from the same grandmaster, compare as equal, so no
    choice is made although the other is better. *)
Theorem C16_stuck_refuted : exists c f st c' f' r1 r2,
  frun EX_SZ ex_mix (finit 4)
    [Announce 10 (ann 9 10 2 2); Announce 11 (ann 9 10 1 3);
     Announce 20 (ann 9 10 2 2); Announce 21 (ann 9 10 1 3)] = Some f /\
  live f = [r1; r2] /\ is_qualified 5 c r1 /\ is_qualified 5 c r2 /\
  c_parent c = r_pid r1 /\ better false (r_ds r2) (r_ds r1) /\
  bmc 5 5 c f = Some (st, c', f') /\ c' = c /\ f' = f.
Proof.
  exists (clk 1 248 2 true SLAVE). eexists. eexists. eexists. eexists. eexists. eexists.
  split; [vm_compute; reflexivity|]. split; [vm_compute; reflexivity|].
  split; [vm_compute; reflexivity|]. split; [vm_compute; reflexivity|].
  split; [reflexivity|]. split; [right; split; [reflexivity|apply lex_here; cbn; lia]|].
  split; [vm_compute; reflexivity|]. split; reflexivity.
Qed.
Print Assumptions C16_stuck_refuted.
(** Refuted when the expiry time moves between the choice and the clean-up:
    the state is then decided from a record that never qualified. *)
Theorem C16_moving_time_refuted : exists c f st c' f' rb,
  frun EX_SZ ex_mix (finit 4)
    [Announce 9 (ann 3 50 0 3); Announce 10 (ann 2 10 0 2); Announce 30 (ann 3 50 0 3); Announce 31 (ann 2 10 0 2);
     Announce 32 (ann 4 90 0 4); Announce 33 (ann 3 50 0 3)] = Some f /\
  bmc 5 20 c f = Some (st, c', f') /\ nth_error (live f') (f_best f') = Some rb /\
  c_parent c' = r_pid rb /\ ~ is_qualified 5 c rb.
Proof.
  (* 2 is best but stops qualifying at time 20; 3 is dropped; 4 never qualified *)
  exists (clk 1 248 8 true SLAVE). eexists. eexists. eexists. eexists. eexists.
  split; [vm_compute; reflexivity|]. split; [vm_compute; reflexivity|].
  split; [vm_compute; reflexivity|]. split; [reflexivity|]. vm_compute. discriminate.
Qed.
Print Assumptions C16_moving_time_refuted.

(** * C17: consistency of the foreign master table *)

(** Every history that is defined leaves the table within its capacity, with
    every record carrying announce data from the port it is filed under, of
    which at least one announce arrived. *)
Theorem C17_bounds_partial : forall SZ mix max l f,
  1 < SZ -> mix_ok mix -> (0 < max)%nat -> Forall op_ok l -> monotone 0 l ->
  frun SZ mix (finit max) l = Some f ->
  (length (live f) <= max)%nat /\ length (live f) = f_num f /\ length (f_recs f) = max /\
  forall r, In r (live f) ->
    d_src (r_ds r) = r_pid r /\ (exists t d, In (Announce t d) l /\ d_src d = r_pid r).
Proof.
  intros SZ mix max l f HS HM Hm Ho Hl HR.
  destruct (inv_run _ _ _ _ _ _ _ _ HS HM (inv_init max 0 Hm) Ho Hl HR) as [T [SH L]].
  pose proof SH as [SL SP SN SW SB SA SS].
  assert (LL : length (live f) = f_num f) by (unfold live; rewrite firstn_length; lia).
  split; [lia|]. split; [assumption|]. split; [assumption|].
  intros r Hr. rewrite Forall_forall in L. destruct (L r Hr) as [_ _ X [h [_ [N [_ [_ C]]]]]].
  split; [assumption|]. destruct h as [|t h]; [congruence|].
  specialize (C t). cbn [app] in C.
  assert (P : (0 < count_since t (arrivals (r_pid r) l))%nat).
  { eapply Nat.lt_le_trans; [|exact C]. unfold count_since. cbn [filter].
    rewrite Z.leb_refl. cbn. lia. }
  assert (NE : arrivals (r_pid r) l <> []) by (intros E; rewrite E in P; cbn in P; lia).
  clear -NE. unfold arrivals in NE. induction l as [|o l IH]; [exfalso; apply NE; reflexivity|].
  cbn [flat_map] in NE. destruct (arrivals1 (r_pid r) o) as [|x y] eqn:E.
  - destruct (IH NE) as [t' [d [I1 I2]]]. exists t', d. split; [right|]; assumption.
  - destruct o; cbn in E; try discriminate. destruct (pid_dec (d_src d) (r_pid r)); [|discriminate].
    exists now, d. split; [left; reflexivity|assumption].
Qed.
Print Assumptions C17_bounds_partial.

(** A history along which the index of the selected record always points into
    the table (see the refutation below for why this can fail). *)
Fixpoint good_run (SZ : Z) (mix : Z -> frec -> frec -> frec) (f : fds) (l : list fop) (f' : fds) : Prop :=
  (f_num f = 0%nat \/ (f_best f < f_num f)%nat) /\
  match l with
  | [] => f' = f
  | o :: l' => exists f1, fstep SZ mix f o = Some f1 /\ good_run SZ mix f1 l' f'
  end.

Lemma good_inv : forall SZ mix max l T A f f', 1 < SZ -> mix_ok mix -> inv max T A f -> distinct f ->
  Forall op_ok l -> monotone T l -> good_run SZ mix f l f' ->
  exists T', inv max T' (fun p => A p ++ arrivals p l) f' /\ distinct f' /\ best_live f'.
Proof.
  intros SZ mix max l. induction l as [|o l IH]; intros T A f f' HS HM I D Ho HT [Hb H].
  - subst f'. exists T. split; [|split; assumption]. destruct I as [S L]. split; [assumption|].
    eapply Forall_impl; [|exact L]. intros r. apply rec_ok_weaken; [lia|].
    intros th p. cbn. rewrite app_nil_r. lia.
  - destruct H as [f1 [E H]]. inversion Ho as [|? ? Ho1 Ho2]; subst.
    assert (HM' : T <= time_of T o /\ monotone (time_of T o) l).
    { destruct o; cbn in *; try (split; [lia|assumption]). assumption. }
    destruct HM' as [M1 M2].
    destruct (IH _ _ _ _ HS HM (inv_step _ _ _ _ _ _ _ _ HS HM I Ho1 M1 E)
                 (distinct_step _ _ _ _ _ _ _ _ HS HM I Ho1 Hb D E) Ho2 M2 H) as [T' [[S' L'] [D' B']]].
    exists T'. split; [|split; assumption]. split; [assumption|]. eapply Forall_impl; [|exact L'].
    intros r. apply rec_ok_weaken; [lia|]. intros th p. cbn [arrivals flat_map].
    rewrite app_assoc. unfold arrivals. lia.
Qed.

Lemma set_nth_in : forall (m : list frec) k x r, In r (set_nth k x m) -> r = x \/ In r m.
Proof.
  induction m as [|y m IH]; intros [|k] x r Hx; cbn in Hx; auto; destruct Hx as [Hx|Hx]; subst; cbn; auto.
  destruct (IH _ _ _ Hx); auto.
Qed.
Lemma in_set_nth : forall (m : list frec) k x r, In r m -> In r (set_nth k x m) \/ nth_error m k = Some r.
Proof.
  induction m as [|y m IH]; intros [|k] x r Hx; cbn in *; auto; destruct Hx as [Hx|Hx]; subst; cbn; auto.
  destruct (IH k x r Hx); auto.
Qed.

(** Along such a history no port has two records, an announce is always
    recorded in the sender's own record, no other port's record changes, and
    at most one is evicted - only when the table is full and the sender
    unknown, and (capacity above one) never the selected one. *)
Theorem C17_distinct_partial : forall SZ mix max l f,
  1 < SZ -> mix_ok mix -> (0 < max)%nat -> Forall op_ok l -> monotone 0 l ->
  good_run SZ mix (finit max) l f ->
  NoDup (map r_pid (live f)) /\
  forall now d f' k, dset_ok d -> finsert now d f = Some (f', k) ->
    (exists r', nth_error (live f') k = Some r' /\ r_pid r' = d_src d /\ r_ds r' = d) /\
    (forall r, In r (live f') -> r_pid r <> d_src d -> In r (live f)) /\
    (forall r, In r (live f) -> r_pid r <> d_src d ->
       In r (live f') \/
       (nth_error (live f) k = Some r /\ ~ In (d_src d) (map r_pid (live f)) /\
        length (live f) = max /\ ((1 < max)%nat -> k <> f_best f))).
Proof.
  intros SZ mix max l f HS HM Hm Ho Hl HG.
  destruct (good_inv _ _ _ _ _ _ _ _ HS HM (inv_init max 0 Hm) (NoDup_nil _) Ho Hl HG) as [T [I [D B]]].
  split; [exact D|]. intros now d f' k Hd HI. pose proof I as [SH L].
  pose proof SH as [SL SP SN SW SB SA SS].
  assert (LL : length (live f) = f_num f) by (unfold live; rewrite firstn_length; lia).
  assert (Hid : is_clock_id (p_clk (d_src d))) by (destruct Hd as [_ [X _]]; exact X).
  destruct (insert_live _ _ _ _ _ _ SH HI)
    as [[r [r' [Hf [Er [Ep [Ea [En [_ Hn]]]]]]]]|[r [r' [Hf [Er [Ea [_ Hn]]]]]]].
  - assert (Hk : (k < f_num f)%nat).
    { destruct B as [B|B]; [unfold find in Hf; rewrite B in Hf; discriminate|].
      eapply (find_from_lt (f_recs f) (f_num f) (d_src d) (f_num f) (f_best f)); [lia|assumption|exact Hf]. }
    destruct Hn as [[_ [El Hn]]|[X _]]; [|lia].
    rewrite Hn. apply record_announce_some in Ea. destruct Ea as [-> _]. cbn [r_pid r_ds] in *.
    assert (Epid : d_src d = r_pid r).
    { rewrite Forall_forall in L. destruct (L r (nth_error_In _ _ El)) as [Y _ _ _].
      apply pid_eqb_spec; assumption. }
    split; [|split].
    + eexists. split; [apply nth_error_set_nth_same; lia|]. cbn. auto.
    + intros x Hx Nx. destruct (set_nth_in _ _ _ _ Hx) as [->|Hx']; [cbn in Nx; congruence|assumption].
    + intros x Hx Nx.
      left.
      match goal with |- In x (set_nth k ?v _) => destruct (in_set_nth _ k v x Hx) as [W|W]; [exact W|rewrite El in W; congruence] end.
  - apply record_announce_some in Ea. destruct Ea as [-> _]. cbn [r_pid r_ds] in *.
    assert (N : ~ In (d_src d) (map r_pid (live f))).
    { assert (X := find_none_all f (d_src d) ltac:(unfold f_max; lia) B Hf).
      intros Y. apply in_map_iff in Y. destruct Y as [y [E1 Hy]].
      rewrite Forall_forall in X, L. specialize (X _ Hy). destruct (L _ Hy) as [Y1 _ _ _].
      rewrite <- E1 in X. assert (pid_eqb (r_pid y) (r_pid y) = true)
        by (apply pid_eqb_spec; auto). congruence. }
    assert (Kw : k = if Nat.ltb (f_write f) (f_num f) && Nat.eqb (f_write f) (f_best f)
             then Nat.modulo (f_write f + 1) (f_max f) else f_write f).
    { unfold finsert in HI. rewrite Hf in HI. cbn [bind] in HI.
      destruct (nth_error _ _) in HI; cbn [bind] in HI; [|discriminate].
      destruct (record_announce _ _) in HI; cbn [bind] in HI; [|discriminate]. congruence. }
    assert (Hkm : (k < max)%nat) by (rewrite <- SL; eapply nth_error_len; eassumption).
    destruct Hn as [[Hlt [_ Hn]]|[Hfull [_ Hn]]]; rewrite Hn.
    + assert (Hk : k = f_num f).
      { rewrite Kw, (SA Hlt), Nat.ltb_irrefl. reflexivity. }
      split; [|split].
      * eexists. split; [rewrite nth_error_app2 by lia; rewrite LL, Hk, Nat.sub_diag; reflexivity|].
        cbn. auto.
      * intros x Hx Nx. apply in_app_or in Hx. destruct Hx as [Hx|[<-|[]]]; [assumption|]. cbn in Nx. congruence.
      * intros x Hx _. left. apply in_or_app. auto.
    + split; [|split].
      * eexists. split; [apply nth_error_set_nth_same; lia|]. cbn. auto.
      * intros x Hx Nx. destruct (set_nth_in _ _ _ _ Hx) as [->|Hx']; [cbn in Nx; congruence|assumption].
      * intros x Hx Nx.
        match goal with |- In x (set_nth k ?v _) \/ _ => destruct (in_set_nth _ k v x Hx) as [W|W] end; [auto|].
        right. split; [assumption|]. split; [assumption|]. split; [lia|]. intros H1.
        unfold f_max in Kw. rewrite SL in Kw.
        destruct (Nat.ltb_spec (f_write f) (f_num f)); [|cbn [andb] in Kw; lia]. cbn [andb] in Kw.
        destruct (Nat.eqb_spec (f_write f) (f_best f)); [|lia].
        destruct (Nat.eq_dec (f_write f + 1) max) as [E|E].
        -- rewrite E, Nat.mod_same in Kw by lia. lia.
        -- rewrite Nat.mod_small in Kw by lia. lia.
Qed.
Print Assumptions C17_distinct_partial.
Definition l17 : list fop :=
  [Announce 10 (ann 3 20 0 3); Announce 11 (ann 2 10 1 2); Announce 20 (ann 3 20 0 3);
   Announce 21 (ann 2 10 1 2); RunBmc 5 5 (clk 1 248 1 true LISTENING);
   Announce 30 (ann 4 30 0 4); Expire 5; Announce 31 (ann 5 30 0 5)].
Example C17_ex : exists f, good_run EX_SZ ex_mix (finit 6) l17 f /\
  map r_pid (live f) = [mkPid (cid 2) 1; mkPid (cid 4) 1; mkPid (cid 5) 1] /\ f_best f = 0%nat.
Proof.
  eexists. split.
  { unfold l17.
    do 8 (split; [vm_compute; first [left; reflexivity | right; lia]|];
          eexists; split; [vm_compute; reflexivity|]).
    split; [vm_compute; right; lia|]. reflexivity. }
  split; reflexivity.
Qed.

(** Recording an announce is undefined (a write past the end of the table)
    in exactly one situation: the sender is unknown, the table is full and the
    next-write index equals the capacity. *)
Theorem C17_insert_defined : forall SZ mix max l f now d,
  1 < SZ -> mix_ok mix -> (0 < max)%nat -> Forall op_ok l -> monotone 0 l ->
  good_run SZ mix (finit max) l f -> dset_ok d ->
  (finsert now d f = None <->
   ~ In (d_src d) (map r_pid (live f)) /\ length (live f) = max /\ f_write f = max).
Proof.
  intros SZ mix max l f now d HS HM Hm Ho Hl HG Hd.
  destruct (good_inv _ _ _ _ _ _ _ _ HS HM (inv_init max 0 Hm) (NoDup_nil _) Ho Hl HG) as [T [I [D B]]].
  pose proof I as [[SL SP SN SW SB SA SS] L].
  assert (LL : length (live f) = f_num f) by (unfold live; rewrite firstn_length; lia).
  rewrite LL. eapply insert_none; eassumption.
Qed.
Print Assumptions C17_insert_defined.
(** Refuted: that situation is reached by filling the table and running the
    best master algorithm once. *)
Theorem C17_overflow_refuted : exists l f,
  Forall op_ok l /\ monotone 0 l /\ frun EX_SZ ex_mix (finit 3) l = Some f /\
  (forall now d, d_src d = mkPid (cid 7) 1 -> finsert now d f = None).
Proof.
  exists [Announce 10 (ann 2 10 0 2); Announce 11 (ann 3 10 0 3); Announce 12 (ann 4 10 0 4);
          Announce 20 (ann 2 10 0 2); RunBmc 5 5 (clk 1 248 1 true LISTENING)].
  eexists. split. { repeat (constructor; [apply ann_ok; lia|]). repeat constructor. }
  split; [cbn; lia|]. split; [vm_compute; reflexivity|].
  intros now d E. unfold finsert. rewrite E. reflexivity.
Qed.
Print Assumptions C17_overflow_refuted.

(** Expiry keeps exactly the records whose last announce is recent enough, in
    order - whenever it is defined, which it is if the table is at most half
    full. *)
Theorem C17_expire_partial : forall SZ mix max l f th,
  1 < SZ -> mix_ok mix -> (0 < max)%nat -> Forall op_ok l -> monotone 0 l ->
  frun SZ mix (finit max) l = Some f ->
  (forall f', expire SZ mix th f = Some f' ->
     live f' = filter (fun r => match latest_qualifies th r with Some true => true | _ => false end) (live f) /\
     forall r, In r (live f') -> (1 <= count_since th (arrivals (r_pid r) l))%nat) /\
  ((2 * length (live f) <= max)%nat -> exists f', expire SZ mix th f = Some f').
Proof.
  intros SZ mix max l f th HS HM Hm Ho Hl HR.
  destruct (inv_run _ _ _ _ _ _ _ _ HS HM (inv_init max 0 Hm) Ho Hl HR) as [T I].
  split.
  - intros f' E. destruct (inv_expire _ _ _ _ _ _ _ _ HS HM I E) as [_ X]. split; [exact X|].
    intros r Hr. rewrite X in Hr. apply filter_In in Hr. destruct Hr as [Hr Hq].
    destruct I as [_ L]. rewrite Forall_forall in L.
    destruct (L _ Hr) as [_ _ _ [h [R [N [_ [_ C]]]]]]. specialize (C th). cbn [app] in C.
    unfold lq in Hq. rewrite (latest_of th r h R N) in Hq.
    destruct (Z.leb_spec th (last h 0)) as [Y|]; [|discriminate].
    eapply Nat.le_trans; [|exact C].
    rewrite (app_removelast_last 0 N), count_app. unfold count_since at 2. cbn [filter].
    destruct (Z.leb_spec th (last h 0)); [cbn; lia|lia].
  - intros H2. destruct I as [SH L]. pose proof SH as [SL SP SN SW SB SA SS].
    assert (LL : length (live f) = f_num f) by (unfold live; rewrite firstn_length; lia).
    destruct (expire SZ mix th f) eqn:E; [eauto|]. exfalso.
    revert E. unfold expire. eapply expire_from_safe; eauto; try lia.
    eapply Forall_impl; [|exact L]. intros r [_ _ _ [h [R [N _]]]].
    rewrite (latest_of th r h R N). discriminate.
Qed.
Print Assumptions C17_expire_partial.
(** ... where a record that has taken the announce times [h] since it was
    created is recent enough exactly if the last of them is. *)
Theorem C17_recent : forall p d o times h th, length times = 2%nat -> h <> [] ->
  exists r, announce_all h (mkRec p d times 0 0 o) = Some r /\ latest_qualifies th r = Some (th <=? last h 0).
Proof.
  intros p d o times h th L N.
  assert (G : forall h2 h1 r, ring_of r h1 -> exists r', announce_all h2 r = Some r' /\ ring_of r' (h1 ++ h2)).
  { intros h2. induction h2 as [|t h2 IH]; intros h1 r R; cbn [announce_all].
    - exists r. rewrite app_nil_r. auto.
    - destruct (ring_announce t r h1 R) as [r1 [E1 [R1 _]]]. rewrite E1. cbn [bind].
      destruct (IH _ _ R1) as [r2 [E2 R2]]. exists r2. rewrite <- app_assoc in R2. auto. }
  assert (R0 : ring_of (mkRec p d times 0 0 o) []).
  { split; [assumption|]. apply ring_inv_init. cbn [r_times]. rewrite L. unfold FM_THRESHOLD. lia. }
  destruct (G h [] _ R0) as [r [E R]]. exists r. split; [assumption|]. apply latest_of; assumption.
Qed.
Print Assumptions C17_recent.
(** Refuted in general: if the table is full and any record has expired, the
    move reads past the end of the table. *)
Theorem C17_expire_full_refuted : forall SZ mix th f r, 1 < SZ ->
  f_num f = length (f_recs f) -> In r (live f) -> latest_qualifies th r = Some false ->
  expire SZ mix th f = None.
Proof.
  intros SZ mix th f r HS Hn Hr Hl. unfold live in Hr. rewrite Hn, firstn_all in Hr.
  apply In_nth_error in Hr. destruct Hr as [k Hk].
  eapply (expire_from_full SZ mix th (f_num f) 0 f k r); auto; try lia.
  unfold lq. rewrite Hl. reflexivity.
Qed.
Print Assumptions C17_expire_full_refuted.
Example C17_expire_full_ex : exists f r,
  frun EX_SZ ex_mix (finit 2) [Announce 10 (ann 2 10 0 2); Announce 90 (ann 3 10 0 3)] = Some f /\
  f_num f = length (f_recs f) /\ In r (live f) /\ latest_qualifies 50 r = Some false.
Proof.
  eexists. eexists. split; [vm_compute; reflexivity|]. split; [reflexivity|].
  split; [left; reflexivity|]. reflexivity.
Qed.
(** Refuted: when the selected record itself expires its index goes stale, and
    the next announce of a port that is in the table creates a second record
    for it. *)
Theorem C17_duplicate_refuted : exists l f,
  Forall op_ok l /\ monotone 0 l /\ frun EX_SZ ex_mix (finit 8) l = Some f /\
  ~ NoDup (map r_pid (live f)).
Proof.
  exists [Announce 10 (ann 2 50 0 2); Announce 11 (ann 3 50 0 3); Announce 12 (ann 4 10 0 4);
          Announce 13 (ann 4 10 0 4); RunBmc 5 5 (clk 1 248 1 true LISTENING);
          Announce 100 (ann 2 50 0 2); Announce 101 (ann 3 50 0 3);
          Expire 50; Announce 110 (ann 2 50 0 2)].
  eexists. split. { repeat (constructor; [first [apply ann_ok; lia | exact Logic.I]|]). constructor. }
  split; [cbn; lia|]. split; [vm_compute; reflexivity|].
  intros N. vm_compute in N. inversion N as [|? ? X Y]. apply X. cbn. auto.
Qed.
Print Assumptions C17_duplicate_refuted.
(** A run of the algorithm over a reachable table is defined for a slave-only
    clock, or if no record names our own clock as grandmaster - provided the
    expiry time does not move during the run. *)
Theorem C17_bmc_defined : forall SZ mix max l f th c,
  1 < SZ -> mix_ok mix -> (0 < max)%nat -> Forall op_ok l -> monotone 0 l ->
  frun SZ mix (finit max) l = Some f ->
  is_clock_id (c_id c) ->
  c_slave_only c = true \/ (forall r, In r (live f) -> d_gm (r_ds r) <> c_id c) ->
  exists x, bmc th th c f = Some x.
Proof.
  intros SZ mix max l f th c HS HM Hm Ho Hl HR Hc Hg.
  destruct (inv_run _ _ _ _ _ _ _ _ HS HM (inv_init max 0 Hm) Ho Hl HR) as [T [SH L]].
  pose proof SH as [SL SP SN SW SB SA SS].
  assert (LQ : Forall (qual_defined th c) (live f))
    by (eapply Forall_impl; [|exact L]; intros r; apply rec_ok_qual).
  unfold bmc. destruct (Nat.eqb (f_num f) 0 || c_master_only c); [eauto|].
  destruct (choose th c f) as [[[b|] dq]|] eqn:Ec; cbn [bind];
    [|eauto|exfalso; revert Ec; apply choose_total; assumption].
  destruct (choose_ok _ _ _ _ _ Ec) as [rb [Eb Qb]].
  assert (Lb := nth_error_len _ _ _ _ Eb). unfold live in Lb. rewrite firstn_length in Lb.
  destruct (delete_unselected th c _) as [f1|] eqn:Ed; cbn [bind].
  2: { exfalso. unfold delete_unselected in Ed. cbn [f_num f_best f_recs] in Ed.
       destruct (delete_from (f_num f) th c (f_num f) 0 0 b (f_recs f)) as [[[x y] z]|] eqn:E;
         cbn [bind] in Ed; [discriminate|].
       revert E. apply delete_from_total; [lia|lia|]. exact LQ. }
  destruct (delete_ok max th c _ _ (shape_best max f b SH ltac:(lia)) Ed) as [S1 [L1 B1]].
  cbn [f_best f_num f_recs] in *.
  assert (Eb' : nth_error (f_recs f) b = Some rb).
  { unfold live in Eb. rewrite nth_error_firstn in Eb by lia. assumption. }
  destruct (B1 rb ltac:(lia) Eb' Qb) as [B2 B3]. rewrite B3. cbn [bind].
  unfold state_decision. destruct Hg as [->|Hg]; [cbn [bind]; eauto|].
  destruct (c_slave_only c); [cbn [bind]; eauto|].
  destruct (Nat.eqb (f_num f1) 0 && pstate_eqb (c_state c) LISTENING); [cbn [bind]; eauto|].
  assert (Hr := nth_error_In _ _ Eb). rewrite Forall_forall in L. destruct (L _ Hr) as [_ X _ _].
  rewrite compare_own_other by auto. cbn [bind].
  repeat match goal with |- context [if ?b then _ else _] => destruct b end; cbn [bind]; eauto.
Qed.
Print Assumptions C17_bmc_defined.

(** * C53: the announce interval in use *)

(** The longest interval any current master announces, limited to -4..4, or
    the configured one if none announces any (0x7f means "not given"). *)
Theorem C53_interval : forall dflt f,
  let given := filter (fun i => negb (i =? 127)) (map (fun r => d_ival (r_ds r)) (live f)) in
  (given = [] -> announce_interval dflt f = dflt) /\
  (given <> [] -> exists i, In i given /\ (forall j, In j given -> j <= i) /\
     announce_interval dflt f = Z.max (-4) (Z.min 4 i)).
Proof.
  intros dflt f. cbn zeta. unfold announce_interval. fold (live f).
  assert (G : forall l acc, let given := filter (fun i => negb (i =? 127)) (map (fun r => d_ival (r_ds r)) l) in
     let m := longest_from l acc in
     (acc = 127 -> given = [] -> m = 127) /\
     (acc <> 127 -> m <> 127 /\ (m = acc \/ In m given) /\ acc <= m /\ forall j, In j given -> j <= m) /\
     (acc = 127 -> given <> [] -> m <> 127 /\ In m given /\ forall j, In j given -> j <= m)).
  { intros l. induction l as [|r t IH]; intros acc; cbn zeta; cbn [longest_from map filter].
    - split; [auto|]. split; [|congruence]. intros N. split; [assumption|]. split; [auto|]. split; [lia|].
      intros j [].
    - unfold IVAL_UNDEFINED. set (i := d_ival (r_ds r)).
      destruct (Z.eqb_spec i 127) as [Ei|Ei]; cbn [negb andb].
      + exact (IH acc).
      + destruct (Z.eqb_spec acc 127) as [Ea|Ea]; cbn [orb].
        * destruct (IH i) as [_ [J2 _]]. destruct (J2 Ei) as [K1 [K2 [K3 K4]]].
          split; [discriminate|]. split; [congruence|]. intros _ _. split; [assumption|].
          split; [destruct K2 as [K2|K2]; [left; symmetry; exact K2|right; assumption]|].
          intros j [<-|Hj]; auto.
        * destruct (Z.ltb_spec acc i).
          -- destruct (IH i) as [_ [J2 _]]. destruct (J2 Ei) as [K1 [K2 [K3 K4]]].
             split; [congruence|]. split; [|congruence]. intros _. split; [assumption|].
             split; [right; destruct K2 as [K2|K2]; [left; congruence|right; assumption]|].
             split; [lia|]. intros j [<-|Hj]; auto.
          -- destruct (IH acc) as [_ [J2 _]]. destruct (J2 Ea) as [K1 [K2 [K3 K4]]].
             split; [congruence|]. split; [|congruence]. intros _. split; [assumption|].
             split; [destruct K2 as [K2|K2]; [left; assumption|right; right; assumption]|].
             split; [assumption|]. intros j [<-|Hj]; [lia|auto]. }
  destruct (G (live f) IVAL_UNDEFINED) as [G1 [_ G3]]. split.
  - intros E. rewrite (G1 eq_refl E). reflexivity.
  - intros N. destruct (G3 eq_refl N) as [K1 [K2 K3]]. eexists. split; [exact K2|]. split; [exact K3|].
    unfold IVAL_UNDEFINED, IVAL_MIN, IVAL_MAX in *.
    destruct (Z.eqb_spec (longest_from (live f) 127) 127); [congruence|]. cbn [negb].
    destruct (Z.ltb_spec (longest_from (live f) 127) (-4)); [lia|].
    destruct (Z.ltb_spec 4 (longest_from (live f) 127)); lia.
Qed.
Print Assumptions C53_interval.
Definition annv (n v : Z) : dset := mkDset 10 6 32 100 128 (cid n) 0 (mkPid (cid n) 1) true v.
Example C53_ex : match frun EX_SZ ex_mix (finit 4)
    [Announce 10 (annv 2 (-1)); Announce 11 (annv 3 127); Announce 12 (annv 4 3)] with
  | Some f => announce_interval 1 f = 3 /\ announce_interval 1 (finit 4) = 1
  | None => False end.
Proof. vm_compute. split; reflexivity. Qed.
