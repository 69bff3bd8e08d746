(** C69: the freerun module: the clock behind a link, starting, status, messages. *)
Require Import ZArith QArith List Bool Lia Arith.
Require Import Verif.Base Verif.TimeSpec Verif.TimeModel Verif.ListLib Verif.FrnSpec Verif.FrnModel Verif.FrnProof Verif.FrnProof2.
Import ListNotations.
Open Scope Z_scope.

(** The search from a link gives the first best of the NICs with a clock behind it: behind VLANs, bonds and
    teams nested in any way; none if there are none.  It returns exactly if following VLANs and members of
    bonds from the link comes to an end. *)
Theorem C69_search : forall iface specs t l r,
  (exists n, find iface specs n t l = Some r) <-> exists L, nics iface t l L /\ first_best specs L r.
Proof. exact find_spec. Qed.
Print Assumptions C69_search.

(** A machine: NICs 2 and 3 with clocks 1 and 2 in bond 4, VLAN 5 on the bond, NIC 6 without a clock. *)
Definition ex_iface (i : Z) : option (option clk) := if i =? 2 then Some (Some 1%nat) else if i =? 3 then Some (Some 2%nat) else if i =? 6 then Some None else if i =? 7 then Some (Some 0%nat) else None.
Definition ex_specs (c : clk) : spec := match c with 1%nat => mkSpec 32000 32000 4 | 2%nat => mkSpec 370 4600 3 | _ => mkSpec 256000 256000 5 end.
Definition nic2 := mkL 2 [50] false 0 4. Definition nic3 := mkL 3 [51] false 0 4. Definition bond4 := mkL 4 [52] false 0 0.
Definition vlan5 := mkL 5 [53] true 4 0. Definition nic6 := mkL 6 [54] false 0 0. Definition vlan8 := mkL 8 [56] true 99 0.
Definition ex_t := [nic2; nic3; bond4; vlan5; nic6; vlan8].
Example C69_search_ex : find ex_iface ex_specs 9 ex_t vlan5 = Some (Some (nic3, 2%nat)) /\ nics ex_iface ex_t vlan5 [(nic2, 1%nat); (nic3, 2%nat)] /\
  find ex_iface ex_specs 9 ex_t nic6 = Some None.
Proof.
  split; [reflexivity|]. split; [|reflexivity]. apply (Nvlan _ _ _ bond4); [reflexivity| |].
  - split; [reflexivity|]. exists [nic2; nic3], [vlan5; nic6; vlan8]. split; [reflexivity|]. intros x [<-|[<-|[<-|[]]]]; discriminate.
  - apply Ngroup; [reflexivity|reflexivity|]. change (nics_of ex_iface ex_t [nic2; nic3] ([(nic2, 1%nat)] ++ [(nic3, 2%nat)] ++ [])).
    repeat constructor.
Qed.

(** If the inner link of every VLAN is in the table, and VLANs and bonds do not go round in circles, the
    search from every link returns. *)
Theorem C69_search_ends_partial : forall iface specs t (rank : link -> nat),
  (forall l, In l t -> l_vlan l = true -> exists i, numbered t (l_inner l) i /\ (rank i < rank l)%nat) ->
  (forall l m, In l t -> In m t -> l_vlan l = false -> l_master m = l_index l -> (rank m < rank l)%nat) ->
  forall l, In l t -> exists n r, find iface specs n t l = Some r.
Proof.
  intros iface specs t rank HV HM l I. destruct (layered_nics iface specs t rank HV HM l I) as (L & N). apply (find_complete iface specs t l L N).
Qed.
Print Assumptions C69_search_ends_partial.
Example C69_search_ends_partial_ex : forall l, In l [nic2; nic3; bond4; vlan5; nic6] -> exists n r, find ex_iface ex_specs n [nic2; nic3; bond4; vlan5; nic6] l = Some r.
Proof.
  apply (C69_search_ends_partial _ _ _ (fun l => Z.to_nat (match l_index l with 4 => 2 | 5 => 3 | _ => 1 end))).
  - intros l I V. cbn [In] in I. destruct I as [<-|[<-|[<-|[<-|[<-|[]]]]]]; try discriminate. exists bond4. split; [|vm_compute; lia].
    split; [reflexivity|]. exists [nic2; nic3], [vlan5; nic6]. split; [reflexivity|]. intros x [<-|[<-|[]]]; discriminate.
  - intros l m I J V. cbn [In] in I, J. destruct I as [<-|[<-|[<-|[<-|[<-|[]]]]]], J as [<-|[<-|[<-|[<-|[<-|[]]]]]]; try discriminate; intros _; vm_compute; lia.
Qed.

(** Full statement: the search from every link of the table returns.  It does not if the link is a VLAN on a
    link that is not in the table (one in another network namespace, say): it goes round for ever, with any
    amount of steps. *)
Theorem C69_search_ends_refuted : forall iface specs t l, l_vlan l = true -> (forall x, In x t -> l_index x <> l_inner l) ->
  forall n, find iface specs n t l = None.
Proof. intros iface specs t l V N n. apply find_stuck; assumption. Qed.
Print Assumptions C69_search_ends_refuted.
Example C69_search_ends_refuted_ex : l_vlan vlan8 = true /\ forall x, In x ex_t -> l_index x <> l_inner vlan8.
Proof. split; [reflexivity|]. intros x I. cbn [ex_t In] in I. destruct I as [<-|[<-|[<-|[<-|[<-|[<-|[]]]]]]]; discriminate. Qed.

(** If starting succeeds, every instance has the clock its configuration asks for, no two have the same, and each
    that is not the system clock was set from it without error; all start deselected and without
    control of the clock, processing timestamps. *)
Theorem C69_start : forall iface specs set n t cs is, (forall x, In x t -> short (l_name x)) -> (forall c, In c cs -> short (c_name c)) ->
  startup iface specs set n t cs = Some (is, 0) ->
  Forall2 (fun c i => i_conf i = c /\ i_flags i = 2 /\ exists k, i_clock i = Some k /\ asks iface specs t c k /\ (k = SYSTEM \/ set k = 0)) cs is /\
  NoDup (map i_clock is).
Proof.
  intros iface specs set n t cs is ST SC H. destruct (start_sound iface specs t ST set n cs [] is 0 SC H) as (A & _). destruct (A eq_refl) as (new & -> & F & D).
  split; [exact F|]. apply D. constructor.
Qed.
Print Assumptions C69_start.

(** It succeeds if each asks for a clock, no two for the same, and all can be set. *)
Theorem C69_start_succeeds : forall iface specs set t cs ks, (forall x, In x t -> short (l_name x)) -> (forall c, In c cs -> short (c_name c)) ->
  Forall2 (asks iface specs t) cs ks -> NoDup ks -> (forall k, In k ks -> k = SYSTEM \/ set k = 0) ->
  exists n is, startup iface specs set n t cs = Some (is, 0) /\ map i_clock is = map Some ks.
Proof.
  intros iface specs set t cs ks ST SC F ND SK. destruct (asks_fuel iface specs t ST set cs ks SC F) as (n & W). exists n.
  destruct (start_complete iface specs t set n cs ks [] W SK ND) as (new & H & M); [intros i k []|]. exists new. split; [exact H|exact M].
Qed.
Print Assumptions C69_start_succeeds.

(** If it fails it is for the first instance that cannot be started, and the error says why: 22 no interface
    named, 19 no clock behind the interface, 16 the clock is that of an instance before, or
    what setting the clock gave. *)
Theorem C69_start_fails : forall iface specs set n t cs is rc, (forall x, In x t -> short (l_name x)) -> (forall c, In c cs -> short (c_name c)) ->
  startup iface specs set n t cs = Some (is, rc) -> rc <> 0 ->
  exists pre c post ks, cs = pre ++ c :: post /\ Forall2 (asks iface specs t) pre ks /\
    (rc = 22 /\ c_name c = [] \/ rc = 19 /\ asks_none iface t c \/
     exists k, asks iface specs t c k /\ (rc = 16 /\ In k ks \/ k <> SYSTEM /\ rc = set k /\ ~ In k ks)).
Proof.
  intros iface specs set n t cs is rc ST SC H R. destruct (start_sound iface specs t ST set n cs [] is rc SC H) as (_ & A). destruct (A R) as (pre & c & post & new & E & F & FL).
  assert (G : exists ks, Forall2 (asks iface specs t) pre ks /\ map i_clock new = map Some ks).
  { clear -F. induction F as [|c i pre new (_ & _ & k & K & A & _) F IH]; [exists []; split; [constructor|reflexivity]|]. destruct IH as (ks & H1 & H2). exists (k :: ks). split; [constructor; assumption|]. cbn [map]. rewrite K, H2. reflexivity. }
  destruct G as (ks & G1 & G2).
  assert (IN : forall k, (exists i, In i new /\ i_clock i = Some k) <-> In k ks).
  { intros k. split.
    - intros (i & I & K). assert (J : In (Some k) (map i_clock new)) by (rewrite <- K; apply in_map, I). rewrite G2 in J. apply in_map_iff in J. destruct J as (x & X & J). congruence.
    - intros I. assert (J : In (Some k) (map i_clock new)) by (rewrite G2; apply in_map, I). apply in_map_iff in J. destruct J as (i & K & J). exists i. split; assumption. }
  exists pre, c, post, ks. split; [exact E|]. split; [exact G1|]. destruct FL as [FL|[FL|(k & K & [(R1 & U)|(NS & R1 & U)])]]; [left; exact FL|right; left; exact FL| |]; right; right; exists k; (split; [exact K|]).
  - left. split; [exact R1|]. apply IN, U.
  - right. split; [exact NS|]. split; [exact R1|]. intros I. apply IN in I. destruct I as (i & I & C). apply (U i I C).
Qed.
Print Assumptions C69_start_fails.
Definition cf (n : list Z) := mkConf n 128 Freerunning None false false.
Example C69_start_ex : exists is, startup ex_iface ex_specs (fun _ => 0) 9 ex_t [cf [53]; cf sys_name; cf [50]] = Some (is, 0) /\ map i_clock is = [Some 2%nat; Some 0%nat; Some 1%nat] /\
  exists is', startup ex_iface ex_specs (fun _ => 0) 9 ex_t [cf [53]; cf [51]] = Some (is', 16).
Proof. eexists. split; [reflexivity|]. split; [reflexivity|]. eexists. reflexivity. Qed.

(** Whatever is asked of started instances, the status of one is always that of a slave at offset zero of its own clock, with no
    alarms, a local master, and what is configured. *)
Theorem C69_status : forall is ops is' h n o, run is ops = Some (is', h) -> In (GetStatus n, o) h ->
  exists i k, nth_error is n = Some i /\ i_clock i = Some k /\
    o = [Reply (mkStatus Slave 0 k (mkTs 0 0 0) (c_prio (i_conf i)) (c_class (i_conf i)) (c_acc (i_conf i)) false 0 (c_time (i_conf i)) (c_freq (i_conf i)))].
Proof.
  intros is ops is' h n o H I. destruct (run_split _ _ _ _ _ _ H I) as (l1 & K & l2 & S). cbn [step] in S. destruct (nth_error l1 n) as [j|] eqn:N; [|discriminate]. cbn [bind] in S.
  destruct (like_nth _ _ _ _ K N) as (i & NI & E1 & E2). unfold status_of in S. destruct (i_clock j) as [k|] eqn:C; [|discriminate]. cbn [bind] in S. injection S as <- <-.
  exists i, k. split; [exact NI|]. split; [exact E2|]. rewrite E1. reflexivity.
Qed.
Print Assumptions C69_status.

(** A clock is adjusted only when the engine says so, and then the clock of the instance named by exactly the
    amount given.  (The flag to control the clock is not looked at.) *)
Theorem C69_step : forall is ops is' h p o c d, run is ops = Some (is', h) -> In (p, o) h -> (In (Adjust c d) o <->
  exists n i, p = StepClock n d /\ nth_error is n = Some i /\ i_clock i = Some c).
Proof.
  intros is ops is' h p o c d H I. destruct (run_split _ _ _ _ _ _ H I) as (l1 & K & l2 & S). split.
  - intros A. destruct p as [n|n m f|n d'| |n|]; cbn [step] in S.
    + destruct (nth_error l1 n) as [j|]; [|discriminate]. cbn [bind] in S. destruct (status_of j); [|discriminate]. injection S as <- <-. destruct A as [A|[]]. discriminate.
    + destruct (nth_error l1 n) as [j|]; [|discriminate]. injection S as <- <-. destruct A.
    + destruct (nth_error l1 n) as [j|] eqn:N; [|discriminate]. cbn [bind] in S. destruct (i_clock j) as [k|] eqn:C; [|discriminate]. injection S as <- <-. destruct A as [A|[]]. injection A as -> ->.
      destruct (like_nth _ _ _ _ K N) as (i & NI & _ & E2). exists n, i. split; [reflexivity|]. split; [exact NI|congruence].
    + destruct (forallb _ l1); [|discriminate]. injection S as <- <-. apply in_map_iff in A. destruct A as (x & A & _). discriminate.
    + destruct (nth_error l1 n) as [j|]; [|discriminate]. cbn [bind] in S. destruct (i_clock j); [|discriminate]. cbn [bind] in S. destruct (Z.testbit _ _); [|discriminate]. injection S as <- <-. destruct A as [A|[]]. discriminate.
    + injection S as <- <-. destruct A.
  - intros (n & i & -> & N & C). cbn [step] in S. destruct (nth_error l1 n) as [j|] eqn:N1; [|discriminate]. cbn [bind] in S. destruct (like_nth _ _ _ _ K N1) as (i' & NI & _ & E2).
    rewrite N in NI. injection NI as <-. rewrite <- E2, C in S. cbn [bind] in S. injection S as <- <-. left. reflexivity.
Qed.
Print Assumptions C69_step.

(** Once: nothing else comes of the command. *)
Theorem C69_step_once : forall is ops is' h n d o, run is ops = Some (is', h) -> In (StepClock n d, o) h ->
  exists i c, nth_error is n = Some i /\ i_clock i = Some c /\ o = [Adjust c d].
Proof.
  intros is ops is' h n d o H I. destruct (run_split _ _ _ _ _ _ H I) as (l1 & K & l2 & S). cbn [step] in S.
  destruct (nth_error l1 n) as [j|] eqn:N; [|discriminate]. cbn [bind] in S. destruct (i_clock j) as [k|] eqn:C; [|discriminate]. cbn [bind] in S. injection S as <- <-.
  destruct (like_nth _ _ _ _ K N) as (i & NI & _ & E2). exists i, k. split; [exact NI|]. split; [congruence|reflexivity].
Qed.
Print Assumptions C69_step_once.

(** The state saved is one record for each instance, in order, of its own clock. *)
Theorem C69_saved : forall is ops is' h o, run is ops = Some (is', h) -> In (SaveState, o) h ->
  map (fun x => match x with State c _ => Some c | _ => None end) o = map i_clock is.
Proof.
  intros is ops is' h o H I. destruct (run_split _ _ _ _ _ _ H I) as (l1 & K & l2 & S). cbn [step] in S.
  destruct (forallb _ l1) eqn:F; [|discriminate]. injection S as <- <-. rewrite map_map. revert F. clear -K. induction K as [|x y a b (_ & E) K IH]; intros F; [reflexivity|].
  cbn [forallb] in F. apply andb_prop in F. destruct F as [F1 F2]. cbn [map]. rewrite (IH F2), E. destruct (i_clock y); [reflexivity|discriminate].
Qed.
Print Assumptions C69_saved.

(** No assertion fails exactly if only existing instances are named and the topology is asked only of an instance
    that is selected at that time. *)
Theorem C69_defined : forall is ops, (forall i, In i is -> i_clock i <> None /\ i_flags i = 2) ->
  run is ops <> None <->
  (forall o, In o ops -> match o with GetStatus n | Control n _ _ | StepClock n _ | Topology n => (n < List.length is)%nat | _ => True end) /\
  (forall pre n post, ops = pre ++ Topology n :: post -> flag_after n SELECTED false pre = true).
Proof.
  intros is ops HI. rewrite (run_defined ops is) by (intros i I; apply HI, I).
  assert (F : forall n, flag is n SELECTED = false).
  { intros n. unfold flag. destruct (nth_error is n) as [i|] eqn:N; [|reflexivity]. rewrite (proj2 (HI i (nth_error_In _ _ N))). reflexivity. }
  split; intros (A & B); (split; [exact A|]); intros pre n post E; specialize (B pre n post E); rewrite F in *; exact B.
Qed.
Print Assumptions C69_defined.
Definition ex_i := mkI (cf [50]) 2 (Some 1%nat).
Example C69_messages_ex : run [ex_i] [GetStatus 0; Control 0 5 1; StepClock 0 (mkTs 3 0 0); Topology 0; SaveState] =
  Some ([mkI (cf [50]) 3 (Some 1%nat)],
        [(GetStatus 0, [Reply (mkStatus Slave 0 1%nat (mkTs 0 0 0) 128 Freerunning None false 0 false false)]); (Control 0 5 1, []);
         (StepClock 0 (mkTs 3 0 0), [Adjust 1%nat (mkTs 3 0 0)]); (Topology 0, [Drawn 1%nat]); (SaveState, [State 1%nat 3])]).
Proof. reflexivity. Qed.

(** The words for traceability: each of the two words sets its own, in any order and number; any other word makes
    the option invalid (22), though what the others set stays. *)
Theorem C69_traceability : forall ws rc t f, parse_trace ws = (rc, t, f) ->
  (t = true <-> In [116; 105; 109; 101] ws) /\ (f = true <-> In [102; 114; 101; 113] ws) /\
  (rc = 0 <-> forall w, In w ws -> w = [116; 105; 109; 101] \/ w = [102; 114; 101; 113]) /\ (rc = 0 \/ rc = 22).
Proof.
  intros ws rc t f H. revert rc t f H. induction ws as [|w ws IH] using rev_ind; intros rc t f H.
  - injection H as <- <- <-. cbn [In]. split; [split; [discriminate|intros []]|]. split; [split; [discriminate|intros []]|]. split; [|left; reflexivity]. split; [intros _ w []|reflexivity].
  - unfold parse_trace in *. rewrite fold_left_app in H. cbn [fold_left] in H. destruct (fold_left trace_word ws (0, false, false)) as ((rc1, t1), f1). destruct (IH rc1 t1 f1 eq_refl) as (A & B & C & D). clear IH.
    unfold trace_word in H. destruct (list_eq_dec Z.eq_dec w [116; 105; 109; 101]) as [E|N1]; [|destruct (list_eq_dec Z.eq_dec w [102; 114; 101; 113]) as [E|N2]]; injection H as <- <- <-.
    + subst w. split; [split; [intros _; apply in_elt|reflexivity]|]. split; [rewrite B, in_app_iff; cbn [In]; split; [tauto|intros [I|[I|[]]]; [exact I|discriminate]]|]. split; [|exact D].
      rewrite C. split; [intros G w I; apply in_app_or in I; destruct I as [I|[<-|[]]]; [apply G, I|left; reflexivity]|intros G w I; apply G, in_or_app; left; exact I].
    + subst w. split; [rewrite A, in_app_iff; cbn [In]; split; [tauto|intros [I|[I|[]]]; [exact I|discriminate]]|]. split; [split; [intros _; apply in_elt|reflexivity]|]. split; [|exact D].
      rewrite C. split; [intros G w I; apply in_app_or in I; destruct I as [I|[<-|[]]]; [apply G, I|right; reflexivity]|intros G w I; apply G, in_or_app; left; exact I].
    + split; [rewrite A, in_app_iff; cbn [In]; split; [tauto|intros [I|[I|[]]]; [exact I|contradiction]]|]. split; [rewrite B, in_app_iff; cbn [In]; split; [tauto|intros [I|[I|[]]]; [exact I|contradiction]]|].
      split; [|right; reflexivity]. split; [discriminate|]. intros G. exfalso. destruct (G w (in_elt _ _ _)); contradiction.
Qed.
Print Assumptions C69_traceability.
Example C69_traceability_ex : parse_trace [[102; 114; 101; 113]; [1]; [116; 105; 109; 101]] = (22, true, true) /\ parse_trace [[102; 114; 101; 113]] = (0, false, true).
Proof. split; reflexivity. Qed.

(** The words for the clock class: each names its class, any other is refused (22) and leaves it as it was. *)
Theorem C69_class : forall w old rc c, parse_class w old = (rc, c) ->
  (rc = 0 /\ (w = [108; 111; 99; 107; 101; 100] /\ c = Locked \/ w = [104; 111; 108; 100; 111; 118; 101; 114] /\ c = Holdover \/
              w = [102; 114; 101; 101; 114; 117; 110; 110; 105; 110; 103] /\ c = Freerunning)) \/
  (rc = 22 /\ c = old /\ w <> [108; 111; 99; 107; 101; 100] /\ w <> [104; 111; 108; 100; 111; 118; 101; 114] /\ w <> [102; 114; 101; 101; 114; 117; 110; 110; 105; 110; 103]).
Proof.
  intros w old rc c H. unfold parse_class in H.
  destruct (list_eq_dec Z.eq_dec w [108; 111; 99; 107; 101; 100]) as [E|N1]; [injection H as <- <-; left; tauto|].
  destruct (list_eq_dec Z.eq_dec w [104; 111; 108; 100; 111; 118; 101; 114]) as [E|N2]; [injection H as <- <-; left; tauto|].
  destruct (list_eq_dec Z.eq_dec w [102; 114; 101; 101; 114; 117; 110; 110; 105; 110; 103]) as [E|N3]; injection H as <- <-; [left; tauto|right; tauto].
Qed.
Print Assumptions C69_class.
Example C69_class_ex : parse_class [104; 111; 108; 100; 111; 118; 101; 114] Freerunning = (0, Holdover) /\ parse_class [1] Locked = (22, Locked).
Proof. split; reflexivity. Qed.
