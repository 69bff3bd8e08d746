(** C68: the chrony synchronisation module. *)
Require Import ZArith QArith List Bool Lia.
Require Import Verif.Base Verif.TimeSpec Verif.TimeModel Verif.QLib Verif.ListLib Verif.CrnSpec Verif.CrnModel Verif.CrnProof Verif.CrnProof2 Verif.CrnProof3 Verif.CrnProof4 Verif.CrnProof5 Verif.CrnProof6 Verif.CrnProof7 Verif.CrnProof8 Verif.CrnProof9.
Import ListNotations.
Open Scope Z_scope.

(** ** Concrete lives *)
Definition name : list Z := [99; 104; 114; 111; 110; 121; 100].
Definition with_args (l : list (list Z)) : proc := Cmdline (join_args (name :: l)) false.
Definition plain := with_args [[45; 52]].                 (* chronyd -4 *)
Definition told_x := with_args [[45; 110]; [45; 120]].    (* chronyd -n -x *)
Definition group_x := with_args [[45; 110; 120]].         (* chronyd -nx *)
Definition EP (s : Z) (p : nat -> proc) : env := mkEnv (mkTs s 0 0) (mkTs s 0 0) (Some (mkTs s 0 0)) p 0 0 s (fun _ => 0) (fun _ => 7).
Definition E (s : Z) (p : proc) : env := EP s (fun _ => p).
Definition g0 : conf := mkConf false false true false 1 3 (100#1).
Definition gc : conf := mkConf true false true false 1 3 (100#1).
Definition src (n state mode pmode : Z) : source :=
  mkSrc (V4 [10; 0; 0; n]) state mode (2^20, 0) (2^19, -3) (V4 [10; 0; 0; 99]) pmode 2 (2^18, 1) (-(2^20), 2) 7 6.
Definition X (s : Z) (x : source) : exch := mkX x (E s plain) (E (s + 1) plain) (E (s + 2) plain).
(** The timer connects and asks for tracking; chronyd answers; the number of sources is asked for. *)
Definition start : list op := [Tick (E 102 plain); ans TRACKING 102 (repeat 0 76) (E 103 plain)].
Definition xs : list exch := [X 105 (src 1 0 0 4); X 108 (src 2 4 0 4); X 111 (src 3 1 0 0)].
Definition a_round : list op := ans NUM_SOURCES 103 (enc32 3) (E 104 plain) :: answers 104 xs.
Definition final_of (g : conf) (p : proc) (pre : list op) (e : env) (l : list op) : option cm := match live g p pre e l with Some (inr (m, _, _, _, _)) => Some m | _ => None end.
Definition all_of (g : conf) (p : proc) (pre : list op) (e : env) (l : list op) : list out := match live g p pre e l with Some (inr (_, o, lp, lr, ll)) => o ++ flat lp ++ lr ++ flat ll | _ => [] end.
Definition log_of (g : conf) (p : proc) (pre : list op) (e : env) (l : list op) : list (op * list out) := match live g p pre e l with Some (inr (_, _, _, _, ll)) => ll | _ => [] end.
Definition lives (g : conf) (p : proc) (pre : list op) (e : env) (l : list op) : bool := match live g p pre e l with Some (inr _) => true | _ => false end.
Lemma lives_live : forall g p pre e l, lives g p pre e l = true -> exists m o lp lr ll, live g p pre e l = Some (inr (m, o, lp, lr, ll)) /\ final_of g p pre e l = Some m /\ all_of g p pre e l = o ++ flat lp ++ lr ++ flat ll /\ log_of g p pre e l = ll.
Proof. intros g p pre e l H. unfold lives, final_of, all_of, log_of in *. destruct (live g p pre e l) as [[x|[[[[m o] lp] lr] ll]]|]; try discriminate. eauto 10. Qed.
Definition tolds (l : list out) : list status := flat_map (fun o => match o with Told s => [s] | _ => [] end) l.
Definition says (l : list out) : list status := flat_map (fun o => match o with Reply s => [s] | _ => [] end) l.
Definition dids (l : list out) : list (cop * Z) := flat_map (fun o => match o with Did c r => [(c, r)] | _ => [] end) l.
Definition blocks (l : list out) : list bool := flat_map (fun o => match o with Block b => [b] | _ => [] end) l.

(** ** Numbers of the protocol *)
(** Every number a peer can send is read as the number it stands for. *)
Theorem C68_float : forall c e, float_ok c e -> tofloat (enc_float c e) = float_val c e.
Proof. exact tofloat_enc. Qed.
Print Assumptions C68_float.
Example C68_float_ex : float_ok (-(2^20)) 2 /\ Qeq (float_val (-(2^20)) 2) (-(1#8)) /\ enc_float (-(2^20)) 2 = 2^26 + 2^25 - 2^20.
Proof. unfold float_ok. split; [lia|]. split; vm_compute; reflexivity. Qed.

(** ** Whether chronyd controls the clock *)
(** At the start chronyd's process is looked at once, and the system clock is blocked just if chronyd is there and no
    argument begins with -x. *)
Theorem C68_cmdline : forall g p m o, startup g p = Some (inr (m, o)) ->
  o = Look p :: (if controls p then [Block true] else []) /\
  forall l, p = Cmdline (join_args l) false -> Forall arg_ok l -> o = Look p :: (if existsb dash_x l then [] else [Block true]).
Proof.
  intros g p m o H. apply startup_ok in H. destruct H as (_ & _ & _ & _ & _ & _ & _ & _ & -> & _). split; [reflexivity|]. intros l -> F. rewrite controls_join by exact F. destruct (existsb dash_x l); reflexivity.
Qed.
Print Assumptions C68_cmdline.
Example C68_cmdline_ex : (exists m, startup g0 plain = Some (inr (m, [Look plain; Block true]))) /\ (exists m, startup g0 told_x = Some (inr (m, [Look told_x]))) /\
  (exists m, startup g0 Hidden = Some (inr (m, [Look Hidden]))) /\ Forall arg_ok [name; [45; 110]; [45; 120]].
Proof. split; [eexists; vm_compute; reflexivity|]. split; [eexists; vm_compute; reflexivity|]. split; [eexists; vm_compute; reflexivity|]. repeat constructor; unfold arg_ok; cbn; intuition lia. Qed.

(** The full claim, that the clock is not blocked if chronyd was told by an option x to leave it alone, is false: getopt
    allows -nx, and that is not recognised. *)
Theorem C68_cmdline_refuted : ~ (forall g l m o, Forall arg_ok l -> startup g (Cmdline (join_args l) false) = Some (inr (m, o)) -> existsb asks_x (tl l) = true -> ~ In (Block true) o).
Proof.
  intros H. destruct (startup g0 group_x) as [[x|[m o]]|] eqn:S; [vm_compute in S; discriminate| |vm_compute in S; discriminate].
  apply (H g0 [name; [45; 110; 120]] m o); [repeat constructor; unfold arg_ok; cbn; intuition lia|exact S|reflexivity|].
  apply startup_ok in S. destruct S as (_ & _ & _ & _ & _ & _ & _ & _ & -> & _). vm_compute. auto.
Qed.
Print Assumptions C68_cmdline_refuted.

(** ** Questions and answers *)
(** Nothing is sent before the message to run; whatever is sent is a request of one of five kinds with a fitting
    argument, numbered by the random number of the event. *)
Theorem C68_requests : forall g p pre e l m o lp lr ll, live g p pre e l = Some (inr (m, o, lp, lr, ll)) -> Forall message pre ->
  existsb is_sent (o ++ flat lp) = false /\ (forall y, In (Sent y) lr -> good_req (e_rand e) y) /\
  (forall x outs y, In (x, outs) ll -> In (Sent y) outs -> good_req (op_rand x) y).
Proof.
  intros g p pre e l m o lp lr ll H F. destruct (live_ok g p pre e l m o lp lr ll H F) as (_ & _ & _ & _ & _ & _ & _ & _ & A & B & C). rewrite Forall_forall in A, B.
  split; [exact C|]. split; [intros y Y; exact (A _ Y)|]. intros x outs y I Y. apply B in I. cbn [fst snd] in I. rewrite Forall_forall in I. exact (I _ Y).
Qed.
Print Assumptions C68_requests.
Example C68_requests_ex : lives g0 plain [] (E 100 plain) (start ++ a_round) = true /\ List.length (filter is_sent (all_of g0 plain [] (E 100 plain) (start ++ a_round))) = 11%nat.
Proof. split; vm_compute; reflexivity. Qed.

(** Octets that are not the answer to the last request - another command, type or number, or a failure - have no
    influence by what they are: any two such messages of at least 20 octets have the same effect.  What they do do is to
    end the question (see C68_refclock_refuted). *)
Theorem C68_replies : forall g p pre e l m o lp lr ll, live g p pre e l = Some (inr (m, o, lp, lr, ll)) -> Forall message pre ->
  forall cmd seq arg, last_sent None (o ++ flat lp ++ lr ++ flat ll) = Some (enc_request cmd seq arg) -> 0 <= cmd < 256 ->
  forall e1 l1 l2, stranger cmd (enc_request cmd seq arg) l1 -> stranger cmd (enc_request cmd seq arg) l2 ->
  exists buffer, step g m (Io (Octets l2) e1) = match step g m (Io (Octets l1) e1) with Some (m1, outs) => Some (set_resp m1 buffer, outs) | None => None end.
Proof. exact live_replies. Qed.
Print Assumptions C68_replies.
Definition late : list Z := enc_answer (mkAns NUM_SOURCES 2 0 77 (enc32 9)).
Definition other : list Z := enc_answer (mkAns TRACKING 5 0 103 (repeat 255 76)).
Example C68_replies_ex : lives g0 plain [] (E 100 plain) start = true /\ last_sent None (all_of g0 plain [] (E 100 plain) start) = Some (enc_request NUM_SOURCES 103 []) /\
  stranger NUM_SOURCES (enc_request NUM_SOURCES 103 []) late /\ stranger NUM_SOURCES (enc_request NUM_SOURCES 103 []) other /\
  replies (enc_request NUM_SOURCES 103 []) (enc_answer (mkAns NUM_SOURCES 2 0 103 (enc32 9))) 2.
Proof.
  split; [vm_compute; reflexivity|]. split; [vm_compute; reflexivity|].
  split; [split; [unfold late, enc_answer, octet; cbn; repeat (constructor; [lia|]); constructor|split; [vm_compute; lia|split; [intros (_ & _ & _ & H); vm_compute in H; discriminate|intros H; vm_compute in H; discriminate]]]|].
  split; [split; [unfold other, enc_answer, octet; cbn; repeat (constructor; [lia|]); constructor|split; [vm_compute; lia|split; [intros (H & _); vm_compute in H; discriminate|intros H; vm_compute in H; discriminate]]]|].
  repeat split; vm_compute; reflexivity.
Qed.

(** ** A round *)
(** The number of sources has been asked for; chronyd answers that there are n and then, question by question, about the
    first 32 of them, all NTP sources with addresses.  Then the module asks exactly the expected questions; keeps exactly
    the addresses, counts, stratum, offsets and dispersions told; tells a new state at most once, and replies and saves: selection
    if packets came from a server, listening otherwise, with the numbers of sources and servers.  The instance is not
    the determinant of clustering (see C68_defined_refuted). *)
Theorem C68_round_partial : forall g p pre e l x m o lp lr ll q seq, live g p pre e (l ++ [x]) = Some (inr (m, o, lp, lr, ll ++ [(x, [Look q; Sent (enc_request NUM_SOURCES seq [])])])) -> Forall message pre ->
  Forall undetermined (pre ++ l ++ [x]) -> 0 <= seq < 2^32 ->
  forall n e1 xs, 0 < n < 2^31 -> Z.of_nat (List.length xs) = Z.min n 32 -> env_ok e1 -> Forall exch_ok xs ->
  let s := if existsb (fun x => server (x_src x)) xs then SELECTION else LISTENING in
  exists m' told log, run g m (ans NUM_SOURCES seq (enc32 n) e1 :: answers (e_rand e1) xs) = Some (m', log) /\
  map snd log = [Sent (enc_request SOURCE_DATA (e_rand e1) (enc32 0))] :: questions 0 xs (told ++ [History None false]) /\
  (told = [] \/ exists t, told = [Told t] /\ s_state t = s) /\
  firstn (List.length xs) (k_arr (m_st m')) = map (fun x => peer_of (x_src x)) xs /\
  (exists a b f, step g m' SaveState = Some (m', [Saved s a b f None (List.length xs) (List.length (filter (fun x => server (x_src x)) xs))])) /\
  (exists t, step g m' GetStatus = Some (m', [Reply t]) /\ s_state t = s).
Proof. exact live_round. Qed.
Print Assumptions C68_round_partial.
Lemma env_ok_ex : forall s p, 0 <= s < 2^32 -> env_ok (E s p).
Proof. intros s p H. unfold env_ok, normal. cbn. lia. Qed.
Lemma src_ok_ex : forall n state mode pmode, 0 <= n < 256 -> 0 <= state < 2^16 -> 0 <= mode < 2^16 -> 0 <= pmode < 256 -> mode <> 2 -> ntp_source (src n state mode pmode).
Proof.
  intros n state mode pmode A B C D M. unfold ntp_source. split; [|split; [exact M|discriminate]]. unfold source_ok, addr_ok, float_ok, octet. cbn [o_addr o_local o_state o_mode o_est o_err o_disp o_off o_pmode o_stratum o_sent o_received src fst snd].
  repeat (split; [first [lia|split; [reflexivity|repeat constructor; lia]|idtac]|]); lia.
Qed.
Lemma xs_ok : Forall exch_ok xs.
Proof. unfold xs. repeat (constructor; [unfold exch_ok; cbn [x_src x_a x_b x_c X]; split; [apply src_ok_ex; lia|split; [apply env_ok_ex; lia|split; apply env_ok_ex; lia]]|]). constructor. Qed.
Example C68_round_ex : (exists q, map snd (log_of g0 plain [] (E 100 plain) start) = [[Connect 0; Sent (enc_request TRACKING 102 [])]; [Look q; Sent (enc_request NUM_SOURCES 103 [])]]) /\
  Forall undetermined start /\ Z.of_nat (List.length xs) = Z.min 3 32 /\ env_ok (E 104 plain) /\ Forall exch_ok xs /\
  map s_state (says (all_of g0 plain [] (E 100 plain) (start ++ a_round ++ [GetStatus]))) = [SELECTION].
Proof. split; [eexists; vm_compute; reflexivity|]. split; [repeat constructor|]. split; [reflexivity|]. split; [apply env_ok_ex; lia|]. split; [exact xs_ok|]. vm_compute. reflexivity. Qed.

(** ** What is never said *)
(** In no life, whatever chronyd answers, is the instance a slave: it tells, replies, saves and draws another state, with offset 0,
    without a remote clock, and reports no offset. *)
Theorem C68_unsynced : forall g p pre e l m o lp lr ll, live g p pre e l = Some (inr (m, o, lp, lr, ll)) -> Forall message pre -> Forall unsynced (o ++ flat lp ++ lr ++ flat ll).
Proof. intros g p pre e l m o lp lr ll H F. apply (live_ok g p pre e l m o lp lr ll H F). Qed.
Print Assumptions C68_unsynced.
Example C68_unsynced_ex : map s_state (tolds (all_of g0 plain [] (E 100 plain) (start ++ a_round))) = [SELECTION] /\ all_of g0 plain [] (E 100 plain) (start ++ a_round) <> [].
Proof. split; [vm_compute; reflexivity|]. intros H. apply (f_equal (fun l => List.length l)) in H. vm_compute in H. discriminate. Qed.

(** So the claim that the instance is a slave if chronyd says that it follows a server is false: the fields
    for that are cleared before they are used. *)
Theorem C68_slave_refuted : ~ (forall g p pre e l x m o lp lr ll q seq, live g p pre e (l ++ [x]) = Some (inr (m, o, lp, lr, ll ++ [(x, [Look q; Sent (enc_request NUM_SOURCES seq [])])])) -> Forall message pre ->
  Forall undetermined (pre ++ l ++ [x]) -> 0 <= seq < 2^32 ->
  forall n e1 xs y, 0 < n < 2^31 -> Z.of_nat (List.length xs) = Z.min n 32 -> env_ok e1 -> Forall exch_ok xs ->
  filter (fun z => o_state (x_src z) =? 0) xs = [y] -> server (x_src y) = true ->
  forall m' log, run g m (ans NUM_SOURCES seq (enc32 n) e1 :: answers (e_rand e1) xs) = Some (m', log) -> exists t, step g m' GetStatus = Some (m', [Reply t]) /\ s_state t = SLAVE).
Proof.
  intros H. destruct (lives_live g0 plain [] (E 100 plain) start) as (m & o & lp & lr & ll & L & _ & _ & LL); [vm_compute; reflexivity|].
  assert (EL : exists q a, ll = a ++ [(nth 1 start StepClock, [Look q; Sent (enc_request NUM_SOURCES 103 [])])]).
  { assert (XX : map snd ll = [[Connect 0; Sent (enc_request TRACKING 102 [])]; [Look plain; Sent (enc_request NUM_SOURCES 103 [])]]) by (rewrite <- LL; vm_compute; reflexivity).
    assert (YY : map fst ll = start) by exact (live_fst _ _ _ _ _ _ _ _ _ _ L).
    destruct ll as [|[x1 o1] [|[x2 o2] [|z ll]]]; cbn [map fst snd] in XX, YY; try discriminate XX. unfold start in YY. exists plain, [(x1, o1)].
    assert (Z1 : x2 = nth 1 start StepClock) by (apply (f_equal (fun l => nth 1 l StepClock)) in YY; exact YY). assert (Z2 : o2 = [Look plain; Sent (enc_request NUM_SOURCES 103 [])]) by (apply (f_equal (fun l => nth 1 l [])) in XX; exact XX). subst x2 o2. reflexivity. }
  assert (E104 : 0 <= 104 < 2^32) by lia. assert (S103 : 0 <= 103 < 2^32) by lia. assert (N3 : 0 < 3 < 2^31) by lia. clear LL. destruct EL as (q & a & ->).
  assert (F : Forall undetermined ([] ++ [Tick (E 102 plain)] ++ [nth 1 start StepClock])) by (repeat constructor).
  change start with ([Tick (E 102 plain)] ++ [nth 1 start StepClock]) in L.
  destruct (live_round _ _ _ _ _ _ _ _ _ _ _ _ _ L (Forall_nil _) F S103 3 (E 104 plain) xs N3 eq_refl (env_ok_ex 104 plain E104) xs_ok) as (m' & told & log & R & _ & _ & _ & _ & t & GS & TS).
  destruct (H _ _ _ _ _ _ _ _ _ _ _ _ _ L (Forall_nil _) F S103 3 (E 104 plain) xs (X 105 (src 1 0 0 4)) N3 eq_refl (env_ok_ex 104 plain E104) xs_ok eq_refl eq_refl m' log R) as (t' & GS' & TS').
  rewrite GS in GS'. assert (t = t') by congruence. subst t'. rewrite TS in TS'. cbn in TS'. discriminate.
Qed.
Print Assumptions C68_slave_refuted.

(** What the unreached part of the code does, if the fields were there: it follows the first source that is selected and
    not a reference clock, with the offset and error of the statistics unless they are 0 or missing, its stratum and a measurement
    identified by address and packets received; after a step of the clock it follows none. *)
Theorem C68_slave_partial : forall s score l1 p l2 rest, k_arr s = l1 ++ p :: l2 ++ rest -> k_num s = Z.of_nat (List.length (l1 ++ p :: l2)) -> k_num s <= 32 ->
  Forall (fun q => q_self q = true \/ q_sel q = false) l1 -> q_self p = false -> q_sel p = true ->
  (match q_remote p with V4 _ | V6 _ => True | _ => False end) ->
  exists s', parse s 0 score = Some s' /\ k_id s' = Some (q_remote p, q_recv p) /\
    let value x y := match x with Some z => if Qeq_bool z 0 then y else z | None => y end in
    if k_unsafe s then k_state s' <> SLAVE /\ k_off s' = 0%Q /\ k_disp s' = None /\ k_strat s' = 0
    else k_state s' = SLAVE /\ k_off s' = value (q_soff p) (q_off p) /\ k_disp s' = Some (value (q_sdisp p) (q_disp p)) /\ k_strat s' = q_strat p.
Proof.
  intros s score l1 p l2 rest A N M F S1 S2 AD. unfold parse. cbn [Z.eqb negb]. replace (32 <? k_num s) with false by (symmetry; apply Z.ltb_ge; exact M).
  assert (FN : firstn (Z.to_nat (k_num s)) (k_arr s) = l1 ++ p :: l2).
  { rewrite A, N, Nat2Z.id. replace (l1 ++ p :: l2 ++ rest) with ((l1 ++ p :: l2) ++ rest) by (rewrite <- app_assoc; reflexivity).
    rewrite firstn_app, Nat.sub_diag, firstn_all, firstn_O, app_nil_r. reflexivity. }
  rewrite FN. assert (L2 : forall l i j c, j <> -1 -> fst (scan i l j c) = j).
  { induction l as [|q l IH]; intros i j c J; [reflexivity|]. cbn [scan]. destruct (q_self q); [apply IH, J|].
    replace (j =? -1) with false by (symmetry; apply Z.eqb_neq; exact J). cbn [negb]. destruct (q_sel q); apply IH, J. }
  assert (L1 : forall l i c, 0 <= i -> Forall (fun q => q_self q = true \/ q_sel q = false) l -> fst (scan i (l ++ p :: l2) (-1) c) = i + Z.of_nat (List.length l)).
  { induction l as [|q l IH]; intros i c I FF.
    - cbn [app scan]. rewrite S1, S2. cbn [Z.eqb Pos.eqb negb]. rewrite L2 by lia. cbn. lia.
    - inversion FF as [|? ? H FF']; subst. cbn [app scan List.length]. destruct (q_self q) eqn:Q; [rewrite IH by (auto; lia); lia|].
      destruct H as [H|H]; [discriminate|]. rewrite H. rewrite IH by (auto; lia). lia. }
  destruct (scan 0 (l1 ++ p :: l2) (-1) false) as [idx cand] eqn:SC. pose proof (L1 l1 0 false ltac:(lia) F) as E. rewrite SC in E. cbn [fst] in E. subst idx.
  assert (P : peer_at s (0 + Z.of_nat (List.length l1)) = Some p).
  { unfold peer_at. replace (0 + Z.of_nat (List.length l1) <? 0) with false by (symmetry; apply Z.ltb_ge; lia). rewrite A.
    replace (Z.to_nat (0 + Z.of_nat (List.length l1))) with (List.length l1) by lia. rewrite nth_error_app2, Nat.sub_diag by lia. reflexivity. }
  replace (0 + Z.of_nat (List.length l1) =? -1) with false by (symmetry; apply Z.eqb_neq; lia). rewrite P. cbn [negb bind andb].
  assert (ID : id_of p = Some (Some (q_remote p, q_recv p))) by (unfold id_of; destruct (q_remote p); try destruct AD; reflexivity).
  rewrite ID. cbn [bind]. destruct (k_unsafe s); cbn [negb]; eexists; (split; [reflexivity|]); cbn [k_id k_state k_off k_disp k_strat]; (split; [reflexivity|]).
  - repeat split. destruct cand; discriminate.
  - repeat split.
Qed.
Print Assumptions C68_slave_partial.
Example C68_slave_partial_ex : exists s', parse (mkC LISTENING None 0 true 1 [mkP (V4 [1;2;3;4]) NoAddr 5 6 2 false true false true (7#1) (8#1) (Some 9%Q) None] 0 None 0 false false 0) 0 (fun _ => 0) = Some s' /\
  k_state s' = SLAVE /\ k_off s' = 9%Q /\ k_disp s' = Some 8%Q.
Proof. eexists. split; [vm_compute; reflexivity|]. vm_compute. auto. Qed.

(** How the answer about a source is read before its fields are cleared again: selected, acceptable and a reference clock are
    what chronyd says, the rest of the source is as before; the address and the mode are kept for the next question. *)
Theorem C68_datum_partial : forall m seq s rest p, source_ok s -> 0 <= seq < 2^32 -> 0 <= m_idx m < 32 -> List.length (k_arr (m_nx m)) = 32%nat ->
  m_req m = enc_request SOURCE_DATA seq (enc32 (m_idx m)) -> m_resp m = enc_answer (mkAns SOURCE_DATA (answer_type SOURCE_DATA) 0 seq (enc_source s)) ++ rest ->
  nth_error (k_arr (m_nx m)) (Z.to_nat (m_idx m)) = Some p ->
  exists m' p', handle_datum m = Some (m', true) /\ nth_error (k_arr (m_nx m')) (Z.to_nat (m_idx m)) = Some p' /\
  (q_sel p' = true <-> o_state s = 0) /\ (q_short p' = true <-> o_state s = 4) /\ (q_self p' = true <-> o_mode s = 2) /\
  m_addr m' = enc_addr (o_addr s) /\ m_mode m' = o_mode s /\
  q_remote p' = q_remote p /\ q_local p' = q_local p /\ q_sent p' = q_sent p /\ q_recv p' = q_recv p /\ q_strat p' = q_strat p /\ q_cand p' = q_cand p /\
  q_off p' = q_off p /\ q_disp p' = q_disp p /\ q_soff p' = q_soff p /\ q_sdisp p' = q_sdisp p /\
  (forall j, j <> Z.to_nat (m_idx m) -> nth_error (k_arr (m_nx m')) j = nth_error (k_arr (m_nx m)) j).
Proof.
  intros m seq s rest p OK SQ R SZ RQ RA N. pose proof OK as (AO & LO & OS & OM & _).
  assert (RO : reply_ok m 3 = true).
  { eapply (reply_ok_enc m SOURCE_DATA 3 seq (enc_source s) rest (enc32 (m_idx m))); [exact RA|rewrite request_enc; exact RQ|vm_compute; split; congruence|vm_compute; split; congruence|exact SQ]. }
  pose proof (data_enc m _ _ _ _ _ RA) as DA.
  assert (D1 : firstn 20 (data m) = enc_addr (o_addr s)) by (rewrite DA; unfold enc_source; rewrite <- !app_assoc, firstn_app, (len_addr _ AO), firstn_all2, Nat.sub_diag by (rewrite (len_addr _ AO); lia); cbn [firstn]; apply app_nil_r).
  assert (D2 : be16 (data m) 24 = o_state s).
  { rewrite DA. unfold enc_source. rewrite <- !app_assoc. rewrite (app_assoc (enc_addr _)). apply be16_at; [|exact OS]. rewrite !app_length, (len_addr _ AO). reflexivity. }
  assert (D3 : be16 (data m) 26 = o_mode s).
  { rewrite DA. unfold enc_source. rewrite <- !app_assoc. rewrite (app_assoc (enc_addr _)), (app_assoc _ (enc16 (o_state s))). apply be16_at; [|exact OM]. rewrite !app_length, (len_addr _ AO). reflexivity. }
  unfold handle_datum. rewrite RO. cbn [negb]. unfold peer_at. replace (m_idx m <? 0) with false by lia. rewrite N. cbn [bind].
  rewrite put_some; [|exact SZ|exact R]. cbn [bind]. rewrite D1, D2, D3. eexists. eexists. split; [reflexivity|]. unfold put. pj.
  split; [apply nth_error_set_nth_same; rewrite SZ; lia|]. cbn [q_sel q_short q_self q_remote q_local q_sent q_recv q_strat q_cand q_off q_disp q_soff q_sdisp]. rewrite !Z.eqb_eq.
  repeat (split; [reflexivity|]). intros j J. apply nth_error_set_nth_other. congruence.
Qed.
Print Assumptions C68_datum_partial.
Example C68_datum_partial_ex : exists m, m_idx m = 1 /\ List.length (k_arr (m_nx m)) = 32%nat /\ source_ok (src 2 4 2 0) /\
  m_req m = enc_request SOURCE_DATA 107 (enc32 1) /\ m_resp m = enc_answer (mkAns SOURCE_DATA (answer_type SOURCE_DATA) 0 107 (enc_source (src 2 4 2 0))) ++ repeat 0 472 /\
  nth_error (k_arr (m_nx m)) 1 = Some blank_peer.
Proof.
  destruct (final_of g0 plain [] (E 100 plain) start) as [m|] eqn:F; [|vm_compute in F; discriminate].
  exists (set_resp (set_req (set_idx (set_nx m (with_arr (m_nx m) (repeat blank_peer 32))) 1) (enc_request SOURCE_DATA 107 (enc32 1)))
            (enc_answer (mkAns SOURCE_DATA (answer_type SOURCE_DATA) 0 107 (enc_source (src 2 4 2 0))) ++ repeat 0 472)).
  repeat (split; [first [reflexivity | unfold source_ok, addr_ok, float_ok, octet; vm_compute; repeat split; try congruence; repeat constructor; try congruence; auto]|]).
  reflexivity.
Qed.

(** What a status says when asked: the state, and accuracy, steps removed and a remote clock only of an instance that follows one. *)
Theorem C68_status : forall g m, exists r, step g m GetStatus = Some (m, [Reply r]) /\ s_state r = k_state (m_st m) /\ s_must r = m_must m /\ s_cannot r = m_cannot m /\
  s_offset r = k_off (m_st m) /\ s_score r = k_score (m_st m) /\
  (s_state r <> SLAVE -> s_acc r = None /\ s_steps r = 0 /\ s_remote r = false) /\
  (s_state r = SLAVE -> s_acc r = k_disp (m_st m) /\ s_steps r = k_strat (m_st m) /\ s_remote r = true).
Proof.
  intros g m. exists (reply_of m). split; [reflexivity|]. unfold reply_of. cbn [s_state s_must s_cannot s_offset s_score s_acc s_steps s_remote].
  repeat (split; [reflexivity|]). destruct (k_state (m_st m)); cbn [st_eqb]; split; intros H; try congruence; repeat split.
Qed.
Print Assumptions C68_status.
Example C68_status_ex : map s_acc (says (all_of g0 plain [] (E 100 plain) (start ++ a_round ++ [GetStatus]))) = [None] /\
  map s_steps (says (all_of g0 plain [] (E 100 plain) (start ++ a_round ++ [GetStatus]))) = [0].
Proof. split; vm_compute; reflexivity. Qed.

(** After a step of the clock no round ends in following a source, whatever it brings, as long as the mark is there; nothing is
    output.  The mark is dropped when the identity of the measurement changes to none and kept when it changes to a new one. *)
Theorem C68_stepped_partial :
  (forall g m, exists m', step g m StepClock = Some (m', []) /\ k_unsafe (m_st m') = true /\ k_state (m_st m') = k_state (m_st m) /\
     forall n arr score s', parse (with_arr (with_num (m_st m') n) arr) 0 score = Some s' -> k_state s' <> SLAVE) /\
  (forall m, k_unsafe (m_nx m) = true -> k_unsafe (m_nx (id_change m)) = match k_id (m_nx m) with Some _ => true | None => false end) /\
  (forall m, k_unsafe (m_nx m) = false -> k_unsafe (m_nx (id_change m)) = false).
Proof.
  split; [|split].
  - intros g m. eexists. split; [reflexivity|]. split; [reflexivity|]. split; [reflexivity|]. intros n arr score s' H. unfold parse in H. cbn [Z.eqb negb] in H.
    di H; [discriminate|]. destruct (scan _ _ _ _) as [idx cand]. ib H. replace (k_unsafe _) with true in H by reflexivity. rewrite andb_false_r in H. injection H as <-. cbn [k_state]. destruct cand; discriminate.
  - intros m U. unfold id_change. rewrite U. destruct (k_id (m_nx m)); [exact U|reflexivity].
  - intros m U. unfold id_change. rewrite U. exact U.
Qed.
Print Assumptions C68_stepped_partial.
Example C68_stepped_ex : exists s1 s2, let p := mkP (V4 [1;2;3;4]) NoAddr 5 6 2 false true false true (7#1) (8#1) (Some 9%Q) None in
  let s := mkC LISTENING None 0 true 1 [p] 0 None 0 false false 0 in
  parse s 0 (fun _ => 0) = Some s1 /\ k_state s1 = SLAVE /\ parse (with_unsafe s true) 0 (fun _ => 0) = Some s2 /\ k_state s2 = SELECTION.
Proof. eexists. eexists. split; [vm_compute; reflexivity|]. split; [vm_compute; reflexivity|]. split; vm_compute; reflexivity. Qed.

(** At the start of the module, with the means and before any operation, chronyd's control of the clock is changed if it is not as
    wished: enabled if it is wished and chronyd is seen not to have it, disabled if it is not wished and chronyd has it. *)
Theorem C68_start_partial : forall g m e m' o, on_run g m e = Some (m', o) -> g_ctl g = true -> m_last m = null_time -> m_saved m = false ->
  (forall k, controls (e_proc e k) = negb (Z.testbit (m_flags m) CLOCK_CTRL)) ->
  exists a b, o = a ++ Did (if Z.testbit (m_flags m) CLOCK_CTRL then ENABLE else DISABLE) (e_ctl e (if Z.testbit (m_flags m) CLOCK_CTRL then ENABLE else DISABLE)) :: b /\
  In (Did SAVE (e_ctl e SAVE)) a.
Proof.
  intros g m e m' o H G L S C.
  assert (DC : forall mm op k, g_ctl g = true -> m_last mm = null_time -> op = SAVE \/ (op = ENABLE /\ controls (e_proc e k) = false) \/ (op = DISABLE /\ controls (e_proc e k) = true) ->
    exists m1 x, do_control g mm e k op = Some (m1, Look (e_proc e k) :: x ++ [Did op (e_ctl e op)], e_ctl e op) /\ (op = SAVE -> m_last m1 = null_time) /\ m_flags m1 = m_flags mm).
  { intros mm op k G' L' O. unfold do_control. rewrite G'. cbn [negb]. destruct (look g mm (e_proc e k)) as [m1 cc] eqn:LK. pose proof (look_controls g mm (e_proc e k)) as LC. rewrite LK in LC. cbn [snd] in LC. subst cc.
    assert (M1 : m_last m1 = null_time /\ m_flags m1 = m_flags mm).
    { unfold look in LK. injection LK as <- _. repeat match goal with |- context [if ?b then _ else _] => destruct b end; cbn; auto. }
    destruct M1 as [M1 M2].
    destruct O as [-> | [[-> O] | [-> O]]]; cbn [cop_eqb andb orb]; try rewrite O; cbn [cop_eqb andb orb negb].
    - replace (m_last (set_atsave m1 (controls (e_proc e k)))) with null_time by (symmetry; exact M1). cbn. exists (set_atsave m1 (controls (e_proc e k))), []. auto.
    - rewrite M1. cbn [null_time sec nsec Z.eqb andb negb bind]. destruct (close m1) as [m3 o3] eqn:CL. exists (set_last m3 (e_raw e)), o3. split; [reflexivity|]. split; [discriminate|].
      unfold close in CL. destruct (m_open m1); injection CL as <- _; exact M2.
    - rewrite M1. cbn [null_time sec nsec Z.eqb andb negb bind]. destruct (close m1) as [m3 o3] eqn:CL. exists (set_last m3 (e_raw e)), o3. split; [reflexivity|]. split; [discriminate|].
      unfold close in CL. destruct (m_open m1); injection CL as <- _; exact M2. }
  assert (CT : forall mm w, m_last mm = null_time -> m_saved mm = false -> w = Z.testbit (m_flags m) CLOCK_CTRL ->
    exists m1 a, control g mm e 1 w = Some (m1, a ++ [Did (if w then ENABLE else DISABLE) (e_ctl e (if w then ENABLE else DISABLE))], e_ctl e (if w then ENABLE else DISABLE)) /\ In (Did SAVE (e_ctl e SAVE)) a).
  { intros mm w L' S' W. unfold control. rewrite S'. destruct (DC mm SAVE 1%nat G L' (or_introl eq_refl)) as (m1 & x & E1 & E2 & _). rewrite E1. cbn [bind fst snd].
    destruct (DC (set_saved m1 true) (if w then ENABLE else DISABLE) 2%nat G (E2 eq_refl)) as (m2 & y & E3 & _).
    { right. destruct w; [left|right]; (split; [reflexivity|]); rewrite C, <- W; reflexivity. }
    rewrite E3. cbn [bind fst snd]. exists m2, ((Look (e_proc e 1) :: x ++ [Did SAVE (e_ctl e SAVE)]) ++ Look (e_proc e 2) :: y). split.
    - rewrite <- !app_assoc. cbn [app]. rewrite <- !app_assoc. reflexivity.
    - apply in_or_app. left. right. apply in_or_app. right. left. reflexivity. }
  unfold on_run in H. set (m1 := set_st _ _) in H. destruct (look g m1 (e_proc e 0)) as [m2 cc] eqn:LK. pose proof (look_controls g m1 (e_proc e 0)) as LC. rewrite LK in LC. cbn [snd] in LC. subst cc.
  assert (M2 : m_last m2 = null_time /\ m_saved m2 = false).
  { unfold look in LK. injection LK as <- _. repeat match goal with |- context [if ?b then _ else _] => destruct b end; cbn; auto. }
  destruct M2 as [ML MS]. rewrite C in H. destruct (Z.testbit (m_flags m) CLOCK_CTRL) eqn:W; cbn [negb andb] in H; rewrite G in H.
  - destruct (CT m2 true ML MS eq_refl) as (m3 & a & E & I). rewrite E in H. cbn [bind] in H. ib H. injection H as _ <-.
    exists (Look (e_proc e 0) :: a). eexists. split; [|right; exact I]. cbn [app]. rewrite <- app_assoc. reflexivity.
  - destruct (CT m2 false ML MS eq_refl) as (m3 & a & E & I). rewrite E in H. cbn [bind] in H. ib H. injection H as _ <-.
    exists (Look (e_proc e 0) :: a). match goal with |- context [if ?b then _ else _] => destruct b end; eexists; (split; [|right; exact I]); cbn [app]; rewrite <- !app_assoc; reflexivity.
Qed.
Print Assumptions C68_start_partial.
Example C68_start_ex : dids (all_of gc plain [] (E 100 plain) []) = [(SAVE, 0); (DISABLE, 0)] /\
  dids (all_of gc told_x [Control 4 4 (E 99 told_x)] (E 100 told_x) []) = [(SAVE, 0); (ENABLE, 0)].
Proof. split; vm_compute; reflexivity. Qed.

(** The claim of C68_round_partial is false if there are sources of other kinds.  Chronyd has a reference clock and a
    server; it answers every question; the state after it is not selection, and no server is counted: after a reference
    clock the answer about the next source is taken for one to another question. *)
Definition with_clock : list op :=
  [ans NUM_SOURCES 103 (enc32 2) (E 104 plain);
   ans SOURCE_DATA 104 (enc_source (src 1 0 2 0)) (E 105 plain); ans SOURCE_STATS 105 (enc_stats (src 1 0 2 0)) (E 106 plain);
   ans SOURCE_DATA 106 (enc_source (src 2 0 0 4)) (E 107 plain)].
Theorem C68_refclock_refuted : exists m log, final_of g0 plain [] (E 100 plain) (start ++ with_clock) = Some m /\
  log = skipn 2 (log_of g0 plain [] (E 100 plain) (start ++ with_clock)) /\
  map snd log = [[Sent (enc_request SOURCE_DATA 104 (enc32 0))]; [Sent (enc_request SOURCE_STATS 105 (enc32 0))]; [Sent (enc_request SOURCE_DATA 106 (enc32 1))]; [Told (mkStatus LISTENING true false 0 None 0 false 7); History None false]] /\
  step g0 m SaveState = Some (m, [Saved LISTENING true false 2 None 2 0]).
Proof.
  destruct (final_of g0 plain [] (E 100 plain) (start ++ with_clock)) as [m|] eqn:F; [|vm_compute in F; discriminate].
  exists m, (skipn 2 (log_of g0 plain [] (E 100 plain) (start ++ with_clock))). split; [reflexivity|]. split; [reflexivity|]. split; [vm_compute; reflexivity|].
  assert (X : match final_of g0 plain [] (E 100 plain) (start ++ with_clock) with Some m => on_save m | None => None end = Some [Saved LISTENING true false 2 None 2 0]) by (vm_compute; reflexivity). rewrite F in X.
  cbn [step]. rewrite X. reflexivity.
Qed.
Print Assumptions C68_refclock_refuted.

(** If chronyd answers that it has no sources, nothing is told and the state stays what it was. *)
Theorem C68_empty : forall g p pre e l x m o lp lr ll q seq, live g p pre e (l ++ [x]) = Some (inr (m, o, lp, lr, ll ++ [(x, [Look q; Sent (enc_request NUM_SOURCES seq [])])])) -> Forall message pre -> 0 <= seq < 2^32 ->
  forall e1, exists m', step g m (ans NUM_SOURCES seq (enc32 0) e1) = Some (m', []) /\ exists s, step g m GetStatus = Some (m, [Reply s]) /\ step g m' GetStatus = Some (m', [Reply s]).
Proof.
  intros g p pre e l x m o lp lr ll q seq H F SQ e1. destruct (live_empty _ _ _ _ _ _ _ _ _ _ _ _ _ H F SQ e1) as (m' & A & B & C). exists m'. split; [exact A|]. exists (reply_of m). split; [reflexivity|exact C].
Qed.
Print Assumptions C68_empty.
(** So the claim that without sources the instance is listening is false: here it goes on saying selection. *)
Definition emptied : list op := start ++ a_round ++ [Tick (E 120 plain); ans TRACKING 120 (repeat 0 76) (E 121 plain); ans NUM_SOURCES 121 (enc32 0) (E 122 plain)].
Theorem C68_empty_refuted : exists m, final_of g0 plain [] (E 100 plain) emptied = Some m /\ map (fun x => snd x) (skipn 12 (log_of g0 plain [] (E 100 plain) emptied)) =
  [[Sent (enc_request TRACKING 120 [])]; [Look plain; Sent (enc_request NUM_SOURCES 121 [])]; []] /\ s_state (reply_of m) = SELECTION.
Proof.
  destruct (final_of g0 plain [] (E 100 plain) emptied) as [m|] eqn:F; [|vm_compute in F; discriminate]. exists m. split; [reflexivity|]. split; [vm_compute; reflexivity|].
  assert (X : match final_of g0 plain [] (E 100 plain) emptied with Some m => s_state (reply_of m) | None => FAULTY end = SELECTION) by (vm_compute; reflexivity). rewrite F in X. exact X.
Qed.
Print Assumptions C68_empty_refuted.

(** While chronyd is connected and answers nothing, the module only sends requests: however long it lasts, nothing is
    told, and the status is the old one. *)
Theorem C68_silent : forall g p pre e l m o lp lr ll, live g p pre e l = Some (inr (m, o, lp, lr, ll)) -> Forall message pre -> conn_run false (o ++ flat lp ++ lr ++ flat ll) = Some true ->
  forall l' m' log, Forall quiet_tick l' -> run g m l' = Some (m', log) -> forallb is_sent (flat log) = true /\
  exists s s', step g m GetStatus = Some (m, [Reply s]) /\ step g m' GetStatus = Some (m', [Reply s']) /\ s_state s' = s_state s /\ s_offset s' = s_offset s /\ s_acc s' = s_acc s.
Proof.
  intros g p pre e l m o lp lr ll H F C l' m' log Q R. destruct (live_ok g p pre e l m o lp lr ll H F) as (IN & CO & _). rewrite C in CO. injection CO as CO.
  destruct (run_silent g l' m m' log IN (eq_sym CO) Q R) as [A B]. split; [exact B|]. exists (reply_of m), (reply_of m'). split; [reflexivity|]. split; [reflexivity|]. unfold reply_of. rewrite A. auto.
Qed.
Print Assumptions C68_silent.
(** So the claim that an unresponsive chronyd is noticed is false: after a round, hours without an answer. *)
Definition hours : list op := map (fun k => Tick (E (200 + 60 * Z.of_nat k) plain)) (seq 0 400).
Theorem C68_silent_refuted : exists m, final_of g0 plain [] (E 100 plain) (start ++ a_round ++ hours) = Some m /\ Forall quiet_tick hours /\ s_state (reply_of m) = SELECTION /\
  conn_run false (all_of g0 plain [] (E 100 plain) (start ++ a_round ++ hours)) = Some true /\ (100 <= List.length (filter is_sent (flat (skipn 12 (log_of g0 plain [] (E 100 plain) (start ++ a_round ++ hours))))))%nat.
Proof.
  destruct (final_of g0 plain [] (E 100 plain) (start ++ a_round ++ hours)) as [m|] eqn:F; [|vm_compute in F; discriminate]. exists m. split; [reflexivity|]. split; [unfold hours; apply Forall_forall; intros y Y; apply in_map_iff in Y; destruct Y as (k & <- & _); reflexivity|].
  assert (X : match final_of g0 plain [] (E 100 plain) (start ++ a_round ++ hours) with Some m => s_state (reply_of m) | None => FAULTY end = SELECTION) by (vm_compute; reflexivity). rewrite F in X. split; [exact X|]. split; [vm_compute; reflexivity|]. vm_compute. lia.
Qed.
Print Assumptions C68_silent_refuted.

(** ** What is told and replied *)
(** What is replied, saved and drawn is always the state last told, or at the start listening if chronyd is there and
    disabled if not. *)
Theorem C68_told : forall g p pre e l m o lp lr ll, live g p pre e l = Some (inr (m, o, lp, lr, ll)) -> Forall message pre ->
  told_run (first_state p) (o ++ flat lp ++ lr ++ flat ll) <> None.
Proof. intros g p pre e l m o lp lr ll H F. destruct (live_ok g p pre e l m o lp lr ll H F) as (_ & _ & _ & T & _). rewrite T. discriminate. Qed.
Print Assumptions C68_told.
Example C68_told_ex : map s_state (says (all_of g0 plain [GetStatus] (E 100 plain) (start ++ a_round ++ [GetStatus]))) = [LISTENING; SELECTION] /\
  told_run LISTENING (all_of g0 plain [GetStatus] (E 100 plain) (start ++ a_round ++ [GetStatus])) = Some SELECTION /\
  map s_state (says (all_of g0 Absent [GetStatus] (E 100 Absent) [GetStatus; Tick (E 102 plain); GetStatus; Tick (E 103 plain)])) = [DISABLED; DISABLED; DISABLED].
Proof. repeat split; vm_compute; reflexivity. Qed.

(** The connection is opened before it is used or closed and closed before it is opened again. *)
Theorem C68_connection : forall g p pre e l m o lp lr ll, live g p pre e l = Some (inr (m, o, lp, lr, ll)) -> Forall message pre ->
  conn_run false (o ++ flat lp ++ lr ++ flat ll) <> None.
Proof. intros g p pre e l m o lp lr ll H F. destruct (live_ok g p pre e l m o lp lr ll H F) as (_ & T & _). rewrite T. discriminate. Qed.
Print Assumptions C68_connection.
Definition broken : list op := start ++ [Io Lost (E 104 plain); Tick (E 106 plain); Tick (E 107 plain); ans TRACKING 107 (repeat 0 76) (E 107 plain)].
Example C68_connection_ex : filter (fun o => match o with Connect _ | Close => true | _ => false end) (all_of g0 plain [] (E 100 plain) broken) = [Connect 0; Close; Connect 0] /\
  conn_run false (all_of g0 plain [] (E 100 plain) broken) = Some true.
Proof. split; vm_compute; reflexivity. Qed.

(** No status says both that the instance must and that it cannot be selected; if chronyd's control can be
    changed, neither. *)
Theorem C68_constraints : forall g p pre e l m o lp lr ll, live g p pre e l = Some (inr (m, o, lp, lr, ll)) -> Forall message pre ->
  forall s, In (Told s) (o ++ flat lp ++ lr ++ flat ll) \/ In (Reply s) (o ++ flat lp ++ lr ++ flat ll) ->
  ~ (s_must s = true /\ s_cannot s = true) /\ (g_ctl g = true -> s_must s = false /\ s_cannot s = false).
Proof.
  intros g p pre e l m o lp lr ll H F s I. destruct (live_ok g p pre e l m o lp lr ll H F) as (_ & _ & _ & _ & _ & T & _). rewrite Forall_forall in T.
  assert (X : free g (Told s)) by (destruct I as [I|I]; apply T in I; exact I). destruct X as [X1 X2]. split; [|exact X2]. intros [A B]. rewrite (X1 A) in B. discriminate.
Qed.
Print Assumptions C68_constraints.
(** That the constraints replied are those last told is false: they change without being told. *)
Definition restarted : list op := start ++ a_round ++ [Control 4 4 (E 114 told_x); GetStatus].
Theorem C68_constraints_refuted : exists t r, tolds (all_of g0 plain [] (E 100 plain) restarted) = [t] /\ says (all_of g0 plain [] (E 100 plain) restarted) = [r] /\
  (s_must t, s_cannot t) = (true, false) /\ (s_must r, s_cannot r) = (false, true).
Proof. eexists. eexists. split; [vm_compute; reflexivity|]. split; [vm_compute; reflexivity|]. split; reflexivity. Qed.
Print Assumptions C68_constraints_refuted.

(** ** Clock control *)
(** Without the means nothing is ever done to chronyd's clock control.  With them: the setting is saved once, before anything
    else; it is enabled only if the last look found chronyd not controlling the clock and disabled only if it did; and
    nothing else is done. *)
Theorem C68_commands : forall g p pre e l m o lp lr ll, live g p pre e l = Some (inr (m, o, lp, lr, ll)) -> Forall message pre ->
  (g_ctl g = false -> existsb is_did (o ++ flat lp ++ lr ++ flat ll) = false) /\
  (g_ctl g = true -> cmd_run false None (o ++ flat lp ++ lr ++ flat ll) <> None).
Proof. intros g p pre e l m o lp lr ll H F. destruct (live_ok g p pre e l m o lp lr ll H F) as (_ & _ & _ & _ & _ & _ & A & B & _). split; [exact A|]. intros G. rewrite B by exact G. discriminate. Qed.
Print Assumptions C68_commands.
Definition switched : list op := [Control 4 4 (E 105 told_x); Control 4 0 (E 106 plain); Control 4 4 (E 107 plain)].
Example C68_commands_ex : dids (all_of gc plain [] (E 100 plain) switched) = [(SAVE, 0); (DISABLE, 0); (ENABLE, 0); (DISABLE, 0)] /\
  dids (all_of g0 plain [] (E 100 plain) switched) = [] /\ lives gc plain [] (E 100 plain) switched = true.
Proof. repeat split; vm_compute; reflexivity. Qed.

(** With the means, every operation fits the wish at the time: control is enabled only if the last message about it asked
    for that, disabled only if it did not.  (If control was asked for before the start and enabling it failed there, the wish is
    given up.) *)
Theorem C68_wish : forall g p pre e l m o lp lr ll, live g p pre e l = Some (inr (m, o, lp, lr, ll)) -> Forall message pre -> g_ctl g = true ->
  exists w, (w = true -> wishes false pre = true) /\ existsb is_did (o ++ flat lp) = false /\
  (exists a b, lr = a ++ b /\ forallb (only (wishes false pre)) a = true /\ forallb (only w) b = true) /\
  forall a x outs b, ll = a ++ (x, outs) :: b -> forallb (only (wishes w (map fst a ++ [x]))) outs = true.
Proof. exact live_wish. Qed.
Print Assumptions C68_wish.
Example C68_wish_ex : map (fun n => wishes false (firstn n switched)) [0; 1; 2; 3]%nat = [false; true; false; true] /\
  map (fun x => dids (snd x)) (log_of gc plain [] (E 100 plain) switched) = [[(ENABLE, 0)]; [(DISABLE, 0)]; []].
Proof. split; vm_compute; reflexivity. Qed.

(** That the saved setting is restored in the end is false: no life restores it. *)
Theorem C68_restore_refuted : forall g p pre e l m o lp lr ll, live g p pre e l = Some (inr (m, o, lp, lr, ll)) -> Forall message pre ->
  forall rc, ~ In (Did RESTORE rc) (o ++ flat lp ++ lr ++ flat ll) /\ ~ In (Did RESTORENORESTART rc) (o ++ flat lp ++ lr ++ flat ll).
Proof.
  intros g p pre e l m o lp lr ll H F rc. destruct (C68_commands g p pre e l m o lp lr ll H F) as [A B]. generalize dependent (o ++ flat lp ++ lr ++ flat ll). intros all A B. destruct (g_ctl g).
  - specialize (B eq_refl). clear A H. revert B. generalize false at 1. generalize (@None bool) at 1. induction all as [|y all IH]; intros w s B; [split; intros []|].
    split; intros [E|I]; try (subst y; cbn [cmd_run] in B; congruence); (destruct y; cbn [cmd_run] in B; try (apply IH in B; tauto); destruct o0; try congruence; try (destruct (s && _); [|congruence]; apply IH in B; tauto); destruct s; [congruence|]; apply IH in B; tauto).
  - specialize (A eq_refl). split; intros I; assert (X : existsb is_did all = true) by (apply existsb_exists; eexists; split; [exact I|reflexivity]); congruence.
Qed.
Print Assumptions C68_restore_refuted.

(** ** The blocking of the system clock *)
(** Without the means to change chronyd's control, the system clock is blocked just while the last poll found chronyd
    controlling it. *)
Theorem C68_blocked_partial : forall g p pre e l m o lp lr ll, live g p pre e l = Some (inr (m, o, lp, lr, ll)) -> Forall message pre -> g_ctl g = false ->
  block_run false (o ++ flat lp ++ lr ++ flat ll) = Some (fold_left polled ll (controls (e_proc e 3))).
Proof. exact live_blocked. Qed.
Print Assumptions C68_blocked_partial.
Definition looked : list op := [Tick (E 102 plain); ans TRACKING 102 (repeat 0 76) (E 103 told_x); Control 4 4 (E 103 plain); Io Nothing (E 104 plain); Tick (E 110 plain); Tick (E 120 plain); ans TRACKING 120 (repeat 0 76) (E 121 plain)].
Example C68_blocked_ex : blocks (all_of g0 plain [] (E 100 plain) looked) = [true; false; true] /\
  map (fun n => fold_left polled (firstn n (log_of g0 plain [] (E 100 plain) looked)) true) (seq 0 8) = [true; true; false; false; false; false; false; true].
Proof. split; vm_compute; reflexivity. Qed.
(** With the means this is false: chronyd was restarted without -x from outside; the module blocks the clock and has it started
    with -x again; the clock stays blocked although every further look finds chronyd with -x. *)
Definition outside : list op := [Tick (E 102 told_x); ans TRACKING 102 (repeat 0 76) (E 103 plain)] ++
  flat_map (fun k => let s := 200 + 10 * Z.of_nat k in [Tick (E s told_x); Tick (E (s + 1) told_x); Tick (E (s + 2) told_x); ans TRACKING (s + 2) (repeat 0 76) (E (s + 3) told_x)]) (seq 0 20).
Theorem C68_blocked_refuted : block_run false (all_of gc told_x [] (E 100 told_x) outside) = Some true /\ lives gc told_x [] (E 100 told_x) outside = true /\
  fold_left polled (log_of gc told_x [] (E 100 told_x) outside) (controls told_x) = false /\ blocks (all_of gc told_x [] (E 100 told_x) outside) = [true] /\
  dids (all_of gc told_x [] (E 100 told_x) outside) = [(SAVE, 0); (DISABLE, 0)].
Proof. repeat split; vm_compute; reflexivity. Qed.
Print Assumptions C68_blocked_refuted.

(** ** The cadence *)
(** The rounds of questions (or looks for chronyd) after the message to run start later than the interval, twice the interval and
    so on after it: never more often than the interval allows. *)
Theorem C68_cadence : forall g p pre e l m o lp lr ll, live g p pre e l = Some (inr (m, o, lp, lr, ll)) -> Forall message pre -> normal (e_now e) ->
  forall a x outs b, ll = a ++ (x, outs) :: b -> starts x outs = true -> normal (op_now x) -> instant (e_now e) + (1 + count_starts a) * g_interval g * s_unit < instant (op_now x).
Proof. exact live_cadence. Qed.
Print Assumptions C68_cadence.
Example C68_cadence_ex : map (fun x => starts (fst x) (snd x)) (log_of g0 plain [] (E 100 plain) emptied) = [false; false; false; false; false; false; false; false; false; false; false; false; true; false; false] /\ count_starts (log_of g0 plain [] (E 100 plain) broken) = 1.
Proof. split; vm_compute; reflexivity. Qed.

(** ** Undefined behaviour *)
(** That every life is defined is false: (1) chronyd tells a number of sources of 2^31 or more and the answers that follow
    fail; (2) the topology of a selected instance is asked for after a round; (3) the instance is made the determinant of clustering
    and statistics are logged after a round.  They write or read out of the array of peers. *)
Definition flood : list op := start ++ ans NUM_SOURCES 103 (enc32 (2^31)) (E 104 plain) :: map (fun k => Io (Octets (repeat 0 28)) (E (105 + Z.of_nat k) plain)) (seq 0 32).
Theorem C68_defined_refuted : live g0 plain [] (E 100 plain) flood = None /\
  live g0 plain [] (E 100 plain) (start ++ a_round ++ [Control 1 1 (E 115 plain); Topology]) = None /\
  live g0 plain [] (E 100 plain) (start ++ a_round ++ [Control 16 16 (E 115 plain); LogStats]) = None /\
  lives g0 plain [] (E 100 plain) (firstn 34 flood) = true /\ lives g0 plain [] (E 100 plain) (start ++ a_round ++ [Control 1 1 (E 115 plain); LogStats]) = true /\
  lives g0 plain [] (E 100 plain) [Control 1 1 (E 115 plain); Topology] = true.
Proof. repeat split; vm_compute; reflexivity. Qed.
Print Assumptions C68_defined_refuted.
