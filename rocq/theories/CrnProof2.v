(** Proofs for the chrony module, part 2: no source is ever held as selected. *)
Require Import ZArith QArith List Bool Lia.
Require Import Verif.Base Verif.TimeSpec Verif.TimeModel Verif.QLib Verif.ListLib Verif.StatsModel Verif.CrnSpec Verif.CrnModel.
Import ListNotations.
Open Scope Z_scope.

Ltac pj := cbn [m_flags m_must m_cannot m_q m_idx m_addr m_mode m_next m_exp m_st m_nx m_conv m_req m_resp m_open m_running m_saved m_atsave m_blocked m_phase m_last
  set_flags set_cons set_q set_idx set_src set_next set_exp set_st set_nx set_conv set_req set_resp set_open set_running set_saved set_atsave set_blocked set_phase set_last
  k_state k_id k_idx k_cc k_num k_arr k_off k_disp k_strat k_unsafe k_sync k_score with_cc with_num with_arr with_unsafe with_sync with_state fst snd] in *.
Ltac ib H := match type of H with bind ?a _ = Some _ => let X := fresh "B" in destruct a eqn:X; cbn [bind] in H; [|discriminate H] end.
Ltac di H := match type of H with (if ?b then _ else _) = Some _ => let X := fresh "C" in destruct b eqn:X end.

Lemma st_eqb_eq : forall a b, st_eqb a b = true <-> a = b.
Proof. intros [] []; cbn; split; congruence. Qed.
Lemma st_eqb_refl : forall a, st_eqb a a = true. Proof. destruct a; reflexivity. Qed.
Lemma not_slave : forall a, a <> SLAVE -> st_eqb a SLAVE = false.
Proof. destruct a; cbn; congruence. Qed.
Lemma Forall_set_nth : forall A (P : A -> Prop) i x l, Forall P l -> P x -> Forall P (set_nth i x l).
Proof.
  intros A P i. induction i as [|i IH]; intros x [|y l] F X; cbn [set_nth]; auto.
  - constructor; [exact X|apply (Forall_inv_tail F)].
  - constructor; [apply (Forall_inv F)|apply IH; [apply (Forall_inv_tail F)|exact X]].
Qed.
Lemma set_nth_twice : forall A i (x y : A) l, set_nth i y (set_nth i x l) = set_nth i y l.
Proof. intros A i. induction i as [|i IH]; intros x y [|z l]; cbn [set_nth]; auto. f_equal. apply IH. Qed.

Definition unsel (p : cpeer) : Prop := q_sel p = false.
Definition dull (s : cst) : Prop :=
  List.length (k_arr s) = 32%nat /\ Forall unsel (k_arr s) /\ k_state s <> SLAVE /\ k_id s = None /\ (k_idx s = 0 \/ k_idx s = -1) /\
  k_off s = 0%Q /\ (k_disp s = Some 0%Q \/ k_disp s = None) /\ k_strat s = 0 /\ k_sync s = false.

Lemma put_peer_arr : forall s i p s', put_peer s i p = Some s' -> s' = with_arr s (set_nth (Z.to_nat i) p (k_arr s)) /\ 0 <= i < Z.of_nat (List.length (k_arr s)).
Proof.
  intros s i p s' H. unfold put_peer, peer_at in H. destruct (i <? 0) eqn:E; [discriminate|].
  destruct (nth_error (k_arr s) (Z.to_nat i)) eqn:N; cbn [bind] in H; [|discriminate]. injection H as <-. split; [reflexivity|].
  assert (Z.to_nat i < List.length (k_arr s))%nat by (apply nth_error_Some; congruence). lia.
Qed.
Lemma put_peer_some : forall s i p, 0 <= i < Z.of_nat (List.length (k_arr s)) -> put_peer s i p = Some (with_arr s (set_nth (Z.to_nat i) p (k_arr s))).
Proof.
  intros s i p H. unfold put_peer, peer_at. replace (i <? 0) with false by lia.
  destruct (nth_error (k_arr s) (Z.to_nat i)) eqn:N; [reflexivity|]. apply nth_error_None in N. lia.
Qed.
Lemma dull_put : forall s i p s', dull s -> put_peer s i p = Some s' -> unsel p -> dull s'.
Proof.
  intros s i p s' (D1 & D2 & D3) H U. apply put_peer_arr in H. destruct H as [-> _]. unfold dull. pj. rewrite set_nth_length.
  split; [exact D1|]. split; [apply Forall_set_nth; assumption|exact D3].
Qed.
Lemma dull_put2 : forall s i p p2 s1 s2, dull s -> put_peer s i p = Some s1 -> put_peer s1 i p2 = Some s2 -> unsel p2 -> dull s2.
Proof.
  intros s i p p2 s1 s2 (D1 & D2 & D3) H1 H2 U. apply put_peer_arr in H1. destruct H1 as [-> _]. apply put_peer_arr in H2. destruct H2 as [-> _].
  unfold dull. pj. rewrite set_nth_twice, set_nth_length.
  split; [exact D1|]. split; [apply Forall_set_nth; assumption|exact D3].
Qed.
Lemma dull_peer : forall s i p, dull s -> peer_at s i = Some p -> unsel p.
Proof.
  intros s i p (D1 & D2 & _) H. unfold peer_at in H. destruct (i <? 0); [discriminate|]. apply nth_error_In in H. rewrite Forall_forall in D2. auto.
Qed.
Lemma dull_with_num : forall s n, dull s -> dull (with_num s n). Proof. intros s n D. exact D. Qed.
Lemma dull_with_cc : forall s n, dull s -> dull (with_cc s n). Proof. intros s n D. exact D. Qed.
Lemma dull_with_unsafe : forall s n, dull s -> dull (with_unsafe s n). Proof. intros s n D. exact D. Qed.

Definition counts (p : cpeer) : bool := negb (q_self p) && (q_cand p || q_short p).
Lemma scan_unsel : forall l i c, Forall unsel l -> scan i l (-1) c = (-1, c || existsb counts l).
Proof.
  induction l as [|p l IH]; intros i c F; cbn [scan existsb]; [rewrite orb_false_r; reflexivity|].
  assert (U := Forall_inv F). rewrite U. rewrite !(IH _ _ (Forall_inv_tail F)). change (counts p) with (negb (q_self p) && (q_cand p || q_short p)).
  destruct (q_self p); cbn [negb andb orb]; [reflexivity|]. destruct (q_cand p || q_short p); cbn [orb]; [rewrite orb_true_r; reflexivity|reflexivity].
Qed.
Lemma Forall_firstn : forall A (P : A -> Prop) n l, Forall P l -> Forall P (firstn n l).
Proof. intros A P n. induction n as [|n IH]; intros [|x l] F; cbn [firstn]; auto. constructor; [apply (Forall_inv F)|apply IH, (Forall_inv_tail F)]. Qed.
(** crny_parse_state when no source is held as selected. *)
Definition parsed (s : cst) (score : Q -> Z) : cst :=
  mkC (if existsb counts (firstn (Z.to_nat (k_num s)) (k_arr s)) then SELECTION else LISTENING) None (-1) (k_cc s) (k_num s) (k_arr s) 0 None 0 (k_unsafe s) (k_sync s) (score 0%Q).
Definition failed (s : cst) (rc : Z) : cst :=
  mkC (if rc =? ENOPROTOOPT then DISABLED else if rc =? EAGAIN then LISTENING else FAULTY)
      None (-1) (k_cc s) 0 (k_arr s) (k_off s) (k_disp s) (k_strat s) (k_unsafe s) (k_sync s) (k_score s).
Lemma parse_dull : forall s rc score, dull s -> parse s rc score = if negb (rc =? 0) then Some (failed s rc) else if 32 <? k_num s then None else Some (parsed s score).
Proof.
  intros s rc score (D1 & D2 & _). unfold parse. destruct (negb (rc =? 0)); [reflexivity|]. destruct (32 <? k_num s); [reflexivity|].
  rewrite scan_unsel by (apply Forall_firstn; exact D2). reflexivity.
Qed.
Lemma dull_failed : forall s rc, dull s -> dull (failed s rc).
Proof.
  intros s rc (D1 & D2 & D3 & D4 & D5 & D6 & D7 & D8 & D9). unfold dull, failed. pj. repeat (split; [try assumption|]); try assumption; auto.
  destruct (rc =? ENOPROTOOPT); [discriminate|]. destruct (rc =? EAGAIN); discriminate.
Qed.
Lemma dull_parsed : forall s score, dull s -> dull (parsed s score).
Proof.
  intros s score (D1 & D2 & D3 & D4 & D5 & D6 & D7 & D8 & D9). unfold dull, parsed. pj. repeat (split; [try assumption|]); try assumption; auto.
  destruct (existsb _ _); discriminate.
Qed.

(** ** The branches of the state machine *)
Inductive issued (e : env) (m : cm) : cm * list out * bool -> Prop :=
| ISent : forall x, m_open m = true -> add (e_now e) (mkTs 2 0 0) = Some x -> e_send e = 0 -> issued e m (set_exp m x, [Sent (m_req m)], true)
| IShut : m_open m = false -> issued e m (m, [], false)
| ILost : forall x, m_open m = true -> issued e m (set_open (set_exp m x) false, [Close], false)
| IFail : forall x, m_open m = true -> issued e m (set_exp m x, [], false).
Lemma issue_cases : forall e m r, issue e m = Some r -> issued e m r.
Proof.
  intros e m r H. unfold issue in H. destruct (m_open m) eqn:O; cbn [negb] in H; [|injection H as <-; constructor; exact O].
  ib H. rename t into x. di H; [injection H as <-; constructor; [exact O|exact B|apply Z.eqb_eq; exact C]|].
  di H; [|injection H as <-; apply IFail; exact O]. unfold close in H. pj. rewrite O in H. injection H as <-. apply ILost; exact O.
Qed.
Lemma look_frame : forall g m p m' cc, look g m p = (m', cc) -> exists a b, m' = set_running (set_cons m a b) (seen p) /\
  (a = true -> b = false) /\ (g_ctl g = true -> a = false /\ b = false).
Proof.
  intros g m p m' cc H. unfold look in H. injection H as <- _.
  fold (seen p). destruct (seen p && negb (g_ctl g)) eqn:E.
  - apply andb_prop in E. destruct E as [_ E]. apply negb_true_iff in E.
    destruct (match p with Cmdline t _ => match opts OStart t with OX => true | _ => false end | _ => false end).
    + exists false, true. split; [reflexivity|]. split; [discriminate|rewrite E; discriminate].
    + exists true, false. split; [reflexivity|]. split; [reflexivity|rewrite E; discriminate].
  - exists false, false. split; [reflexivity|]. split; [reflexivity|]. split; reflexivity.
Qed.
(** What a look finds. *)
Lemma opts_x : forall l, opts OX l = OX. Proof. destruct l; reflexivity. Qed.
Lemma words_cons : forall l, exists w ws, words l = w :: ws.
Proof. intros [|c r]; cbn [words]; [eauto|]. destruct (c =? 0); [eauto|]. destruct (words r) eqn:E; eauto. Qed.
Definition ends_x (s : optst) : bool := match s with OX => true | _ => false end.
Definition minus_x (w : list Z) : bool := match w with 120 :: _ => true | _ => false end.
Lemma dash_x_cons : forall c w, dash_x (c :: w) = (c =? 45) && minus_x w.
Proof.
  intros c w. unfold dash_x. destruct (c =? 45) eqn:E; [apply Z.eqb_eq in E; subst c; reflexivity|]. apply Z.eqb_neq in E.
  destruct c as [|p|p]; try reflexivity. repeat (destruct p as [p|p|]; try reflexivity). exfalso. apply E. reflexivity.
Qed.
Lemma minus_x_cons : forall c w, minus_x (c :: w) = (c =? 120).
Proof.
  intros c w. unfold minus_x. destruct (c =? 120) eqn:E; [apply Z.eqb_eq in E; subst c; reflexivity|]. apply Z.eqb_neq in E.
  destruct c as [|p|p]; try reflexivity. repeat (destruct p as [p|p|]; try reflexivity). exfalso. apply E. reflexivity.
Qed.
Lemma opts_words : forall l, ends_x (opts OStart l) = existsb dash_x (words l) /\
  ends_x (opts OIgnore l) = existsb dash_x (tl (words l)) /\
  ends_x (opts OMinus l) = minus_x (hd [] (words l)) || existsb dash_x (tl (words l)).
Proof.
  induction l as [|c l (I1 & I2 & I3)]; [split; [|split]; reflexivity|]. cbn [opts words].
  destruct (c =? 0) eqn:E; [cbn [existsb tl hd dash_x minus_x orb]; auto|].
  destruct (words_cons l) as (w & ws & W). rewrite W in *. cbn [existsb tl hd] in *.
  rewrite dash_x_cons, minus_x_cons. split; [|split].
  - destruct (c =? 45); [exact I3|exact I2].
  - exact I2.
  - destruct (c =? 120); [rewrite opts_x; reflexivity|exact I2].
Qed.
Lemma look_controls : forall g m p, snd (look g m p) = controls p.
Proof.
  intros g m p. unfold look, controls. cbn [snd]. destruct p as [| |t [|]]; try reflexivity. cbn [andb].
  rewrite <- (proj1 (opts_words t)). reflexivity.
Qed.
Lemma words_join : forall l, Forall arg_ok l -> words (join_args l) = l ++ [[]].
Proof.
  induction l as [|a l IH]; intros F; [reflexivity|]. cbn [join_args flat_map]. fold (join_args l). rewrite <- app_assoc. cbn [app].
  rewrite <- (IH (Forall_inv_tail F)). assert (A := Forall_inv F). clear F IH. induction a as [|c a IH]; [reflexivity|]. cbn [app words].
  rewrite (proj2 (Z.eqb_neq c 0)) by (intros E; apply A; left; exact E). rewrite IH by (intros X; apply A; right; exact X). reflexivity.
Qed.
Lemma controls_join : forall l, Forall arg_ok l -> controls (Cmdline (join_args l) false) = negb (existsb dash_x l).
Proof. intros l F. cbn [controls]. rewrite words_join by exact F. rewrite existsb_app. cbn. rewrite orb_false_r. reflexivity. Qed.
Lemma next_control_frame : forall g m p m' o upd, next_control g m p = (m', o, upd) -> exists a b, o = [Look p] /\ upd = negb (Bool.eqb (k_cc (m_st m)) (controls p)) /\
  m' = (let m1 := set_running (set_cons m a b) (seen p) in if upd then set_nx m1 (with_cc (m_nx m) (controls p)) else m1) /\
  (a = true -> b = false) /\ (g_ctl g = true -> a = false /\ b = false).
Proof.
  intros g m p m' o upd H. unfold next_control in H. destruct (look g m p) as [m1 cc] eqn:L.
  assert (cc = controls p) by (rewrite <- (look_controls g m p), L; reflexivity). subst cc.
  apply look_frame in L. destruct L as (a & b & -> & L1 & L2). exists a, b. pj.
  destruct (negb (Bool.eqb (k_cc (m_st m)) (controls p))); injection H as <- <- <-; auto.
Qed.

Definition ask_sys (e : env) (m : cm) : cm := set_req (set_nx m (m_st m)) (request 33 (e_rand e) []).
Definition ask_count (e : env) (m : cm) : cm := set_req m (request 14 (e_rand e) []).
Definition ask_datum (e : env) (m : cm) (s : cst) : cm := set_req (set_nx m s) (request 15 (e_rand e) (put32 (m_idx m))).
Definition ask_stats (e : env) (m : cm) (s : cst) : cm := set_req (set_nx m s) (request 34 (e_rand e) (put32 (m_idx m))).
Definition step_next (g : conf) (m : cm) : option cm := do s <- chk_s64 (sec (m_next m) + g_interval g); Some (set_next m (mkTs s (nsec (m_next m)) (frac (m_next m)))).
Inductive nexts (e : env) (m : cm) (q : qst) : branch -> Prop :=
| NEnd : forall s, u32 (m_idx m + 1) = k_num (m_nx m) -> parse (m_nx m) 0 (e_score e) = Some s -> nexts e m q (set_q (set_nx (set_idx m (m_idx m + 1)) s) SleepConn, [], true, false)
| NMore : forall s r, u32 (m_idx m + 1) <> k_num (m_nx m) -> put_peer (m_nx m) (m_idx m + 1) blank_peer = Some s -> issued e (ask_datum e (set_idx m (m_idx m + 1)) s) r -> nexts e m q (onward r q [] false).
Lemma next_cases : forall e m q b, next_source e m q = Some b -> nexts e m q b.
Proof.
  intros e m q b H. unfold next_source, finish_round, issue_datum in H. pj. di H.
  - ib H. injection H as <-. apply NEnd; [apply Z.eqb_eq; exact C|exact B].
  - ib H. ib B. injection H as <-. eapply NMore; [apply Z.eqb_neq; exact C|exact B0|]. apply issue_cases in B. exact B.
Qed.
Inductive sw (g : conf) (m : cm) (ev : event) (e : env) (k : nat) : branch -> Prop :=
| SwStay : sw g m ev e k (m, [], false, false)
| SwGiveUp : busy (m_q m) = true -> sw g m ev e k (set_q m SleepConn, [], false, false)
| SwOpen : forall r, m_q m = Conn -> m_open m = false -> e_connect e = 0 -> issued e (ask_sys e (set_open m true)) r -> sw g m ev e k (onward r SysInfo [Connect 0] false)
| SwWait : m_q m = Conn -> m_open m = false -> e_connect e = EINPROGRESS -> sw g m ev e k (set_q m ConnWait, [Connect EINPROGRESS], false, false)
| SwRefused : forall s, m_q m = Conn -> m_open m = false -> e_connect e <> 0 -> e_connect e <> EINPROGRESS -> parse (m_nx m) (e_connect e) (e_score e) = Some s ->
    sw g m ev e k (set_q (set_nx m s) SleepDisc, [Connect (e_connect e)], false, false)
| SwConnected : forall r, m_q m = ConnWait -> ev = Traffic -> issued e (ask_sys e m) r -> sw g m ev e k (onward r SysInfo [] false)
| SwSys : forall m1 o1 upd r, m_q m = SysInfo -> ev = Traffic -> next_control g m (e_proc e k) = (m1, o1, upd) -> issued e (ask_count e m1) r -> sw g m ev e k (onward r Count o1 upd)
| SwNone : m_q m = Count -> ev = Traffic -> k_num (m_nx (handle_count m)) <= 0 -> sw g m ev e k (set_q (handle_count m) SleepConn, [], false, false)
| SwCount : forall s r, m_q m = Count -> ev = Traffic -> 0 < k_num (m_nx (handle_count m)) -> put_peer (m_nx (handle_count m)) 0 blank_peer = Some s ->
    issued e (ask_datum e (set_idx (handle_count m) 0) s) r -> sw g m ev e k (onward r Datum [] false)
| SwDatum : forall m1 s r, m_q m = Datum -> ev = Traffic -> handle_datum m = Some (m1, true) -> put_peer (m_nx m1) (m_idx m1) zero_peer = Some s ->
    issued e (ask_stats e m1 s) r -> sw g m ev e k (onward r Stats [] false)
| SwNoDatum : forall b, m_q m = Datum -> ev = Traffic -> handle_datum m = Some (m, false) -> nexts e m Datum b -> sw g m ev e k b
| SwStats : forall m1 r, m_q m = Stats -> ev = Traffic -> handle_stats e m = Some (m1, true) -> issued e m1 r -> sw g m ev e k (onward r Ntp [] false)
| SwNoStats : forall m1 b, m_q m = Stats -> ev = Traffic -> handle_stats e m = Some (m1, false) -> nexts e m1 Stats b -> sw g m ev e k b
| SwNtp : forall m1 b, m_q m = Ntp -> ev = Traffic -> handle_ntp m = Some m1 -> nexts e m1 Datum b -> sw g m ev e k b
| SwAway : forall rest m1 o1 upd m2 m3, m_q m = SleepDisc -> subtract (m_next m) (e_now e) = Some rest -> (sec rest < 0 \/ ev = ERun) ->
    next_control g m (e_proc e k) = (m1, o1, upd) ->
    (seen (e_proc e k) = true /\ m2 = set_q m1 Conn \/ seen (e_proc e k) = false /\ exists s, parse (m_nx m1) ENOPROTOOPT (e_score e) = Some s /\ m2 = set_nx m1 s) ->
    step_next g m2 = Some m3 -> sw g m ev e k (m3, o1, upd, false)
| SwPoll : forall rest m1 o1 m2, m_q m = SleepConn -> subtract (m_next m) (e_now e) = Some rest -> sec rest < 0 -> issued e (ask_sys e m) (m1, o1, true) ->
    step_next g (set_q m1 SysInfo) = Some m2 -> sw g m ev e k (m2, o1, false, false)
| SwNoPoll : forall rest m1 o1, m_q m = SleepConn -> subtract (m_next m) (e_now e) = Some rest -> sec rest < 0 -> issued e (ask_sys e m) (m1, o1, false) ->
    sw g m ev e k (m1, o1, false, true).
Lemma handle_datum_false : forall m m1, handle_datum m = Some (m1, false) -> m1 = m.
Proof. intros m m1 H. unfold handle_datum in H. di H; [injection H as <-; reflexivity|]. ib H. ib H. discriminate. Qed.
Lemma switch_cases : forall g m ev e k b, switch g m ev e k = Some b -> sw g m ev e k b.
Proof.
  intros g m ev e k b H. unfold switch, stay, give_up in H. destruct (m_q m) eqn:Q.
  - (* SleepDisc *)
    assert (H' : (do rest <- subtract (m_next m) (e_now e);
      if (sec rest <? 0) || (match ev with ERun => true | _ => false end) then
        let '(m1, o1, upd) := next_control g m (e_proc e k) in
        do m2 <- (if m_running m1 then Some (set_q m1 Conn) else do s <- parse (m_nx m1) ENOPROTOOPT (e_score e); Some (set_nx m1 s));
        do s <- chk_s64 (sec (m_next m2) + g_interval g);
        Some (set_next m2 (mkTs s (nsec (m_next m2)) (frac (m_next m2))), o1, upd, false)
      else Some (m, [], false, false)) = Some b) by (destruct ev; exact H). clear H. rename H' into H.
    ib H. di H; [|injection H as <-; constructor]. destruct (next_control g m (e_proc e k)) as [[m1 o1] upd] eqn:N.
    ib H. rename c into m2. ib H. injection H as <-.
    assert (R : m_running m1 = seen (e_proc e k)).
    { apply next_control_frame in N. destruct N as (a & b0 & _ & _ & -> & _). pj. destruct upd; reflexivity. }
    rewrite R in B0.
    eapply SwAway with (m2 := m2); [exact Q|exact B| |exact N| |].
    + apply orb_prop in C. destruct C as [C|C]; [left; lia|right; destruct ev; congruence].
    + destruct (seen (e_proc e k)); [left; split; [reflexivity|congruence]|right]. split; [reflexivity|]. ib B0. exists c. split; [reflexivity|congruence].
    + unfold step_next. rewrite B1. reflexivity.
  - (* SleepConn *)
    assert (H' : (do rest <- subtract (m_next m) (e_now e);
      if sec rest <? 0 then
        do r <- issue_sys e m;
        let '(m1, o1, ok) := r in
        if ok then
          do s <- chk_s64 (sec (m_next m1) + g_interval g);
          Some (set_next (set_q m1 SysInfo) (mkTs s (nsec (m_next m1)) (frac (m_next m1))), o1, false, false)
        else Some (m1, o1, false, true)
      else Some (m, [], false, false)) = Some b) by (destruct ev; exact H). clear H. rename H' into H.
    ib H. di H; [|injection H as <-; constructor]. apply Z.ltb_lt in C. ib H. destruct p as [[m1 o1] ok]. apply issue_cases in B0.
    destruct ok.
    + ib H. injection H as <-. eapply SwPoll; [exact Q|exact B|exact C|exact B0|]. unfold step_next. pj. rewrite B1. reflexivity.
    + injection H as <-. eapply SwNoPoll; [exact Q|exact B|exact C|exact B0].
  - (* Conn *)
    assert (H' : (if m_open m then None else
      if e_connect e =? 0 then do r <- issue_sys e (set_open m true); Some (onward r SysInfo [Connect (e_connect e)] false)
      else if e_connect e =? EINPROGRESS then Some (set_q m ConnWait, [Connect (e_connect e)], false, false)
      else do s <- parse (m_nx m) (e_connect e) (e_score e); Some (set_q (set_nx m s) SleepDisc, [Connect (e_connect e)], false, false)) = Some b) by (destruct ev; exact H).
    clear H. rename H' into H. destruct (m_open m) eqn:O; [discriminate|]. di H; [|di H].
    + apply Z.eqb_eq in C. ib H. injection H as <-. rewrite C. apply SwOpen; auto. apply issue_cases in B. exact B.
    + apply Z.eqb_eq in C0. injection H as <-. rewrite C0. apply SwWait; auto.
    + apply Z.eqb_neq in C. apply Z.eqb_neq in C0. ib H. injection H as <-. apply SwRefused; auto.
  - destruct ev; try (injection H as <-; constructor; fail); [|injection H as <-; apply SwGiveUp; rewrite Q; reflexivity].
    ib H. injection H as <-. apply SwConnected; auto. apply issue_cases in B. exact B.
  - destruct ev; try (injection H as <-; constructor; fail); [|injection H as <-; apply SwGiveUp; rewrite Q; reflexivity].
    destruct (next_control g m (e_proc e k)) as [[m1 o1] upd] eqn:N. ib H. injection H as <-. eapply SwSys; [exact Q|reflexivity|exact N|]. apply issue_cases in B. exact B.
  - destruct ev; try (injection H as <-; constructor; fail); [|injection H as <-; apply SwGiveUp; rewrite Q; reflexivity].
    cbv zeta in H. di H.
    + unfold issue_datum in H. ib H. ib B. injection H as <-. eapply SwCount; [exact Q|reflexivity|lia|exact B0|]. apply issue_cases in B. exact B.
    + injection H as <-. apply SwNone; auto. lia.
  - destruct ev; try (injection H as <-; constructor; fail); [|injection H as <-; apply SwGiveUp; rewrite Q; reflexivity].
    ib H. destruct p as [m1 ok]. destruct ok.
    + unfold issue_stats in H. ib H. ib B0. injection H as <-. eapply SwDatum; [exact Q|reflexivity|exact B|exact B1|]. apply issue_cases in B0. exact B0.
    + pose proof (handle_datum_false _ _ B). subst m1. eapply SwNoDatum; auto. apply next_cases. exact H.
  - destruct ev; try (injection H as <-; constructor; fail); [|injection H as <-; apply SwGiveUp; rewrite Q; reflexivity].
    ib H. destruct p as [m1 ok]. destruct ok.
    + ib H. injection H as <-. eapply SwStats; [exact Q|reflexivity|exact B|]. apply issue_cases in B0. exact B0.
    + eapply SwNoStats; [exact Q|reflexivity|exact B|]. apply next_cases. exact H.
  - destruct ev; try (injection H as <-; constructor; fail); [|injection H as <-; apply SwGiveUp; rewrite Q; reflexivity].
    ib H. eapply SwNtp; [exact Q|reflexivity|exact B|]. apply next_cases. exact H.
Qed.
