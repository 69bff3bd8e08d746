(** Proofs for the chrony module, part 6: whole lives, the cadence, the blocking of the clock. *)
Require Import ZArith QArith List Bool Lia.
Require Import Verif.Base Verif.TimeSpec Verif.TimeModel Verif.TimeProof Verif.QLib Verif.ListLib Verif.StatsModel Verif.CrnSpec Verif.CrnModel Verif.CrnProof Verif.CrnProof2 Verif.CrnProof3 Verif.CrnProof4 Verif.CrnProof5.
Import ListNotations.
Open Scope Z_scope.

Lemma live_split : forall g p pre e l m o lp lr ll, live g p pre e l = Some (inr (m, o, lp, lr, ll)) ->
  exists m0 m1 m2, startup g p = Some (inr (m0, o)) /\ run g m0 pre = Some (m1, lp) /\ on_run g m1 e = Some (m2, lr) /\ run g m2 l = Some (m, ll).
Proof.
  intros g p pre e l m o lp lr ll H. unfold live in H. ib H. destruct s as [x|[m0 o0]]; [discriminate|]. ib H. destruct p0 as [m1 l1]. ib H. destruct p0 as [m2 l2]. ib H. destruct p0 as [m3 l3].
  cbn [fst snd] in *. injection H as <- <- <- <- <-. eauto 10.
Qed.
Lemma live_ok : forall g p pre e l m o lp lr ll, live g p pre e l = Some (inr (m, o, lp, lr, ll)) -> Forall message pre ->
  let all := o ++ flat lp ++ lr ++ flat ll in
  inv g m /\ conn_run false all = Some (m_open m) /\ block_run false all = Some (m_blocked m) /\ told_run (first_state p) all = Some (k_state (m_st m)) /\
  Forall unsynced all /\ Forall (free g) all /\ (g_ctl g = false -> existsb is_did all = false) /\ (g_ctl g = true -> cmd_run false None all = Some (m_saved m)) /\
  Forall (sent_ok (e_rand e)) lr /\ Forall (fun x => Forall (sent_ok (op_rand (fst x))) (snd x)) ll /\ existsb (fun x => match x with Sent _ => true | _ => false end) (o ++ flat lp) = false.
Proof.
  intros g p pre e l m o lp lr ll H F all. apply live_split in H. destruct H as (m0 & m1 & m2 & S & R1 & RR & R2).
  apply startup_ok in S. destruct S as (S1 & S2 & S3 & S4 & SL & S5 & S6 & S7 & S8 & _). pose proof (run_idle g pre m0 m1 lp F S3 S2 R1) as (X1 & X2 & X3 & X4 & X5 & _).
  pose proof R1 as R1'. apply (run_ok g) in R1; [|exact S1]. destruct R1 as (A1 & A2). apply (on_run_ok g) in RR; [|apply A1|exact X1]. destruct RR as (B1 & B2 & _). apply (run_ok g) in R2; [|apply B1]. destruct R2 as (C1 & C2).
  pose proof (ev_ok_app _ _ _ _ _ _ A1 (ev_ok_app _ _ _ _ _ _ B1 C1)) as (Y1 & Y2 & Y3 & Y4 & Y5 & Y6 & Y7 & Y8).
  assert (O : (forall b, conn_run b o = Some b) /\ block_run false o = Some (controls p) /\ (forall s, told_run s o = Some s) /\ Forall unsynced o /\ Forall (free g) o /\ existsb is_did o = false /\ existsb (fun x => match x with Sent _ => true | _ => false end) o = false).
  { subst o. destruct (controls p); repeat split; repeat constructor. }
  destruct O as (O1 & O2 & O3 & O4 & O5 & O6 & O7). unfold all.
  split; [exact Y1|]. split; [rewrite conn_run_app, O1; cbn [bind]; rewrite <- S2; exact Y2|]. split; [rewrite block_run_app, O2; cbn [bind]; rewrite <- S7; exact Y3|].
  split; [rewrite told_run_app, O3; cbn [bind]; rewrite <- S5; exact Y4|]. split; [apply Forall_app; auto|]. split; [apply Forall_app; auto|].
  split; [intros G; rewrite existsb_app, O6, Y7 by exact G; reflexivity|]. split; [intros G; eapply cmd_run_join; [apply cmd_run_none; exact O6|]; rewrite <- S4; apply Y8; exact G|].
  split; [exact B2|]. split; [exact C2|]. rewrite existsb_app, O7. cbn [orb].
  clear - F S2 S3 R1'. revert m0 m1 lp S2 S3 R1' F. induction pre as [|x pre IH]; intros m0 m1 lp S2 S3 R F; cbn [run] in R; [injection R as <- <-; reflexivity|].
  ib R. destruct p as [ma oa]. ib R. destruct p as [mb lb]. cbn [fst snd] in *. injection R as <- <-. unfold flat. cbn [map concat snd]. rewrite existsb_app. fold (flat lb).
  pose proof (run_idle g [x] m0 ma [(x, oa)]) as RI. cbn [run] in RI. rewrite B in RI. cbn [bind fst snd] in RI. destruct (RI (Forall_cons _ (Forall_inv F) (Forall_nil _)) S3 S2 eq_refl) as (E1 & E2 & _).
  rewrite (IH _ _ _ E1 E2 B0 (Forall_inv_tail F)), orb_false_r.
  assert (M := Forall_inv F). destruct x as [e|r e|mask flags e| | | | | ]; try contradiction; cbn [step] in B.
  - unfold on_control in B. rewrite S3 in B. cbn [andb] in B. injection B as <- <-. reflexivity.
  - injection B as <- <-. reflexivity.
  - ib B. ib B. injection B as <- <-. unfold rt_stats in B1. unfold clustering in B2. rewrite existsb_app.
    di B1; [ib B1; injection B1 as <-|injection B1 as <-]; (di B2; [ib B2; injection B2 as <-|injection B2 as <-]); reflexivity.
  - ib B. injection B as <- <-. unfold on_save in B1. di B1; [discriminate|]. ib B1. injection B1 as <-. reflexivity.
  - ib B. injection B as <- <-. unfold on_topology in B1. di B1; [discriminate|]. ib B1. injection B1 as <-. reflexivity.
  - injection B as <- <-. reflexivity.
Qed.

(** ** What a look decides *)
Lemma saw_end_app : forall a b w, saw_end w (a ++ b) = saw_end (saw_end w a) b.
Proof. induction a as [|x a IH]; intros b w; [reflexivity|]. destruct x; cbn [app saw_end]; apply IH. Qed.
Lemma saw_end_none : forall l w, existsb is_look l = false -> saw_end w l = w.
Proof. induction l as [|x l IH]; intros w H; [reflexivity|]. cbn in H. apply orb_false_elim in H. destruct H as [A B]. destruct x; try discriminate A; cbn [saw_end]; auto. Qed.
Lemma issued_nolook : forall e m m1 o ok, issued e m (m1, o, ok) -> existsb is_look o = false /\ m_nx m1 = m_nx m /\ m_next m1 = m_next m.
Proof. intros e m m1 o ok H. inversion H; subst; auto. Qed.
Lemma onward_look : forall e m0 r q o upd m1 o1 upd1 disc, issued e m0 r -> onward r q o upd = (m1, o1, upd1, disc) -> m_nx m1 = m_nx m0 /\ saw_end None o1 = saw_end None o /\ m_next m1 = m_next m0 /\ upd1 = upd.
Proof.
  intros e m0 r q o upd m1 o1 upd1 disc R H. destruct r as [[ma oa] ok]. apply issued_nolook in R. destruct R as (R1 & R2 & R3). unfold onward in H.
  destruct ok; injection H as <- <- <- <-; pj; (split; [exact R2|]); (split; [rewrite saw_end_app; apply saw_end_none; exact R1|]); auto.
Qed.
Lemma nexts_look : forall e m q m1 o upd disc, dull (m_nx m) -> nexts e m q (m1, o, upd, disc) -> k_cc (m_nx m1) = k_cc (m_nx m) /\ saw_end None o = None /\ m_next m1 = m_next m.
Proof.
  intros e m q m1 o upd disc D H. inversion H as [s E P X|s r E P R X]; subst; clear H.
  - rewrite parse_dull in P by exact D. cbn [Z.eqb negb] in P. di P; [discriminate|]. injection P as <-. pj. auto.
  - apply onward_look with (e := e) (m0 := ask_datum e (set_idx m (m_idx m + 1)) s) in X; [|exact R]. destruct X as (-> & -> & -> & _). unfold ask_datum. pj. apply put_peer_arr in P. destruct P as [-> _]. auto.
Qed.
Lemma handle_cc : forall g e m, base g m -> (m_next (handle_count m) = m_next m) /\ (forall m1 ok, handle_stats e m = Some (m1, ok) -> m_next m1 = m_next m) /\ (forall m1, handle_ntp m = Some m1 -> m_next m1 = m_next m).
Proof.
  intros g e m D. split; [|split].
  - destruct (handle_count_frame m) as [->|[n ->]]; reflexivity.
  - intros m1 ok H. apply handle_stats_frame in H. destruct H as [[-> _]|(p & p' & s & _ & _ & _ & [[_ ->]|[[_ ->]|[_ ->]]])]; reflexivity.
  - intros m1 H. apply handle_ntp_frame in H. destruct H as [->|(p & p' & s & _ & _ & _ & ->)]; reflexivity.
Qed.
Lemma switch_look : forall g m ev e k m1 o upd disc, base g m -> settled m -> switch g m ev e k = Some (m1, o, upd, disc) -> k_cc (m_nx m1) = seen_cc (k_cc (m_st m)) o.
Proof.
  intros g m ev e k m1 o upd disc D [_ ST] H. pose proof D as (D1 & D2 & _). apply switch_cases in H. unfold seen_cc. rewrite <- ST.
  inversion H as [X|E X|r Q O E R X|Q O E X|s Q O E1 E2 P X|r Q E R X|ma o1 upd1 r Q E N R X|Q E L X|s r Q E L P R X|ma s r Q E HD P R X|b Q E HD N X|ma r Q E HD R X|ma b Q E HD N X|ma b Q E HD N X|rest ma o1 upd1 m2 m3 Q S T N A SN X|rest ma o1 m2 Q S T R SN X|rest ma o1 Q S T R X]; subst; clear H; pj; try reflexivity.
  - eapply onward_look in X; [|exact R]. destruct X as (-> & -> & _). unfold ask_sys. pj. cbn. congruence.
  - rewrite parse_dull in P by exact D2. replace (e_connect e =? 0) with false in P by (symmetry; apply Z.eqb_neq; exact E1). cbn [negb] in P. injection P as <-. reflexivity.
  - eapply onward_look in X; [|exact R]. destruct X as (-> & -> & _). unfold ask_sys. pj. cbn. congruence.
  - eapply onward_look in X; [|exact R]. destruct X as (-> & -> & _). apply (next_control_base g) in N; [|exact D]. destruct N as (_ & _ & _ & _ & _ & _ & -> & AG & U & CC & _). unfold ask_count. pj. cbn.
    destruct upd1; [apply CC; reflexivity|]. rewrite AG by auto. symmetry in U. apply negb_false_iff, eqb_prop in U. congruence.
  - destruct (handle_count_base g m D) as (_ & _ & _ & K4). cbn. congruence.
  - destruct (handle_count_base g m D) as (_ & _ & _ & K4). eapply onward_look in X; [|exact R]. destruct X as (-> & -> & _). unfold ask_datum. pj. cbn. apply put_peer_arr in P. destruct P as [-> _]. pj. congruence.
  - apply handle_datum_frame in HD. destruct HD as (p & s0 & a & md & P0 & -> & ->). eapply onward_look in X; [|exact R]. destruct X as (-> & -> & _). unfold ask_stats. pj. cbn. apply put_peer_arr in P. destruct P as [-> _]. pj. apply put_peer_arr in P0. destruct P0 as [-> _]. reflexivity.
  - apply nexts_look in N; [|exact D2]. destruct N as (-> & -> & _). reflexivity.
  - apply (handle_stats_base g) in HD; [|exact D]. destruct HD as (K1 & K2 & K3 & K4 & K5). eapply onward_look in X; [|exact R]. destruct X as (-> & -> & _). cbn. exact K4.
  - apply (handle_stats_base g) in HD; [|exact D]. destruct HD as (K1 & K2 & K3 & K4 & K5). apply nexts_look in N; [|apply K1]. destruct N as (-> & -> & _). exact K4.
  - apply (handle_ntp_base g) in HD; [|exact D]. destruct HD as (K1 & K2 & K3 & K4). apply nexts_look in N; [|apply K1]. destruct N as (-> & -> & _). exact K4.
  - apply (next_control_base g) in N; [|exact D]. destruct N as (N1 & _ & _ & _ & _ & _ & -> & AG & U & CC & _). apply step_next_frame in SN. destruct SN as (t & -> & _). pj.
    assert (Y : k_cc (m_nx ma) = controls (e_proc e k)) by (destruct upd; [apply CC; reflexivity|]; rewrite AG by auto; symmetry in U; apply negb_false_iff, eqb_prop in U; congruence).
    cbn. destruct A as [[_ ->]|(_ & s & P & ->)]; pj; [exact Y|]. rewrite parse_dull in P by apply N1. cbn in P. injection P as <-. exact Y.
  - apply issued_nolook in R. destruct R as (R1 & R2 & R3). apply step_next_frame in SN. destruct SN as (t & -> & _). pj. rewrite R2, saw_end_none by exact R1. unfold ask_sys. pj. congruence.
  - apply issued_nolook in R. destruct R as (R1 & R2 & R3). rewrite R2, saw_end_none by exact R1. unfold ask_sys. pj. congruence.
Qed.
Lemma machine_look : forall g m ev e k m1 o upd, base g m -> unlinked m -> settled m -> machine g m ev e k = Some (m1, o, upd) -> k_cc (m_nx m1) = seen_cc (k_cc (m_st m)) o.
Proof.
  intros g m ev e k m1 o upd D UL ST H. unfold machine in H. ib H. destruct p as [[mm oo] uu]. injection H as <- <- <-.
  assert (DR : forall a b ob, drop a = (b, ob) -> m_nx b = m_nx a /\ existsb is_look ob = false) by (intros a b ob X; unfold drop, close in X; destruct (m_open a); injection X as <- <-; auto).
  assert (SW : forall ev', (do b <- switch g m ev' e k; let '(m1, o1, upd, disc) := b in if (disc : bool) then let (m2, o2) := drop m1 in Some (m2, o1 ++ o2, true) else Some (m1, o1, upd)) = Some (mm, oo, uu) -> k_cc (m_nx mm) = seen_cc (k_cc (m_st m)) oo).
  { intros ev' A. ib A. destruct b as [[[a oa] ua] disc]. apply (switch_look g m) in B0; [|exact D|exact ST]. destruct disc; [|injection A as <- <- <-; exact B0].
    destruct (drop a) as [b ob] eqn:E. injection A as <- <- <-. apply DR in E. destruct E as [-> E]. unfold seen_cc in *. rewrite saw_end_app, saw_end_none with (l := ob) by exact E. exact B0. }
  destruct ev; cbn beta iota in B; try (apply (SW _ B); fail).
  - injection B as <- <- <-. apply ST.
  - destruct (drop m) as [a oa] eqn:A. injection B as <- <- <-. apply DR in A. destruct A as [-> A]. unfold seen_cc. rewrite saw_end_none by exact A. apply ST.
Qed.
(** The looks of the timer and of answers. *)
Lemma advance_look : forall g m ev e k m1 o, inv g m -> g_ctl g = false -> advance g m ev e k = Some (m1, o) -> k_cc (m_st m1) = seen_cc (k_cc (m_st m)) o.
Proof.
  intros g m ev e k m1 o (I1 & I2 & I3 & I4 & I5) G H. unfold advance in H. ib H. destruct p as [[ma oa] upd]. pose proof (machine_look g m ev e k ma oa upd I1 I2 I3 B) as L.
  apply (machine_ok g) in B; [|exact I1|exact I2|exact I3]. destruct B as (A1 & A2 & A3 & A4 & A5 & A6). pose proof A3 as (K1 & K2 & K3 & K4 & K5 & K6 & K7 & K8 & K9).
  assert (FS : fresh_save ma) by (unfold fresh_save in *; rewrite K7, K9; exact I4).
  destruct upd.
  - ib H. destruct p as [mb ob]. cbn [fst snd] in H. injection H as <- <-. apply (update_ok g) in B; [|exact A1|exact A2|exact FS].
    destruct B as (_ & _ & _ & _ & _ & _ & _ & _ & _ & _ & _ & _ & _ & _ & _ & _ & _ & UJ & _). destruct (UJ G) as (_ & J1 & J2 & _). unfold seen_cc in *. rewrite saw_end_app, (saw_end_none ob) by exact J1. congruence.
  - injection H as <- <-. destruct (A6 eq_refl) as [_ S]. congruence.
Qed.
Lemma step_look : forall g m o m1 l, inv g m -> g_ctl g = false -> step g m o = Some (m1, l) -> k_cc (m_st m1) = polled (k_cc (m_st m)) (o, l).
Proof.
  intros g m o m1 l IN G H. unfold polled. cbn [fst snd]. destruct o as [e|r e|mask flags e| | | | | ]; cbn [step] in H.
  - apply (advance_look g) in H; auto.
  - unfold on_io in H. destruct (m_open m); cbn [negb] in H; [|injection H as <- <-; reflexivity]. destruct r as [x| | ].
    + cbv zeta in H. apply (advance_look g) in H; [exact H| |exact G]. destruct IN as ((D1 & D2 & D3 & D4) & I2). split; [|exact I2]. unfold base. pj. split; [exact D1|]. split; [exact D2|]. split; [|exact D4].
      rewrite app_length, skipn_length, D3. rewrite firstn_length. lia.
    + apply (advance_look g) in H; auto.
    + apply (advance_look g) in H; auto.
  - unfold on_control in H. cbv zeta in H. di H; [|injection H as <- <-; reflexivity].
    destruct (look g m (e_proc e 0)) as [ma cc] eqn:L. apply (look_ev g) in L; [|exact IN]. destruct L as (_ & (_ & _ & _ & _ & S & _) & _).
    rewrite G in H. cbn [negb] in H. di H; injection H as <- <-; pj; rewrite S; reflexivity.
  - injection H as <- <-. reflexivity.
  - ib H. ib H. injection H as <- <-. reflexivity.
  - ib H. injection H as <- <-. reflexivity.
  - ib H. injection H as <- <-. reflexivity.
  - injection H as <- <-. reflexivity.
Qed.
Lemma run_look : forall g l m m1 log, inv g m -> g_ctl g = false -> run g m l = Some (m1, log) -> k_cc (m_st m1) = fold_left polled log (k_cc (m_st m)).
Proof.
  intros g. induction l as [|o l IH]; intros m m1 log IN G H; cbn [run] in H; [injection H as <- <-; reflexivity|].
  ib H. destruct p as [ma oa]. cbn [fst snd] in H. ib H. destruct p as [mb lb]. cbn [fst snd] in H. injection H as <- <-. pose proof B as S. apply (step_ok g) in B; [|exact IN]. cbn [fold_left].
  rewrite <- (step_look g m o ma oa IN G S). apply IH; [apply B|exact G|exact B0].
Qed.
Lemma run_switch : forall g m e k m1 o upd disc, base g m -> m_q m = SleepDisc -> switch g m ERun e k = Some (m1, o, upd, disc) ->
  o = [Look (e_proc e k)] /\ disc = false /\ exists s, chk_s64 (sec (m_next m) + g_interval g) = Some s /\ m_next m1 = mkTs s (nsec (m_next m)) (frac (m_next m)).
Proof.
  intros g m e k m1 o upd disc D Q H. unfold switch in H. rewrite Q in H. ib H. rewrite orb_true_r in H. destruct (next_control g m (e_proc e k)) as [[ma oa] ua] eqn:N.
  assert (E0 : oa = [Look (e_proc e k)] /\ m_next ma = m_next m) by (unfold next_control, look in N; cbv zeta in N; repeat match type of N with context [if ?c then _ else _] => destruct c end; injection N as <- <- <-; split; reflexivity). destruct E0 as [-> E0].
  ib H. ib H. injection H as <- <- <- <-. split; [reflexivity|]. split; [reflexivity|]. exists z. pj.
  assert (E : m_next c = m_next m) by (rewrite <- E0; di B0; [injection B0 as <-|ib B0; injection B0 as <-]; reflexivity). rewrite E in *. auto.
Qed.
Lemma live_blocked : forall g p pre e l m o lp lr ll, live g p pre e l = Some (inr (m, o, lp, lr, ll)) -> Forall message pre -> g_ctl g = false ->
  block_run false (o ++ flat lp ++ lr ++ flat ll) = Some (fold_left polled ll (controls (e_proc e 3))).
Proof.
  intros g p pre e l m o lp lr ll H F G. destruct (live_ok g p pre e l m o lp lr ll H F) as (IN & _ & B & _). rewrite B. f_equal. destruct IN as (_ & _ & _ & _ & IB). rewrite IB by exact G.
  apply live_split in H. destruct H as (m0 & m1 & m2 & S & R1 & RR & R2). apply startup_ok in S. destruct S as (S1 & S2 & S3 & _). pose proof (run_idle g pre m0 m1 lp F S3 S2 R1) as (X1 & _).
  apply (run_ok g) in R1; [|exact S1]. destruct R1 as (A1 & _). apply (on_run_ok g) in RR; [|apply A1|exact X1]. destruct RR as (B1 & _ & _ & m4 & o4 & o5 & E & ADV & I4 & Q4 & N4 & _ & S4 & _).
  rewrite (run_look g l m2 m ll (proj1 B1) G R2). f_equal. pose proof ADV as ADV'. apply (advance_look g) in ADV; [|exact I4|exact G]. rewrite ADV.
  unfold advance in ADV'. ib ADV'. destruct p0 as [[ma oa] upd]. pose proof I4 as (J1 & J2 & J3 & J4 & J5). pose proof (machine_ok g _ _ _ _ _ _ _ J1 J2 J3 B0) as (K1 & K2 & (_ & _ & _ & _ & _ & _ & K7 & _ & K9) & _).
  assert (FS : fresh_save ma) by (unfold fresh_save in *; rewrite K7, K9; exact J4). unfold machine in B0. ib B0. destruct p0 as [[mb ob] ub]. cbn beta iota in B2. ib B2. destruct b as [[[mc oc] uc] disc].
  apply run_switch in B3; [|apply I4|exact Q4]. destruct B3 as (-> & -> & _). injection B2 as <- <- <-. injection B0 as <- <- <-.
  assert (OO : exists r, o5 = Look (e_proc e 3) :: r /\ existsb is_look r = false).
  { di ADV'; [|injection ADV' as <- <-; exists []; auto]. ib ADV'. destruct p0 as [mx ox]. cbn [fst snd] in ADV'. injection ADV' as <- <-. exists ox. split; [reflexivity|].
    apply (update_ok g) in B0; [|exact K1|exact K2|exact FS]. destruct B0 as (_ & _ & _ & _ & _ & _ & _ & _ & _ & _ & _ & _ & _ & _ & _ & _ & _ & UJ & _). apply (UJ G). }
  destruct OO as (r & -> & L). unfold seen_cc. cbn [saw_end]. rewrite saw_end_none by exact L. reflexivity.
Qed.

(** ** The cadence *)
Definition due (g : conf) (m : cm) (now : ts) (m1 : cm) : Prop :=
  exists rest s, subtract (m_next m) now = Some rest /\ sec rest < 0 /\ chk_s64 (sec (m_next m) + g_interval g) = Some s /\ m_next m1 = mkTs s (nsec (m_next m)) (frac (m_next m)).
Definition begins (ev : event) (l : list out) : bool :=
  match ev, l with
  | (ETick | ReplyTimeout), Look _ :: _ => true
  | (ETick | ReplyTimeout | Traffic), Sent x :: _ => tracking x
  | _, _ => false
  end.
Lemma tracking_req : forall cmd r a, tracking (request cmd r a) = ((Z.land (Z.shiftr cmd 8) 255 =? 0) && (Z.land cmd 255 =? 33)).
Proof. reflexivity. Qed.
Lemma issued_out : forall e m m1 o ok, issued e m (m1, o, ok) -> m_next m1 = m_next m /\ (o = [] /\ ok = false \/ o = [Close] /\ ok = false \/ o = [Sent (m_req m)] /\ ok = true).
Proof. intros e m m1 o ok H. inversion H; subst; auto 6. Qed.
Lemma onward_next : forall e m0 r q o upd m1 o1 upd1 disc ev, issued e m0 r -> tracking (m_req m0) = false \/ o <> [] -> onward r q o upd = (m1, o1, upd1, disc) -> m_next m1 = m_next m0 /\ begins ev o1 = begins ev o.
Proof.
  intros e m0 r q o upd m1 o1 upd1 disc ev R T H. destruct r as [[ma oa] ok]. apply issued_out in R. destruct R as [R1 R2]. unfold onward in H.
  destruct ok; injection H as <- <- <- <-; pj; (split; [exact R1|]); (destruct o as [|x o]; [|destruct ev, x; reflexivity]); destruct T as [T|T]; try congruence; cbn [app];
    destruct R2 as [[-> _]|[[-> _]|[-> _]]]; destruct ev; try reflexivity; exact T.
Qed.
Lemma nexts_next : forall e m q m1 o upd disc ev, nexts e m q (m1, o, upd, disc) -> m_next m1 = m_next m /\ begins ev o = false.
Proof.
  intros e m q m1 o upd disc ev H. inversion H as [s E P X|s r E P R X]; subst; clear H.
  - pj. split; [reflexivity|]. destruct ev; reflexivity.
  - eapply (onward_next e) with (ev := ev) in X; [|exact R|left; reflexivity]. destruct X as (-> & ->). split; [reflexivity|destruct ev; reflexivity].
Qed.
Lemma switch_next : forall g m ev e k m1 o upd disc, base g m -> ev = ETick \/ ev = ReplyTimeout \/ ev = Traffic -> (ev = Traffic -> m_open m = true) -> unlinked m -> switch g m ev e k = Some (m1, o, upd, disc) ->
  (begins ev o = true -> disc = false /\ due g m (e_now e) m1) /\ (begins ev o = false -> m_next m1 = m_next m).
Proof.
  intros g m ev e k m1 o upd disc D EV OP UL H. apply switch_cases in H.
  assert (NB : forall ma l, m_next ma = m_next m -> begins ev l = false -> (begins ev l = true -> disc = false /\ due g m (e_now e) ma) /\ (begins ev l = false -> m_next ma = m_next m)) by (intros ma l A B; rewrite B; split; [discriminate|auto]).
  inversion H as [X|E X|r Q O E R X|Q O E X|s Q O E1 E2 P X|r Q E R X|ma o1 upd1 r Q E N R X|Q E L X|s r Q E L P R X|ma s r Q E HD P R X|b Q E HD N X|ma r Q E HD R X|ma b Q E HD N X|ma b Q E HD N X|rest ma o1 upd1 m2 m3 Q S T N A SN X|rest ma o1 m2 Q S T R SN X|rest ma o1 Q S T R X]; subst; clear H.
  - apply NB; [reflexivity|destruct ev; reflexivity].
  - apply NB; [reflexivity|destruct ev; reflexivity].
  - eapply (onward_next e) with (ev := ev) in X; [|exact R|right; discriminate]. destruct X as (X0 & X). apply NB; [exact X0|rewrite X; destruct ev; reflexivity].
  - apply NB; [reflexivity|destruct ev; reflexivity].
  - apply NB; [reflexivity|destruct ev; reflexivity].
  - exfalso. unfold unlinked in UL. rewrite Q, OP in UL by reflexivity. specialize (UL eq_refl); discriminate UL.
  - eapply (onward_next e) with (ev := Traffic) in X; [|exact R|left; reflexivity]. destruct X as (X0 & X). apply (next_control_base g) in N; [|exact D]. destruct N as (_ & _ & _ & _ & NX & _ & -> & _). apply NB; [rewrite X0; exact NX|rewrite X; reflexivity].
  - apply NB; [|reflexivity]. exact (proj1 (handle_cc g e m D)).
  - eapply (onward_next e) with (ev := Traffic) in X; [|exact R|left; reflexivity]. destruct X as (X0 & X). apply NB; [rewrite X0; exact (proj1 (handle_cc g e m D))|exact X].
  - eapply (onward_next e) with (ev := Traffic) in X; [|exact R|left; reflexivity]. destruct X as (X0 & X). apply NB; [rewrite X0|exact X]. apply handle_datum_frame in HD. destruct HD as (p & s0 & a & md & P0 & -> & ->). reflexivity.
  - apply nexts_next with (ev := Traffic) in N. destruct N. apply NB; auto.
  - assert (T : tracking (m_req ma) = false) by (apply handle_stats_frame in HD; destruct HD as [[_ HD]|(p & p' & s & _ & _ & _ & [[HD _]|[[HD _]|[_ ->]]])]; try discriminate HD; reflexivity).
    eapply (onward_next e) with (ev := Traffic) in X; [|exact R|left; exact T]. destruct X as (X0 & X). apply NB; [rewrite X0|exact X]. exact (proj1 (proj2 (handle_cc g e m D)) _ _ HD).
  - apply nexts_next with (ev := Traffic) in N. destruct N as (N1 & N2). apply NB; [rewrite N1|exact N2]. exact (proj1 (proj2 (handle_cc g e m D)) _ _ HD).
  - apply nexts_next with (ev := Traffic) in N. destruct N as (N1 & N2). apply NB; [rewrite N1|exact N2]. exact (proj2 (proj2 (handle_cc g e m D)) _ HD).
  - pose proof N as N'. apply (next_control_base g) in N; [|exact D]. destruct N as (N1 & _ & _ & _ & NX & _ & -> & _).
    assert (ST : ev <> Traffic) by (intros ->; unfold unlinked in UL; rewrite Q, OP in UL by reflexivity; specialize (UL eq_refl); discriminate UL).
    assert (BE : begins ev [Look (e_proc e k)] = true) by (destruct EV as [->|[->| ->]]; [reflexivity|reflexivity|congruence]). rewrite BE. split; [|discriminate]. intros _. split; [reflexivity|].
    assert (E2 : m_next m2 = m_next m) by (rewrite <- NX; destruct A as [[_ ->]|(_ & s & _ & ->)]; reflexivity).
    unfold step_next in SN. ib SN. injection SN as <-. rewrite E2 in *. exists rest, z. split; [exact S|]. split; [|split; [exact B|reflexivity]].
    destruct T as [T|T]; [exact T|]. destruct EV as [->|[->| ->]]; discriminate.
  - apply issued_out in R. destruct R as (R1 & [[_ R]|[[_ R]|[-> _]]]); try discriminate R. assert (BE : begins ev [Sent (m_req (ask_sys e m))] = true) by (destruct EV as [->|[->| ->]]; reflexivity).
    rewrite BE. split; [|discriminate]. intros _. split; [reflexivity|]. unfold step_next in SN. ib SN. injection SN as <-. cbn [m_next set_q] in B. rewrite R1 in B. exists rest, z. split; [exact S|]. split; [exact T|]. split; [exact B|]. pj. rewrite R1. reflexivity.
  - apply issued_out in R. destruct R as (R1 & [[-> _]|[[-> _]|[_ R]]]); try discriminate R; apply NB; try exact R1; destruct ev; reflexivity.
Qed.
Lemma update_nolook : forall g m e k m1 o, k_cc (m_nx m) = k_cc (m_st m) -> update_state g m e k = Some (m1, o) -> existsb is_look o = false.
Proof.
  intros g m e k m1 o E H. unfold update_state in H. rewrite E, eqb_reflx in H. cbn [negb bind] in H. destruct (state_change g m) as [m2 told]. ib H. destruct p as [m3 c3]. ib H. ib H. injection H as <- <-. cbn [app].
  rewrite !existsb_app. assert (X0 : existsb is_look l = false).
  { clear B1. di B0; [|injection B0 as <-; reflexivity]. ib B0. ib B0. injection B0 as <-. unfold rt_stats in B1. unfold clustering in B2. rewrite existsb_app. apply orb_false_intro.
    - di B1; [ib B1; injection B1 as <-; reflexivity|injection B1 as <-; reflexivity].
    - di B2; [ib B2; injection B2 as <-; reflexivity|injection B2 as <-; reflexivity]. }
  rewrite X0. assert (X1 : existsb is_look l0 = false).
  { unfold history in B1. di B1; [di B1; [discriminate|]; ib B1; injection B1 as <-; reflexivity|injection B1 as <-; reflexivity]. }
  rewrite X1. destruct told; reflexivity.
Qed.
Lemma begins_app : forall ev a b, a <> [] -> begins ev (a ++ b) = begins ev a.
Proof. intros ev [|x a] b H; [congruence|]. destruct ev, x; reflexivity. Qed.
Lemma advance_next : forall g m ev e k m1 o, inv g m -> ev = ETick \/ ev = Traffic -> (ev = Traffic -> m_open m = true) -> advance g m ev e k = Some (m1, o) ->
  (begins ev o = true -> due g m (e_now e) m1) /\ (begins ev o = false -> m_next m1 = m_next m).
Proof.
  intros g m ev e k m1 o (I1 & I2 & I3 & I4 & I5) EV OP H. unfold advance in H. ib H. destruct p as [[ma oa] upd]. pose proof (machine_look g m ev e k ma oa upd I1 I2 I3 B) as L.
  pose proof (machine_ok g _ _ _ _ _ _ _ I1 I2 I3 B) as (A1 & A2 & A3 & A4 & A5 & A6). pose proof A3 as (K1 & K2 & K3 & K4 & K5 & K6 & K7 & K8 & K9).
  assert (FS : fresh_save ma) by (unfold fresh_save in *; rewrite K7, K9; exact I4).
  assert (M : (begins ev oa = true -> due g m (e_now e) ma) /\ (begins ev oa = false -> m_next ma = m_next m)).
  { unfold machine in B. ib B. destruct p as [[mm oo] uu]. injection B as <- <- <-.
    assert (DR : forall a b ob, drop a = (b, ob) -> m_next b = m_next a /\ begins ev ob = false) by (intros a b ob X; unfold drop, close in X; destruct (m_open a); injection X as <- <-; split; try reflexivity; destruct ev; reflexivity).
    assert (SW : forall ev', (forall l, begins ev' l = begins ev l) -> ev' = ETick \/ ev' = ReplyTimeout \/ ev' = Traffic -> (ev' = Traffic -> m_open m = true) -> (do b <- switch g m ev' e k; let '(m1, o1, upd, disc) := b in if (disc : bool) then let (m2, o2) := drop m1 in Some (m2, o1 ++ o2, true) else Some (m1, o1, upd)) = Some (mm, oo, uu) ->
      (begins ev oo = true -> due g m (e_now e) mm) /\ (begins ev oo = false -> m_next mm = m_next m)).
    { intros ev' BE EV' OP' A. ib A. destruct b as [[[a ob] ua] disc]. apply (switch_next g m) in B; try assumption. rewrite BE in B. destruct B as (B1 & B2). destruct disc; [|injection A as <- <- <-; split; [intros X; apply B1; exact X|exact B2]].
      destruct (drop a) as [b o2] eqn:E. injection A as <- <- <-. apply DR in E. destruct E as [E1 E2].
      assert (NB : begins ev ob = false) by (destruct (begins ev ob); [destruct (B1 eq_refl); discriminate|reflexivity]).
      assert (NB2 : begins ev (ob ++ o2) = false) by (destruct ob; [exact E2|rewrite begins_app by discriminate; exact NB]). rewrite NB2. split; [discriminate|]. intros _. rewrite E1. auto. }
    destruct EV as [->| ->]; cbn beta iota in B0.
    - apply (SW _) in B0; [exact B0| | |]; destruct (busy (m_q m) && (0 <=? cmp (e_now e) (m_exp m))); auto; try discriminate.
    - apply (SW Traffic) in B0; auto. }
  destruct upd; [|injection H as <- <-; exact M]. ib H. destruct p as [mb ob]. cbn [fst snd] in H. injection H as <- <-.
  pose proof B0 as U. apply (update_ok g) in B0; [|exact A1|exact A2|exact FS]. destruct B0 as (_ & _ & _ & _ & _ & _ & _ & N & _ & _ & _ & _ & _ & UO & _).
  assert (BE : begins ev (oa ++ ob) = begins ev oa).
  { destruct oa as [|x oa]; [|apply begins_app; discriminate]. cbn [app]. assert (NL : existsb is_look ob = false) by (apply update_nolook in U; [exact U|rewrite K2; exact L]).
    destruct ob as [|y ob]; [reflexivity|]. cbn [forallb existsb] in *. apply andb_prop in UO. destruct UO as [UO _]. apply orb_false_elim in NL. destruct NL as [NL _]. destruct EV as [->| ->], y; try discriminate; reflexivity. }
  rewrite BE. destruct M as [M1 M2]. unfold due. rewrite N. auto.
Qed.
Lemma step_cadence : forall g m o m1 l, inv g m -> step g m o = Some (m1, l) -> (starts o l = true -> due g m (op_now o) m1) /\ (starts o l = false -> m_next m1 = m_next m).
Proof.
  intros g m o m1 l IN H. pose proof H as ST. destruct o as [e|r e|mask flags e| | | | | ]; cbn [step] in H.
  - apply (advance_next g) in H; [|exact IN|auto|discriminate]. exact H.
  - unfold on_io in H. destruct (m_open m) eqn:O; cbn [negb] in H; [|injection H as <- <-; split; [discriminate|reflexivity]].
    assert (LOW : forall ma ev, m_nx ma = m_nx m -> inv g ma -> m_next ma = m_next m -> ev = NoEvent \/ ev = ConnLost -> advance g ma ev e 0 = Some (m1, l) -> (starts (Io r e) l = true -> due g m (op_now (Io r e)) m1) /\ (starts (Io r e) l = false -> m_next m1 = m_next m)).
    { intros ma ev NXE (J1 & J2 & J3 & J4 & J5) NE EV A. pose proof A as A'. unfold advance in A. ib A. destruct p as [[mb ob] upd]. pose proof (machine_ok g _ _ _ _ _ _ _ J1 J2 J3 B) as (A1 & A2 & (K1 & K2 & K3 & K4 & K5 & K6 & K7 & K8 & K9) & _).
      assert (FS : fresh_save mb) by (unfold fresh_save in *; rewrite K7, K9; exact J4).
      assert (OB : (ob = [] \/ ob = [Close]) /\ m_next mb = m_next ma) by (destruct EV as [->| ->]; unfold machine in B; cbn [bind] in B; [injection B as <- <- <-; auto|unfold drop, close in B; destruct (m_open ma); injection B as <- <- <-; auto]). destruct OB as [OB NB].
      assert (X : starts (Io r e) l = false /\ m_next m1 = m_next mb).
      { destruct upd; [|injection A as <- <-; split; [destruct OB as [->| ->]; reflexivity|reflexivity]]. ib A. destruct p as [mc oc]. cbn [fst snd] in A. injection A as <- <-. apply (update_ok g) in B0; [|exact A1|exact A2|exact FS]. destruct B0 as (_ & _ & _ & _ & _ & _ & _ & N & _ & _ & _ & _ & _ & UO & _).
        split; [|exact N]. destruct OB as [->| ->]; [|reflexivity]. cbn [app]. destruct oc as [|y oc]; [reflexivity|]. cbn [forallb] in UO. apply andb_prop in UO. destruct UO as [UO _]. destruct y; try discriminate; reflexivity. }
      destruct X as [-> X]. split; [discriminate|]. intros _. congruence. }
    destruct r as [x| | ].
    + cbv zeta in H. set (ma := set_resp m _) in H. assert (JA : inv g ma).
      { destruct IN as ((D1 & D2 & D3 & D4) & I2). split; [|exact I2]. unfold base, ma. pj. split; [exact D1|]. split; [exact D2|]. split; [|exact D4]. rewrite app_length, skipn_length, D3. rewrite firstn_length. lia. }
      destruct (8 <=? _)%nat; [|apply (LOW ma NoEvent); auto]. apply (advance_next g) in H; [|exact JA|auto|intros _; exact O]. exact H.
    + apply (LOW m NoEvent); auto.
    + apply (LOW m ConnLost); auto.
  - split; [discriminate|]. intros _. unfold on_control in H. cbv zeta in H. di H; [|injection H as <- <-; reflexivity].
    destruct (look g m (e_proc e 0)) as [ma cc] eqn:L. apply (look_ev g) in L; [|exact IN]. destruct L as ((L1 & _) & (_ & _ & _ & L4 & _) & _).
    di H; [|injection H as <- <-; exact L4]. di H; [injection H as <- <-; exact L4|]. ib H. destruct p as [[mb ob] rc]. cbn [fst snd] in H. injection H as <- <-. apply (control_ev g) in B; [|exact L1]. destruct B as (_ & (_ & _ & _ & H4 & _) & _). pj. congruence.
  - injection H as <- <-. split; [discriminate|reflexivity].
  - ib H. ib H. injection H as <- <-. split; [discriminate|reflexivity].
  - ib H. injection H as <- <-. split; [discriminate|reflexivity].
  - ib H. injection H as <- <-. split; [discriminate|reflexivity].
  - injection H as <- <-. split; [discriminate|reflexivity].
Qed.
Lemma run_cadence : forall g l m m1 log, inv g m -> normal (m_next m) -> run g m l = Some (m1, log) -> forall a o outs b, log = a ++ (o, outs) :: b -> starts o outs = true -> normal (op_now o) ->
  instant (m_next m) + count_starts a * g_interval g * s_unit < instant (op_now o).
Proof.
  intros g. induction l as [|x l IH]; intros m m1 log IN N H a o outs b E S NO; cbn [run] in H; [injection H as <- <-; destruct a; discriminate|].
  ib H. destruct p as [ma oa]. ib H. destruct p as [mb lb]. cbn [fst snd] in *. injection H as <- <-. pose proof B as ST. apply (step_ok g) in ST; [|exact IN]. destruct ST as ((IA & _) & _).
  apply (step_cadence g) in B; [|exact IN]. destruct B as [B1 B2]. destruct a as [|y a]; cbn [app] in E.
  - injection E as -> -> _. destruct (B1 S) as (rest & s & R1 & R2 & _). apply subtract_exact in R1; [|exact N|exact NO]. destruct R1 as [(_ & R3 & R4) R5]. unfold count_starts. cbn [filter List.length Z.of_nat]. unfold instant in R5. unfold instant, s_unit in *. nia.
  - injection E as E1 E2. subst y. unfold count_starts. cbn [filter fst snd]. destruct (starts x oa) eqn:SX.
    + destruct (B1 eq_refl) as (rest & s & R1 & R2 & R3 & R4). unfold chk_s64 in R3. destruct (fits_s64 _) eqn:F; [|discriminate]. injection R3 as <-.
      assert (NA : normal (m_next ma)). { rewrite R4. destruct N as (_ & N1 & N2). unfold normal. cbn [sec nsec frac]. unfold fits_s64 in F. split; [lia|auto]. }
      pose proof (IH ma mb lb IA NA B0 a o outs b E2 S NO) as X. unfold count_starts in X. rewrite R4 in X. cbn [List.length]. rewrite Nat2Z.inj_succ. unfold instant in *. cbn [sec nsec frac] in X. unfold s_unit in *. lia.
    + pose proof (B2 eq_refl) as X2. assert (NA : normal (m_next ma)) by (rewrite X2; exact N). pose proof (IH ma mb lb IA NA B0 a o outs b E2 S NO) as X. unfold count_starts in X. rewrite X2 in X. exact X.
Qed.
Lemma live_cadence : forall g p pre e l m o lp lr ll, live g p pre e l = Some (inr (m, o, lp, lr, ll)) -> Forall message pre -> normal (e_now e) ->
  forall a x outs b, ll = a ++ (x, outs) :: b -> starts x outs = true -> normal (op_now x) -> instant (e_now e) + (1 + count_starts a) * g_interval g * s_unit < instant (op_now x).
Proof.
  intros g p pre e l m o lp lr ll H F NE a x outs b E S NO. apply live_split in H. destruct H as (m0 & m1 & m2 & ST & R1 & RR & R2). apply startup_ok in ST. destruct ST as (S1 & S2 & S3 & _). pose proof (run_idle g pre m0 m1 lp F S3 S2 R1) as (X1 & _).
  apply (run_ok g) in R1; [|exact S1]. destruct R1 as (A1 & _). apply (on_run_ok g) in RR; [|apply A1|exact X1]. destruct RR as (B1 & _ & _ & m4 & o4 & o5 & EO & ADV & I4 & Q4 & N4 & _).
  assert (NX : exists s, chk_s64 (sec (e_now e) + g_interval g) = Some s /\ m_next m2 = mkTs s (nsec (e_now e)) (frac (e_now e))).
  { unfold advance in ADV. ib ADV. destruct p0 as [[ma oa] upd]. pose proof I4 as (J1 & J2 & J3 & J4 & J5). pose proof (machine_ok g _ _ _ _ _ _ _ J1 J2 J3 B) as (K1 & K2 & (_ & _ & _ & _ & _ & _ & K7 & _ & K9) & _).
    assert (FS : fresh_save ma) by (unfold fresh_save in *; rewrite K7, K9; exact J4).
    assert (NM : m_next m2 = m_next ma). { destruct upd; [|injection ADV as <- <-; reflexivity]. ib ADV. destruct p0 as [mx ox]. cbn [fst snd] in ADV. injection ADV as <- <-. apply (update_ok g) in B0; [|exact K1|exact K2|exact FS]. apply B0. }
    rewrite NM. unfold machine in B. ib B. destruct p0 as [[mb ob] ub]. cbn beta iota in B0. ib B0. destruct b0 as [[[mc oc] uc] disc]. apply run_switch in B2; [|apply I4|exact Q4]. destruct B2 as (-> & -> & s & C1 & C2). injection B0 as <- <- <-. injection B as <- <- <-. rewrite N4 in *. eauto. }
  destruct NX as (s & C1 & C2). unfold chk_s64 in C1. destruct (fits_s64 _) eqn:FI; [|discriminate]. injection C1 as <-.
  assert (N2 : normal (m_next m2)). { rewrite C2. destruct NE as (_ & N1 & N2). unfold normal. cbn [sec nsec frac]. unfold fits_s64 in FI. split; [lia|auto]. }
  pose proof (run_cadence g l m2 m ll (proj1 B1) N2 R2 a x outs b E S NO) as X. rewrite C2 in X. unfold instant in *. cbn [sec nsec frac] in X. unfold s_unit in *. lia.
Qed.
