(** Proofs for the chrony module, part 8: rounds in lives, silence, answers that are none, lives that
    are defined. *)
Require Import ZArith QArith List Bool Lia.
Require Import Verif.Base Verif.TimeSpec Verif.TimeModel Verif.TimeProof Verif.QLib Verif.ListLib Verif.StatsModel Verif.CrnSpec Verif.CrnModel Verif.CrnProof Verif.CrnProof2 Verif.CrnProof3 Verif.CrnProof4 Verif.CrnProof5 Verif.CrnProof6 Verif.CrnProof7.
Import ListNotations.
Open Scope Z_scope.

Lemma startup_flags : forall g p m o, startup g p = Some (inr (m, o)) -> m_flags m = 2 ^ TIMESTAMPS.
Proof. intros g p m o H. apply startup_ok in H. apply H. Qed.
Lemma live_det : forall g p pre e l m o lp lr ll, live g p pre e l = Some (inr (m, o, lp, lr, ll)) -> Forall message pre -> Forall undetermined (pre ++ l) -> Z.testbit (m_flags m) DETERMINANT = false.
Proof.
  intros g p pre e l m o lp lr ll H F U. apply Forall_app in U. destruct U as [U1 U2]. apply live_split in H. destruct H as (m0 & m1 & m2 & ST & R1 & RR & R2). pose proof (startup_flags _ _ _ _ ST) as F0. apply startup_ok in ST. destruct ST as (S1 & S2 & S3 & _). pose proof (run_idle g pre m0 m1 lp F S3 S2 R1) as (X1 & _).
  assert (D1 : Z.testbit (m_flags m1) DETERMINANT = false) by (eapply run_det; [exact S1|exact U1|exact R1|rewrite F0; reflexivity]).
  apply (run_ok g) in R1; [|exact S1]. destruct R1 as (A1 & _). apply (on_run_ok g) in RR; [|apply A1|exact X1]. destruct RR as (B1 & _ & _ & m4 & o4 & o5 & EO & ADV & I4 & Q4 & N4 & _ & _ & _ & _ & FL & _).
  assert (D4 : Z.testbit (m_flags m4) DETERMINANT = false) by (destruct FL as [-> | ->]; [exact D1|rewrite Z.ldiff_spec, D1; reflexivity]).
  assert (D2 : Z.testbit (m_flags m2) DETERMINANT = false).
  { unfold advance in ADV. ib ADV. destruct p0 as [[mb ob] upd]. destruct I4 as (J1 & J2 & J3 & J4 & J5). pose proof (machine_ok g _ _ _ _ _ _ _ J1 J2 J3 B) as (K0 & K00 & (K1 & K2 & K3 & K4 & K5 & K6 & K7 & K8 & K9) & _).
    assert (FS : fresh_save mb) by (unfold fresh_save in *; rewrite K7, K9; exact J4). destruct upd; [|injection ADV as <- <-; congruence]. ib ADV. destruct p0 as [mc oc]. cbn [fst snd] in ADV. injection ADV as <- <-.
    apply (update_ok g) in B0; [|exact K0|exact K00|exact FS]. destruct B0 as (_ & _ & _ & _ & B0 & _). congruence. }
  eapply run_det; [apply B1|exact U2|exact R2|exact D2].
Qed.
(** The module when the number of sources has just been asked for. *)
Lemma live_count : forall g p pre e l x m o lp lr ll q seq, live g p pre e (l ++ [x]) = Some (inr (m, o, lp, lr, ll ++ [(x, [Look q; Sent (enc_request NUM_SOURCES seq [])])])) -> Forall message pre ->
  inv g m /\ mid m (m_nx m) Count (request 14 seq []) m.
Proof.
  intros g p pre e l x m o lp lr ll q seq H F. apply live_split in H. destruct H as (m0 & m1 & m2 & ST & R1 & RR & R2). apply startup_ok in ST. destruct ST as (S1 & S2 & S3 & _). pose proof (run_idle g pre m0 m1 lp F S3 S2 R1) as (X1 & _).
  apply (run_ok g) in R1; [|exact S1]. destruct R1 as (A1 & _). apply (on_run_ok g) in RR; [|apply A1|exact X1]. destruct RR as (B1 & _).
  apply run_app in R2. destruct R2 as (m3 & l1 & l2 & R2 & R3 & E). apply (run_ok g) in R2; [|apply B1]. destruct R2 as ((I3 & _) & _). cbn [run] in R3. ib R3. destruct p0 as [ma oa]. cbn [bind fst snd] in R3. injection R3 as <- <-.
  apply app_inj_tail in E. destruct E as [_ E]. assert (E' : oa = [Look q; Sent (enc_request NUM_SOURCES seq [])]) by exact (eq_sym (f_equal snd E)). subst oa. exact (count_asked g m3 x q seq ma I3 B).
Qed.
Lemma live_round : forall g p pre e l x m o lp lr ll q seq, live g p pre e (l ++ [x]) = Some (inr (m, o, lp, lr, ll ++ [(x, [Look q; Sent (enc_request NUM_SOURCES seq [])])])) -> Forall message pre ->
  Forall undetermined (pre ++ l ++ [x]) -> 0 <= seq < 2^32 ->
  forall n e1 xs, 0 < n < 2^31 -> Z.of_nat (List.length xs) = Z.min n 32 -> env_ok e1 -> Forall exch_ok xs ->
  let s := if existsb (fun x => server (x_src x)) xs then SELECTION else LISTENING in
  exists m' told log, run g m (ans NUM_SOURCES seq (enc32 n) e1 :: answers (e_rand e1) xs) = Some (m', log) /\
  map snd log = [Sent (enc_request SOURCE_DATA (e_rand e1) (enc32 0))] :: questions 0 xs (told ++ [History None false]) /\
  (told = [] \/ exists t, told = [Told t] /\ s_state t = s) /\
  firstn (List.length xs) (k_arr (m_st m')) = map (fun x => peer_of (x_src x)) xs /\
  (exists a b f, step g m' SaveState = Some (m', [Saved s a b f None (List.length xs) (List.length (filter (fun x => server (x_src x)) xs))])) /\
  (exists t, step g m' GetStatus = Some (m', [Reply t]) /\ s_state t = s).
Proof.
  intros g p pre e l x m o lp lr ll q seq H F U SQ n e1 xs N L E X s. pose proof (live_det _ _ _ _ _ _ _ _ _ _ H F U) as D. destruct (live_count _ _ _ _ _ _ _ _ _ _ _ _ _ H F) as [I M]. apply (honest_round g seq m n e1 xs); assumption.
Qed.
Lemma live_empty : forall g p pre e l x m o lp lr ll q seq, live g p pre e (l ++ [x]) = Some (inr (m, o, lp, lr, ll ++ [(x, [Look q; Sent (enc_request NUM_SOURCES seq [])])])) -> Forall message pre -> 0 <= seq < 2^32 ->
  forall e1, exists m', step g m (ans NUM_SOURCES seq (enc32 0) e1) = Some (m', []) /\ m_st m' = m_st m /\ step g m' GetStatus = Some (m', [Reply (reply_of m)]).
Proof.
  intros g p pre e l x m o lp lr ll q seq H F SQ e1. destruct (live_count _ _ _ _ _ _ _ _ _ _ _ _ _ H F) as [(IB & IU & (IS & IC) & _) M].
  unfold ans. cbn [step]. rewrite io_ans; [|apply (d_open _ _ _ _ _ M)|cbn; lia]. set (a := mkAns _ _ _ _ _). set (ma := taken m a). assert (RA : m_resp ma = enc_answer a ++ skipn (List.length (enc_answer a)) (m_resp m)) by reflexivity.
  assert (RO : reply_ok ma 2 = true) by (eapply reply_ok_enc; [exact RA|unfold ma, taken; pj; apply (d_req _ _ _ _ _ M)|vm_compute; split; congruence|vm_compute; split; congruence|exact SQ]).
  pose proof (data_enc ma _ _ _ _ _ RA) as DA. assert (D1 : be32 (data ma) 0 = 0) by (rewrite DA; apply be32_enc; lia).
  unfold advance, machine. assert (SW : switch g ma Traffic e1 0 = Some (set_q (set_nx ma (with_num (m_nx ma) 0)) SleepConn, [], false, false)).
  { unfold switch. replace (m_q ma) with Count by (symmetry; apply (d_q _ _ _ _ _ M)). unfold handle_count. rewrite RO, D1. reflexivity. }
  rewrite SW. cbn [bind]. pj. change (m_nx ma) with (m_nx m). change (m_st ma) with (m_st m). rewrite IS, st_eqb_refl. cbn [orb negb]. eexists. split; [reflexivity|]. split; [reflexivity|]. reflexivity.
Qed.

(** ** Silence *)
Lemma tick_silent : forall g m e m1 l, inv g m -> m_open m = true -> e_send e = 0 -> step g m (Tick e) = Some (m1, l) -> m_open m1 = true /\ m_st m1 = m_st m /\ forallb is_sent l = true.
Proof.
  intros g m e m1 l (IB & IU & (IS & IC) & _) O S H. cbn [step] in H. unfold advance in H. ib H. destruct p as [[ma oa] upd]. unfold machine in B. ib B. destruct p as [[mb ob] ub]. injection B as <- <- <-. cbn beta iota in B0. ib B0. destruct b as [[[mc oc] uc] disc].
  assert (QO : offline (m_q m) = false) by (destruct (offline (m_q m)) eqn:Q; [rewrite (IU Q) in O; discriminate|reflexivity]).
  assert (X : (m_open mc = true /\ m_st mc = m_st m /\ (m_nx mc = m_nx m \/ m_nx mc = m_st m)) /\ forallb is_sent oc = true /\ uc = false /\ disc = false).
  { clear H B0. revert B. set (ev := if busy (m_q m) && (0 <=? cmp (e_now e) (m_exp m)) then ReplyTimeout else ETick).
    assert (EV : ev = ETick \/ ev = ReplyTimeout) by (unfold ev; destruct (busy (m_q m) && (0 <=? cmp (e_now e) (m_exp m))); auto). clearbody ev. intros B. unfold switch, stay, give_up in B.
    destruct (m_q m); try discriminate QO; destruct EV as [->| ->]; try (injection B as <- <- <- <-; auto 8; fail);
    (ib B; di B; [|injection B as <- <- <- <-; auto 8]; ib B; destruct p as [[md od] ok]; unfold issue_sys, issue in B1; pj; rewrite O in B1; cbn [negb] in B1; ib B1; rewrite S in B1; cbn [Z.eqb] in B1; injection B1 as <- <- <-; ib B; injection B as <- <- <- <-; pj; auto 8). }
  destruct X as ((X1 & X2 & X3) & X4 & -> & ->). injection B0 as <- <- <-. assert (SE : k_state (m_nx mc) = k_state (m_st mc)) by (rewrite X2; destruct X3 as [-> | ->]; [exact IS|reflexivity]).
  rewrite SE, st_eqb_refl in H. cbn [orb negb] in H. injection H as <- <-. auto.
Qed.
Lemma run_silent : forall g l m m1 log, inv g m -> m_open m = true -> Forall quiet_tick l -> run g m l = Some (m1, log) -> m_st m1 = m_st m /\ forallb is_sent (flat log) = true.
Proof.
  intros g. induction l as [|o l IH]; intros m m1 log IN O F H; cbn [run] in H; [injection H as <- <-; auto|]. ib H. destruct p as [ma oa]. ib H. destruct p as [mb lb]. cbn [fst snd] in *. injection H as <- <-.
  pose proof (step_ok g m o ma oa IN B) as ((I1 & _) & _). pose proof (Forall_inv F) as Q. destruct o; cbn [quiet_tick] in Q; try contradiction. apply (tick_silent g m e ma oa IN O Q) in B. destruct B as (T1 & T2 & T3).
  destruct (IH ma mb lb I1 T1 (Forall_inv_tail F) B0) as (Y1 & Y2). split; [congruence|]. unfold flat. cbn [map concat snd]. rewrite forallb_app, T3. exact Y2.
Qed.

(** ** Octets that answer nothing *)
Lemma octets_eq2 : forall a b c d, octet a -> octet b -> octet c -> octet d -> (256 * a + b =? 256 * c + d) = (a =? c) && (b =? d).
Proof. unfold octet. intros. destruct (a =? c) eqn:A, (b =? d) eqn:B; cbn [andb]; lia. Qed.
Lemma look_resp : forall g m p r, look g (set_resp m r) p = (set_resp (fst (look g m p)) r, snd (look g m p)).
Proof. intros g m p r. unfold look. cbn [fst snd]. destruct (_ && negb (g_ctl g)); [destruct (match p with Cmdline t _ => match opts OStart t with OX => true | _ => false end | _ => false end)|]; reflexivity. Qed.
Definition rs {A} (r : list Z) (x : option (cm * A)) : option (cm * A) := match x with Some (m, a) => Some (set_resp m r, a) | None => None end.
Definition rs2 {A B} (r : list Z) (x : option (cm * A * B)) : option (cm * A * B) := match x with Some (m, a, b) => Some (set_resp m r, a, b) | None => None end.
Lemma close_resp : forall m r, close (set_resp m r) = (set_resp (fst (close m)) r, snd (close m)).
Proof. intros m r. unfold close. pj. destruct (m_open m); reflexivity. Qed.
Lemma do_control_resp : forall g m e k op r, do_control g (set_resp m r) e k op = rs2 r (do_control g m e k op).
Proof.
  intros g m e k op r. unfold do_control. destruct (g_ctl g); [|reflexivity]. cbn [negb]. rewrite look_resp. destruct (look g m (e_proc e k)) as [m1 cc]. cbn [fst snd]. cbv zeta. pj.
  set (o1 := if cop_eqb op RESTORE && _ then _ else _). destruct (cop_eqb o1 NOP); [reflexivity|].
  assert (X : (if cop_eqb o1 SAVE then set_atsave (set_resp m1 r) cc else set_resp m1 r) = set_resp (if cop_eqb o1 SAVE then set_atsave m1 cc else m1) r) by (destruct (cop_eqb o1 SAVE); reflexivity). rewrite X.
  set (m2 := if cop_eqb o1 SAVE then set_atsave m1 cc else m1). pj. match goal with |- bind ?a _ = _ => destruct a as [early|] end; [|reflexivity]. cbn [bind]. destruct early; [reflexivity|].
  destruct (cop_eqb o1 ENABLE || cop_eqb o1 DISABLE || cop_eqb o1 RESTORE); [rewrite close_resp; destruct (close m2) as [m3 o3]; cbn [fst snd]|]; destruct (cop_eqb o1 SAVE); reflexivity.
Qed.
Lemma control_resp : forall g m e k en r, control g (set_resp m r) e k en = rs2 r (control g m e k en).
Proof.
  intros g m e k en r. unfold control. pj. destruct (m_saved m); cbn [bind fst snd].
  - rewrite do_control_resp. destruct (do_control g m e (S k) _) as [[[ma oa] rc]|]; reflexivity.
  - rewrite do_control_resp. destruct (do_control g m e k SAVE) as [[[ma oa] rc]|]; [|reflexivity]. cbn [rs2 bind fst snd]. change (set_saved (set_resp ma r) true) with (set_resp (set_saved ma true) r). rewrite do_control_resp.
    destruct (do_control g (set_saved ma true) e (S k) _) as [[[mb ob] rc2]|]; reflexivity.
Qed.
Lemma control_change_resp : forall g m e k r, control_change g (set_resp m r) e k = rs r (control_change g m e k).
Proof.
  intros g m e k r. unfold control_change, block. pj. cbv zeta. set (cc := k_cc (m_nx m)). set (want := Z.testbit (m_flags m) CLOCK_CTRL).
  assert (X : forall m1, (if negb cc && want && negb (g_ctl g) then set_cons (if cc && negb want && negb (g_ctl g) then set_cons (set_resp m1 r) true false else set_resp m1 r) false true else if cc && negb want && negb (g_ctl g) then set_cons (set_resp m1 r) true false else set_resp m1 r) =
    set_resp (if negb cc && want && negb (g_ctl g) then set_cons (if cc && negb want && negb (g_ctl g) then set_cons m1 true false else m1) false true else if cc && negb want && negb (g_ctl g) then set_cons m1 true false else m1) r).
  { intros m1. destruct (negb cc && want && negb (g_ctl g)), (cc && negb want && negb (g_ctl g)); reflexivity. }
  destruct (Bool.eqb (m_blocked m) cc).
  - rewrite X. destruct (_ && negb (st_eqb _ _)); [|reflexivity]. rewrite control_resp. destruct (control g _ e k want) as [[[ma oa] rc]|]; [|reflexivity]. cbn [rs2 bind]. destruct (rc =? 0); reflexivity.
  - change (set_blocked (set_resp m r) cc) with (set_resp (set_blocked m cc) r). rewrite X. destruct (_ && negb (st_eqb _ _)); [|reflexivity]. rewrite control_resp. destruct (control g _ e k want) as [[[ma oa] rc]|]; [|reflexivity]. cbn [rs2 bind]. destruct (rc =? 0); reflexivity.
Qed.
Lemma converge_resp : forall m t r, converge (set_resp m r) t = rs r (converge m t).
Proof.
  intros m t r. unfold converge. destruct t as [t|]; [|reflexivity]. pj. destruct (st_eqb (k_state (m_nx m)) SLAVE); cbn [negb]; [|reflexivity]. destruct (Z.testbit (m_flags m) TIMESTAMPS); cbn [negb]; [|reflexivity].
  destruct (k_idx (m_nx m) =? -1); [reflexivity|]. destruct (peer_at (m_nx m) (k_idx (m_nx m))); [|reflexivity]. cbn [bind]. destruct (conv_update (m_conv m) (sec t) (best_off c)); reflexivity.
Qed.
Lemma update_resp : forall g m e k r, update_state g (set_resp m r) e k = rs r (update_state g m e k).
Proof.
  intros g m e k r. unfold update_state. pj. cbv zeta. set (c1 := negb (Bool.eqb _ _)).
  assert (A : (if c1 then control_change g (set_resp m r) e k else Some (set_resp m r, [])) = rs r (if c1 then control_change g m e k else Some (m, []))) by (destruct c1; [apply control_change_resp|reflexivity]).
  rewrite A. destruct (if c1 then control_change g m e k else Some (m, [])) as [[m1 o1]|]; [|reflexivity]. cbn [rs bind].
  assert (S : state_change g (set_resp m1 r) = (set_resp (fst (state_change g m1)) r, snd (state_change g m1))) by (unfold state_change; pj; destruct (_ && negb (g_ctl g)); reflexivity).
  rewrite S. destruct (state_change g m1) as [m2 told]. cbn [fst snd]. rewrite converge_resp. destruct (converge m2 (e_conv e)) as [[m3 c3]|]; [|reflexivity]. cbn [rs bind]. pj.
  set (c4 := negb (id_eqb _ _)). assert (C : (if c4 then id_change (set_resp m3 r) else set_resp m3 r) = set_resp (if c4 then id_change m3 else m3) r) by (destruct c4; [unfold id_change; pj; destruct (_ && _); reflexivity|reflexivity]).
  rewrite C. set (m4 := if c4 then id_change m3 else m3). pj. change (clustering (set_resp m4 r) (m_nx m4)) with (clustering m4 (m_nx m4)). match goal with |- bind ?a _ = _ => destruct a as [o4|] end; [|reflexivity]. cbn [bind]. pj. destruct (history (m_nx m4)); reflexivity.
Qed.
Lemma issue_resp : forall e m r, issue e (set_resp m r) = rs2 r (issue e m).
Proof.
  intros e m r. unfold issue. pj. destruct (m_open m) eqn:O; [|reflexivity]. cbn [negb]. destruct (add (e_now e) (mkTs 2 0 0)); [|reflexivity]. cbn [bind]. destruct (e_send e =? 0); [reflexivity|].
  destruct (_ || _); [|reflexivity]. unfold close. pj. rewrite O. reflexivity.
Qed.
Definition rs3 (r : list Z) (x : option branch) : option branch := match x with Some (m, a, b, c) => Some (set_resp m r, a, b, c) | None => None end.
Definition refused (m : cm) : Prop := match m_q m with Count => reply_ok m 2 = false | Datum => reply_ok m 3 = false | Stats => reply_ok m 6 = false | Ntp => reply_ok m 16 = false | _ => True end.
Lemma onward_resp : forall r x q o u, match x with Some y => Some (onward y q o u) | None => None end = match x with Some y => Some (onward y q o u) | None => None end -> 
  (do y <- rs2 r x; Some (onward y q o u)) = rs3 r (do y <- x; Some (onward y q o u)).
Proof. intros r x q o u _. destruct x as [[[m oo] ok]|]; [|reflexivity]. cbn [rs2 bind onward]. destruct ok; reflexivity. Qed.
Lemma issue_datum_resp : forall e m r, issue_datum e (set_resp m r) = rs2 r (issue_datum e m).
Proof. intros e m r. unfold issue_datum. pj. destruct (put_peer (m_nx m) (m_idx m) blank_peer); [|reflexivity]. cbn [bind]. apply (issue_resp e (set_req (set_nx m c) _)). Qed.
Lemma next_source_resp : forall e m q r, next_source e (set_resp m r) q = rs3 r (next_source e m q).
Proof.
  intros e m q r. unfold next_source. cbv zeta. pj. destruct (_ =? _).
  - unfold finish_round. pj. destruct (parse (m_nx m) 0 (e_score e)); reflexivity.
  - change (set_idx (set_resp m r) (m_idx m + 1)) with (set_resp (set_idx m (m_idx m + 1)) r). rewrite issue_datum_resp. apply onward_resp; reflexivity.
Qed.
Lemma switch_resp : forall g m e r, refused m -> refused (set_resp m r) -> m_open m = true -> unlinked m -> switch g (set_resp m r) Traffic e 0 = rs3 r (switch g m Traffic e 0).
Proof.
  intros g m e r R1 R2 O U. unfold refused in *. unfold switch. change (m_q (set_resp m r)) with (m_q m) in *. destruct (m_q m) eqn:Q.
  - exfalso. unfold unlinked in U. rewrite Q, O in U. specialize (U eq_refl). discriminate.
  - pj. destruct (subtract (m_next m) (e_now e)); [|reflexivity]. cbn [bind]. destruct (sec t <? 0); [|reflexivity]. unfold issue_sys. pj.
    change (set_req (set_nx (set_resp m r) (m_st m)) (request 33 (e_rand e) [])) with (set_resp (set_req (set_nx m (m_st m)) (request 33 (e_rand e) [])) r). rewrite issue_resp. destruct (issue e _) as [[[ma oa] ok]|]; [|reflexivity]. cbn [rs2 bind]. destruct ok; [|reflexivity]. pj. destruct (chk_s64 _); reflexivity.
  - pj. rewrite O. reflexivity.
  - exfalso. unfold unlinked in U. rewrite Q, O in U. specialize (U eq_refl). discriminate.
  - unfold next_control. rewrite look_resp. destruct (look g m (e_proc e 0)) as [ma cc]. cbn [fst snd]. pj. destruct (negb (Bool.eqb (k_cc (m_st ma)) cc)).
    + unfold issue_count. change (set_req (set_nx (set_resp ma r) (with_cc (m_nx ma) cc)) (request 14 (e_rand e) [])) with (set_resp (set_req (set_nx ma (with_cc (m_nx ma) cc)) (request 14 (e_rand e) [])) r). rewrite issue_resp. apply onward_resp; reflexivity.
    + unfold issue_count. change (set_req (set_resp ma r) (request 14 (e_rand e) [])) with (set_resp (set_req ma (request 14 (e_rand e) [])) r). rewrite issue_resp. apply onward_resp; reflexivity.
  - unfold handle_count. rewrite R1, R2. pj. destruct (0 <? k_num (m_nx m)); [|reflexivity]. change (set_idx (set_resp m r) 0) with (set_resp (set_idx m 0) r). rewrite issue_datum_resp. apply onward_resp; reflexivity.
  - unfold handle_datum. rewrite R1, R2. cbn [negb bind]. apply next_source_resp.
  - unfold handle_stats. rewrite R1, R2. cbn [negb bind]. apply next_source_resp.
  - unfold handle_ntp. rewrite R1, R2. cbn [negb bind]. apply next_source_resp.
Qed.
Lemma advance_resp : forall g m e r, refused m -> refused (set_resp m r) -> m_open m = true -> unlinked m -> advance g (set_resp m r) Traffic e 0 = rs r (advance g m Traffic e 0).
Proof.
  intros g m e r R1 R2 O U. unfold advance, machine. rewrite switch_resp by assumption. destruct (switch g m Traffic e 0) as [[[[ma oa] ua] disc]|]; [|reflexivity]. cbn [rs3 bind].
  assert (X : forall mb ob ub, (let '(m1, o1, upd) := (set_resp mb r, ob, ub || negb (st_eqb (k_state (m_nx (set_resp mb r))) (k_state (m_st (set_resp mb r))))) in if (upd : bool) then do x <- update_state g m1 e 1; Some (fst x, o1 ++ snd x) else Some (m1, o1)) =
    rs r (let '(m1, o1, upd) := (mb, ob, ub || negb (st_eqb (k_state (m_nx mb)) (k_state (m_st mb)))) in if (upd : bool) then do x <- update_state g m1 e 1; Some (fst x, o1 ++ snd x) else Some (m1, o1))).
  { intros mb ob ub. pj. destruct (ub || _); [|reflexivity]. rewrite update_resp. destruct (update_state g mb e 1) as [[mc oc]|]; reflexivity. }
  destruct disc; [|apply X]. unfold drop. rewrite close_resp. destruct (close ma) as [mb ob]. cbn [fst snd]. change (set_q (set_resp mb r) SleepDisc) with (set_resp (set_q mb SleepDisc) r). cbn [bind]. apply X.
Qed.
