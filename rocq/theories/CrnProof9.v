(** The chrony module: octets that do not answer the last request. *)
Require Import ZArith QArith List Bool Lia.
Require Import Verif.Base Verif.TimeSpec Verif.TimeModel Verif.TimeProof Verif.ListLib Verif.CrnSpec Verif.CrnModel Verif.CrnProof Verif.CrnProof2 Verif.CrnProof3 Verif.CrnProof4 Verif.CrnProof5 Verif.CrnProof6 Verif.CrnProof7 Verif.CrnProof8.
Import ListNotations.
Open Scope Z_scope.

(** ** What is asked for *)
Definition made (cmd : Z) (m : cm) (x : option (list Z)) : Prop := x = Some (m_req m) /\ exists r a, m_req m = enc_request cmd r a.
Definition asks (m : cm) (x : option (list Z)) : Prop :=
  match m_q m with
  | Count => made 14 m x | Datum => made 15 m x | Stats => made 34 m x \/ made 15 m x | Ntp => made 57 m x | _ => True
  end.
Lemma last_app : forall a b x, last_sent x (a ++ b) = last_sent (last_sent x a) b.
Proof. induction a as [|y a IH]; intros b x; [reflexivity|]. cbn [app last_sent]. destruct y; apply IH. Qed.
Lemma last_none : forall l x, existsb is_sent l = false -> last_sent x l = x.
Proof. induction l as [|y l IH]; intros x H; [reflexivity|]. cbn [existsb] in H. apply orb_false_iff in H. destruct H as [H1 H2]. destruct y; try discriminate; cbn [last_sent]; apply IH; exact H2. Qed.
Lemma upd_none : forall l, forallb upd_out l = true -> existsb is_sent l = false.
Proof. induction l as [|y l IH]; intros H; [reflexivity|]. cbn [forallb] in H. apply andb_prop in H. destruct H as [H1 H2]. cbn [existsb]. rewrite IH by exact H2. destruct y; try discriminate; reflexivity. Qed.
Lemma ctl_none : forall l, forallb ctl_out l = true -> existsb is_sent l = false.
Proof. induction l as [|y l IH]; intros H; [reflexivity|]. cbn [forallb] in H. apply andb_prop in H. destruct H as [H1 H2]. cbn [existsb]. rewrite IH by exact H2. destruct y; try discriminate; reflexivity. Qed.

Lemma look_req : forall g m p m1 cc, look g m p = (m1, cc) -> m_req m1 = m_req m.
Proof. intros g m p m1 cc H. unfold look in H. injection H as <- _. pj. destruct (_ && negb (g_ctl g)); [destruct (match p with Cmdline t _ => match opts OStart t with OX => true | _ => false end | _ => false end)|]; reflexivity. Qed.
Lemma close_req : forall m m1 o, close m = (m1, o) -> m_req m1 = m_req m.
Proof. intros m m1 o H. unfold close in H. destruct (m_open m); injection H as <- <-; reflexivity. Qed.
Lemma do_control_req : forall g m e k op m1 o rc, do_control g m e k op = Some (m1, o, rc) -> m_req m1 = m_req m.
Proof.
  intros g m e k op m1 o rc H. unfold do_control in H. di H; [injection H as <- _ _; reflexivity|]. destruct (look g m (e_proc e k)) as [ma cc] eqn:L. apply look_req in L. cbv zeta in H.
  set (o1 := if cop_eqb op RESTORE && _ then _ else _) in H. clearbody o1. di H; [injection H as <- _ _; exact L|]. set (mb := if cop_eqb o1 SAVE then set_atsave ma cc else ma) in H.
  assert (MB : m_req mb = m_req m) by (unfold mb; destruct (cop_eqb o1 SAVE); exact L). clearbody mb. ib H. destruct b; [injection H as <- _ _; exact MB|].
  destruct (cop_eqb o1 ENABLE || cop_eqb o1 DISABLE || cop_eqb o1 RESTORE).
  - destruct (close mb) as [mc oc] eqn:C2. apply close_req in C2. injection H as <- _ _. destruct (cop_eqb o1 SAVE); pj; congruence.
  - injection H as <- _ _. destruct (cop_eqb o1 SAVE); pj; congruence.
Qed.
Lemma control_req : forall g m e k en m1 o rc, control g m e k en = Some (m1, o, rc) -> m_req m1 = m_req m.
Proof.
  intros g m e k en m1 o rc H. unfold control in H. ib H. destruct p as [ma oa]. ib H. destruct p as [[mb ob] rb]. cbn [fst snd] in *. injection H as <- _ _. apply do_control_req in B0.
  destruct (m_saved m); [injection B as <- _; exact B0|]. ib B. destruct p as [[mc oc] rc0]. cbn [fst snd] in *. injection B as <- _. apply do_control_req in B1. rewrite B0. exact B1.
Qed.
Lemma control_change_req : forall g m e k m1 o, control_change g m e k = Some (m1, o) -> m_req m1 = m_req m.
Proof.
  intros g m e k m1 o H. unfold control_change, block in H. cbv zeta in H. set (cc := k_cc (m_nx m)) in *. set (want := Z.testbit (m_flags m) CLOCK_CTRL) in *.
  destruct (if Bool.eqb (m_blocked m) cc then (m, []) else (set_blocked m cc, [Block cc])) as [ma oa] eqn:BL. assert (MA : m_req ma = m_req m) by (destruct (Bool.eqb (m_blocked m) cc); injection BL as <- _; reflexivity).
  set (mb := if cc && negb want && negb (g_ctl g) then set_cons ma true false else ma) in *. assert (MB : m_req mb = m_req m) by (unfold mb; destruct (cc && negb want && negb (g_ctl g)); exact MA). clearbody mb.
  set (mc := if negb cc && want && negb (g_ctl g) then set_cons mb false true else mb) in *. assert (MC : m_req mc = m_req m) by (unfold mc; destruct (negb cc && want && negb (g_ctl g)); exact MB). clearbody mc.
  di H; [|injection H as <- _; exact MC]. ib H. destruct p as [[md od] rc]. apply control_req in B. injection H as <- _. destruct (rc =? 0); pj; congruence.
Qed.
Lemma update_req : forall g m e k m1 o, update_state g m e k = Some (m1, o) -> m_req m1 = m_req m.
Proof.
  intros g m e k m1 o H. unfold update_state in H. cbv zeta in H. set (c1 := negb (Bool.eqb _ _)) in H. ib H. destruct p as [ma oa].
  assert (MA : m_req ma = m_req m) by (destruct c1; [apply control_change_req in B; exact B|injection B as <- _; reflexivity]).
  destruct (state_change g ma) as [mb told] eqn:SC. assert (MB : m_req mb = m_req m) by (unfold state_change in SC; injection SC as <- _; destruct (_ && negb (g_ctl g)); exact MA). ib H. destruct p as [mc c3].
  assert (MC : m_req mc = m_req m).
  { unfold converge in B0. destruct (e_conv e) as [t|]; [|injection B0 as <- _; exact MB]. ib B0. injection B0 as <- _. destruct (negb (st_eqb _ SLAVE)); [injection B1 as <-; exact MB|]. destruct (negb (Z.testbit _ _)); [injection B1 as <-; exact MB|].
    destruct (k_idx (m_nx mb) =? -1); [discriminate|]. ib B1. ib B1. injection B1 as <-. exact MB. }
  ib H. ib H. injection H as <- _. pj. destruct (negb (id_eqb _ _)); [|exact MC]. unfold id_change. destruct (_ && _); exact MC.
Qed.

Lemma onward_asks : forall e m0 r q o upd m1 o1 upd1, issued e m0 r -> onward r q o upd = (m1, o1, upd1, false) -> m_q m1 = q /\ m_req m1 = m_req m0 /\ forall x, last_sent x o1 = Some (m_req m0).
Proof.
  intros e m0 r q o upd m1 o1 upd1 R H. inversion R; subst; cbn [onward] in H; try discriminate H.
  assert (E1 : set_q (set_exp m0 x) q = m1) by (apply (f_equal (fun z => fst (fst (fst z)))) in H; exact H). assert (E2 : o ++ [Sent (m_req m0)] = o1) by (apply (f_equal (fun z => snd (fst (fst z)))) in H; exact H).
  subst m1 o1. split; [reflexivity|]. split; [reflexivity|]. intros y. rewrite last_app. reflexivity.
Qed.
Lemma nexts_asks : forall e m q m1 o upd, nexts e m q (m1, o, upd, false) -> m_q m1 = SleepConn \/ m_q m1 = q /\ forall x, made 15 m1 (last_sent x o).
Proof.
  intros e m q m1 o upd N. inversion N as [s E P X|s r E P R X]; subst; [left; reflexivity|right].
  eapply onward_asks in X; [|exact R]. destruct X as (X1 & X2 & X3). split; [exact X1|]. intros x. unfold made. rewrite X3, X2. split; [reflexivity|]. unfold ask_datum. pj. rewrite request_enc. eauto.
Qed.
Lemma switch_asks : forall g m ev e k m1 o upd x, base g m -> asks m x -> switch g m ev e k = Some (m1, o, upd, false) -> asks m1 (last_sent x o).
Proof.
  intros g m ev e k m1 o upd y D A H. apply switch_cases in H.
  assert (MK : forall r q oo uu m0 cmd, issued e m0 r -> onward r q oo uu = (m1, o, upd, false) -> (exists a b, m_req m0 = request cmd a b) -> m_q m1 = q /\ made cmd m1 (last_sent y o)).
  { intros r q oo uu m0 cmd R X (a & b & E). eapply onward_asks in X; [|exact R]. destruct X as (X1 & X2 & X3). split; [exact X1|]. unfold made. rewrite X3, X2. split; [reflexivity|]. rewrite E, request_enc. eauto. }
  inversion H as [X|E X|r Q O E R X|Q O E X|s Q O E1 E2 P X|r Q E R X|ma o1 upd1 r Q E N R X|Q E L X|s r Q E L P R X|ma s r Q E HD P R X|b Q E HD N X|ma r Q E HD R X|ma b Q E HD N X|ma b Q E HD N X|rest ma o1 upd1 m2 m3 Q S T N HA SN X|rest ma o1 m2 Q S T R SN X|rest ma o1 Q S T R X]; subst; clear H; try exact I.
  - exact A.
  - eapply MK in X; [|exact R|unfold ask_sys; pj; eauto]. unfold asks. rewrite (proj1 X). exact I.
  - eapply MK in X; [|exact R|unfold ask_sys; pj; eauto]. unfold asks. rewrite (proj1 X). exact I.
  - eapply MK in X; [|exact R|unfold ask_count; pj; eauto]. unfold asks. rewrite (proj1 X). apply X.
  - eapply MK in X; [|exact R|unfold ask_datum; pj; eauto]. unfold asks. rewrite (proj1 X). apply X.
  - eapply MK in X; [|exact R|unfold ask_stats; pj; eauto]. unfold asks. rewrite (proj1 X). left. apply X.
  - apply nexts_asks in N. unfold asks. destruct N as [->|[-> N]]; [exact I|apply N].
  - assert (RQ : exists a b, m_req ma = request 57 a b). { unfold handle_stats in HD. di HD; [discriminate|]. ib HD. ib HD. di HD; [discriminate|]. di HD; [discriminate|]. injection HD as <-. pj. eauto. }
    eapply MK in X; [|exact R|exact RQ]. unfold asks. rewrite (proj1 X). apply X.
  - apply nexts_asks in N. unfold asks. destruct N as [->|[-> N]]; [exact I|right; apply N].
  - apply nexts_asks in N. unfold asks. destruct N as [->|[-> N]]; [exact I|apply N].
  - apply step_next_frame in SN. destruct SN as (t & -> & _). unfold asks. pj. destruct HA as [[_ ->]|(_ & s & P & ->)]; pj; [exact I|]. apply (next_control_base g) in N; [|exact D]. 
    assert (QN : m_q ma = SleepDisc) by (rewrite <- Q; apply N). rewrite QN. exact I.
  - apply step_next_frame in SN. destruct SN as (t & -> & _). unfold asks. pj. exact I.
Qed.
Lemma machine_asks : forall g m ev e k m1 o upd x, base g m -> asks m x -> machine g m ev e k = Some (m1, o, upd) -> asks m1 (last_sent x o).
Proof.
  intros g m ev e k m1 o upd x D A H. unfold machine in H. ib H. destruct p as [[ma oa] ua]. injection H as <- <- <-.
  assert (SW : forall ev', (do b <- switch g m ev' e k; let '(m2, o1, upd0, disc) := b in if (disc : bool) then let (m3, o2) := drop m2 in Some (m3, o1 ++ o2, true) else Some (m2, o1, upd0)) = Some (ma, oa, ua) -> asks ma (last_sent x oa)).
  { intros ev' H. ib H. destruct b as [[[mb ob] ub] disc]. destruct disc.
    - unfold drop in H. destruct (close mb) as [mc oc]. injection H as <- <- <-. exact I.
    - injection H as <- <- <-. eapply switch_asks; eassumption. }
  destruct ev; try (apply SW in B; exact B).
  - injection B as <- <- <-. exact A.
  - unfold drop in B. destruct (close m) as [mc oc]. injection B as <- <- <-. exact I.
Qed.
Lemma asks_eq : forall m m1 x, m_q m1 = m_q m -> m_req m1 = m_req m -> asks m x -> asks m1 x.
Proof. intros m m1 x Q R A. unfold asks, made in *. rewrite Q, R. exact A. Qed.
Lemma advance_asks : forall g m ev e k m1 o x, inv g m -> asks m x -> advance g m ev e k = Some (m1, o) -> asks m1 (last_sent x o).
Proof.
  intros g m ev e k m1 o x (I1 & I2 & I3 & I4 & I5) A H. unfold advance in H. ib H. destruct p as [[ma oa] upd]. pose proof (machine_ok g _ _ _ _ _ _ _ I1 I2 I3 B) as (A1 & A2 & (_ & _ & _ & _ & _ & _ & K7 & _ & K9) & _).
  assert (FS : fresh_save ma) by (unfold fresh_save in *; rewrite K7, K9; exact I4). apply (machine_asks g _ _ _ _ _ _ _ x I1 A) in B.
  destruct upd; [|injection H as <- <-; exact B]. ib H. destruct p as [mb ob]. cbn [fst snd] in H. injection H as <- <-. pose proof (update_req _ _ _ _ _ _ B0) as RQ. apply (update_ok g) in B0; [|exact A1|exact A2|exact FS]. destruct B0 as (_ & _ & _ & _ & _ & _ & Q & _ & _ & _ & _ & _ & _ & UO & _).
  rewrite last_app, (last_none ob) by (apply upd_none; exact UO). eapply asks_eq; eassumption.
Qed.
Lemma inv_resp : forall g m l, inv g m -> inv g (set_resp m (firstn 528 l ++ skipn (List.length (firstn 528 l)) (m_resp m))).
Proof.
  intros g m l ((D1 & D2 & D3 & D4) & I2). split; [|exact I2]. unfold base. pj. split; [exact D1|]. split; [exact D2|]. split; [|exact D4]. rewrite app_length, skipn_length, D3. rewrite firstn_length. lia.
Qed.
Lemma step_asks : forall g m o m1 l x, inv g m -> asks m x -> step g m o = Some (m1, l) -> asks m1 (last_sent x l).
Proof.
  intros g m o m1 l x IN A H. destruct o as [e|r e|mask flags e| | | | | ]; cbn [step] in H.
  - eapply advance_asks; eassumption.
  - unfold on_io in H. di H; [injection H as <- <-; exact A|]. destruct r as [y| |]; [|eapply advance_asks; eassumption|eapply advance_asks; eassumption]. cbv zeta in H.
    eapply advance_asks in H; [exact H|apply inv_resp; exact IN|exact A].
  - unfold on_control in H. cbv zeta in H. di H; [|injection H as <- <-; exact A]. destruct (look g m (e_proc e 0)) as [ma cc] eqn:L. pose proof (look_req _ _ _ _ _ L) as LR. apply (look_ev g) in L; [|exact IN]. destruct L as ((L1 & _) & (_ & L4 & _) & _).
    di H; [|injection H as <- <-; eapply asks_eq; [| |exact A]; pj; assumption]. di H; [injection H as <- <-; eapply asks_eq; [| |exact A]; pj; assumption|]. ib H. destruct p as [[mb ob] rc]. cbn [fst snd] in H. injection H as <- <-.
    pose proof (control_req _ _ _ _ _ _ _ _ B) as CR. apply (control_ev g) in B; [|exact L1]. destruct B as (_ & (_ & H4 & _) & CO & _). cbn [last_sent]. rewrite last_none by (apply ctl_none; exact CO). eapply asks_eq; [| |exact A]; pj; congruence.
  - injection H as <- <-. exact A.
  - ib H. ib H. injection H as <- <-. assert (NS : existsb is_sent (l0 ++ l1) = false).
    { rewrite existsb_app. unfold rt_stats in B. di B; [ib B|]; injection B as <-; unfold clustering in B0; (di B0; [ib B0|]); injection B0 as <-; reflexivity. }
    rewrite last_none by exact NS. exact A.
  - ib H. injection H as <- <-. unfold on_save in B. di B; [discriminate|]. ib B. injection B as <-. exact A.
  - ib H. injection H as <- <-. unfold on_topology in B. di B; [discriminate|]. ib B. injection B as <-. exact A.
  - injection H as <- <-. exact A.
Qed.
Lemma flat_cons : forall x o (l : list (op * list out)), flat ((x, o) :: l) = o ++ flat l.
Proof. reflexivity. Qed.
Lemma run_asks : forall g l m m1 log x, inv g m -> asks m x -> run g m l = Some (m1, log) -> asks m1 (last_sent x (flat log)).
Proof.
  intros g. induction l as [|y l IH]; intros m m1 log x IN A H; cbn [run] in H; [injection H as <- <-; exact A|]. ib H. destruct p as [ma oa]. ib H. destruct p as [mb lb]. cbn [fst snd] in *. injection H as <- <-.
  pose proof (step_asks _ _ _ _ _ _ IN A B) as A1. apply (step_ok g) in B; [|exact IN]. rewrite flat_cons, last_app. eapply IH; [apply B|exact A1|exact B0].
Qed.
Lemma live_asks : forall g p pre e l m o lp lr ll, live g p pre e l = Some (inr (m, o, lp, lr, ll)) -> Forall message pre -> inv g m /\ asks m (last_sent None (o ++ flat lp ++ lr ++ flat ll)).
Proof.
  intros g p pre e l m o lp lr ll H F. apply live_split in H. destruct H as (m0 & m1 & m2 & ST & R1 & RR & R2). apply startup_ok in ST. destruct ST as (S1 & S2 & S3 & _). pose proof (run_idle g pre m0 m1 lp F S3 S2 R1) as (X1 & _).
  apply (run_ok g) in R1; [|exact S1]. destruct R1 as (A1 & _). apply (on_run_ok g) in RR; [|apply A1|exact X1]. destruct RR as (B1 & _ & _ & m4 & o4 & o5 & EO & ADV & I4 & Q4 & _).
  assert (A2 : asks m2 (last_sent (last_sent None (o ++ flat lp ++ Look (e_proc e 0) :: o4)) o5)) by (eapply advance_asks; [exact I4|unfold asks; rewrite Q4; exact I|exact ADV]).
  assert (E : o ++ flat lp ++ lr ++ flat ll = (o ++ flat lp ++ Look (e_proc e 0) :: o4) ++ o5 ++ flat ll) by (rewrite EO; repeat (rewrite <- app_assoc; cbn [app]); reflexivity).
  split; [apply (run_ok g) in R2; [apply R2|apply B1]|]. rewrite E, last_app, last_app. eapply run_asks; [apply B1|exact A2|exact R2].
Qed.

(** ** Octets *)
Lemma reply_replies : forall m l rest ty cmd r a, m_resp m = l ++ rest -> Forall octet l -> (20 <= List.length l)%nat -> m_req m = enc_request cmd r a -> 0 <= cmd < 256 -> 0 <= ty < 256 -> reply_ok m ty = true -> replies (m_req m) l ty.
Proof.
  intros m l rest ty cmd r a R O L E C T H. unfold reply_ok in H. rewrite R in H.
  do 20 (destruct l as [|? l]; [cbn [List.length] in L; lia|]). clear L R.
  rewrite E in H |- *. unfold enc_request, replies, enc16, le32 in *. cbn [app be16 be32 oct nth Nat.add] in H.
  repeat match goal with HH : Forall octet (_ :: _) |- _ => pose proof (Forall_inv HH); apply Forall_inv_tail in HH end.
  unfold be32, be16, oct in H. cbn [app nth Nat.add] in H. repeat (apply andb_prop in H; destruct H as [H ?]).
  repeat match goal with HH : (_ =? _) = true |- _ => apply Z.eqb_eq in HH end. cbn [app skipn firstn]. unfold octet in *.
  assert (M : forall x, 0 <= x mod 256 < 256) by (intros; apply Z.mod_pos_bound; lia).
  pose proof (M r). pose proof (M (r / 256)). pose proof (M (r / 65536)). pose proof (M (r / 16777216)). pose proof (M cmd). pose proof (M (cmd / 256)). clear M.
  assert (C1 : cmd / 256 mod 256 = 0) by (rewrite Z.div_small by lia; reflexivity). assert (T1 : ty / 256 mod 256 = 0) by (rewrite Z.div_small by lia; reflexivity). assert (T2 : ty mod 256 = ty) by (apply Z.mod_small; lia).
  rewrite C1, T1, T2 in *. set (r0 := r mod 256) in *. set (r1 := r / 256 mod 256) in *. set (r2 := r / 65536 mod 256) in *. set (r3 := r / 16777216 mod 256) in *. set (cc := cmd mod 256) in *. clearbody r0 r1 r2 r3 cc.
  split; [apply (f_equal2 (fun a b => [a; b])); lia|]. split; [apply (f_equal2 (fun a b => [a; b])); lia|]. split; [apply (f_equal2 (fun a b => [a; b])); lia|].
  assert (z15 = r0 /\ z16 = r1 /\ z17 = r2 /\ z18 = r3) as (-> & -> & -> & ->) by lia. reflexivity.
Qed.
Lemma live_replies : forall g p pre e l m o lp lr ll, live g p pre e l = Some (inr (m, o, lp, lr, ll)) -> Forall message pre ->
  forall cmd seq arg, last_sent None (o ++ flat lp ++ lr ++ flat ll) = Some (enc_request cmd seq arg) -> 0 <= cmd < 256 ->
  forall e1 l1 l2, stranger cmd (enc_request cmd seq arg) l1 -> stranger cmd (enc_request cmd seq arg) l2 ->
  exists r, step g m (Io (Octets l2) e1) = match step g m (Io (Octets l1) e1) with Some (m1, outs) => Some (set_resp m1 r, outs) | None => None end.
Proof.
  intros g p pre e l m o lp lr ll H F cmd seq arg LS CR e1 l1 l2 S1 S2. destruct (live_asks _ _ _ _ _ _ _ _ _ _ H F) as [IN A]. rewrite LS in A. cbn [step]. unfold on_io.
  destruct (m_open m) eqn:O; cbn [negb]; [|exists (m_resp m); destruct m; reflexivity]. cbv zeta.
  assert (LN : forall x, stranger cmd (enc_request cmd seq arg) x -> (8 <=? List.length (firstn 528 x))%nat = true) by (intros x (_ & X & _); apply Nat.leb_le; rewrite firstn_length; lia). rewrite (LN l1 S1), (LN l2 S2).
  set (r1 := firstn 528 l1 ++ _). set (r2 := firstn 528 l2 ++ _).
  assert (RF : forall x r, stranger cmd (enc_request cmd seq arg) x -> r = firstn 528 x ++ skipn (List.length (firstn 528 x)) (m_resp m) -> refused (set_resp m r)).
  { intros x r (X1 & X2 & X3 & X4) E. 
    assert (RR : forall c ty, made c m (Some (enc_request cmd seq arg)) -> 0 <= c < 256 -> 0 <= ty < 256 -> reply_ok (set_resp m r) ty = true -> c = cmd /\ replies (enc_request cmd seq arg) x ty).
    { intros c ty (E1 & s & b & E2) C T RO. injection E1 as E1.
      assert (EC : c = cmd). { rewrite E2 in E1. apply (f_equal (fun z => nth 5 z 0)) in E1. cbn [enc_request app nth enc16] in E1. rewrite !Z.mod_small in E1 by lia. congruence. }
      subst c. split; [reflexivity|]. rewrite E1.
      apply (reply_replies (set_resp m r) (firstn 528 x) (skipn (List.length (firstn 528 x)) (m_resp m)) ty cmd s b) in RO; [|exact E|apply Forall_firstn; exact X1|rewrite firstn_length; lia|exact E2|exact C|exact T].
      change (m_req (set_resp m r)) with (m_req m) in RO. destruct RO as (Y1 & Y2 & Y3 & Y4). unfold replies. rewrite <- Y1, <- Y2, <- Y3, <- Y4. 
      do 20 (destruct x as [|? x]; [cbn [List.length] in X2; lia|]). repeat split; reflexivity. }
    unfold refused. change (m_q (set_resp m r)) with (m_q m). unfold asks in A. destruct (m_q m); try exact I.
    - destruct (reply_ok (set_resp m r) 2) eqn:RO; [|reflexivity]. exfalso. destruct (RR 14 2 A ltac:(lia) ltac:(lia) RO) as [<- X]. exact (X3 X).
    - destruct (reply_ok (set_resp m r) 3) eqn:RO; [|reflexivity]. exfalso. destruct (RR 15 3 A ltac:(lia) ltac:(lia) RO) as [<- X]. exact (X3 X).
    - destruct (reply_ok (set_resp m r) 6) eqn:RO; [|reflexivity]. exfalso. destruct A as [A|A]; [destruct (RR 34 6 A ltac:(lia) ltac:(lia) RO) as [<- X]; exact (X3 X)|destruct (RR 15 6 A ltac:(lia) ltac:(lia) RO) as [<- X]; exact (X4 eq_refl X)].
    - destruct (reply_ok (set_resp m r) 16) eqn:RO; [|reflexivity]. exfalso. destruct (RR 57 16 A ltac:(lia) ltac:(lia) RO) as [<- X]. exact (X3 X). }
  pose proof (RF l1 r1 S1 eq_refl) as F1. pose proof (RF l2 r2 S2 eq_refl) as F2. exists r2.
  assert (E : set_resp m r2 = set_resp (set_resp m r1) r2) by reflexivity. rewrite E in *.
  rewrite advance_resp; [|exact F1|exact F2|exact O|apply IN]. destruct (advance g (set_resp m r1) Traffic e1 0) as [[mx ox]|]; reflexivity.
Qed.

(** ** The wish *)
Lemma wants_new : forall old mask flags e, wants (new_flags old mask flags) = wish (wants old) (Control mask flags e).
Proof.
  intros. unfold wants, new_flags, wish. rewrite Z.lor_spec, Z.ldiff_spec, Z.land_spec. destruct (Z.testbit mask CLOCK_CTRL), (Z.testbit old CLOCK_CTRL), (Z.testbit flags CLOCK_CTRL); reflexivity.
Qed.
Lemma step_wish : forall g m o m1 l, inv g m -> g_ctl g = true -> step g m o = Some (m1, l) -> wants (m_flags m1) = wish (wants (m_flags m)) o /\ forallb (only (wish (wants (m_flags m)) o)) l = true.
Proof.
  intros g m o m1 l IN G H. pose proof (step_ok g m o m1 l IN H) as (_ & _ & ON). unfold op_wish in ON. destruct o as [e|r e|mask flags e| | | | | ]; (split; [|first [exact ON|rewrite <- (wants_new _ _ _ e); exact ON]]); cbn [step] in H.
  - apply (advance_ok g) in H; [|exact IN]. destruct H as (_ & -> & _). reflexivity.
  - unfold on_io in H. di H; [injection H as <- <-; reflexivity|]. destruct r as [y| |]; [|apply (advance_ok g) in H; [|exact IN]; destruct H as (_ & -> & _); reflexivity|apply (advance_ok g) in H; [|exact IN]; destruct H as (_ & -> & _); reflexivity].
    cbv zeta in H. apply (advance_ok g) in H; [|apply inv_resp; exact IN]. destruct H as (_ & -> & _). reflexivity.
  - rewrite <- (wants_new _ _ _ e). unfold on_control in H. cbv zeta in H. rewrite G in H. cbn [negb] in H. fold (new_flags (m_flags m) mask flags) in H. di H; [|injection H as <- <-; reflexivity]. destruct (look g m (e_proc e 0)) as [ma cc]. di H; [|injection H as <- <-; reflexivity]. ib H. injection H as <- _. reflexivity.
  - injection H as <- <-. reflexivity.
  - ib H. ib H. injection H as <- <-. reflexivity.
  - ib H. injection H as <- <-. reflexivity.
  - ib H. injection H as <- <-. reflexivity.
  - injection H as <- <-. reflexivity.
Qed.
Lemma run_wish : forall g l m m1 log, inv g m -> g_ctl g = true -> run g m l = Some (m1, log) -> wants (m_flags m1) = wishes (wants (m_flags m)) l /\ map fst log = l /\
  forall a x outs b, log = a ++ (x, outs) :: b -> forallb (only (wishes (wants (m_flags m)) (map fst a ++ [x]))) outs = true.
Proof.
  intros g. induction l as [|y l IH]; intros m m1 log IN G H; cbn [run] in H; [injection H as <- <-; repeat split; intros [|? a]; discriminate|]. ib H. destruct p as [ma oa]. ib H. destruct p as [mb lb]. cbn [fst snd] in *. injection H as <- <-.
  pose proof (step_wish _ _ _ _ _ IN G B) as [W1 W2]. apply (step_ok g) in B; [|exact IN]. destruct B as ((I1 & _) & _). destruct (IH _ _ _ I1 G B0) as (A1 & A2 & A3). unfold wishes in *. cbn [fold_left map fst]. rewrite <- W1. split; [exact A1|]. split; [rewrite A2; reflexivity|].
  intros a x outs b E. destruct a as [|z a]; cbn [app] in E; injection E as E1 E2.
  - subst y oa. exact W2.
  - subst z. cbn [map fst app fold_left]. rewrite <- W1. eapply A3. exact E2.
Qed.
Lemma live_wish : forall g p pre e l m o lp lr ll, live g p pre e l = Some (inr (m, o, lp, lr, ll)) -> Forall message pre -> g_ctl g = true ->
  exists w, (w = true -> wishes false pre = true) /\ existsb is_did (o ++ flat lp) = false /\
  (exists a b, lr = a ++ b /\ forallb (only (wishes false pre)) a = true /\ forallb (only w) b = true) /\
  forall a x outs b, ll = a ++ (x, outs) :: b -> forallb (only (wishes w (map fst a ++ [x]))) outs = true.
Proof.
  intros g p pre e l m o lp lr ll H F G. apply live_split in H. destruct H as (m0 & m1 & m2 & ST & R1 & RR & R2). apply startup_ok in ST. destruct ST as (S1 & S2 & S3 & S4 & _ & _ & _ & _ & S8 & _ & SF & _). pose proof (run_idle g pre m0 m1 lp F S3 S2 R1) as (X1 & _).
  pose proof (run_wish _ _ _ _ _ S1 G R1) as (W1 & W2 & W3). rewrite SF in W1, W3. change (wants (2 ^ TIMESTAMPS)) with false in *.
  assert (ND : existsb is_did (flat lp) = false).
  { clear - F S2 S3 S1 R1. revert m0 lp S1 S2 S3 R1. induction pre as [|x pre IH]; intros m0 lp S1 S2 S3 R1; cbn [run] in R1; [injection R1 as <- <-; reflexivity|]. ib R1. destruct p as [ma oa]. ib R1. destruct p as [mb lb]. cbn [fst snd] in *. injection R1 as <- <-.
    pose proof (run_idle g [x] m0 ma [(x, oa)]) as RI. cbn [run] in RI. rewrite B in RI. cbn [bind fst snd] in RI. destruct (RI (Forall_cons _ (Forall_inv F) (Forall_nil _)) S3 S2 eq_refl) as (E1 & E2 & _). pose proof (step_ok g _ _ _ _ S1 B) as ((I1 & _) & _).
    rewrite flat_cons, existsb_app. rewrite (IH (Forall_inv_tail F) _ _ I1 E1 E2 B0), orb_false_r. pose proof (Forall_inv F) as M. destruct x as [e|r e|mask flags e| | | | | ]; try contradiction; cbn [step] in B.
    - unfold on_control in B. rewrite S3 in B. cbn [andb] in B. injection B as <- <-. reflexivity.
    - injection B as <- <-. reflexivity.
    - ib B. ib B. injection B as <- <-. unfold rt_stats in B1. unfold clustering in B2. rewrite existsb_app. di B1; [ib B1; injection B1 as <-|injection B1 as <-]; (di B2; [ib B2; injection B2 as <-|injection B2 as <-]); reflexivity.
    - ib B. injection B as <- <-. unfold on_save in B1. di B1; [discriminate|]. ib B1. injection B1 as <-. reflexivity.
    - ib B. injection B as <- <-. unfold on_topology in B1. di B1; [discriminate|]. ib B1. injection B1 as <-. reflexivity.
    - injection B as <- <-. reflexivity. }
  apply (run_ok g) in R1; [|exact S1]. destruct R1 as (A1 & _). apply (on_run_ok g) in RR; [|apply A1|exact X1]. destruct RR as (B1 & _ & _ & m4 & o4 & o5 & EO & ADV & I4 & Q4 & _ & _ & _ & _ & _ & FL & ON).
  apply (advance_ok g) in ADV; [|exact I4]. destruct ADV as (_ & F2 & _ & _ & O5). destruct (run_wish _ _ _ _ _ (proj1 B1) G R2) as (V1 & V2 & V3). rewrite F2 in V3.
  exists (wants (m_flags m4)). split.
  { intros W. rewrite <- W1. destruct FL as [E|E]; rewrite E in W; [exact W|]. unfold wants in W. rewrite Z.ldiff_spec in W. change (Z.testbit (2 ^ CLOCK_CTRL) CLOCK_CTRL) with true in W. rewrite andb_false_r in W. discriminate. }
  split; [rewrite existsb_app, ND, orb_false_r, S8; destruct (controls p); reflexivity|]. split; [|exact V3].
  exists (Look (e_proc e 0) :: o4), o5. split; [rewrite EO; reflexivity|]. split; [cbn [forallb only]; rewrite <- W1; exact ON|exact O5].
Qed.
Lemma run_fst : forall g l m m1 log, run g m l = Some (m1, log) -> map fst log = l.
Proof. intros g. induction l as [|y l IH]; intros m m1 log R; cbn [run] in R; [injection R as <- <-; reflexivity|]. ib R. ib R. injection R as <- <-. cbn [map fst]. f_equal. destruct p0 as [mb lb]. exact (IH _ _ _ B0). Qed.
Lemma live_fst : forall g p pre e l m o lp lr ll, live g p pre e l = Some (inr (m, o, lp, lr, ll)) -> map fst ll = l.
Proof. intros g p pre e l m o lp lr ll H. apply live_split in H. destruct H as (m0 & m1 & m2 & _ & _ & _ & R). exact (run_fst _ _ _ _ _ R). Qed.
