(** Proofs for the chrony module, part 4: clock control, updates and whole histories. *)
Require Import ZArith QArith List Bool Lia.
Require Import Verif.Base Verif.TimeSpec Verif.TimeModel Verif.QLib Verif.ListLib Verif.StatsModel Verif.CrnSpec Verif.CrnModel Verif.CrnProof Verif.CrnProof2 Verif.CrnProof3.
Import ListNotations.
Open Scope Z_scope.

Lemma block_run_app : forall a b o, block_run o (a ++ b) = do x <- block_run o a; block_run x b.
Proof. induction a as [|x a IH]; intros b o; [reflexivity|]. destruct x; cbn [app block_run bind]; auto. destruct (Bool.eqb o b0); auto. Qed.
Lemma told_run_app : forall a b o, told_run o (a ++ b) = do x <- told_run o a; told_run x b.
Proof. induction a as [|x a IH]; intros b o; [reflexivity|]. destruct x; cbn [app told_run bind]; auto; match goal with |- context [st_eqb ?x ?y] => destruct (st_eqb x y) end; auto. Qed.
(** An end with a fresh look does not depend on what was seen. *)
Lemma cmd_run_app : forall a b s w, cmd_run s w (a ++ b) = do x <- cmd_run s w a; cmd_run x (saw_end w a) b.
Proof.
  induction a as [|x a IH]; intros b s w; [reflexivity|]. destruct x; cbn [app cmd_run bind saw_end]; auto.
  destruct o; cbn [bind]; auto; [destruct (s && _); auto|destruct (s && _); auto|destruct s; auto].
Qed.
Lemma cmd_run_none : forall l s w, existsb is_did l = false -> cmd_run s w l = Some s.
Proof.
  induction l as [|x l IH]; intros s w H; [reflexivity|]. cbn [existsb] in H. apply orb_false_elim in H. destruct H as [A B]. destruct x; try discriminate A; cbn [cmd_run]; auto.
Qed.
(** A history that is in order without knowing what was seen before it is in order anyhow. *)
Lemma cmd_run_any : forall l s x w, cmd_run s None l = Some x -> cmd_run s w l = Some x.
Proof.
  induction l as [|o l IH]; intros s x w H; [exact H|]. destruct o; cbn [cmd_run] in *; try (apply IH; exact H); try exact H.
  destruct o; try discriminate H; try (rewrite andb_false_r in H; discriminate H).
  destruct s; [discriminate|]. apply IH; exact H.
Qed.
Lemma cmd_run_join : forall a b s w x y, cmd_run s w a = Some x -> cmd_run x None b = Some y -> cmd_run s w (a ++ b) = Some y.
Proof. intros a b s w x y A B. rewrite cmd_run_app, A. cbn [bind]. apply cmd_run_any. exact B. Qed.

(** ** Clock control *)
(** What clock control leaves alone. *)
Definition held (m m1 : cm) : Prop :=
  m_flags m1 = m_flags m /\ m_q m1 = m_q m /\ m_idx m1 = m_idx m /\ m_next m1 = m_next m /\ m_st m1 = m_st m /\ m_nx m1 = m_nx m /\ m_conv m1 = m_conv m /\
  m_resp m1 = m_resp m /\ m_addr m1 = m_addr m /\ m_blocked m1 = m_blocked m /\ m_phase m1 = m_phase m.
Ltac hd := unfold held; pj; auto 14.
Lemma held_refl : forall m, held m m. Proof. hd. Qed.
Lemma held_trans : forall a b c, held a b -> held b c -> held a c.
Proof.
  intros a b c (K1 & K2 & K3 & K4 & K5 & K6 & K7 & K8 & K9 & KA & KB) (L1 & L2 & L3 & L4 & L5 & L6 & L7 & L8 & L9 & LA & LB). unfold held. repeat split; congruence.
Qed.
Definition ctl_out (o : out) : bool := match o with Look _ | Close | Did _ _ => true | _ => false end.
Definition fresh_save (m : cm) : Prop := m_saved m = false -> m_last m = null_time.
Lemma look_base : forall g m p m' cc, base g m -> look g m p = (m', cc) -> base g m' /\ held m m' /\ m_open m' = m_open m /\ m_saved m' = m_saved m /\ m_last m' = m_last m /\ m_atsave m' = m_atsave m /\ cc = controls p /\ m_running m' = seen p.
Proof.
  intros g m p m' cc (D1 & D2 & D3 & D4 & D5 & D6) H. assert (cc = controls p) by (rewrite <- (look_controls g m p), H; reflexivity).
  apply look_frame in H. destruct H as (a & b & -> & A1 & A2). split; [unfold base; pj; auto 10|]. split; [hd|]. pj. auto 10.
Qed.
Lemma unlinked_held : forall m m1, unlinked m -> held m m1 -> (m_open m1 = true -> m_open m = true) -> unlinked m1.
Proof.
  intros m m1 U (_ & Q & _) O. unfold unlinked in *. rewrite Q. intros X. specialize (U X). destruct (m_open m1); [|reflexivity]. rewrite O in U by reflexivity. exact U.
Qed.

Lemma do_control_ok : forall g m e k req m1 o rc, base g m -> fresh_save m -> (req = SAVE -> m_saved m = false) -> (req = SAVE \/ req = ENABLE \/ req = DISABLE) ->
  do_control g m e k req = Some (m1, o, rc) ->
  base g m1 /\ held m m1 /\ (m_open m1 = true -> m_open m = true) /\ conn_run (m_open m) o = Some (m_open m1) /\ m_saved m1 = m_saved m /\ (req = SAVE -> m_last m1 = m_last m) /\
  (m_saved m = true -> m_saved m1 = true) /\
  (g_ctl g = false -> o = [] /\ rc = ENOSYS /\ m1 = m) /\
  (g_ctl g = true -> exists t, o = Look (e_proc e k) :: t /\ (t = [] \/ exists r, (t = [Did req r] \/ t = [Close; Did req r]) /\ (req = ENABLE -> controls (e_proc e k) = false) /\ (req = DISABLE -> controls (e_proc e k) = true)) /\
                    (req = SAVE -> exists r, t = [Did SAVE r])).
Proof.
  intros g m e k req m1 o rc D FS SV RQ H. unfold do_control in H. destruct (g_ctl g) eqn:G; cbn [negb] in H.
  2:{ injection H as <- <- <-. split; [exact D|]. split; [hd|]. split; [auto|]. split; [reflexivity|]. split; [auto|]. split; [auto|]. split; [auto|]. split; [auto|discriminate]. }
  destruct (look g m (e_proc e k)) as [ml cc] eqn:L. apply (look_base g) in L; [|exact D]. destruct L as (L1 & L2 & L3 & L4 & L5 & L6 & -> & L7).
  set (op1 := if (cop_eqb req ENABLE && controls (e_proc e k)) || (cop_eqb req DISABLE && negb (controls (e_proc e k))) then NOP else req) in *.
  assert (NR : cop_eqb req RESTORE = false) by (destruct RQ as [->|[->| ->]]; reflexivity). rewrite NR in H. cbn [andb] in H.
  assert (OP : op1 = NOP /\ req <> SAVE \/ op1 = req /\ (req = ENABLE -> controls (e_proc e k) = false) /\ (req = DISABLE -> controls (e_proc e k) = true)).
  { unfold op1. destruct RQ as [->|[->| ->]]; cbn; destruct (controls (e_proc e k)); cbn; auto; try (left; split; [reflexivity|discriminate]); right; split; auto; split; congruence. }
  clearbody op1. destruct OP as [[-> NS]|(-> & EN & DI)].
  - cbn [cop_eqb] in H. injection H as <- <- <-. split; [exact L1|]. split; [exact L2|]. split; [congruence|]. split; [cbn [conn_run]; congruence|]. split; [exact L4|]. split; [intros; exact L5|]. split; [congruence|].
    split; [discriminate|]. intros _. exists []. split; [reflexivity|]. split; [auto|]. intros X. contradiction.
  - assert (NN : cop_eqb req NOP = false) by (destruct RQ as [->|[->| ->]]; reflexivity). rewrite NN in H.
    ib H. rename b into early. destruct early.
    + injection H as <- <- <-. assert (req <> SAVE).
      { intros ->. cbn [cop_eqb negb andb] in B. pj. rewrite L5, FS in B by (apply SV; reflexivity). cbn in B. discriminate. }
      replace (cop_eqb req SAVE) with false by (destruct RQ as [->|[->| ->]]; [contradiction|reflexivity|reflexivity]).
      split; [exact L1|]. split; [exact L2|]. split; [congruence|]. split; [cbn [conn_run]; congruence|]. split; [exact L4|]. split; [intros; exact L5|]. split; [congruence|].
      split; [discriminate|]. intros _. exists []. split; [reflexivity|]. split; [auto|]. intros X. contradiction.
    + destruct RQ as [->|RQ].
      * cbn [cop_eqb orb] in H. injection H as <- <- <-. pj. split; [exact L1|]. split; [exact L2|]. split; [congruence|]. split; [cbn [conn_run app]; congruence|]. split; [exact L4|]. split; [intros; exact L5|]. split; [congruence|].
        split; [discriminate|]. intros _. eexists. split; [reflexivity|]. split; [right; eexists; split; [left; reflexivity|auto]|eauto].
      * assert (E1 : cop_eqb req SAVE = false) by (destruct RQ as [->| ->]; reflexivity). assert (E2 : cop_eqb req ENABLE || cop_eqb req DISABLE || cop_eqb req RESTORE = true) by (destruct RQ as [->| ->]; reflexivity).
        rewrite E1, E2 in H. unfold close in H. rewrite L3 in H. destruct (m_open m) eqn:O; injection H as <- <- <-; pj.
        -- split; [exact L1|]. split; [exact L2|]. split; [discriminate|]. split; [reflexivity|]. split; [exact L4|]. split; [intros ->; discriminate E1|]. split; [congruence|].
           split; [discriminate|]. intros _. eexists. split; [reflexivity|]. split; [right; eexists; split; [right; reflexivity|auto]|]. intros ->; discriminate E1.
        -- split; [exact L1|]. split; [exact L2|]. split; [congruence|]. split; [cbn [conn_run app]; congruence|]. split; [exact L4|]. split; [intros ->; discriminate E1|]. split; [congruence|].
           split; [discriminate|]. intros _. eexists. split; [reflexivity|]. split; [right; eexists; split; [left; reflexivity|auto]|]. intros ->; discriminate E1.
Qed.
Lemma control_ok : forall g m e k en m1 o rc, base g m -> fresh_save m -> control g m e k en = Some (m1, o, rc) ->
  base g m1 /\ held m m1 /\ (m_open m1 = true -> m_open m = true) /\ conn_run (m_open m) o = Some (m_open m1) /\ m_saved m1 = true /\ forallb ctl_out o = true /\ forallb (only en) o = true /\
  (g_ctl g = false -> o = [] /\ rc = ENOSYS /\ m_must m1 = m_must m /\ m_cannot m1 = m_cannot m) /\ (g_ctl g = true -> cmd_run (m_saved m) None o = Some true).
Proof.
  intros g m e k en m1 o rc D FS H. unfold control in H. ib H. destruct p as [ma oa]. cbn [fst snd] in H. ib H. destruct p as [[mb ob] rb]. cbn [fst snd] in H. injection H as <- <- <-.
  assert (A : base g ma /\ held m ma /\ (m_open ma = true -> m_open m = true) /\ conn_run (m_open m) oa = Some (m_open ma) /\ m_saved ma = true /\ forallb ctl_out oa = true /\ forallb (only en) oa = true /\
    (g_ctl g = false -> oa = [] /\ m_must ma = m_must m /\ m_cannot ma = m_cannot m) /\ (g_ctl g = true -> cmd_run (m_saved m) None oa = Some true)).
  { destruct (m_saved m) eqn:S.
    - injection B as <- <-. split; [exact D|]. split; [hd|]. split; [auto|]. split; [reflexivity|]. split; [exact S|]. split; [reflexivity|]. split; [reflexivity|]. split; [auto|]. intros _. reflexivity.
    - ib B. destruct p as [[mc oc] rc]. cbn [fst snd] in B. injection B as <- <-. pose proof B1 as B1'. apply (do_control_ok g) in B1; [|exact D|exact FS|auto|auto].
      destruct B1 as (X1 & X2 & X3 & X4 & X5 & X6 & _ & X7 & X8). split; [exact X1|]. split; [exact X2|]. split; [exact X3|]. split; [exact X4|]. split; [reflexivity|].
      destruct (g_ctl g) eqn:G.
      + destruct (X8 eq_refl) as (t & -> & _ & Y). destruct (Y eq_refl) as (r & ->). split; [reflexivity|]. split; [reflexivity|]. split; [discriminate|]. intros _. reflexivity.
      + destruct (X7 eq_refl) as (-> & _ & ->). split; [reflexivity|]. split; [reflexivity|]. split; [auto|discriminate]. }
  destruct A as (A1 & A2 & A3 & A4 & A5 & A6 & A7 & A8 & A9).
  apply (do_control_ok g) in B0; [|exact A1|intros X; congruence|destruct en; discriminate|destruct en; auto].
  destruct B0 as (X1 & X2 & X3 & X4 & X5 & X6 & XS & X7 & X8).
  assert (X9 : forallb ctl_out ob = true /\ forallb (only en) ob = true /\ (g_ctl g = true -> cmd_run true None ob = Some true)).
  { destruct (g_ctl g).
    - destruct (X8 eq_refl) as (t & -> & [->|(r & [->| ->] & Y1 & Y2)] & _); [split; [reflexivity|]; split; reflexivity| |];
        (split; [reflexivity|]; split; [destruct en; reflexivity|]; intros _; cbn [cmd_run]; destruct en; [rewrite Y1 by reflexivity; reflexivity|rewrite Y2 by reflexivity; reflexivity]).
    - destruct (X7 eq_refl) as (-> & _). split; [reflexivity|]. split; [reflexivity|discriminate]. }
  destruct X9 as (Z1 & Z2 & Z3).
  split; [exact X1|]. split; [eapply held_trans; eassumption|]. split; [auto|]. split; [rewrite conn_run_app, A4; exact X4|]. split; [auto|].
  split; [rewrite forallb_app, A6, Z1; reflexivity|]. split; [rewrite forallb_app, A7, Z2; reflexivity|]. split.
  - intros G. destruct (A8 G) as (-> & M1 & M2). destruct (X7 G) as (-> & -> & ->). auto.
  - intros G. eapply cmd_run_join; [apply A9; exact G|apply Z3; exact G].
Qed.

Definition upd_out (o : out) : bool := match o with Look _ | Close | Did _ _ | Block _ | Told _ | Cluster _ _ | History _ _ => true | _ => false end.
Definition chg_out (o : out) : bool := match o with Look _ | Close | Did _ _ | Block _ => true | _ => false end.
Definition is_look (o : out) : bool := match o with Look _ => true | _ => false end.
Lemma ctl_upd : forall o, forallb ctl_out o = true -> forallb chg_out o = true.
Proof. intros o H. rewrite forallb_forall in *. intros x X. specialize (H x X). destruct x; try discriminate H; reflexivity. Qed.
Lemma chg_upd : forall o, forallb chg_out o = true -> forallb upd_out o = true /\ (forall s, ~ In (Told s) o).
Proof.
  intros o H. rewrite forallb_forall in H. split.
  - rewrite forallb_forall. intros x X. specialize (H x X). destruct x; try discriminate H; reflexivity.
  - intros s X. specialize (H _ X). discriminate H.
Qed.
Lemma ctl_quiet : forall g o, forallb ctl_out o = true -> Forall unsynced o /\ Forall (free g) o /\ (forall b, block_run b o = Some b) /\ (forall s, told_run s o = Some s).
Proof.
  intros g. induction o as [|x o IH]; intros H; [repeat split; constructor|]. cbn [forallb] in H. apply andb_prop in H. destruct H as [A B]. destruct (IH B) as (I1 & I2 & I3 & I4).
  destruct x; try discriminate A; (split; [constructor; [exact I|exact I1]|]); (split; [constructor; [exact I|exact I2]|]); split; intros; cbn; auto.
Qed.
Lemma block_ok : forall m b m1 o, block m b = (m1, o) -> m1 = set_blocked m b /\ block_run (m_blocked m) o = Some b /\ (o = [] \/ o = [Block b]).
Proof.
  intros m b m1 o H. unfold block in H. destruct (Bool.eqb (m_blocked m) b) eqn:E; injection H as <- <-.
  - apply eqb_prop in E. split; [subst b; destruct m; reflexivity|]. split; [cbn; congruence|auto].
  - split; [reflexivity|]. cbn [block_run]. rewrite E. auto.
Qed.
(** The state without its view of clock control. *)
Definition alike (a b : cst) : Prop := exists c, a = with_cc b c.
Lemma alike_refl : forall a, alike a a. Proof. intros a. exists (k_cc a). destruct a; reflexivity. Qed.
Lemma control_change_ok : forall g m e k m1 o, base g m -> unlinked m -> fresh_save m -> control_change g m e k = Some (m1, o) ->
  base g m1 /\ unlinked m1 /\ fresh_save m1 /\ m_flags m1 = m_flags m /\ m_phase m1 = m_phase m /\ m_q m1 = m_q m /\ m_next m1 = m_next m /\ m_st m1 = m_st m /\ alike (m_nx m1) (m_nx m) /\ m_conv m1 = m_conv m /\ m_idx m1 = m_idx m /\
  conn_run (m_open m) o = Some (m_open m1) /\ block_run (m_blocked m) o = Some (m_blocked m1) /\ m_blocked m1 = k_cc (m_nx m) /\ forallb chg_out o = true /\ forallb (only (wants (m_flags m))) o = true /\
  Forall unsynced o /\ Forall (free g) o /\ (forall s, told_run s o = Some s) /\
  (g_ctl g = false -> existsb is_did o = false /\ existsb is_look o = false /\ m_nx m1 = m_nx m) /\
  (g_ctl g = true -> cmd_run (m_saved m) None o = Some (m_saved m1)).
Proof.
  intros g m e k m1 o D U FS H. unfold control_change in H. destruct (block m (k_cc (m_nx m))) as [mb ob] eqn:BL. apply block_ok in BL. destruct BL as (-> & BR & BO).
  assert (OB : forallb chg_out ob = true /\ (forall b, forallb (only b) ob = true) /\ Forall unsynced ob /\ Forall (free g) ob /\ (forall s, told_run s ob = Some s) /\ existsb is_did ob = false /\ existsb is_look ob = false /\ (forall c, conn_run c ob = Some c)).
  { destruct BO as [->| ->]; repeat split; repeat constructor. }
  destruct OB as (O1 & O2 & O3 & O4 & O5 & O6 & O7 & O8).
  set (want := Z.testbit (m_flags m) CLOCK_CTRL) in *. change want with (wants (m_flags m)) in *. clearbody want.
  set (mc := if k_cc (m_nx m) && negb (wants (m_flags m)) && negb (g_ctl g) then set_cons (set_blocked m (k_cc (m_nx m))) true false else set_blocked m (k_cc (m_nx m))) in *.
  set (md := if negb (k_cc (m_nx m)) && wants (m_flags m) && negb (g_ctl g) then set_cons mc false true else mc) in *.
  assert (X : base g md /\ held (set_blocked m (k_cc (m_nx m))) md /\ m_open md = m_open m /\ m_saved md = m_saved m /\ m_last md = m_last m).
  { assert (C : base g mc /\ held (set_blocked m (k_cc (m_nx m))) mc /\ m_open mc = m_open m /\ m_saved mc = m_saved m /\ m_last mc = m_last m).
    { unfold mc. destruct (k_cc (m_nx m) && negb (wants (m_flags m)) && negb (g_ctl g)) eqn:E; [|split; [exact D|split; [hd|auto]]].
      split; [|split; [hd|auto]]. apply andb_prop in E. destruct E as [_ E]. apply negb_true_iff in E. destruct D as (D1 & D2 & D3 & D4 & D5 & D6). unfold base. pj. repeat (split; [assumption|]). split; [auto|]. rewrite E. discriminate. }
    clearbody mc. unfold md. destruct (negb (k_cc (m_nx m)) && wants (m_flags m) && negb (g_ctl g)) eqn:E; [|exact C].
    destruct C as (C1 & C2 & C3). split; [|split; [destruct C2 as (K1 & K2 & K3 & K4 & K5 & K6 & K7 & K8 & K9 & KA & KB); hd|exact C3]].
    apply andb_prop in E. destruct E as [_ E]. apply negb_true_iff in E. destruct C1 as (D1 & D2 & D3 & D4 & D5 & D6). unfold base. pj. repeat (split; [assumption|]). split; [discriminate|]. rewrite E. discriminate. }
  clearbody mc md. destruct X as (X1 & X2 & X3 & X4 & X5). pose proof X2 as (Y1 & Y2 & Y3 & Y4 & Y5 & Y6 & Y7 & Y8 & Y9 & YA & YB). pj.
  assert (UD : unlinked md) by (unfold unlinked in *; rewrite Y2, X3; exact U).
  assert (FD : fresh_save md) by (unfold fresh_save in *; rewrite X4, X5; exact FS).
  di H.
  - ib H. destruct p as [[mf of] rc]. injection H as <- <-.
    apply (control_ok g) in B; [|exact X1|exact FD]. destruct B as (Z1 & Z2 & Z3 & Z4 & Z5 & Z6 & Z7 & Z8 & Z9).
    destruct (ctl_quiet g of Z6) as (Q1 & Q2 & Q3 & Q4). pose proof Z2 as (W1 & W2 & W3 & W4 & W5 & W6 & W7 & W8 & W9 & WA & WB).
    assert (UF : unlinked mf) by (eapply unlinked_held; [exact UD|exact Z2|exact Z3]).
    assert (FIN : forall mr, (mr = mf \/ g_ctl g = true /\ exists c, mr = set_nx mf (with_cc (m_nx mf) c)) -> base g mr /\ unlinked mr /\ fresh_save mr /\ m_flags mr = m_flags m /\ m_phase mr = m_phase m /\ m_q mr = m_q m /\ m_next mr = m_next m /\ m_st mr = m_st m /\ alike (m_nx mr) (m_nx m) /\ m_conv mr = m_conv m /\ m_idx mr = m_idx m /\ m_open mr = m_open mf /\ m_blocked mr = k_cc (m_nx m) /\ m_saved mr = true /\ (g_ctl g = false -> m_nx mr = m_nx m)).
    { intros mr [->|(G & c & ->)]; pj.
      - split; [exact Z1|]. split; [exact UF|]. split; [intros E; congruence|]. repeat (split; [congruence|]). split; [rewrite W6, Y6; apply alike_refl|]. repeat (split; [congruence|]). congruence.
      - split; [apply base_nx; [exact Z1|]; apply Z1|]. split; [exact UF|]. split; [intros E; pj; congruence|]. repeat (split; [congruence|]). split; [rewrite W6, Y6; exists c; reflexivity|]. repeat (split; [congruence|]). rewrite G; discriminate. }
    match goal with |- base g ?mr /\ _ => set (mr0 := mr) end.
    assert (FF := FIN mr0). destruct FF as (F1 & F2 & F3 & F4 & F5 & F6 & F7 & F8 & F9 & FA & FB & FC & FE & FG & FH).
    { unfold mr0. destruct (rc =? 0) eqn:RC; [|auto]. right. split; [|eexists; reflexivity]. destruct (g_ctl g); [reflexivity|]. destruct (Z8 eq_refl) as (_ & -> & _). discriminate. }
    clearbody mr0. split; [exact F1|]. split; [exact F2|]. split; [exact F3|]. split; [exact F4|]. split; [exact F5|]. split; [exact F6|]. split; [exact F7|]. split; [exact F8|]. split; [exact F9|]. split; [exact FA|]. split; [exact FB|].
    split; [rewrite conn_run_app, O8; cbn [bind]; rewrite <- X3, Z4; congruence|]. split; [rewrite block_run_app, BR; cbn [bind]; rewrite Q3; congruence|]. split; [exact FE|].
    split; [rewrite forallb_app, O1; cbn; apply ctl_upd; exact Z6|]. split; [rewrite forallb_app, O2, Z7; reflexivity|].
    split; [apply Forall_app; auto|]. split; [apply Forall_app; auto|]. split; [intros s; rewrite told_run_app, O5; cbn [bind]; apply Q4|].
    split.
    + intros G. destruct (Z8 G) as (-> & _). rewrite app_nil_r. auto.
    + intros G. rewrite FG. rewrite cmd_run_app, (cmd_run_none ob) by exact O6. cbn [bind]. apply cmd_run_any. rewrite <- X4. apply Z9; exact G.
  - injection H as <- <-. split; [exact X1|]. split; [exact UD|]. split; [exact FD|]. repeat (split; [assumption|]). split; [rewrite Y6; apply alike_refl|]. split; [assumption|]. split; [assumption|].
    split; [rewrite X3; apply O8|]. split; [congruence|]. split; [assumption|]. split; [assumption|]. split; [apply O2|]. split; [assumption|]. split; [assumption|]. split; [assumption|].
    split; [auto|]. intros _. rewrite (cmd_run_none ob) by exact O6. congruence.
Qed.

(** ** Updates *)
Lemma clustering_ok : forall m s o, dull s -> clustering m s = Some o -> (o = [] /\ Z.testbit (m_flags m) DETERMINANT = false) \/ (exists x, o = [Cluster x false] /\ k_idx s = 0 /\ Z.testbit (m_flags m) DETERMINANT = true).
Proof.
  intros m s o D H. unfold clustering in H. di H; [|injection H as <-; auto]. ib H. injection H as <-. right. exists (q_off c).
  pose proof D as (_ & _ & D3 & _ & D5 & _). rewrite (not_slave _ D3), andb_false_r. split; [reflexivity|]. split; [|reflexivity]. destruct D5 as [E|E]; [exact E|]. rewrite E in B. discriminate.
Qed.
Lemma rt_stats_ok : forall s, dull s -> rt_stats s = Some [].
Proof. intros s (_ & _ & D3 & _). unfold rt_stats. rewrite not_slave by exact D3. reflexivity. Qed.
Lemma history_ok : forall s, dull s -> history s = Some [History None false].
Proof. intros s (_ & _ & D3 & _ & _ & _ & _ & _ & D9). unfold history. rewrite not_slave by exact D3. rewrite D9. reflexivity. Qed.
Lemma converge_ok : forall m t m1 c, dull (m_st m) -> dull (m_nx m) -> converge m t = Some (m1, c) -> c = false /\ exists cv, m1 = set_conv m cv.
Proof.
  intros m t m1 c S D H. unfold converge in H. destruct t as [t|]; [|injection H as <- <-; split; [reflexivity|]; exists (m_conv m); destruct m; reflexivity].
  pose proof D as (_ & _ & D3 & _ & _ & _ & _ & _ & D9). pose proof S as (_ & _ & _ & _ & _ & _ & _ & _ & S9). rewrite not_slave in H by exact D3. cbn [negb bind] in H. injection H as <- <-. pj.
  split; [rewrite S9; reflexivity|]. exists (conv_reset (m_conv m)). destruct m as [a1 a2 a3 a4 a5 a6 a7 a8 a9 a10 [b1 b2 b3 b4 b5 b6 b7 b8 b9 b10 b11 b12] a12 a13 a14 a15 a16 a17 a18 a19 a20 a21]. pj. rewrite D9. reflexivity.
Qed.
Lemma id_change_ok : forall m m1, (m1 = id_change m \/ m1 = m) -> exists u, m1 = set_nx m (with_unsafe (m_nx m) u).
Proof.
  intros m m1 [->| ->]; [unfold id_change; destruct (k_unsafe (m_nx m) && _); [eexists; reflexivity|]|]; exists (k_unsafe (m_nx m)); destruct m as [a1 a2 a3 a4 a5 a6 a7 a8 a9 a10 [b1 b2 b3 b4 b5 b6 b7 b8 b9 b10 b11 b12] a12 a13 a14 a15 a16 a17 a18 a19 a20 a21]; reflexivity.
Qed.
Definition same_core (a b : cst) : Prop := k_state a = k_state b /\ k_id a = k_id b /\ k_idx a = k_idx b /\ k_num a = k_num b /\ k_arr a = k_arr b /\ k_off a = k_off b /\ k_disp a = k_disp b /\ k_strat a = k_strat b /\ k_sync a = k_sync b /\ k_score a = k_score b.
Lemma same_core_dull : forall a b, same_core a b -> dull b -> dull a.
Proof. intros a b (E1 & E2 & E3 & E4 & E5 & E6 & E7 & E8 & E9 & EA) D. unfold dull in *. rewrite E1, E2, E3, E5, E6, E7, E8, E9. exact D. Qed.
Lemma update_ok : forall g m e k m1 o, base g m -> unlinked m -> fresh_save m -> update_state g m e k = Some (m1, o) ->
  base g m1 /\ unlinked m1 /\ fresh_save m1 /\ m_st m1 = m_nx m1 /\ m_flags m1 = m_flags m /\ m_phase m1 = m_phase m /\ m_q m1 = m_q m /\ m_next m1 = m_next m /\ m_idx m1 = m_idx m /\ same_core (m_nx m1) (m_nx m) /\
  conn_run (m_open m) o = Some (m_open m1) /\ block_run (m_blocked m) o = Some (m_blocked m1) /\ told_run (k_state (m_st m)) o = Some (k_state (m_st m1)) /\
  forallb upd_out o = true /\ forallb (only (wants (m_flags m))) o = true /\ Forall unsynced o /\ Forall (free g) o /\
  (g_ctl g = false -> existsb is_did o = false /\ existsb is_look o = false /\ k_cc (m_st m1) = k_cc (m_nx m) /\ (m_blocked m = k_cc (m_st m) -> m_blocked m1 = k_cc (m_st m1))) /\
  (g_ctl g = true -> cmd_run (m_saved m) None o = Some (m_saved m1)) /\
  (Z.testbit (m_flags m) DETERMINANT = true -> differs (m_nx m) (m_st m) = true -> k_idx (m_nx m) = 0) /\
  (forall s, In (Told s) o <-> differs (m_nx m) (m_st m) = true /\ s = status_of m1 (mkC (k_state (m_nx m)) None 0 false 0 [] (k_off (m_nx m)) (k_disp (m_nx m)) (k_strat (m_nx m)) false false (k_score (m_nx m)))).
Proof.
  intros g m e k m1 o D U FS H. unfold update_state in H.
  set (c1 := negb (Bool.eqb (k_cc (m_nx m)) (k_cc (m_st m)))) in *. assert (C1 : c1 = false -> k_cc (m_nx m) = k_cc (m_st m)) by (unfold c1; intros E; apply negb_false_iff, eqb_prop in E; exact E). clearbody c1.
  ib H. destruct p as [ma oa].
  assert (A : base g ma /\ unlinked ma /\ fresh_save ma /\ m_flags ma = m_flags m /\ m_phase ma = m_phase m /\ m_q ma = m_q m /\ m_next ma = m_next m /\ m_st ma = m_st m /\ alike (m_nx ma) (m_nx m) /\ m_idx ma = m_idx m /\
    conn_run (m_open m) oa = Some (m_open ma) /\ block_run (m_blocked m) oa = Some (m_blocked ma) /\ forallb chg_out oa = true /\ forallb (only (wants (m_flags m))) oa = true /\
    Forall unsynced oa /\ Forall (free g) oa /\ (forall s, told_run s oa = Some s) /\
    (g_ctl g = false -> existsb is_did oa = false /\ existsb is_look oa = false /\ m_nx ma = m_nx m /\ (m_blocked m = k_cc (m_st m) -> m_blocked ma = k_cc (m_nx m))) /\
    (g_ctl g = true -> cmd_run (m_saved m) None oa = Some (m_saved ma))).
  { destruct c1.
    - apply (control_change_ok g) in B; [|exact D|exact U|exact FS]. destruct B as (X1 & X2 & X3 & X4 & X5 & X6 & X7 & X8 & X9 & XC & XI & XA & XB & XE & XF & XG & XH & XJ & XK & XL & XM).
      repeat (split; [assumption|]). split; [|assumption]. intros G. destruct (XL G) as (L1 & L2 & L3). auto.
    - injection B as <- <-. split; [exact D|]. split; [exact U|]. split; [exact FS|]. split; [reflexivity|]. split; [reflexivity|]. split; [reflexivity|]. split; [reflexivity|]. split; [reflexivity|]. split; [apply alike_refl|].
      split; [reflexivity|]. split; [reflexivity|]. split; [reflexivity|]. split; [reflexivity|]. split; [reflexivity|]. split; [constructor|]. split; [constructor|]. split; [reflexivity|].
      split; [intros _; repeat (split; [reflexivity|]); intros ->; symmetry; auto|]. intros _. reflexivity. }
  destruct A as (A1 & A2 & A3 & A4 & A5 & A6 & A7 & A8 & A9 & AI & AA & AB & AC & AE & AF & AG & AH & AJ & AK). apply chg_upd in AC. destruct AC as [AC ACN].
  destruct (state_change g ma) as [mb told] eqn:SC. unfold state_change in SC.
  set (mb0 := if negb (st_eqb (k_state (m_nx ma)) (k_state (m_st ma))) && st_eqb (k_state (m_nx ma)) DISABLED && negb (g_ctl g) then set_cons ma false true else ma) in *.
  assert (SB : base g mb0 /\ held ma mb0 /\ m_open mb0 = m_open ma /\ m_saved mb0 = m_saved ma /\ m_last mb0 = m_last ma).
  { unfold mb0. destruct (negb (st_eqb (k_state (m_nx ma)) (k_state (m_st ma))) && st_eqb (k_state (m_nx ma)) DISABLED && negb (g_ctl g)) eqn:E; [|split; [exact A1|split; [hd|auto]]].
    apply andb_prop in E. destruct E as [_ E]. apply negb_true_iff in E. destruct A1 as (D1 & D2 & D3 & D4 & D5 & D6).
    split; [unfold base; pj; repeat (split; [assumption|]); split; [discriminate|rewrite E; discriminate]|]. split; [hd|auto]. }
  clearbody mb0. injection SC as <- <-. destruct SB as (B1 & B2 & B3 & B4 & B5). pose proof B2 as (H1 & H2 & H3 & H4 & H5 & H6 & H7 & H8 & H9 & HA & HB).
  ib H. destruct p as [mc c3]. apply converge_ok in B0; [|apply B1|apply B1]. destruct B0 as (-> & cv & ->).
  set (c4 := negb (id_eqb (k_id (m_nx (set_conv mb0 cv))) (k_id (m_st (set_conv mb0 cv))))) in *.
  assert (C4 : c4 = false). { unfold c4. pj. destruct B1 as ((_ & _ & _ & E1 & _) & (_ & _ & _ & E2 & _) & _). rewrite E1, E2. reflexivity. }
  clearbody c4. subst c4. cbv beta iota zeta in H. pj. rewrite !orb_false_r in H.
  assert (DB : dull (m_nx mb0)) by apply B1.
  ib H. rename l into o4. rewrite history_ok in H by exact DB. cbn [bind] in H. injection H as <- <-.
  assert (CORE : same_core (m_nx mb0) (m_nx m)) by (rewrite H6; destruct A9 as [c ->]; unfold same_core; pj; auto 12).
  assert (DIFF : differs (m_nx mb0) (m_st mb0) = differs (m_nx m) (m_st m)).
  { rewrite H5, A8. unfold differs. destruct CORE as (E1 & _ & _ & _ & _ & E2 & E3 & E4 & _). rewrite E1, E2, E3, E4. reflexivity. }
  set (told := if differs (m_nx mb0) (m_st mb0) then Some (status_of mb0 (m_nx mb0)) else None) in *.
  set (ot := match told with Some s => [Told s] | None => [] end) in *.
  set (mz := set_st (set_conv mb0 cv) (m_nx mb0)) in *.
  assert (Z4 : (o4 = [] \/ exists x, o4 = [Cluster x false]) /\ (Z.testbit (m_flags m) DETERMINANT = true -> differs (m_nx m) (m_st m) = true -> k_idx (m_nx m) = 0)).
  { destruct (c1 || match told with Some _ => true | None => false end) eqn:E.
    - rewrite rt_stats_ok in B0 by exact DB. cbn [bind] in B0. ib B0. injection B0 as <-. apply clustering_ok in B6; [|exact DB]. cbn [app]. pj.
      destruct B6 as [(-> & F)|(x & -> & K & F)]; rewrite H1, A4 in F; (split; [eauto|]); [rewrite F; discriminate|]. intros _ _. destruct CORE as (_ & _ & E1 & _). congruence.
    - injection B0 as <-. split; [auto|]. intros _ X. exfalso. apply orb_false_elim in E. destruct E as [_ E]. unfold told in E. rewrite DIFF, X in E. discriminate. }
  destruct Z4 as [Z4 ZD].
  assert (Q4 : (forall x, conn_run x o4 = Some x) /\ (forall x, block_run x o4 = Some x) /\ (forall x, told_run x o4 = Some x) /\ forallb upd_out o4 = true /\ (forall b, forallb (only b) o4 = true) /\ Forall unsynced o4 /\ Forall (free g) o4 /\ existsb is_did o4 = false /\ existsb is_look o4 = false /\ (forall s, ~ In (Told s) o4)).
  { destruct Z4 as [->|[x ->]]; repeat split; repeat constructor; intros s; cbn; intuition discriminate. }
  destruct Q4 as (Q1 & Q2 & Q3 & Q5 & Q6 & Q7 & Q8 & Q9 & QA & QB).
  assert (DZ : dull (m_st mz)) by exact DB.
  assert (T4 : (forall x, conn_run x ot = Some x) /\ (forall x, block_run x ot = Some x) /\ told_run (k_state (m_st m)) ot = Some (k_state (m_nx mb0)) /\ forallb upd_out ot = true /\ (forall b, forallb (only b) ot = true) /\ Forall unsynced ot /\ Forall (free g) ot /\ existsb is_did ot = false /\ existsb is_look ot = false /\
     (forall s, In (Told s) ot <-> differs (m_nx m) (m_st m) = true /\ s = status_of mb0 (m_nx mb0))).
  { unfold ot, told. rewrite DIFF. destruct (differs (m_nx m) (m_st m)) eqn:DF.
    - split; [reflexivity|]. split; [reflexivity|]. split; [reflexivity|]. split; [reflexivity|]. split; [reflexivity|]. split; [|split; [|split; [reflexivity|split; [reflexivity|]]]].
      + destruct DB as (_ & _ & D3 & _ & _ & D6 & _). repeat constructor; cbn; [exact D3|apply not_slave; exact D3|exact D6].
      + destruct B1 as (_ & _ & _ & _ & D6 & D7). repeat constructor; cbn; [exact D6|apply D7; assumption|apply D7; assumption].
      + intros s. cbn. split; [intros [E|[]]; injection E as <-; auto|intros [_ ->]; auto].
    - split; [reflexivity|]. split; [reflexivity|]. split.
      { cbn. f_equal. destruct CORE as (E1 & _). rewrite E1. unfold differs in DF. apply orb_false_elim in DF. destruct DF as [DF _]. apply orb_false_elim in DF. destruct DF as [DF _]. apply orb_false_elim in DF. destruct DF as [DF _].
        apply negb_false_iff, st_eqb_eq in DF. congruence. }
      split; [reflexivity|]. split; [reflexivity|]. split; [constructor|]. split; [constructor|]. split; [reflexivity|]. split; [reflexivity|]. intros s. cbn. split; [intros []|intros [E _]; discriminate]. }
  destruct T4 as (T1 & T2 & T3 & T5 & T6 & T7 & T8 & T9 & TA & TB). clearbody ot told.
  pose proof B1 as (BB1 & BB2 & BB3 & BB4 & BB5 & BB6).
  split; [unfold base, mz; pj; auto 10|]. split; [unfold unlinked, mz in *; pj; rewrite H2, B3; exact A2|]. split; [unfold fresh_save, mz in *; pj; rewrite B4, B5; exact A3|].
  split; [reflexivity|]. split; [unfold mz; pj; congruence|]. split; [unfold mz; pj; congruence|]. split; [unfold mz; pj; congruence|]. split; [unfold mz; pj; congruence|]. split; [unfold mz; pj; congruence|].
  split; [exact CORE|].
  split; [rewrite conn_run_app, AA; cbn [bind]; rewrite conn_run_app, Q1; cbn [bind]; rewrite conn_run_app, T1; cbn; unfold mz; pj; congruence|].
  split; [rewrite block_run_app, AB; cbn [bind]; rewrite block_run_app, Q2; cbn [bind]; rewrite block_run_app, T2; cbn; unfold mz; pj; congruence|].
  split; [rewrite told_run_app, AH; cbn [bind]; rewrite told_run_app, Q3; cbn [bind]; rewrite told_run_app, T3; reflexivity|].
  split; [rewrite !forallb_app, AC, Q5, T5; reflexivity|]. split; [rewrite !forallb_app, AE, Q6, T6; reflexivity|].
  split; [repeat (apply Forall_app; split; [assumption|]); repeat constructor|]. split; [repeat (apply Forall_app; split; [assumption|]); repeat constructor|].
  split; [|split].
  - intros G. destruct (AJ G) as (J1 & J2 & J3 & J4). rewrite !existsb_app, J1, J2, Q9, QA, T9, TA. split; [reflexivity|]. split; [reflexivity|]. unfold mz. pj. rewrite H6, J3, HA. split; [reflexivity|exact J4].
  - intros G. unfold mz. pj. rewrite B4. eapply cmd_run_join; [apply AK; exact G|]. apply cmd_run_none. rewrite !existsb_app, Q9, T9. reflexivity.
  - split; [exact ZD|]. intros s. rewrite !in_app_iff. split.
    + intros [X|[X|[X|X]]]; [exfalso; eapply ACN; eassumption|exfalso; eapply QB; eassumption| |exfalso; cbn in X; intuition discriminate].
      apply TB in X. destruct X as [X ->]. split; [exact X|]. unfold status_of, mz. pj. destruct CORE as (E1 & _ & _ & _ & _ & E2 & E3 & E4 & _ & E5). rewrite E1, E2, E3, E4, E5. reflexivity.
    + intros [X ->]. right. right. left. apply TB. split; [exact X|]. unfold status_of, mz. pj. destruct CORE as (E1 & _ & _ & _ & _ & E2 & E3 & E4 & _ & E5). rewrite E1, E2, E3, E4, E5. reflexivity.
Qed.
