(** Proofs about the PTP slave servo: consequences for whole histories. *)
Require Import ZArith QArith Qabs Qround List Bool Lia Lqa ZifyBool.
From Verif Require Import Base ListLib QLib TimeSpec TimeModel TimeProof FilterSpec FilterModel FilterProof
  SrvSpec SrvModel SrvProof FltModel FltProof PsvSpec PsvModel PsvProof PsvProof2 PsvProof3 PsvProof4 PsvProof5.
From Verif Require TsdSpec TsdModel TsdProof FltSpec.
Import ListNotations.
Open Scope Z_scope.

Lemma app_inj_len : forall (A : Type) (a b c d : list A), length a = length b -> a ++ c = b ++ d -> a = b /\ c = d.
Proof.
  intros A a. induction a as [|x a IH]; intros [|y b] c d L E; try discriminate; [auto|].
  injection L as L. cbn [app] in E. injection E as -> E. destruct (IH _ _ _ L E) as [-> ->]. auto.
Qed.

Lemma live_at : forall rd f l1 o l2 s ev log, live rd f (l1 ++ o :: l2) = Some (s, ev, log) ->
  exists s1 log1 s2 e log2, live rd f l1 = Some (s1, ev, log1) /\ call rd s1 o = Some (s2, e) /\
    log = log1 ++ e :: log2 /\ length log1 = length l1 /\ length log2 = length l2.
Proof.
  intros rd f l1 o l2. induction l2 as [|x l2 IH] using rev_ind; intros s ev log H.
  - destruct (live_snoc _ _ _ _ _ _ _ H) as [s1 [lg [e [A [B [-> LN]]]]]].
    exists s1, lg, s, e, []. auto.
  - rewrite app_comm_cons, app_assoc in H.
    destruct (live_snoc _ _ _ _ _ _ _ H) as [s1 [lg [e [A [B [-> LN]]]]]].
    destruct (IH _ _ _ A) as [s2 [lg2 [s3 [e3 [lg3 [C [D [-> [L1 L2]]]]]]]]].
    exists s2, lg2, s3, e3, (lg3 ++ [e]). rewrite <- app_assoc. cbn [app]. rewrite !app_length, L2. auto.
Qed.

Lemma acts_at : forall rd f l1 o l2 s ev log, FltSpec.rounding rd -> life_ok f -> hist_ok (l1 ++ o :: l2) ->
  live rd f (l1 ++ o :: l2) = Some (s, ev, log) ->
  exists log1 e log2 i i' adj clus, log = log1 ++ e :: log2 /\ length log1 = length l1 /\ length log2 = length l2 /\
    acts (conf_of (f_opts f)) (known f l1 log1) o e i i' adj clus.
Proof.
  intros rd f l1 o l2 s ev log RD LO HO H.
  destruct (live_at _ _ _ _ _ _ _ _ H) as [s1 [lg1 [s2 [e [lg2 [A [B [-> [L1 L2]]]]]]]]].
  assert (HO1 : hist_ok (l1 ++ [o])) by (apply (hist_ok_prefix _ l2); rewrite <- app_assoc; exact HO).
  destruct (live_ok rd f l1 s1 ev lg1 RD LO (hist_ok_prefix _ _ HO1) A) as [RP _].
  destruct (call_ok rd _ l1 _ s1 o s2 e RD RP HO1 B) as [_ AC].
  eexists lg1, e, lg2, _, _, _, _. split; [reflexivity|]. split; [exact L1|]. split; [exact L2|exact AC].
Qed.

Lemma view_of_app : forall g l1 log1 l2 log2 v, length log1 = length l1 ->
  view_of g v (l1 ++ l2) (log1 ++ log2) = view_of g (view_of g v l1 log1) l2 log2.
Proof.
  intros g l1. induction l1 as [|x l1 IH]; intros [|y log1] l2 log2 v H; try discriminate; [reflexivity|].
  cbn [app view_of]. apply IH. injection H as H. exact H.
Qed.

Lemma freq_request_only : forall k c f ev x, freq_request k c f ev -> In x ev ->
  writable k /\ exists t y, x = KFreq c t y /\
  (Qabs (realised (option_map fst (k_sys k)) t y - clamp (k_max k) f) <=
        match k_sys k with
        | Some (hz, maxf) => if Qle_bool (Qabs f) maxf then 0 else inject_Z 500 * hz
        | None => 0 end + half_unit)%Q.
Proof.
  intros k c f ev x [A B] I1. assert (W : writable k \/ ~ writable k).
  { unfold writable. destruct (k_ro k); [right; intros [X _]; discriminate|].
    destruct (Z_le_dec (k_blocked k) 0); [|right; intros [_ [X _]]; contradiction].
    destruct (k_sys k); [left; repeat split; auto; discriminate|].
    destruct (k_phc k); [left; repeat split; auto|]. right. intros [_ [_ X]]. discriminate X. reflexivity. }
  destruct W as [W|W]; [|rewrite (B W) in I1; destruct I1].
  split; [exact W|]. destruct (A W) as [t [y [-> D]]]. destruct I1 as [<-|[]]. eauto.
Qed.
Lemma freq_request_quiet : forall k c f ev c' off, freq_request k c f ev -> ~ In (KStep c' off) ev.
Proof. intros k c f ev c' off H I1. destruct (freq_request_only _ _ _ _ _ H I1) as [_ [t [y [X _]]]]. discriminate. Qed.
Lemma freq_request_ro : forall k c f ev, k_ro k = true -> freq_request k c f ev -> ev = [].
Proof. intros k c f ev R [_ B]. apply B. intros [X _]. congruence. Qed.

Lemma nothing_still : forall e, nothing e -> ~ jumped e.
Proof. intros e [A [B C]] [X|[c [off X]]]; [congruence|rewrite A in X; exact X]. Qed.

(** what a jump on a measurement entails *)
Lemma give_jump : forall g v m u e i i' adj clus, acts g v (Give m u) e i i' adj clus -> jumped e ->
  from_master m && e_acc e && w_cc v && negb (u_out u) = true /\
  exists ofm, permitted (c_ctrl g) (w_moved v) ofm.
Proof.
  intros g v m u e i i' adj clus A J. cbn [acts] in A.
  destruct (completes (w_ts v) (w_ops v) m) as [d|]; [|destruct A as [_ [A _]]; destruct (nothing_still _ A J)].
  destruct A as [ys [acc [c [y [_ [_ [_ [A1 A2]]]]]]]].
  destruct (e_acc e && from_master m) eqn:FA; [|destruct (A1 eq_refl) as [A1' _]; destruct (nothing_still _ A1' J)].
  apply andb_prop in FA as [-> ->]. destruct (A2 eq_refl) as [_ [ofm [mpd [_ ST]]]]. unfold steers in ST. cbv zeta in ST.
  destruct (u_out u); [destruct ST as [ST _]; destruct (nothing_still _ ST J)|].
  destruct (w_cc v); cbn [negb] in ST; [|destruct ST as [ST _]; destruct (nothing_still _ ST J)].
  split; [reflexivity|]. exists ofm. destruct ST as [_ [S1 S2]].
  destruct (Qlt_le_dec (Qabs ofm) (c_thr g)) as [L|L].
  - destruct (S2 L) as [X [Y _]]. exfalso. destruct J as [J|[c' [off J]]]; [congruence|].
    apply (freq_request_quiet _ _ _ _ _ _ Y J).
  - destruct (S1 L) as [_ P2].
    assert (D : permitted (c_ctrl g) (w_moved v) ofm \/ ~ permitted (c_ctrl g) (w_moved v) ofm).
    { destruct (c_ctrl g); cbn [permitted]; auto;
      try (destruct (w_moved v); [right; discriminate|left; reflexivity]).
      destruct (Qlt_le_dec ofm 0); [left; assumption|right; apply Qle_not_lt; assumption]. }
    destruct D as [D|D]; [exact D|]. exfalso. destruct (P2 D) as [X1 [_ [X2 [X3 X4]]]].
    destruct J as [J|[c' [off J]]]; [congruence|].
    assert (D2 : c_ctrl g = NO_ADJUST \/ c_ctrl g <> NO_ADJUST) by (destruct (c_ctrl g); auto; right; discriminate).
    destruct D2 as [D2|D2]; [rewrite (X2 D2) in J; exact J|].
    destruct (Qlt_le_dec ofm 0) as [N|N].
    + destruct (X3 D2 N) as [F _]. apply (freq_request_quiet _ _ _ _ _ _ F J).
    + destruct (X4 D2 N) as [F _]. apply (freq_request_quiet _ _ _ _ _ _ F J).
Qed.

Lemma moved_stays : forall g l log v, existsb is_restart l = false -> w_moved v = true ->
  w_moved (view_of g v l log) = true.
Proof.
  intros g l. induction l as [|o l IH]; intros [|e log] v R M; try exact M.
  cbn [existsb] in R. apply orb_false_elim in R as [R1 R2]. cbn [view_of]. apply IH; [exact R2|].
  destruct o; cbn [view_step is_restart] in *; try discriminate; try exact M.
  - unfold taken. destruct (e_stepped e); cbn [clean w_moved]; rewrite M; reflexivity.
  - destruct (c_ctrl g); exact M.
Qed.

Lemma once : forall rd f l1 m1 u1 l2 m2 u2 l3 s ev log1 e1 log2 e2 log3,
  FltSpec.rounding rd -> life_ok f ->
  (o_ctrl (f_opts f) = STEP_AT_STARTUP \/ o_ctrl (f_opts f) = STEP_ON_FIRST_LOCK) ->
  hist_ok (l1 ++ Give m1 u1 :: l2 ++ Give m2 u2 :: l3) ->
  live rd f (l1 ++ Give m1 u1 :: l2 ++ Give m2 u2 :: l3) = Some (s, ev, log1 ++ e1 :: log2 ++ e2 :: log3) ->
  length log1 = length l1 -> length log2 = length l2 ->
  jumped e1 -> jumped e2 -> existsb is_restart l2 = true.
Proof.
  intros rd f l1 m1 u1 l2 m2 u2 l3 s ev log1 e1 log2 e2 log3 RD LO PO HO H LN1 LN2 J1 J2.
  destruct (existsb is_restart l2) eqn:NR; [reflexivity|exfalso].
  destruct (acts_at rd f l1 _ _ s ev _ RD LO HO H) as [lgA [eA [lgA2 [i [i' [adj [clus [E1 [L1 [_ A1]]]]]]]]]].
  assert (X : lgA = log1 /\ eA :: lgA2 = e1 :: log2 ++ e2 :: log3) by (apply app_inj_len; [congruence|symmetry; exact E1]).
  destruct X as [-> X]. injection X as -> ->.
  destruct (give_jump _ _ _ _ _ _ _ _ _ A1 J1) as [B1 _].
  assert (EQ : l1 ++ Give m1 u1 :: l2 ++ Give m2 u2 :: l3 = (l1 ++ Give m1 u1 :: l2) ++ Give m2 u2 :: l3) by (rewrite <- app_assoc; reflexivity).
  rewrite EQ in HO, H.
  destruct (acts_at rd f _ _ _ s ev _ RD LO HO H) as [lgB [eB [lgB2 [j [j' [adj' [clus' [E2 [L2 [_ A2]]]]]]]]]].
  assert (Y : lgB = log1 ++ e1 :: log2 /\ eB :: lgB2 = e2 :: log3).
  { apply app_inj_len; [rewrite L2, !app_length; cbn [length]; congruence|]. rewrite <- E2, <- app_assoc. reflexivity. }
  destruct Y as [-> Y]. injection Y as -> ->.
  destruct (give_jump _ _ _ _ _ _ _ _ _ A2 J2) as [_ [ofm PM]].
  assert (MV : w_moved (known f (l1 ++ Give m1 u1 :: l2) (log1 ++ e1 :: log2)) = true).
  { unfold known. rewrite view_of_app by exact LN1. cbn [view_of]. apply moved_stays; [exact NR|].
    cbn [view_step]. unfold known in B1. unfold taken. destruct (e_stepped e1); cbn [clean w_moved]; rewrite B1, orb_true_r; reflexivity. }
  rewrite MV in PM. unfold conf_of in PM. cbn [c_ctrl] in PM. destruct PO as [PO|PO]; rewrite PO in PM; discriminate PM.
Qed.

(** ** Steps forward only *)
Lemma forward : forall rd f l1 m u l2 s ev log1 e log2 c off,
  FltSpec.rounding rd -> life_ok f -> o_ctrl (f_opts f) = STEP_FORWARD ->
  hist_ok (l1 ++ Give m u :: l2) -> within (2^49 * s_unit) (l1 ++ Give m u :: l2) ->
  live rd f (l1 ++ Give m u :: l2) = Some (s, ev, log1 ++ e :: log2) -> length log1 = length l1 ->
  In (KStep c off) (e_ev e) -> 0 <= off.
Proof.
  intros rd f l1 m u l2 s ev log1 e log2 c off RD LO PO HO WI H LN I1.
  destruct (acts_at rd f l1 _ _ s ev _ RD LO HO H) as [lgA [eA [lgA2 [i [i' [adj [clus [E1 [L1 [_ A]]]]]]]]]].
  assert (X : lgA = log1 /\ eA :: lgA2 = e :: log2) by (apply app_inj_len; [congruence|symmetry; exact E1]).
  destruct X as [-> X]. injection X as -> ->.
  assert (J : jumped e) by (right; eauto).
  assert (VF : vfits (2^49 * s_unit) (known f l1 log1)).
  { apply known_fits; [vm_compute; discriminate| |exact LN]. apply Forall_app in WI as [WI _]. exact WI. }
  assert (WM : op_within (2^49 * s_unit) m).
  { apply Forall_app in WI as [_ WI]. inversion WI; assumption. }
  cbn [acts] in A. set (v := known f l1 log1) in *.
  destruct (completes (w_ts v) (w_ops v) m) as [d|] eqn:CO; [|destruct A as [_ [A _]]; destruct (nothing_still _ A J)].
  destruct A as [ys [acc [cc [y [A0 [A0' [A0'' [A1 A2]]]]]]]].
  destruct (e_acc e && from_master m) eqn:FA; [|destruct (A1 eq_refl) as [A1' _]; destruct (nothing_still _ A1' J)].
  apply andb_prop in FA as [EA FM]. destruct (A2 eq_refl) as [_ [ofm [mpd [RE ST]]]]. unfold steers in ST. cbv zeta in ST.
  destruct (u_out u); [destruct ST as [ST _]; destruct (nothing_still _ ST J)|].
  destruct (w_cc v); cbn [negb] in ST; [|destruct ST as [ST _]; destruct (nothing_still _ ST J)].
  destruct ST as [_ [S1 S2]].
  assert (BD : (Qabs ofm <= TsdSpec.ns_of (6 * (2^49 * s_unit)))%Q).
  { rewrite EA in A0''. cbn [negb] in A0''. pose proof (chain_snoc _ _ _ _ _ _ _ _ A0 A0' A0'') as CH. cbn in CH.
    eapply (reported_fits (2^49 * s_unit)); [vm_compute; discriminate| |exact CH|exact RE].
    apply Forall_app. split; [apply VF|]. constructor; [|constructor].
    eapply completes_fits; [vm_compute; discriminate| |exact CO]. constructor; [exact WM|apply VF]. }
  assert (BD' : (Qabs ofm < inject_Z (2^52 * 1000000000))%Q).
  { eapply Qle_lt_trans; [exact BD|]. vm_compute. reflexivity. }
  destruct (Qlt_le_dec (Qabs ofm) (c_thr (conf_of (f_opts f)))) as [L|L].
  - destruct (S2 L) as [_ [Y _]]. destruct (freq_request_quiet _ _ _ _ _ _ Y I1).
  - destruct (S1 L) as [P1 P2]. assert (PC : c_ctrl (conf_of (f_opts f)) = STEP_FORWARD) by exact PO.
    rewrite PC in P1, P2. cbn [permitted] in P1, P2. destruct (Qlt_le_dec ofm 0) as [N|N].
    + destruct (P1 N) as [_ [_ SR]]. destruct (SR BD') as [R1 R2].
      assert (W : writable (u_w u (w_clock v)) \/ ~ writable (u_w u (w_clock v))).
      { destruct (k_ro (u_w u (w_clock v))) eqn:X1; [right; intros [X _]; congruence|].
        unfold writable. rewrite X1. destruct (Z_le_dec (k_blocked (u_w u (w_clock v))) 0); [|right; intros [_ [X _]]; contradiction].
        destruct (k_sys (u_w u (w_clock v))); [left; repeat split; auto; discriminate|].
        destruct (k_phc (u_w u (w_clock v))); [left; repeat split; auto|]. right. intros [_ [_ X]]. discriminate X. reflexivity. }
      destruct W as [W|W]; [|rewrite (R2 W) in I1; destruct I1].
      destruct (R1 W) as [off' [ev2 [E [D F]]]]. rewrite E in I1. destruct I1 as [I1|I1]; [|destruct (freq_request_quiet _ _ _ _ _ _ F I1)].
      injection I1 as <- <-. apply Qabs_Qle_condition in D as [D1 _].
      unfold TsdSpec.ns_of in D1.
      assert (G : (-1 # 4294967296 < off' # 4294967296)%Q) by (set (z := (off' # 4294967296)%Q) in *; lra).
      unfold Qlt in G. cbn [Qnum Qden] in G. lia.
    + assert (NP : ~ (ofm < 0)%Q) by (apply Qle_not_lt; exact N).
      destruct (P2 NP) as [_ [_ [_ [_ X4]]]]. destruct (X4 ltac:(discriminate) N) as [F _].
      destruct (freq_request_quiet _ _ _ _ _ _ F I1).
Qed.

(** ** Every request *)
Definition requests (k : kclk) (c : nat) (ev : list kev) : Prop :=
  ev = [] \/ (exists f, freq_request k c f ev) \/ (exists a f, step_request k c a f ev) \/
  (exists f1 f2 ev1 ev2, ev = ev1 ++ ev2 /\ freq_request k c f1 ev1 /\ freq_request k c f2 ev2).

Lemma requests_at : forall B g v o e i i' adj clus, 0 <= B -> 6 * B < 2^52 * s_unit ->
  acts g v o e i i' adj clus -> vfits B v -> match o with Give m _ => op_within B m | _ => True end ->
  match clocks_of o with
  | None => e_ev e = []
  | Some w => requests (w (match o with SetClock c _ _ => c | _ => w_clock v end))
                       (match o with SetClock c _ _ => c | _ => w_clock v end) (e_ev e)
  end.
Proof.
  intros B g v o e i i' adj clus P1 P2 A VF W.
  destruct o as [m u|t cc w|off w os1 os2|w os|c w os|t|kp ki kd r| |w os1 os2]; cbn [clocks_of acts] in *.
  - destruct (completes (w_ts v) (w_ops v) m) as [d|] eqn:CO; [|left; apply A].
    destruct A as [ys [acc [cc [y [A0 [A0' [A0'' [A1 A2]]]]]]]].
    destruct (e_acc e && from_master m) eqn:FA; [|left; apply A1; reflexivity].
    apply andb_prop in FA as [EA FM]. destruct (A2 eq_refl) as [_ [ofm [mpd [RE ST]]]]. unfold steers in ST. cbv zeta in ST.
    destruct (u_out u); [left; apply ST|]. destruct (w_cc v); cbn [negb] in ST; [|left; apply ST].
    destruct ST as [_ [S1 S2]].
    assert (BD : (Qabs ofm <= TsdSpec.ns_of (6 * B))%Q).
    { rewrite EA in A0''. cbn [negb] in A0''. pose proof (chain_snoc _ _ _ _ _ _ _ _ A0 A0' A0'') as CH. cbn in CH.
      eapply (reported_fits B); [exact P1| |exact CH|exact RE].
      apply Forall_app. split; [apply VF|]. constructor; [|constructor].
      eapply completes_fits; [exact P1| |exact CO]. constructor; [exact W|apply VF]. }
    assert (BD' : (Qabs ofm < inject_Z (2^52 * 1000000000))%Q).
    { eapply Qle_lt_trans; [exact BD|]. unfold Qlt, TsdSpec.ns_of, inject_Z. cbn [Qnum Qden]. unfold s_unit in P2. lia. }
    destruct (Qlt_le_dec (Qabs ofm) (c_thr g)) as [L|L]; [right; left; destruct (S2 L) as [_ [Y _]]; eauto|].
    destruct (S1 L) as [X1 X2].
    assert (D : permitted (c_ctrl g) (w_moved v) ofm \/ ~ permitted (c_ctrl g) (w_moved v) ofm).
    { destruct (c_ctrl g); cbn [permitted]; auto;
      try (destruct (w_moved v); [right; discriminate|left; reflexivity]).
      destruct (Qlt_le_dec ofm 0); [left; assumption|right; apply Qle_not_lt; assumption]. }
    destruct D as [D|D].
    + destruct (X1 D) as [_ [_ Y]]. right. right. left. eauto.
    + destruct (X2 D) as [_ [_ [Y1 [Y2 Y3]]]].
      assert (D2 : c_ctrl g = NO_ADJUST \/ c_ctrl g <> NO_ADJUST) by (destruct (c_ctrl g); auto; right; discriminate).
      destruct D2 as [D2|D2]; [left; apply (Y1 D2)|]. right. left.
      destruct (Qlt_le_dec ofm 0) as [N|N]; [destruct (Y2 D2 N) as [F _]|destruct (Y3 D2 N) as [F _]]; eauto.
  - left. apply A.
  - destruct A as [A1 A2].
    assert (D2 : c_ctrl g = NO_ADJUST \/ c_ctrl g <> NO_ADJUST) by (destruct (c_ctrl g); auto; right; discriminate).
    destruct D2 as [D2|D2]; [left; apply (A1 D2)|]. right. right. left. destruct (A2 D2) as [_ [_ [_ X]]]. eauto.
  - right. left. destruct A as [_ [_ [_ X]]]. eauto.
  - right. left. destruct A as [_ [_ [_ X]]]. eauto.
  - apply A.
  - apply A.
  - apply A.
  - right. right. right. destruct A as [_ [_ [_ [ev1 [ev2 [X [Y Z]]]]]]]. eauto 10.
Qed.

Lemma clamp_abs : forall m x, (0 <= m)%Q -> (Qabs (clamp m x) <= m)%Q.
Proof.
  intros m x H. unfold clamp. apply Qabs_Qle_condition.
  destruct (Qle_bool x (- m)) eqn:A; [split; lra|]. destruct (Qle_bool m x) eqn:B; [split; lra|].
  assert (~ (x <= - m)%Q) by (intros X; apply Qle_bool_iff in X; congruence).
  assert (~ (m <= x)%Q) by (intros X; apply Qle_bool_iff in X; congruence).
  split; apply Qlt_le_weak, Qnot_le_lt; assumption.
Qed.
Lemma freq_request_limit : forall k c f ev c' t x, clock_ok k -> freq_request k c f ev -> In (KFreq c' t x) ev ->
  c' = c /\ (Qabs (realised (option_map fst (k_sys k)) t x) <= limit k)%Q.
Proof.
  intros k c f ev c' t x [K1 K2] F I1. destruct (freq_request_only _ _ _ _ _ F I1) as [_ [t' [y [E D]]]].
  injection E as -> <- <-. split; [reflexivity|].
  pose proof (clamp_abs (k_max k) f K1) as C. set (cl := clamp (k_max k) f) in *. clearbody cl.
  set (r := realised _ t x) in *. clearbody r. unfold limit.
  setoid_replace r with ((r - cl) + cl)%Q by ring. eapply Qle_trans; [apply Qabs_triangle|].
  destruct (k_sys k) as [[hz maxf]|]; [|lra].
  destruct K2 as [h [-> [H1 _]]].
  assert (P : (0 <= inject_Z 500 * inject_Z h)%Q) by (rewrite <- inject_Z_mult; change 0%Q with (inject_Z 0); rewrite <- Zle_Qle; lia).
  destruct (Qle_bool (Qabs f) maxf); lra.
Qed.
Lemma requests_limit : forall k c ev c' t x, clock_ok k -> requests k c ev -> In (KFreq c' t x) ev ->
  c' = c /\ (Qabs (realised (option_map fst (k_sys k)) t x) <= limit k)%Q.
Proof.
  intros k c ev c' t x K [->|[[f F]|[[a [f [S1 S2]]]|[f1 [f2 [ev1 [ev2 [-> [F1 F2]]]]]]]]] I1.
  - destruct I1.
  - eapply freq_request_limit; eassumption.
  - assert (W : writable k \/ ~ writable k).
    { unfold writable. destruct (k_ro k); [right; intros [X _]; discriminate|].
      destruct (Z_le_dec (k_blocked k) 0); [|right; intros [_ [X _]]; contradiction].
      destruct (k_sys k); [left; repeat split; auto; discriminate|].
      destruct (k_phc k); [left; repeat split; auto|]. right. intros [_ [_ X]]. discriminate X. reflexivity. }
    destruct W as [W|W]; [|rewrite (S2 W) in I1; destruct I1].
    destruct (S1 W) as [off [ev2 [-> [_ F]]]]. destruct I1 as [I1|I1]; [discriminate|].
    eapply freq_request_limit; eassumption.
  - apply in_app_or in I1 as [I1|I1]; [apply (freq_request_limit _ _ _ _ _ _ _ K F1 I1)|apply (freq_request_limit _ _ _ _ _ _ _ K F2 I1)].
Qed.
Lemma requests_ro : forall k c ev, k_ro k = true -> requests k c ev -> ev = [].
Proof.
  intros k c ev R [->|[[f F]|[[a [f [S1 S2]]]|[f1 [f2 [ev1 [ev2 [-> [F1 F2]]]]]]]]].
  - reflexivity.
  - eapply freq_request_ro; eassumption.
  - apply S2. intros [X _]. congruence.
  - rewrite (freq_request_ro _ _ _ _ R F1), (freq_request_ro _ _ _ _ R F2). reflexivity.
Qed.

(** ** The clock control alarm *)
Lemma update_clock_alarm : forall rd s u s' ev, servo_update_clock rd s u = Some (s', ev, false, true) ->
  o_ctrl (p_opts s) <> NO_ADJUST -> writable (u_w u (p_clock s)) ->
  q_actrl (p_c s') = negb (u_os1 u =? 0).
Proof.
  intros rd s u s' ev H NA WR. unfold servo_update_clock in H. cbv zeta in H.
  assert (RF : refused (u_w u (p_clock s)) = None) by (apply refused_writable, writable_same; exact WR).
  assert (RC : forall f, snd (adjust_frequency (u_w u (p_clock s)) (p_clock s) f (u_os1 u)) = u_os1 u).
  { intros f. unfold adjust_frequency. rewrite RF. destruct (kernel_values _ f). reflexivity. }
  destruct (u_out u); [discriminate|].
  destruct (Qle_bool _ _).
  - destruct (negb _); [discriminate|]. destruct (may_step _ _ _) eqn:MS.
    + destruct (of_float_ns _ _) as [st|]; cbn [bind] in H; [|discriminate].
      destruct (servo_step_clock _ _ _ _ _) as [[[s1 ev1] b1]|] eqn:SC; cbn [bind] in H; [|discriminate].
      injection H as _ _ -> . apply step_clock_eq in SC. destruct SC as [[SC _]|[_ [X _]]]; [|discriminate].
      exfalso. apply NA. exact SC.
    + change (o_ctrl (p_opts (set_clus s false))) with (o_ctrl (p_opts s)) in H.
      destruct (o_ctrl (p_opts s)); try congruence; rewrite freq_eq in H; injection H as <- _;
      cbn [set_first with_c p_c q_actrl]; rewrite RC; reflexivity.
  - destruct (p_cc _); [|discriminate].
    destruct (pid_update _ _ _) as [f|]; cbn [bind] in H; [|discriminate].
    rewrite freq_eq in H. injection H as <- _. cbn [set_first with_c p_c q_actrl].
    rewrite RC. reflexivity.
Qed.
