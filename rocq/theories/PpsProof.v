(** Proofs about the PPS module: what an instance holds is what an observer of its
    inputs and outputs knows. *)
Require Import ZArith QArith Qminmax List Bool Arith Lia Lqa.
Require Import Verif.Base Verif.TimeSpec Verif.TimeModel Verif.TimeProof Verif.QLib Verif.ListLib Verif.SrvSpec
  Verif.FilterSpec Verif.FilterModel Verif.FilterProof Verif.StatsModel Verif.PpsSpec Verif.PpsModel.
Require Verif.FltModel Verif.FltSpec Verif.FltProof Verif.PsvModel Verif.PsvProof.
Import ListNotations.
Open Scope Z_scope.

(** ** Small facts *)
Lemma bind_some : forall A B (m : option A) (k : A -> option B) y, bind m k = Some y -> exists x, m = Some x /\ k x = Some y.
Proof. intros A B [x|] k y H; [exists x; auto|discriminate]. Qed.
Ltac bnd H x Hx := apply bind_some in H; destruct H as [x [Hx H]].

Lemma goodb_eq : forall x y, (x == y)%Q -> goodb x = goodb y.
Proof.
  intros x y E. unfold goodb. f_equal.
  - destruct (Qle_bool _ y) eqn:A, (Qle_bool _ x) eqn:B; try reflexivity; exfalso.
    + apply Qle_bool_iff in A. rewrite <- E in A. apply Qle_bool_iff in A. congruence.
    + apply Qle_bool_iff in B. rewrite E in B. apply Qle_bool_iff in B. congruence.
  - destruct (Qle_bool y _) eqn:A, (Qle_bool x _) eqn:B; try reflexivity; exfalso.
    + apply Qle_bool_iff in A. rewrite <- E in A. apply Qle_bool_iff in A. congruence.
    + apply Qle_bool_iff in B. rewrite E in B. apply Qle_bool_iff in B. congruence.
Qed.
Lemma goodb_iff : forall x, goodb x = true <-> good x.
Proof. intros x. unfold goodb, good. rewrite andb_true_iff, !Qle_bool_iff. tauto. Qed.
Lemma Qle_bool_eq : forall a b c d, (a == c)%Q -> (b == d)%Q -> Qle_bool a b = Qle_bool c d.
Proof.
  intros a b c d E F. destruct (Qle_bool c d) eqn:A, (Qle_bool a b) eqn:B; try reflexivity; exfalso.
  - apply Qle_bool_iff in A. rewrite <- E, <- F in A. apply Qle_bool_iff in A. congruence.
  - apply Qle_bool_iff in B. rewrite E, F in B. apply Qle_bool_iff in B. congruence.
Qed.

(** The run of good periods. *)
Fixpoint run (l : list Q) : nat := match l with x :: r => if goodb x then S (run r) else O | [] => O end.
Definition hasbad (l : list Q) : bool := existsb (fun x => negb (goodb x)) l.
Lemma run_trustb : forall l, trustb l = (3 <=? Z.of_nat (run l)).
Proof.
  intros [|a [|b [|c r]]]; cbn [trustb run].
  - reflexivity.
  - destruct (goodb a); reflexivity.
  - destruct (goodb a), (goodb b); reflexivity.
  - destruct (goodb a), (goodb b), (goodb c); cbn [andb]; lia.
Qed.
Lemma trustb_iff : forall ps, trustb (periods ps) = true <-> trusted ps.
Proof.
  intros ps. unfold trusted. split.
  - intros H. destruct (periods ps) as [|a [|b [|c r]]]; try discriminate. cbn [trustb] in H.
    apply andb_true_iff in H as [H Hc]. apply andb_true_iff in H as [Ha Hb].
    exists a, b, c, r. rewrite goodb_iff in *. auto.
  - intros [a [b [c [r [E [Ha [Hb Hc]]]]]]]. rewrite E. cbn [trustb].
    apply goodb_iff in Ha, Hb, Hc. rewrite Ha, Hb, Hc. reflexivity.
Qed.

Lemma normal_null : normal null_time.
Proof. unfold normal, null_time; cbn; lia. Qed.

Lemma ns_eq : forall a b c, normal a -> normal b -> subtract b a = Some c ->
  (FltModel.to_float_ns c == inject_Z (instant b - instant a) / inject_Z (2^32))%Q.
Proof.
  intros a b c Ha Hb H. destruct (subtract_exact _ _ _ Hb Ha H) as [_ E].
  rewrite FltProof.to_float_ns_exact. unfold FltSpec.ns_of. rewrite E. reflexivity.
Qed.

Lemma combine_exact : forall day t c, normal day -> normal t -> combine day t = Some c ->
  normal c /\ instant c = measured_ns day t * 2^32.
Proof.
  intros d t c [D1 [D2 D3]] [T1 [T2 T3]] H. unfold combine in H.
  bnd H s1 H1. bnd H s2 H2. injection H as <-.
  assert (E1 : s1 = nearest_second d /\ - 2^63 <= s1 < 2^63).
  { unfold nearest_second, instant, second. unfold chk_s64, fits_s64 in H1.
    destruct (500000000 <=? nsec d) eqn:A.
    - destruct (_ && _) eqn:B in H1; [|discriminate]. injection H1 as <-. split; [|lia].
      apply Z.div_unique with (r := (nsec d - 500000000) * 2^32 + frac d); lia.
    - injection H1 as <-. split; [|lia].
      apply Z.div_unique with (r := (nsec d + 500000000) * 2^32 + frac d); lia. }
  destruct E1 as [E1 B1].
  assert (E2 : s2 * 1000000000 + nsec t = measured_ns d t /\ - 2^63 <= s2 < 2^63).
  { unfold measured_ns, subsec, second. rewrite <- E1. unfold chk_s64, fits_s64 in H2.
    destruct (500000000 <=? nsec t) eqn:A.
    - destruct (_ && _) eqn:B in H2; [|discriminate]. injection H2 as <-.
      replace (nsec t <? 500000000) with false by lia. lia.
    - injection H2 as <-. replace (nsec t <? 500000000) with true by lia. lia. }
  destruct E2 as [E2 B2]. unfold normal, instant; cbn [sec nsec frac].
  split; [repeat split; lia|]. rewrite E2. lia.
Qed.
Lemma ns_of_mul : forall t n, instant t = n * 2^32 -> (FltModel.to_float_ns t == inject_Z n)%Q.
Proof.
  intros t n E. rewrite FltProof.to_float_ns_exact. unfold FltSpec.ns_of. rewrite E, inject_Z_mult. field. discriminate.
Qed.
Lemma clamp_limit : forall m x y, (0 < m)%Q -> (x == y)%Q -> (clamp m x == limit m y)%Q.
Proof.
  intros m x y M E. unfold clamp, limit.
  destruct (Qlt_bool m x) eqn:A.
  - apply Qlt_bool_iff in A. rewrite Q.min_l by lra. rewrite Q.max_r by lra. reflexivity.
  - apply Qlt_bool_false in A. rewrite Q.min_r by lra. destruct (Qlt_bool x (- m)) eqn:B.
    + apply Qlt_bool_iff in B. rewrite Q.max_l by lra. reflexivity.
    + apply Qlt_bool_false in B. rewrite Q.max_r by lra. exact E.
Qed.
Lemma saturate_limit : forall m x y, (0 < m)%Q -> (x == y)%Q -> (saturate m x == limit m y)%Q.
Proof.
  intros m x y M E. unfold saturate.
  replace (Qlt_bool 0 m) with true by (symmetry; apply Qlt_bool_iff; exact M).
  apply clamp_limit; assumption.
Qed.

Lemma judged_eq : forall tb mn n w ys x x' out y, (x == x')%Q ->
  verdict_ok tb mn n w ys x out y -> verdict_ok tb mn n w ys x' out y.
Proof.
  intros tb mn n w ys x x' out y E [A B]. unfold verdict_ok in *. split.
  - rewrite A. split; intros [H [c [H1 H2]]]; (split; [exact H|]); exists c; (split; [exact H1|]);
      unfold is_outlier in *; [rewrite <- E|rewrite E]; exact H2.
  - rewrite B. destruct out; [rewrite E; reflexivity|exact E].
Qed.

(** ** The invariant *)
Definition outl (g : conf) (pf : option peirce) (xs : list (Q * bool)) : Prop :=
  match g_out g, pf with
  | None, None => True
  | Some (n, w), Some f => pe_max f = n /\ pe_weight f = w /\
      exists ys, judged peirce_table PEIRCE_MIN n w xs ys /\ peirce_inv f ys
  | _, _ => False
  end.
Definition firs (g : conf) (f : fir) (ds : list Q) (off : Q) : Prop :=
  f_stiff f = g_fir g /\ (exists h, fir_inv f h /\ Forall2 Qeq h ds) /\ (off == mean g ds)%Q.
Definition pids (g : conf) (f : pid) (kp ki i : Q) : Prop :=
  pid_inv (g_max g) f /\ (k_p f == kp)%Q /\ (k_i f == ki)%Q /\ conf_interval f = 1%Q /\ (i_term f == i)%Q.
Definition time_ok (v : view) (t : ts) : Prop :=
  stepped v = false ->
  t = match v_pulses v with [] => null_time | p :: _ => if u_gap p then null_time else u_time p end.

Record R (g : conf) (a : inst) (v : view) : Prop := mkR {
  R_ts : a_ts a = v_ts v;
  R_cc : a_cc a = v_cc v;
  R_st : a_state a = v_state v;
  R_last : a_last a = v_last v /\ normal (a_last a);
  R_seq : a_seq a = v_seq v;
  R_step : a_step a = stepped v;
  R_time : time_ok v (a_time a);
  R_norm : Forall (fun p => normal (u_time p)) (v_pulses v);
  R_good : a_good a = Z.of_nat (run (periods (v_pulses v)));
  R_bad : al_bad (a_al a) = hasbad (periods (v_pulses v)) && negb (trustb (periods (v_pulses v)));
  R_per : (a_period a == v_period v)%Q;
  R_out : outl g (a_peirce a) (v_xs v);
  R_fir : firs g (a_fir a) (v_diffs v) (a_offset a);
  R_act : a_active a = v_acted v;
  R_base : (a_base a == v_base v)%Q;
  R_pid : pids g (a_pid a) (v_kp v) (v_ki v) (v_int v);
  R_nil : v_state v <> SLAVE -> v_pulses v = [] }.

Ltac aproj := cbn [a_ts a_cc a_state a_prev a_al a_pal a_good a_step a_time a_last a_seq a_period a_peirce
  a_fir a_pid a_offset a_base a_freq a_active a_sync a_conv a_score a_pscore a_started a_expired
  set_flags set_state set_al set_good set_step set_time set_seq set_period set_peirce set_pid set_fir
  set_freq set_active set_sync set_score set_started snapshot servo_reset sm_reset
  al_sig al_seq al_day al_bad al_set_sig al_set_seq al_set_day al_set_bad fst snd] in *.
Ltac vproj := cbn [v_ts v_cc v_state v_pulses v_pend v_last v_seq v_period v_xs v_diffs v_acted v_base
  v_kp v_ki v_int forget] in *.

Lemma outl_clear : forall g pf xs, outl g pf xs ->
  outl g (match pf with Some f => Some (PsvModel.peirce_clear f) | None => None end) [].
Proof.
  intros g pf xs H. unfold outl in *. destruct (g_out g) as [[n w]|], pf as [f|]; try contradiction; auto.
  destruct H as [A [B [ys [C D]]]]. cbn [PsvModel.peirce_clear pe_max pe_weight].
  split; [exact A|]. split; [exact B|]. exists []. split; [constructor|]. eapply PsvProof.peirce_clear_inv; exact D.
Qed.

Lemma R_reset : forall g a v, R g a v -> R g (sm_reset a) (forget v LISTENING).
Proof.
  intros g a v [A1 A2 A3 A4 A5 A6 A7 A8 A9 A10 A11 A12 A13 A14 A15 A16 A17].
  constructor; aproj; vproj; auto; try reflexivity.
  - intros _. reflexivity.
  - eapply outl_clear; exact A12.
Qed.
Lemma R_state : forall g a v s s', R g a (forget v s) -> R g (set_state a s') (forget v s').
Proof.
  intros g a v s s' [A1 A2 A3 A4 A5 A6 A7 A8 A9 A10 A11 A12 A13 A14 A15 A16 A17].
  constructor; aproj; vproj; auto.
Qed.
Lemma R_error : forall g a v, R g a v ->
  R g (on_error a) (match v_state v with FAULTY => v | _ => forget v FAULTY end).
Proof.
  intros g a v H. pose proof (R_st _ _ _ H) as S. unfold on_error. rewrite S.
  destruct (v_state v); try exact H; eapply R_state, R_reset; exact H.
Qed.

Lemma ge_iff : forall a b r, normal a -> normal b -> is_ge a b = Some r -> r = (instant b <=? instant a).
Proof.
  intros a b r A B H. destruct (is_ge_spec _ _ _ A B H) as [X Y].
  destruct r; [symmetry; apply Z.leb_le; auto|]. destruct (instant b <=? instant a) eqn:E; [|reflexivity].
  apply Z.leb_le in E. auto.
Qed.

Lemma R_set_al : forall g a v l, R g a v -> al_bad l = al_bad (a_al a) -> R g (set_al a l) v.
Proof.
  intros g a v l [A1 A2 A3 A4 A5 A6 A7 A8 A9 A10 A11 A12 A13 A14 A15 A16 A17] E.
  constructor; aproj; auto. rewrite E; exact A10.
Qed.

(** Silence: the state and the alarm. *)
Lemma R_nothing : forall g a v now a', R g a v -> normal now -> on_nothing a now = Some a' ->
  R g a' (silent v now) /\
  a_al a' = silent_al v (a_al a) now.
Proof.
  intros g a v now a' H N E. unfold on_nothing in E. unfold silent, silent_al, elapsed.
  rewrite (R_st _ _ _ H) in E. destruct (R_last _ _ _ H) as [L1 L2].
  destruct (v_state v).
  - injection E as <-. auto.
  - bnd E iv E1. destruct (subtract_exact _ _ _ N L2 E1) as [N1 I1].
    bnd E t1 E2. apply ge_iff in E2; [|exact N1|unfold normal, timeout_interval; cbn; lia].
    rewrite L1 in I1. rewrite I1 in E2.
    replace (instant timeout_interval) with (60 * second * 2^32) in E2 by reflexivity.
    destruct t1.
    + injection E as <-. replace (instant now - instant (v_last v) <? 60 * second * 2^32) with false by lia.
      split; [apply R_reset; exact H|reflexivity].
    + replace (instant now - instant (v_last v) <? 60 * second * 2^32) with true by lia.
      bnd E t2 E3. apply ge_iff in E3; [|exact N1|unfold normal, alarm_interval; cbn; lia].
      rewrite I1 in E3. replace (instant alarm_interval) with (11 * 100000000 * 2^32) in E3 by reflexivity.
      rewrite <- E3. destruct t2, (al_sig (a_al a)) eqn:S; cbn [andb negb] in E; injection E as <-.
      all: try (split; [exact H|]). all: try (destruct (a_al a); cbn in *; subst; reflexivity).
      split; [apply R_set_al; [exact H|reflexivity]|reflexivity].
  - injection E as <-. split; [apply R_reset; exact H|reflexivity].
Qed.

(** The rest of a poll. *)
Lemma R_sync : forall g a v b c, R g a v -> R g (set_sync a b c) v.
Proof.
  intros g a v b c [A1 A2 A3 A4 A5 A6 A7 A8 A9 A10 A11 A12 A13 A14 A15 A16 A17]. constructor; aproj; auto.
Qed.
Lemma R_snap : forall g a v, R g a v -> R g (snapshot a) v.
Proof.
  intros g a v [A1 A2 A3 A4 A5 A6 A7 A8 A9 A10 A11 A12 A13 A14 A15 A16 A17]. constructor; aproj; auto.
Qed.
Lemma R_converge : forall g a v n a', R g a v -> converge a n = Some a' -> R g a' v.
Proof.
  intros g a v n a' H E. unfold converge in E.
  destruct n as [t|]; [|injection E as <-; apply R_sync, H].
  destruct (a_state a); try (injection E as <-; apply R_sync, H).
  destruct (_ || _); [injection E as <-; exact H|]. bnd E r E1. injection E as <-. apply R_sync, H.
Qed.
Lemma R_rest : forall g a v av n a' outs, R g a v -> rest a av n = Some (a', outs) ->
  R g a' v /\ existsb is_step outs = false /\ existsb is_report outs = false /\ existsb is_act outs = false.
Proof.
  intros g a v av n a' outs H E. unfold rest in E. bnd E a2 E1. injection E as <- <-.
  split; [|destruct (_ || _); repeat split; reflexivity].
  apply R_snap. eapply R_converge; [|exact E1]. destruct av; [apply R_set_al; [exact H|reflexivity]|exact H].
Qed.

(** ** A pulse *)
Lemma on_period_ok : forall g a v t a2, R g a v -> stepped v = false -> v_state v = SLAVE ->
  normal t -> on_period a t = Some a2 ->
  exists x k l, a2 = set_al (set_good (set_period a x) k) l /\
    (x == next_period v t)%Q /\
    (forall s, k = Z.of_nat (run (periods (mkPulse t s false :: v_pulses v)))) /\
    al_sig l = al_sig (a_al a) /\ al_seq l = al_seq (a_al a) /\ al_day l = al_day (a_al a) /\
    (forall s, trustb (periods (mkPulse t s false :: v_pulses v)) = false ->
       al_bad l = hasbad (periods (mkPulse t s false :: v_pulses v))).
Proof.
  intros g a v t a2 H S V N E. unfold on_period in E.
  pose proof (R_time _ _ _ H S) as T. pose proof (R_norm _ _ _ H) as NO.
  pose proof (R_good _ _ _ H) as G. pose proof (R_bad _ _ _ H) as B.
  assert (K : (exists p r, v_pulses v = p :: r /\ comparable p = true /\ a_time a = u_time p /\ normal (u_time p)) \/
              (sec (a_time a) =? 0 = true /\ match v_pulses v with [] => True | p :: _ => comparable p = false end)).
  { unfold stepped in S. destruct (v_pulses v) as [|p r] eqn:PS.
    - right. rewrite T. auto.
    - destruct (u_gap p) eqn:GP.
      + right. rewrite T. split; [reflexivity|]. unfold comparable. rewrite GP. apply andb_false_iff. left.
        apply andb_false_iff. right. reflexivity.
      + rewrite T. destruct (sec (u_time p) =? 0) eqn:Z0.
        * right. split; [reflexivity|]. unfold comparable. rewrite Z0. apply andb_false_iff. right. reflexivity.
        * left. exists p, r. split; [reflexivity|]. unfold comparable. rewrite S, GP, Z0.
          inversion NO; subst. auto. }
  destruct K as [[p [r [PS [C [TM NP]]]]]|[Z0 C]].
  - assert (Z0 : sec (a_time a) =? 0 = false).
    { rewrite TM. unfold comparable in C. apply andb_true_iff in C as [_ C].
      destruct (sec (u_time p) =? 0); [discriminate|reflexivity]. }
    rewrite Z0 in E. bnd E pd E1. rewrite TM in E1.
    pose proof (ns_eq _ _ _ NP N E1) as X. bnd E n E2. injection E2 as <-.
    assert (PR : forall s, periods (mkPulse t s false :: v_pulses v) =
                   period p (mkPulse t false false) :: periods (v_pulses v)).
    { intros s. rewrite PS. change (periods (mkPulse t s false :: p :: r)) with
        (if comparable p then period p (mkPulse t s false) :: periods (p :: r) else periods (p :: r)).
      rewrite C. reflexivity. }
    assert (NX : (FltModel.to_float_ns pd == next_period v t)%Q).
    { unfold next_period. rewrite PS, C. exact X. }
    assert (GB : notch_update (mkNotch (inject_Z 1000000000 - inject_Z 100000000) (inject_Z 1000000000 + inject_Z 100000000)) (FltModel.to_float_ns pd) = goodb (period p (mkPulse t false false))).
    { rewrite (goodb_eq (period p (mkPulse t false false)) (FltModel.to_float_ns pd)) by (symmetry; exact X). reflexivity. }
    rewrite GB in E. destruct (goodb (period p (mkPulse t false false))) eqn:GO.
    + bnd E k E3. injection E as <-. unfold chk_s32 in E3. destruct (_ && _) in E3; [|discriminate].
      injection E3 as <-. exists (FltModel.to_float_ns pd), (a_good a + 1), (a_al a).
      split; [destruct a; reflexivity|]. split; [exact NX|].
      split; [intros s; rewrite PR; cbn [run]; rewrite GO, G; lia|].
      do 3 (split; [reflexivity|]). intros s TF. rewrite PR in *. rewrite run_trustb in TF. cbn [run] in TF. rewrite GO in TF.
      rewrite B. cbn [hasbad existsb]. rewrite GO. cbn [negb orb].
      fold (hasbad (periods (v_pulses v))).
      replace (trustb (periods (v_pulses v))) with false by (rewrite run_trustb; lia).
      apply andb_true_r.
    + injection E as <-. exists (FltModel.to_float_ns pd), 0, (al_set_bad (a_al a) true).
      split; [destruct a; reflexivity|]. split; [exact NX|].
      split; [intros s; rewrite PR; cbn [run]; rewrite GO; reflexivity|].
      do 3 (split; [reflexivity|]). intros s TF. rewrite PR. cbn [hasbad existsb]. rewrite GO. reflexivity.
  - rewrite Z0 in E. injection E as <-. exists (a_period a), (a_good a), (a_al a).
    assert (PR : forall s, periods (mkPulse t s false :: v_pulses v) = periods (v_pulses v)).
    { intros s. destruct (v_pulses v) as [|p r]; [reflexivity|].
      change (periods (mkPulse t s false :: p :: r)) with
        (if comparable p then period p (mkPulse t s false) :: periods (p :: r) else periods (p :: r)).
      rewrite C. reflexivity. }
    split; [destruct a; reflexivity|].
    split; [unfold next_period; destruct (v_pulses v); [|rewrite C]; exact (R_per _ _ _ H)|].
    split; [intros s; rewrite PR; exact G|].
    do 3 (split; [reflexivity|]). intros s TF. rewrite PR in *. rewrite B, TF. apply andb_true_r.
Qed.

Lemma mean_eq : forall g l l', Forall2 Qeq l l' -> (mean g l == mean g l')%Q.
Proof.
  intros g l l' H. unfold mean. destruct H as [|x y l l' E H]; [reflexivity|].
  apply PsvProof.Qmean_Forall2, PsvProof.Forall2_lastn. constructor; assumption.
Qed.

Definition frame (a a' : inst) : Prop :=
  a_ts a' = a_ts a /\ a_cc a' = a_cc a /\ a_state a' = a_state a /\ a_al a' = a_al a /\ a_good a' = a_good a /\
  a_last a' = a_last a /\ a_seq a' = a_seq a /\ a_peirce a' = a_peirce a /\
  a_prev a' = a_prev a /\ a_pal a' = a_pal a.

Lemma permits_iff : forall p act d e, (d == e)%Q ->
  permits p act d = match p with
          | SLEW_AND_STEP => true
          | STEP_AT_STARTUP => negb act
          | STEP_FORWARD => negb (Qle_bool 0 e)
          | _ => false
          end.
Proof. intros p act d e E. destruct p; try reflexivity. cbn. unfold Qlt_bool. rewrite (Qle_bool_eq 0 d 0 e); [reflexivity|reflexivity|exact E]. Qed.

Lemma servo_ok : forall g a v t day corr a' acts,
  conf_ok g -> firs g (a_fir a) (v_diffs v) (a_offset a) -> pids g (a_pid a) (v_kp v) (v_ki v) (v_int v) ->
  (a_base a == v_base v)%Q -> a_cc a = v_cc v -> a_active a = v_acted v -> normal day -> normal t ->
  a_step a = false ->
  servo_update g a t day corr = Some (a', acts) ->
  let st_ := existsb is_step acts in
  let ds := next_diffs g v (measure g day t) st_ in
  firs g (a_fir a') ds (a_offset a') /\
  pids g (a_pid a') (v_kp v) (v_ki v)
       (if st_ then 0%Q else if existsb is_act acts then limit (g_max g) (v_int v + v_ki v * mean g ds) else v_int v) /\
  (a_base a' == if st_ then corr else v_base v)%Q /\
  a_active a' = v_acted v || existsb is_act acts /\
  a_step a' = st_ /\ a_period a' = (if st_ then 0%Q else a_period a) /\
  frame a a' /\ existsb is_report acts = false /\ existsb is_told acts = false /\
  acts_ok g v (measured_ns day t) corr acts.
Proof.
  intros g a v t dy corr a' acts [CM CF] [F1 [[h [F2 F3]] F4]] [P1 [P2 [P3 [P4 P5]]]] B C AC ND NT ST E.
  unfold servo_update in E. bnd E diff E1.
  destruct (combine_exact _ _ _ ND NT E1) as [N1 I1]. pose proof (ns_of_mul _ _ I1) as DD.
  set (d := (FltModel.to_float_ns diff - g_delay g)%Q) in *.
  assert (DM : (d == measure g dy t)%Q) by (unfold d, measure; rewrite DD; reflexivity).
  set (m := measure g dy t) in *.
  rewrite (permits_iff _ _ _ _ DM), AC in E.
  change (inject_Z 500000000) with step_threshold in E.
  rewrite (Qle_bool_eq d (- step_threshold) m (- step_threshold) DM ltac:(reflexivity)),
          (Qle_bool_eq step_threshold d step_threshold m ltac:(reflexivity) DM) in E.
  set (big := match g_ctrl g with SLEW_AND_STEP => true | STEP_AT_STARTUP => negb (v_acted v)
                 | STEP_FORWARD => negb (Qle_bool 0 m) | _ => false end &&
              (Qle_bool m (- step_threshold) || Qle_bool step_threshold m)) in *.
  assert (BIG : big = true <-> (may_step (g_ctrl g) (v_acted v) m /\ large m)).
  { unfold big, large, may_step. rewrite andb_true_iff, orb_true_iff, !Qle_bool_iff.
    destruct (g_ctrl g); try (split; intros [X Y]; split; try discriminate; auto; fail).
    - destruct (v_acted v); cbn; split; intros [X Y]; split; auto; discriminate.
    - rewrite negb_true_iff. split; intros [X Y]; (split; [|exact Y]).
      + apply Qnot_le_lt. intros Z1. apply Qle_bool_iff in Z1. congruence.
      + destruct (Qle_bool 0 m) eqn:Z1; [|reflexivity]. apply Qle_bool_iff in Z1. lra. }
  destruct big eqn:BG.
  - destruct (a_cc a) eqn:CC.
    + bnd E r E2. injection E as <- <-. unfold step_clock in E2. bnd E2 ng E3. injection E2 as <-.
      destruct (subtract_exact _ _ _ normal_null N1 E3) as [_ I3].
      assert (NI : instant ng = - (measured_ns dy t * 2^32)).
      { rewrite I3, I1. unfold instant, null_time; cbn [sec nsec frac]. lia. }
      aproj. cbn [existsb is_step is_act is_report is_told orb].
      split. { split; [exact F1|]. split; [|reflexivity]. exists []. split; [eapply fir_reset_inv; exact F2|constructor]. }
      split. { split; [|split; [exact P2|split; [exact P3|split; [exact P4|reflexivity]]]].
               eapply (pid_step_inv _ _ PReset); [exact CM|exact P1|reflexivity]. }
      split; [reflexivity|]. split; [rewrite orb_true_r; reflexivity|]. split; [reflexivity|]. split; [reflexivity|].
      split; [unfold frame; aproj; auto 12|]. split; [reflexivity|]. split; [reflexivity|].
      unfold acts_ok. rewrite <- C. fold (measure g dy t). fold m. left.
      destruct (proj1 BIG eq_refl) as [X Y]. split; [exact X|]. split; [exact Y|]. exists ng. auto.
    + injection E as <- <-. cbn [existsb]. unfold next_diffs. fold big. rewrite BG.
      split. { split; [exact F1|]. split; [exists h; auto|exact F4]. }
      split. { split; [exact P1|]. auto. }
      split; [exact B|]. split; [rewrite orb_false_r; exact AC|]. split; [exact ST|]. split; [reflexivity|].
      split; [unfold frame; auto 12|]. split; [reflexivity|]. split; [reflexivity|].
      unfold acts_ok. rewrite <- C. reflexivity.
  - assert (NB : ~ (may_step (g_ctrl g) (v_acted v) m /\ large m)).
    { intros X. apply BIG in X. discriminate. }
    destruct (fir_update_inv (a_fir a) h d F2) as [f' [r [U1 [U2 [U3 U4]]]]].
    rewrite U1 in E. cbn [bind fst snd] in E.
    assert (F3' : Forall2 Qeq (h ++ [d]) (v_diffs v ++ [m])).
    { apply Forall2_app; [exact F3|]. constructor; [exact DM|constructor]. }
    assert (ME : (r == mean g (v_diffs v ++ [m]))%Q).
    { rewrite U4, F1. rewrite <- (mean_eq g _ _ F3'). unfold mean.
      destruct (h ++ [d]) eqn:HD; [destruct h; discriminate|]. reflexivity. }
    assert (FI : firs g f' (v_diffs v ++ [m]) r).
    { split; [congruence|]. split; [exists (h ++ [d]); auto|exact ME]. }
    aproj. destruct (a_cc a) eqn:CC.
    + destruct (pid_update (a_pid a) r None) as [p|] eqn:U5; [|discriminate]. cbn [bind] in E. injection E as <- <-.
      assert (PV : pid_inv (g_max g) p).
      { eapply (pid_step_inv _ _ (PUpdate r None)); [exact CM|exact P1|exact U5]. }
      unfold pid_update, pid_interval in U5. cbn [bind] in U5. injection U5 as <-.
      destruct P1 as [IM [_ [D0 _]]].
      aproj. cbn [existsb is_step is_act is_report is_told orb]. unfold next_diffs. fold big. rewrite BG.
      cbn [k_p k_i i_term conf_interval freq_adjust].
      split; [exact FI|].
      split. { split; [exact PV|]. cbn [k_p k_i i_term conf_interval]. split; [exact P2|]. split; [exact P3|]. split; [exact P4|].
               rewrite IM. apply saturate_limit; [exact CM|]. rewrite P4, P5, P3, ME. ring. }
      split; [exact B|]. split; [rewrite orb_true_r; reflexivity|]. split; [exact ST|]. split; [reflexivity|].
      split; [unfold frame; aproj; auto 12|]. split; [reflexivity|]. split; [reflexivity|].
      unfold acts_ok. rewrite <- C. fold (measure g dy t). fold m. right. split; [exact NB|].
      eexists. split; [reflexivity|]. apply clamp_limit; [exact CM|]. rewrite B, P2, P5, D0, ME. ring.
    + injection E as <- <-. cbn [existsb]. unfold next_diffs. fold big. rewrite BG.
      split; [exact FI|]. split. { split; [exact P1|]. auto. }
      split; [exact B|]. split; [rewrite orb_false_r; exact AC|]. split; [exact ST|]. split; [reflexivity|].
      split; [unfold frame; aproj; auto 12|]. split; [reflexivity|]. split; [reflexivity|].
      unfold acts_ok. rewrite <- C. reflexivity.
Qed.

(** The alarms after a pulse. *)
Lemma relied_b : forall v t s, v_state v = SLAVE -> v_ts v = true -> stepped v = false ->
  (relied v t <-> trustb (periods (mkPulse t s false :: v_pulses v)) = true).
Proof.
  intros v t s A B C. unfold relied. rewrite <- trustb_iff.
  assert (E : periods (mkPulse t s false :: v_pulses v) = periods (mkPulse t false false :: v_pulses v)).
  { destruct (v_pulses v); reflexivity. }
  rewrite E. tauto.
Qed.
Lemma periods_step : forall s s' t ps, periods (mkPulse t s false :: ps) = periods (mkPulse t s' false :: ps).
Proof. intros s s' t [|p r]; reflexivity. Qed.
Lemma existsb_report : forall l off, existsb is_report (l ++ [Report off]) = true.
Proof. intros. rewrite existsb_app. cbn. apply orb_true_r. Qed.

Lemma al_eta : forall l, l = mkAl (al_sig l) (al_seq l) (al_day l) (al_bad l).
Proof. intros []. reflexivity. Qed.
Lemma set_peirce_same : forall a, a_peirce a = None -> a = set_peirce a None.
Proof. intros a H. destruct a. unfold set_peirce. cbn in *. subst. reflexivity. Qed.

Lemma pulse_ok : forall g a v p seq t a' outs, conf_ok g -> R g a v ->
  normal t -> normal (i_now p) -> normal (i_day p) ->
  on_pulse g a seq t (i_now p) (i_day p) (i_corr p) (i_score p) = Some (a', outs) ->
  R g a' (pulsed g v p seq t outs) /\
  a_al a' = pulse_al v (a_al a) seq (al_bad (a_al a')) /\
  a_prev a' = a_prev a /\ a_pal a' = a_pal a /\ existsb is_told outs = false /\
  heard peirce_table PEIRCE_MIN g v p t outs.
Proof.
  intros g a v p seq t a' outs CO H NT NN ND E. unfold on_pulse in E. bnd E r E1. injection E as <- <-.
  rewrite (R_st _ _ _ H) in E1. unfold pulse_al, pulsed.
  destruct (v_state v) eqn:V.
  - (* LISTENING *)
    injection E1 as <-. aproj.
    assert (PN : v_pulses v = []) by (apply (R_nil _ _ _ H); congruence).
    destruct H as [A1 A2 A3 A4 A5 A6 A7 A8 A9 A10 A11 A12 A13 A14 A15 A16 A17].
    rewrite PN in *. cbn [existsb].
    split; [|destruct (a_ts a); aproj; (split; [destruct (a_al a); reflexivity|]); do 3 (split; [reflexivity|]);
             (split; [intros [X _]; congruence|reflexivity])].
    destruct (a_ts a) eqn:TS; constructor; aproj; vproj; rewrite <- ?A1; auto; try reflexivity; try (rewrite orb_false_r; exact A14).
    all: try (constructor; [exact NT|constructor]).
    all: try discriminate; try (rewrite TS; reflexivity).
    all: try (intros X; exfalso; apply X; reflexivity).
    all: intros X; first [reflexivity|unfold time_ok in A7; rewrite PN in A7; apply A7; exact X].
  - (* SLAVE *)
    destruct r as [a1 outs]. unfold on_slave in E1. aproj.
    set (l := if negb (seq =? 2^32 - 1) && negb (seq =? u32 (a_seq a + 1)) then _ else _) in E1.
    assert (LL : l = mkAl false (negb (seq =? 2^32 - 1) && negb (seq =? u32 (v_seq v + 1))) (al_day (a_al a)) (al_bad (a_al a))).
    { unfold l. rewrite (R_seq _ _ _ H). destruct (negb (seq =? 2^32 - 1) && negb (seq =? u32 (v_seq v + 1))); reflexivity. }
    pose proof (R_ts _ _ _ H) as TS. pose proof (R_step _ _ _ H) as ST.
    destruct (a_ts a) eqn:AT; cbn [negb] in E1.
    + rewrite <- TS. destruct (a_step a) eqn:AS.
      * (* stepped *)
        injection E1 as <- <-. aproj. rewrite AT, <- ST. cbn [negb andb existsb]. aproj. cbn [a_ts set_seq].
        split; [|rewrite LL; aproj; do 4 (split; [reflexivity|]);
                 split; [intros [_ [_ [X _]]]; congruence|reflexivity]].
        assert (PR : periods (mkPulse t false false :: v_pulses v) = periods (v_pulses v)).
        { unfold stepped in ST. destruct (v_pulses v) as [|q r]; [reflexivity|].
          change (periods (mkPulse t false false :: q :: r)) with
            (if comparable q then period q (mkPulse t false false) :: periods (q :: r) else periods (q :: r)).
          unfold comparable. rewrite <- ST. reflexivity. }
        destruct H as [A1 A2 A3 A4 A5 A6 A7 A8 A9 A10 A11 A12 A13 A14 A15 A16 A17].
        constructor; aproj; vproj; try rewrite PR; rewrite ?orb_false_r; auto; try reflexivity; try congruence.
        { intros _. reflexivity. }
        { rewrite LL. exact A10. }
      * (* looked at *)
        bnd E1 a2 E2.
        assert (H1 : R g (set_al a l) v) by (apply R_set_al; [exact H|rewrite LL; reflexivity]).
        destruct (on_period_ok g (set_al a l) v t a2 H1 (eq_sym ST) V NT E2)
          as [x [k [l2 [-> [PX [PK [L1 [L2 [L3 L4]]]]]]]]].
        aproj. rewrite LL in L1, L2, L3. aproj. rewrite <- ST. cbn [negb andb].
        set (b := fun s => mkPulse t s false :: v_pulses v) in *.
        assert (PB : forall s, periods (b s) = periods (b false)) by (intros s; apply periods_step).
        assert (RB : relied v t <-> trustb (periods (b false)) = true) by (apply relied_b; auto).
        unfold on_trust in E1. aproj.
        assert (TK : (REQUIRED <=? k) = trustb (periods (b false))).
        { rewrite (PK false). unfold REQUIRED. symmetry. apply run_trustb. }
        rewrite TK in E1.
        assert (ASTEP : forall s, b s = mkPulse t s false :: v_pulses v) by reflexivity.
        destruct (trustb (periods (b false))) eqn:TR.
        { (* trusted *)
          bnd E1 r E3. destruct r as [ou a3]. aproj.
          assert (O3 : exists pf, a3 = set_peirce (set_al (set_al (set_good (set_period (set_al a l) x) k) l2) (al_set_bad l2 false)) pf /\
            outl g pf (v_xs v ++ [(next_period v t, ou)]) /\
            match g_out g with
            | None => ou = false
            | Some (n, w) => exists ys y, judged peirce_table PEIRCE_MIN n w (v_xs v) ys /\
                 verdict_ok peirce_table PEIRCE_MIN n w ys (next_period v t) ou y
            end).
          { pose proof (R_out _ _ _ H) as O. unfold outl in *. destruct (a_peirce a) as [f|] eqn:PF.
            - destruct (g_out g) as [[n w]|]; [|contradiction].
              destruct O as [O1 [O2 [ys [O3 O4]]]]. bnd E3 y E4. injection E3 as <- <-.
              destruct (peirce_update_inv f ys x O4) as [out' [f' [y' [U1 [U2 [U3 [U4 U5]]]]]]].
              rewrite U1 in E4. injection E4 as <-. aproj. rewrite O1, O2 in U5.
              apply (judged_eq _ _ _ _ _ _ _ _ _ PX) in U5.
              exists (Some f'). split; [reflexivity|]. split.
              + split; [congruence|]. split; [congruence|]. exists (ys ++ [y']). split; [|exact U2].
                constructor; assumption.
              + exists ys, y'. auto.
            - destruct (g_out g) as [[n w]|]; [contradiction|]. injection E3 as <- <-.
              exists None. split; [|auto]. apply set_peirce_same. exact PF. }
          destruct O3 as [pf [-> [O3 O4]]].
          destruct ou.
          - (* outlier *)
            injection E1 as <- <-. aproj. rewrite AT. aproj. cbn [existsb negb].
            fold (b false). rewrite TR.
            split; [|split; [unfold al_set_bad; rewrite L1, L2, L3; reflexivity|]].
            + destruct H as [A1 A2 A3 A4 A5 A6 A7 A8 A9 A10 A11 A12 A13 A14 A15 A16 A17].
              constructor; aproj; vproj; rewrite ?orb_false_r; auto; try reflexivity; try congruence.
              * intros _. reflexivity.
              * constructor; assumption.
              * rewrite TR. rewrite andb_false_r. reflexivity.
            + do 3 (split; [reflexivity|]). split; [|intros X; exfalso; apply X, RB; reflexivity].
              intros _. exists true. split; [exact O4|reflexivity].
          - (* used *)
            bnd E1 s E4. destruct s as [a4 acts]. injection E1 as <- <-. cbn [fst snd] in *.
            pose proof H as H0. destruct H0 as [A1 A2 A3 A4 A5 A6 A7 A8 A9 A10 A11 A12 A13 A14 A15 A16 A17].
            pose proof (servo_ok g (set_peirce (set_al (set_al (set_good (set_period (set_al a l) x) k) l2) (al_set_bad l2 false)) pf) v t (i_day p) (i_corr p) a4 acts CO A13 A16 A15 A2 A14 ND NT AS E4) as SV.
            cbv zeta in SV. aproj.
            destruct SV as [S1 [S2 [S3 [S4 [S5 [S6 [[FR1 [FR2 [FR3 [FR4 [FR5 [FR6 [FR7 [FR8 [FR9 FR10]]]]]]]]] [S8 [S9 S10]]]]]]]]].
            aproj. rewrite FR1, AT.
            assert (X1 : existsb is_report (acts ++ [Report (a_offset a4)]) = true) by apply existsb_report.
            assert (X2 : existsb is_step (acts ++ [Report (a_offset a4)]) = existsb is_step acts)
              by (rewrite existsb_app; cbn; apply orb_false_r).
            assert (X3 : existsb is_act (acts ++ [Report (a_offset a4)]) = existsb is_act acts)
              by (rewrite existsb_app; cbn; apply orb_false_r).
            assert (X4 : existsb is_told (acts ++ [Report (a_offset a4)]) = false)
              by (rewrite existsb_app, S9; reflexivity).
            rewrite X1, X2, X3, X4. cbn [negb]. aproj.
            split; [|split; [rewrite FR4; unfold al_set_bad; cbn [al_bad]; rewrite L1, L2, L3; reflexivity|]].
            + fold (b (existsb is_step acts)). rewrite (PB (existsb is_step acts)), TR.
              constructor; aproj; vproj; unfold b; auto; try reflexivity; try congruence.
              * intros SF. unfold stepped in SF; vproj. reflexivity.
              * fold (b (existsb is_step acts)). rewrite FR4, (PB (existsb is_step acts)), TR. cbn [al_bad].
                rewrite andb_false_r. reflexivity.
              * rewrite S6. destruct (existsb is_step acts); [reflexivity|exact PX].
            + rewrite FR9, FR10. do 3 (split; [reflexivity|]).
              split; [|intros X; exfalso; apply X, RB; reflexivity].
              intros _. exists false. split; [exact O4|]. exists acts, (a_offset a4).
              split; [reflexivity|]. split; [exact S10|]. exact (proj2 (proj2 S1)). }
        { (* not trusted *)
          injection E1 as <- <-. aproj. rewrite AT. aproj. cbn [existsb negb].
          fold (b false). rewrite TR.
          split; [|split; [rewrite (al_eta l2) at 1; rewrite L1, L2, L3; reflexivity|]].
          - destruct H as [A1 A2 A3 A4 A5 A6 A7 A8 A9 A10 A11 A12 A13 A14 A15 A16 A17].
            constructor; aproj; vproj; rewrite ?orb_false_r; auto; try reflexivity; try congruence.
            + intros _. reflexivity.
            + constructor; assumption.
            + rewrite TR. cbn [negb]. rewrite andb_true_r. unfold b. apply L4. exact TR.
          - do 3 (split; [reflexivity|]). split; [|reflexivity]. intros X. apply RB in X. discriminate. }
    + injection E1 as <- <-. aproj. rewrite AT. aproj. rewrite <- TS. cbn [existsb].
      split; [|rewrite LL; aproj; do 4 (split; [reflexivity|]);
               split; [intros [_ [X _]]; congruence|reflexivity]].
      destruct H as [A1 A2 A3 A4 A5 A6 A7 A8 A9 A10 A11 A12 A13 A14 A15 A16 A17].
      constructor; aproj; vproj; rewrite ?orb_false_r; auto; try reflexivity; try congruence.
      { rewrite LL. exact A10. }
  - (* FAULTY *)
    injection E1 as <-. aproj.
    assert (PN : v_pulses v = []) by (apply (R_nil _ _ _ H); congruence).
    destruct H as [A1 A2 A3 A4 A5 A6 A7 A8 A9 A10 A11 A12 A13 A14 A15 A16 A17].
    rewrite PN in *. cbn [existsb].
    split; [|destruct (a_ts a); aproj; (split; [destruct (a_al a); reflexivity|]); do 3 (split; [reflexivity|]);
             (split; [intros [X _]; congruence|reflexivity])].
    destruct (a_ts a) eqn:TS; constructor; aproj; vproj; rewrite <- ?A1; auto; try reflexivity; try (rewrite orb_false_r; exact A14).
    all: try (constructor; [exact NT|constructor]).
    all: try discriminate; try (rewrite TS; reflexivity).
    all: try (intros X; exfalso; apply X; reflexivity).
    all: intros X; first [reflexivity|unfold time_ok in A7; rewrite PN in A7; apply A7; exact X].
Qed.
