(** Properties C31-C33, C51: statistics. *)
Require Import ZArith QArith Qabs Lia List Bool Arith Lqa.
Require Import ZifyBool.
Require Import Verif.Base Verif.TimeSpec Verif.TimeModel Verif.QLib Verif.ListLib.
Require Import Verif.FilterModel Verif.FilterProof Verif.StatsSpec Verif.StatsModel Verif.StatsProof.
Import ListNotations.
Open Scope Z_scope.

(** ** C31: a range record is the exact summary of the samples it was given. *)

(** Any way of building up a record: fresh, updated by a sample, or merged. *)
Inductive built := Fresh | Updated (b : built) (s : rsample) | Merged (a b : built).
Fixpoint built_range (b : built) : range :=
  match b with
  | Fresh => range_init
  | Updated b s => range_update (built_range b) s
  | Merged a b => range_add (built_range a) (built_range b)
  end.
Fixpoint built_samples (b : built) : list rsample :=
  match b with
  | Fresh => []
  | Updated b s => built_samples b ++ [s]
  | Merged a b => built_samples a ++ built_samples b
  end.

Theorem C31_range_is_exact_summary : forall b,
  Forall in_limits (built_samples b) ->
  let r := built_range b in
  range_summary (built_samples b) (rg_num r) (rg_total r) (rg_sq r) (rg_min r) (rg_max r)
                (rg_qual r) (rg_min_time r) (rg_max_time r).
Proof.
  intros b HF. cbn zeta. assert (G : Rrange (built_range b) (built_samples b)).
  { clear HF. induction b; cbn.
    - apply Rrange_init.
    - apply Rrange_upd. assumption.
    - apply Rrange_add; assumption. }
  apply G. assumption.
Qed.
Print Assumptions C31_range_is_exact_summary.

Definition rs (v t : Z) (q : bool) : rsample := mkRs (inject_Z v) (mkTs t 0 0) q.
Example C31_ex :
  let b := Merged (Updated (Updated Fresh (rs 5 1 true)) (rs (-3) 2 true))
                  (Updated (Updated Fresh (rs 100 3 false)) (rs 7 4 true)) in
  Forall in_limits (built_samples b) /\
  rg_num (built_range b) = 3 /\ (rg_total (built_range b) == 9)%Q /\
  rg_min (built_range b) = inject_Z (-3) /\ rg_max (built_range b) = inject_Z 7 /\
  rg_min_time (built_range b) = mkTs 2 0 0 /\ rg_max_time (built_range b) = mkTs 4 0 0 /\
  rg_qual (built_range b) = false.
Proof.
  cbn zeta. split; [|vm_compute; tauto].
  cbn. repeat constructor.
Qed.

(** Outside the limits assumed for the initial extrema (10^100) the minimum is wrong: a
    record holding one sample of 2*10^100 has minimum 10^100. *)
Theorem C31_range_limits_needed_refuted : exists s,
  r_qual s = true /\ ~ (rg_min (range_update range_init s) == r_val s)%Q.
Proof. exists (mkRs (inject_Z (2 * 10^100)) (mkTs 0 0 0) true). split; [reflexivity|]. vm_compute. discriminate. Qed.
Print Assumptions C31_range_limits_needed_refuted.

(** ** C32: roll-up *)

(** The statistics of the [j]-th most recent interval of every period, after any history
    of samples and one-minute ticks applied to any freshly created collection, summarise
    exactly the samples given to that statistic in that interval; intervals that have not
    happened yet are reported absent. *)
Definition range_reading (l : list rsample)
  (v : option Q * Q * Q * bool * ts * ts) : Prop :=
  let '(mean, mn, mx, qual, tmn, tmx) := v in
  let ql := qualified_samples l in
  (qual = true <-> forall s, In s l -> r_qual s = true) /\
  (ql = [] -> mean = None) /\
  (ql <> [] -> Z.of_nat (length ql) < 2^64 ->
     exists m, mean = Some m /\ (m == Qmean (map r_val ql))%Q) /\
  (ql <> [] -> exists lo hi, first_min ql lo /\ first_max ql hi /\
     mn = r_val lo /\ tmn = r_time lo /\ mx = r_val hi /\ tmx = r_time hi).

Lemma created_run : forall now defs c ops, coll_create (coll_alloc now) defs = Some (c, ROk) ->
  Forall (fun d => 0 <= fst d < 256) defs -> Forall op_id_ok ops ->
  exists c', coll_run c ops = Some c' /\ coll_inv now c' ops /\
    forall id ty, 0 <= id -> (type_at c' id = Some ty <-> In (id, ty) defs).
Proof.
  intros now defs c ops Hc HF HO.
  destruct (coll_create_spec defs now (coll_alloc now) [] (coll_alloc_cinv now) HF) as [c0 [r [E [I [_ [_ T]]]]]].
  { constructor. }
  { intros id ty Hid. unfold type_at, coll_alloc; cbn [co_items].
    destruct (Z.to_nat id) as [|[|n]]; cbn; split; try discriminate; tauto. }
  rewrite Hc in E. injection E as <- <-. cbn [app] in T.
  destruct (coll_run_inv ops now c [] (cinv_coll_inv _ _ I) HO) as [c' [R1 [R2 [R3 R4]]]].
  exists c'. split; [assumption|]. split; [assumption|].
  intros id ty Hid. rewrite R3. apply T; [reflexivity|assumption].
Qed.

Lemma type_at_range : forall c id, type_at c id = Some TRange ->
  exists h, nth_error (co_items c) (Z.to_nat id) = Some (Some (IRange h)).
Proof.
  intros c id H. unfold type_at in H.
  destruct (nth_error (co_items c) (Z.to_nat id)) as [[[h|h]|]|]; try discriminate. eauto.
Qed.
Lemma type_at_count : forall c id, type_at c id = Some TCount ->
  exists h, nth_error (co_items c) (Z.to_nat id) = Some (Some (ICount h)).
Proof.
  intros c id H. unfold type_at in H.
  destruct (nth_error (co_items c) (Z.to_nat id)) as [[[h|h]|]|]; try discriminate. eauto.
Qed.

Theorem C32_rollup_ranges : forall now defs c ops id p L j,
  coll_create (coll_alloc now) defs = Some (c, ROk) ->
  Forall (fun d => 0 <= fst d < 256) defs -> Forall op_id_ok ops ->
  In (id, TRange) defs -> nth_error period_minutes p = Some L -> (j < 4)%nat ->
  let M := fst (minutes (range_history id ops)) in
  let l := interval_samples M L j in
  Forall in_limits l ->
  exists c', coll_run c ops = Some c' /\
    if (j <=? length M / L)%nat
    then exists v, coll_get_range c' id p j = Some (ROk, Some v) /\ range_reading l v
    else coll_get_range c' id p j = Some (RENoEnt, None).
Proof.
  intros now defs c ops id p L j Hc HF HO Hin HL Hj M l Hlim.
  destruct (created_run now defs c ops Hc HF HO) as [c' [R [I T]]].
  assert (Hid : 0 <= id < 256) by (rewrite Forall_forall in HF; apply (HF _ Hin)).
  exists c'. split; [assumption|].
  apply T in Hin as Ht; [|lia]. destruct (type_at_range _ _ Ht) as [h Hn].
  unfold coll_get_range. rewrite type_check_spec by assumption. rewrite Ht. cbn [stype_eqb bind]. rewrite Hn.
  destruct I as [_ I]. specialize (I _ _ Hn). cbn beta iota in I. rewrite Z2Nat.id in I by lia.
  destruct (hist_row _ _ _ _ _ _ p L I HL) as [row [Er [Hlen Hrow]]]. fold M in Hrow.
  rewrite Er; cbn [bind].
  destruct (nth_error row j) as [e|] eqn:Ee.
  2:{ apply nth_error_None in Ee. unfold HISTORY in Hlen. lia. }
  cbn [bind]. destruct (Hrow j e Ee) as [P1 P2].
  destruct (j <=? length M / L)%nat eqn:Ej.
  - apply Nat.leb_le in Ej. destruct (P1 Ej) as [V Q]. rewrite V. fold l in Q.
    destruct (Q Hlim) as [[N [Tt [_ [Qu Mm]]]] _].
    eexists. split; [reflexivity|]. unfold range_reading. split; [exact Qu|].
    split. { intros E. rewrite E in N. cbn in N. rewrite N. reflexivity. }
    split; [|exact Mm].
    intros Hne Hlt. destruct (qualified_samples l) as [|q ql] eqn:El; [congruence|].
    rewrite Z.mod_small in N by lia.
    replace (rg_num e =? 0) with false by (cbn [length] in N; lia).
    eexists. split; [reflexivity|]. unfold Qmean. rewrite N, Qlen_map. rewrite Tt. reflexivity.
  - apply Nat.leb_gt in Ej. rewrite (P2 Ej). reflexivity.
Qed.
Print Assumptions C32_rollup_ranges.

Theorem C32_rollup_counts : forall now defs c ops id p L j,
  coll_create (coll_alloc now) defs = Some (c, ROk) ->
  Forall (fun d => 0 <= fst d < 256) defs -> Forall op_id_ok ops ->
  In (id, TCount) defs -> nth_error period_minutes p = Some L -> (j < 4)%nat ->
  let M := fst (minutes (count_history id ops)) in
  exists c', coll_run c ops = Some c' /\
    coll_get_count c' id p j =
    Some (if (j <=? length M / L)%nat
          then (ROk, Some (fold_right Z.add 0 (interval_samples M L j) mod 2^64))
          else (RENoEnt, None)).
Proof.
  intros now defs c ops id p L j Hc HF HO Hin HL Hj M.
  destruct (created_run now defs c ops Hc HF HO) as [c' [R [I T]]].
  assert (Hid : 0 <= id < 256) by (rewrite Forall_forall in HF; apply (HF _ Hin)).
  exists c'. split; [assumption|].
  apply T in Hin as Ht; [|lia]. destruct (type_at_count _ _ Ht) as [h Hn].
  unfold coll_get_count. rewrite type_check_spec by assumption. rewrite Ht. cbn [stype_eqb bind]. rewrite Hn.
  destruct I as [_ I]. specialize (I _ _ Hn). cbn beta iota in I. rewrite Z2Nat.id in I by lia.
  destruct (hist_row _ _ _ _ _ _ p L I HL) as [row [Er [Hlen Hrow]]]. fold M in Hrow.
  rewrite Er; cbn [bind].
  destruct (nth_error row j) as [e|] eqn:Ee.
  2:{ apply nth_error_None in Ee. unfold HISTORY in Hlen. lia. }
  cbn [bind]. destruct (Hrow j e Ee) as [P1 P2].
  destruct (j <=? length M / L)%nat eqn:Ej.
  - apply Nat.leb_le in Ej. destruct (P1 Ej) as [V [_ Q]]. rewrite V, Q. reflexivity.
  - apply Nat.leb_gt in Ej. rewrite (P2 Ej). reflexivity.
Qed.
Print Assumptions C32_rollup_counts.

(** The intervals of each period, oldest to newest, are consecutive and together hold
    every sample of the completed minutes exactly once and in order; those of completed
    minutes plus those of the minute in progress are all the samples supplied. *)
Theorem C32_nothing_lost_or_duplicated : forall S (h : list (hop S)) L, In L period_minutes ->
  let M := fst (minutes h) in
  flat_map (fun i => interval_samples M L (length M / L - i)) (seq 0 (length M / L + 1)) ++
    snd (minutes h) =
  flat_map (fun o => match o with Sample s => [s] | Tick _ => [] end) h.
Proof.
  intros S h L HL M. rewrite intervals_partition.
  2:{ unfold period_minutes in HL. cbn [In] in HL. lia. }
  unfold M. induction h as [|o h IH] using rev_ind; [reflexivity|].
  rewrite flat_map_app, <- IH, minutes_app. destruct o as [s|t]; cbn [fst snd flat_map].
  - rewrite !app_assoc, ?app_nil_r. reflexivity.
  - rewrite concat_app. cbn. rewrite !app_nil_r. reflexivity.
Qed.
Print Assumptions C32_nothing_lost_or_duplicated.

(** Every completed interval of a period of [L] minutes holds [L] minutes. *)
Theorem C32_completed_interval_is_whole : forall S (M : list (list S)) L j, (0 < L)%nat ->
  (1 <= j <= length M / L)%nat ->
  length (firstn L (skipn ((length M / L - j) * L) M)) = L.
Proof.
  intros S M L j HL Hj. rewrite firstn_length, skipn_length.
  pose proof (Nat.mul_div_le (length M) L ltac:(lia)). nia.
Qed.
Print Assumptions C32_completed_interval_is_whole.

(** Sequence numbers and start/end times of the intervals: interval number [q] of a period
    starts at tick [q*L] (tick 0 is creation) and ends at tick [(q+1)*L]. *)
Theorem C32_interval_times : forall now defs c ops p L j e c' row,
  coll_create (coll_alloc now) defs = Some (c, ROk) ->
  Forall (fun d => 0 <= fst d < 256) defs -> Forall op_id_ok ops ->
  nth_error period_minutes p = Some L ->
  coll_run c ops = Some c' -> nth_error (co_iv c') p = Some row -> nth_error row j = Some e ->
  let times := now :: tick_times ops in
  let q := (length (tick_times ops) / L - j)%nat in
  if (j <=? length (tick_times ops) / L)%nat
  then iv_seq e = Z.of_nat q /\ iv_sv e = true /\ nth_error times (q * L) = Some (iv_start e) /\
       (j = 0%nat -> iv_ev e = false) /\
       (j <> 0%nat -> iv_ev e = true /\ nth_error times ((q + 1) * L) = Some (iv_end e))
  else iv_sv e = false.
Proof.
  intros now defs c ops p L j e c' row Hc HF HO HL Hr Hrow He times q.
  destruct (created_run now defs c ops Hc HF HO) as [c1 [R [[I _] _]]].
  rewrite Hr in R. injection R as <-.
  destruct I as [_ [_ [r0 [r1 [r2 [r3 [r4 [E [H0 [H1 [H2 [H3 H4]]]]]]]]]]]].
  assert (K : iv_row_ok L times (length (tick_times ops)) row).
  { rewrite E in Hrow. destruct p as [|[|[|[|[|p]]]]]; cbn [nth_error period_minutes] in HL, Hrow;
      try (injection HL as <-; injection Hrow as <-; assumption). destruct p; discriminate. }
  destruct K as [_ K]. destruct (K j e He) as [K1 K2].
  destruct (j <=? length (tick_times ops) / L)%nat eqn:Ej.
  - apply Nat.leb_le in Ej. destruct (K1 Ej) as [S1 [S2 [S3 S4]]].
    split; [assumption|]. split; [assumption|]. split; [assumption|].
    destruct j as [|j]; cbn [Nat.eqb] in S4; (split; [intros; first [assumption|discriminate]|]);
      intros; [congruence|assumption].
  - apply Nat.leb_gt in Ej. auto.
Qed.
Print Assumptions C32_interval_times.

(** A concrete run: 21 minutes, one sample per minute; the current 10-minute interval
    (number 2) holds minute 20, the previous one minutes 10..19. *)
Definition ex_ops : list kop :=
  flat_map (fun n => [KRange 3 (rs (Z.of_nat n) (Z.of_nat n) true); KCount 5 (Z.of_nat n);
                      KTick (mkTs (60 * Z.of_nat (n + 1)) 0 0)]) (seq 0 21).
Example C32_ex : exists c c',
  coll_create (coll_alloc (mkTs 0 0 0)) [(3, TRange); (5, TCount)] = Some (c, ROk) /\
  coll_run c ex_ops = Some c' /\
  coll_get_count c' 5 1 0 = Some (ROk, Some 20) /\
  coll_get_count c' 5 1 1 = Some (ROk, Some 145) /\
  coll_get_count c' 5 1 3 = Some (RENoEnt, None) /\
  (exists m, coll_get_range c' 3 1 1 = Some (ROk, Some (Some m, inject_Z 10, inject_Z 19, true, mkTs 10 0 0, mkTs 19 0 0))
    /\ (m == 145 # 10)%Q).
Proof.
  eexists _, _. split; [vm_compute; reflexivity|]. split; [vm_compute; reflexivity|].
  split; [vm_compute; reflexivity|]. split; [vm_compute; reflexivity|].
  split; [vm_compute; reflexivity|]. eexists. split; [vm_compute; reflexivity|]. reflexivity.
Qed.

(** ** C33: convergence *)
Lemma run_of_split : forall max ops t0 x0, In (t0, x0) (run_of max ops) <->
  exists pre mid, ops = pre ++ CUpdate t0 x0 :: mid /\ in_range max x0 = true /\
    forall o, In o mid -> exists t x, o = CUpdate t x /\ in_range max x = true.
Proof.
  intros max ops t0 x0. induction ops as [|o ops IH] using rev_ind.
  - cbn. split; [tauto|]. intros [pre [mid [E _]]]. destruct pre; discriminate.
  - unfold run_of in *. rewrite fold_left_app. cbn [fold_left]. split.
    + intros H. destruct o as [|t x]; [destruct H|]. destruct (in_range max x) eqn:E; [|destruct H].
      apply in_app_or in H as [H|[H|[]]].
      * apply IH in H as [pre [mid [-> [H1 H2]]]]. exists pre, (mid ++ [CUpdate t x]).
        split; [rewrite <- app_assoc; reflexivity|]. split; [assumption|].
        intros o Ho. apply in_app_or in Ho as [Ho|[<-|[]]]; [auto|eauto].
      * injection H as -> ->. exists ops, []. split; [reflexivity|]. split; [assumption|]. intros o [].
    + intros [pre [mid [E [H1 H2]]]].
      destruct mid as [|m mid _] using rev_ind.
      * apply app_inj_tail in E as [-> ->]. rewrite H1. apply in_or_app. right. left. reflexivity.
      * rewrite app_comm_cons, app_assoc in E. apply app_inj_tail in E as [-> <-].
        destruct (H2 o) as [t [x [-> E]]]; [apply in_or_app; right; left; reflexivity|].
        rewrite E. apply in_or_app. left. apply IH. exists pre, mid.
        split; [reflexivity|]. split; [assumption|]. intros o Ho. apply H2, in_or_app. auto.
Qed.

Lemma run_of_length : forall max ops, (length (run_of max ops) <= length ops)%nat.
Proof.
  intros max ops. induction ops as [|o ops IH] using rev_ind; [reflexivity|].
  unfold run_of in *. rewrite fold_left_app, app_length. cbn [fold_left length].
  destruct o as [|t x]; cbn [length]; [lia|]. destruct (in_range max x); [|cbn; lia].
  rewrite app_length. cbn. lia.
Qed.

Lemma conv_end : forall min max ops c0 c, 0 < min -> conv_init min max = Some c0 ->
  conv_run c0 ops = Some c ->
  conv_inv c (run_of max ops) /\ c_min c = min /\ c_max c = max.
Proof.
  intros min max ops c0 c Hm H0 Hr. unfold conv_init in H0. destruct (Qlt_bool 0 max); [|discriminate].
  injection H0 as <-.
  destruct (conv_run_inv ops _ [] c (conv_reset_inv (mkConv min max 0 0 0)) Hm Hr) as [A [B C]].
  split; [exact A|]. split; assumption.
Qed.

(** Convergence is reported for a sample at time [t] only if the sample is in range and the
    history contains an in-range sample at least the minimum period older, after which
    there was neither a reset nor an out-of-range sample. *)
Theorem C33_convergence_sound : forall min max c0 ops c t x c', 0 < min ->
  conv_init min max = Some c0 -> conv_run c0 ops = Some c ->
  conv_update c t x = Some (c', true) ->
  in_range max x = true /\
  exists pre t0 x0 mid, ops = pre ++ CUpdate t0 x0 :: mid /\
    in_range max x0 = true /\ t0 + min <= t /\
    forall o, In o mid -> exists t' x', o = CUpdate t' x' /\ in_range max x' = true.
Proof.
  intros min max c0 ops c t x c' Hm H0 Hr Hu.
  destruct (conv_end min max ops c0 c Hm H0 Hr) as [I [E1 E2]].
  assert (Hx : in_range max x = true).
  { destruct (in_range max x) eqn:E; [reflexivity|]. rewrite <- E2, in_range_iff in E.
    apply negb_false_iff in E. unfold conv_update in Hu. rewrite E in Hu. discriminate. }
  split; [assumption|].
  rewrite <- E2 in Hx. rewrite <- E1 in Hm.
  destruct (conv_update_inv c _ t x I Hx Hm c' true Hu) as [_ [_ [_ [B _]]]].
  destruct (B eq_refl) as [t0 [x0 [Hin Ht]]]. apply run_of_split in Hin as [pre [mid [P1 [P2 P3]]]].
  exists pre, t0, x0, mid. rewrite <- E1. auto.
Qed.
Print Assumptions C33_convergence_sound.

(** With times that never go backwards this says: every sample newer than [t - min]
    was in range, and there was no reset after time [t - min]. *)
Definition cop_time (o : cop) : option Z := match o with CReset => None | CUpdate t _ => Some t end.
Corollary C33_whole_window_in_range : forall min max c0 ops c t x c' a b, 0 < min ->
  conv_init min max = Some c0 -> conv_run c0 ops = Some c ->
  conv_update c t x = Some (c', true) ->
  (* times are non-decreasing *)
  (forall l1 t1 x1 l2 t2 x2 l3, ops = l1 ++ CUpdate t1 x1 :: l2 ++ CUpdate t2 x2 :: l3 -> t1 <= t2) ->
  ops = a ++ b ->
  (* [b] is everything after the last sample no newer than [t - min] *)
  (forall t1 x1, In (CUpdate t1 x1) b -> t - min < t1) ->
  forall o, In o b -> exists t' x', o = CUpdate t' x' /\ in_range max x' = true.
Proof.
  intros min max c0 ops c t x c' a b Hm H0 Hr Hu Hmono Hab Hb o Ho.
  destruct (C33_convergence_sound min max c0 ops c t x c' Hm H0 Hr Hu) as [_ [pre [t0 [x0 [mid [E [E1 [E2 E3]]]]]]]].
  assert (Hnb : ~ In (CUpdate t0 x0) b \/ In o mid).
  { left. intros H. specialize (Hb _ _ H). lia. }
  destruct Hnb as [Hnb|H]; [|auto]. apply E3.
  (* [b] is a suffix of [mid] *)
  rewrite Hab in E. clear - E Hnb Ho. revert a E. induction pre as [|p pre IH]; intros a E.
  - destruct a as [|p a]; cbn in E.
    + exfalso. apply Hnb. rewrite E. left. reflexivity.
    + injection E as _ <-. apply in_or_app. auto.
  - destruct a as [|q a]; cbn in E.
    + exfalso. apply Hnb. rewrite E. right. apply in_or_app. right. left. reflexivity.
    + injection E as _ E. eauto.
Qed.
Print Assumptions C33_whole_window_in_range.

(** Conversely, provided the history is shorter than 2^32 - 1 operations (the sample count
    wraps at 2^32 and then the window is restarted), convergence is reported whenever such
    a sample exists. *)
Theorem C33_convergence_complete : forall min max c0 ops c t x c' b, 0 < min ->
  Z.of_nat (length ops) < 2^32 - 1 ->
  conv_init min max = Some c0 -> conv_run c0 ops = Some c ->
  conv_update c t x = Some (c', b) -> in_range max x = true ->
  (exists pre t0 x0 mid, ops = pre ++ CUpdate t0 x0 :: mid /\
    in_range max x0 = true /\ t0 + min <= t /\
    forall o, In o mid -> exists t' x', o = CUpdate t' x' /\ in_range max x' = true) ->
  b = true.
Proof.
  intros min max c0 ops c t x c' b Hm Hlen H0 Hr Hu Hx [pre [t0 [x0 [mid [P1 [P2 [P3 P4]]]]]]].
  destruct (conv_end min max ops c0 c Hm H0 Hr) as [I [E1 E2]].
  rewrite <- E2 in Hx. rewrite <- E1 in Hm.
  destruct (conv_update_inv c _ t x I Hx Hm c' b Hu) as [_ [_ [_ [_ C]]]].
  apply C.
  - pose proof (run_of_length max ops). lia.
  - exists t0, x0. split; [|lia]. apply run_of_split. eauto.
Qed.
Print Assumptions C33_convergence_complete.

Example C33_ex : exists c0 c c',
  conv_init 60 (inject_Z 10) = Some c0 /\
  conv_run c0 [CUpdate 100 (inject_Z 50); CUpdate 101 (inject_Z 3); CUpdate 130 (inject_Z (-9))] = Some c /\
  conv_update c 161 (inject_Z 10) = Some (c', true) /\
  (exists c'', conv_update c 160 (inject_Z 10) = Some (c'', false)) /\
  (exists c'', conv_update c 161 (inject_Z 11) = Some (c'', false)).
Proof.
  eexists _, _, _. split; [vm_compute; reflexivity|]. split; [vm_compute; reflexivity|].
  split; [vm_compute; reflexivity|]. split; eexists; vm_compute; reflexivity.
Qed.

(** Full form, false: "no time reversal" within the window.  A sample whose time goes
    backwards but not below the start of the window does not restart it. *)
Theorem C33_time_reversal_refuted : exists c0 c c',
  conv_init 60 (inject_Z 10) = Some c0 /\
  conv_run c0 [CUpdate 100 0; CUpdate 150 0; CUpdate 120 0] = Some c /\
  conv_update c 160 0 = Some (c', true).
Proof.
  eexists _, _, _. split; [vm_compute; reflexivity|]. split; [vm_compute; reflexivity|].
  vm_compute; reflexivity.
Qed.
Print Assumptions C33_time_reversal_refuted.

(** ** C51: the collection is a partial map with checked types *)

(** Creation succeeds exactly when the identifiers are distinct; otherwise it reports
    EEXIST. *)
Theorem C51_create_iff_distinct : forall now defs,
  Forall (fun d => 0 <= fst d < 256) defs ->
  exists c r, coll_create (coll_alloc now) defs = Some (c, r) /\
    (NoDup (map fst defs) -> r = ROk) /\ (~ NoDup (map fst defs) -> r = REExist).
Proof.
  intros now defs HF.
  destruct (coll_create_spec defs now (coll_alloc now) [] (coll_alloc_cinv now) HF) as [c0 [r [E [_ [D [N _]]]]]].
  { constructor. }
  { intros id ty Hid. unfold type_at, coll_alloc; cbn [co_items].
    destruct (Z.to_nat id) as [|[|n]]; cbn; split; try discriminate; tauto. }
  exists c0, r. split; [assumption|]. cbn [app] in N. split; [tauto|].
  intros Hn. destruct D as [D|D]; [|assumption]. exfalso. apply Hn, N, D.
Qed.
Print Assumptions C51_create_iff_distinct.

(** After any history, an update succeeds exactly on a statistic declared with that type;
    a statistic declared with the other type is refused with EINVAL, an undeclared one
    with ENOENT or ERANGE, and a refused update changes nothing. *)
Theorem C51_update_range_checked : forall now defs c ops id s,
  coll_create (coll_alloc now) defs = Some (c, ROk) ->
  Forall (fun d => 0 <= fst d < 256) defs -> Forall op_id_ok ops -> 0 <= id < 256 ->
  exists c' c'' r, coll_run c ops = Some c' /\ coll_update_range c' id s = Some (c'', r) /\
    (r = ROk <-> In (id, TRange) defs) /\ (r = REInval <-> In (id, TCount) defs) /\
    (r <> ROk -> c'' = c') /\ (~ In id (map fst defs) -> r = RENoEnt \/ r = RERange).
Proof.
  intros now defs c ops id s Hc HF HO Hid.
  destruct (created_run now defs c ops Hc HF HO) as [c' [R [I T]]].
  pose proof (T id TRange ltac:(lia)) as T1. pose proof (T id TCount ltac:(lia)) as T2.
  unfold coll_update_range. exists c'. rewrite type_check_spec by assumption. cbn [bind].
  destruct (type_at c' id) as [[|]|] eqn:Et.
  - destruct (type_at_range _ _ Et) as [h Hn]. cbn [stype_eqb]. rewrite Hn.
    eexists _, _. split; [assumption|]. split; [reflexivity|].
    rewrite <- T1, <- T2. split; [tauto|]. split; [split; discriminate|]. split; [congruence|].
    intros N. exfalso. apply N. apply in_map_iff. exists (id, TRange). split; [reflexivity|]. apply T1. reflexivity.
  - cbn [stype_eqb]. exists c', REInval. split; [assumption|]. split; [reflexivity|].
    rewrite <- T1, <- T2. split; [split; discriminate|]. split; [tauto|]. split; [reflexivity|].
    intros N. exfalso. apply N. apply in_map_iff. exists (id, TCount). split; [reflexivity|]. apply T2. reflexivity.
  - destruct (Z.of_nat (length (co_items c')) <=? id).
    + exists c', RERange. split; [assumption|]. split; [reflexivity|]. rewrite <- T1, <- T2.
      split; [split; discriminate|]. split; [split; discriminate|]. split; auto.
    + exists c', RENoEnt. split; [assumption|]. split; [reflexivity|]. rewrite <- T1, <- T2.
      split; [split; discriminate|]. split; [split; discriminate|]. split; auto.
Qed.
Print Assumptions C51_update_range_checked.

Theorem C51_update_count_checked : forall now defs c ops id x,
  coll_create (coll_alloc now) defs = Some (c, ROk) ->
  Forall (fun d => 0 <= fst d < 256) defs -> Forall op_id_ok ops -> 0 <= id < 256 ->
  exists c' c'' r, coll_run c ops = Some c' /\ coll_update_count c' id x = Some (c'', r) /\
    (r = ROk <-> In (id, TCount) defs) /\ (r = REInval <-> In (id, TRange) defs) /\
    (r <> ROk -> c'' = c') /\ (~ In id (map fst defs) -> r = RENoEnt \/ r = RERange).
Proof.
  intros now defs c ops id s Hc HF HO Hid.
  destruct (created_run now defs c ops Hc HF HO) as [c' [R [I T]]].
  pose proof (T id TRange ltac:(lia)) as T1. pose proof (T id TCount ltac:(lia)) as T2.
  unfold coll_update_count. exists c'. rewrite type_check_spec by assumption. cbn [bind].
  destruct (type_at c' id) as [[|]|] eqn:Et.
  - cbn [stype_eqb]. exists c', REInval. split; [assumption|]. split; [reflexivity|].
    rewrite <- T1, <- T2. split; [split; discriminate|]. split; [tauto|]. split; [reflexivity|].
    intros N. exfalso. apply N. apply in_map_iff. exists (id, TRange). split; [reflexivity|]. apply T1. reflexivity.
  - destruct (type_at_count _ _ Et) as [h Hn]. cbn [stype_eqb]. rewrite Hn.
    eexists _, _. split; [assumption|]. split; [reflexivity|].
    rewrite <- T1, <- T2. split; [tauto|]. split; [split; discriminate|]. split; [congruence|].
    intros N. exfalso. apply N. apply in_map_iff. exists (id, TCount). split; [reflexivity|]. apply T2. reflexivity.
  - destruct (Z.of_nat (length (co_items c')) <=? id).
    + exists c', RERange. split; [assumption|]. split; [reflexivity|]. rewrite <- T1, <- T2.
      split; [split; discriminate|]. split; [split; discriminate|]. split; auto.
    + exists c', RENoEnt. split; [assumption|]. split; [reflexivity|]. rewrite <- T1, <- T2.
      split; [split; discriminate|]. split; [split; discriminate|]. split; auto.
Qed.
Print Assumptions C51_update_count_checked.

Example C51_ex : exists c c',
  coll_create (coll_alloc (mkTs 0 0 0)) [(3, TRange); (5, TCount)] = Some (c, ROk) /\
  coll_create (coll_alloc (mkTs 0 0 0)) [(3, TRange); (3, TCount)] = Some (c', REExist) /\
  coll_update_range c 5 (rs 1 1 true) = Some (c, REInval) /\
  coll_update_range c 4 (rs 1 1 true) = Some (c, RENoEnt) /\
  coll_update_range c 9 (rs 1 1 true) = Some (c, RERange).
Proof.
  eexists _, _. split; [vm_compute; reflexivity|]. split; [vm_compute; reflexivity|].
  split; [vm_compute; reflexivity|]. split; vm_compute; reflexivity.
Qed.
