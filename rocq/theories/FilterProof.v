Require Import ZArith QArith Qabs Lia List Bool Arith Permutation Lqa.
Require Import ZifyBool.
Require Import Verif.Base Verif.TimeSpec Verif.TimeModel Verif.TimeProof Verif.QLib Verif.ListLib.
Require Import Verif.FilterSpec Verif.FilterModel.
Import ListNotations.
Open Scope Q_scope.

Lemma Qlt_bool_iff : forall x y, Qlt_bool x y = true <-> x < y.
Proof.
  intros. unfold Qlt_bool. rewrite negb_true_iff.
  rewrite <- not_true_iff_false, Qle_bool_iff. split; intros H.
  - apply Qnot_le_lt. assumption.
  - apply Qlt_not_le. assumption.
Qed.
Lemma Qlt_bool_false : forall x y, Qlt_bool x y = false <-> y <= x.
Proof.
  intros. unfold Qlt_bool. rewrite negb_false_iff, Qle_bool_iff. reflexivity.
Qed.

(** ** Generic: replaying histories with resets. *)
Lemma since_reset_app : forall A (ops : list (rop A)) o,
  since_reset (ops ++ [o]) =
  match o with Push x => since_reset ops ++ [x] | Reset => [] end.
Proof. intros. unfold since_reset. rewrite fold_left_app. cbn. destruct o; reflexivity. Qed.

(** ** FIR *)
Definition fir_inv (f : fir) (h : list Q) : Prop :=
  (0 < f_stiff f <= FIR_MAX)%nat /\ length (f_delta f) = FIR_MAX /\
  ring_inv (f_stiff f) (f_delta f) (f_num f) (f_widx f) h.

Lemma fir_update_inv : forall f h x, fir_inv f h ->
  exists f' r, fir_update f x = Some (f', r) /\ fir_inv f' (h ++ [x]) /\
    f_stiff f' = f_stiff f /\ r == Qmean (lastn (f_stiff f) (h ++ [x])).
Proof.
  intros f h x [Hs [Hl Hr]].
  pose proof (ring_inv_push _ _ _ _ _ _ x Hr) as Hr'.
  unfold ring_next in Hr'.
  unfold fir_update. destruct Hr as [Hc [Hn [Hw _]]].
  replace (f_widx f <? length (f_delta f))%nat with true by lia.
  set (n := if (f_num f <? f_stiff f)%nat then S (f_num f) else f_num f) in *.
  assert (Hn0 : (n =? 0)%nat = false).
  { unfold n. destruct (f_num f <? f_stiff f)%nat eqn:E; lia. }
  rewrite Hn0. eexists _, _. split; [reflexivity|]. unfold fir_inv; cbn [f_stiff f_delta f_num f_widx].
  split; [|split; [reflexivity|]].
  - split; [assumption|]. split; [rewrite set_nth_length; assumption|]. exact Hr'.
  - rewrite fold_left_Qplus, Qplus_0_l.
    rewrite <- (Qmean_perm _ _ (ring_inv_perm _ _ _ _ _ _ Hr')).
    unfold Qmean, Qlen. rewrite firstn_length.
    destruct Hr' as [Hc' [Hn' _]].
    replace (Nat.min n (length (set_nth (f_widx f) x (f_delta f)))) with n by lia.
    reflexivity.
Qed.

Lemma fir_reset_inv : forall f h, fir_inv f h -> fir_inv (fir_reset f) [].
Proof.
  intros f h [Hs [Hl Hr]]. unfold fir_inv, fir_reset; cbn.
  repeat split; try lia; try assumption. left. cbn. repeat split; lia.
Qed.

Lemma fir_run_inv : forall ops f h, fir_inv f h ->
  exists f', fir_run f ops = Some f' /\ f_stiff f' = f_stiff f /\
    fir_inv f' (fold_left (fun acc o => match o with Push x => acc ++ [x] | Reset => [] end) ops h).
Proof.
  induction ops as [|o ops IH]; intros f h Hi.
  - exists f. repeat split; try reflexivity; apply Hi.
  - destruct o as [x|]; cbn [fir_run fold_left].
    + destruct (fir_update_inv f h x Hi) as [f1 [r [Hu [Hi1 [Hs _]]]]].
      rewrite Hu; cbn [bind fst]. destruct (IH f1 _ Hi1) as [f' [H1 [H2 H3]]].
      exists f'. split; [assumption|]. split; [congruence|assumption].
    + destruct (IH (fir_reset f) [] (fir_reset_inv f h Hi)) as [f' [H1 [H2 H3]]].
      exists f'. split; [assumption|]. split; [assumption|assumption].
Qed.

Lemma fir_init_inv : forall junk n, (0 < n <= FIR_MAX)%nat -> length junk = FIR_MAX ->
  exists f, fir_init junk n = Some f /\ fir_inv f [] /\ f_stiff f = n.
Proof.
  intros junk n Hn Hl. unfold fir_init. replace (n <=? FIR_MAX)%nat with true by lia.
  eexists; split; [reflexivity|]. split; [|reflexivity].
  unfold fir_inv, fir_reset; cbn [f_stiff f_delta f_num f_widx].
  split; [assumption|]. split; [assumption|]. apply ring_inv_init. lia.
Qed.

(** ** PID *)
Lemma saturate_bound : forall m i, 0 < m -> - m <= saturate m i <= m.
Proof.
  intros m i Hm. unfold saturate.
  replace (Qlt_bool 0 m) with true by (symmetry; apply Qlt_bool_iff; assumption).
  destruct (Qlt_bool m i) eqn:E1; [apply Qlt_bool_iff in E1; lra|].
  apply Qlt_bool_false in E1.
  destruct (Qlt_bool i (- m)) eqn:E2; [lra|]. apply Qlt_bool_false in E2. lra.
Qed.

Lemma clamp_bound : forall avg t, 0 < avg ->
  (1#2) * avg <= clamp_interval avg t <= 2 * avg.
Proof.
  intros. unfold clamp_interval.
  destruct (Qlt_bool t ((1 # 2) * avg)) eqn:E1; [lra|]. apply Qlt_bool_false in E1.
  destruct (Qlt_bool (2 * avg) t) eqn:E2; [lra|]. apply Qlt_bool_false in E2. lra.
Qed.

Definition pid_inv (m : Q) (f : pid) : Prop :=
  i_max f = m /\ - m <= i_term f <= m /\ d_term f == 0 /\
  0 < conf_interval f /\ 0 < avg_interval f.

Lemma pid_interval_pos : forall f tm t avg last, 0 < conf_interval f -> 0 < avg_interval f ->
  pid_interval f tm = Some (t, avg, last) -> 0 < t /\ 0 < avg.
Proof.
  intros f tm t avg last H1 H2 H. unfold pid_interval in H.
  destruct tm as [now|]; [|injection H as <- <- <-; auto].
  destruct (is_zero (last_update f)); [injection H as <- <- <-; auto|].
  destruct (subtract now (last_update f)) as [d|]; [|discriminate]. cbn [bind] in H.
  injection H as <- <- <-.
  pose proof (clamp_bound (avg_interval f) (to_float_s d) H2).
  split; [lra|]. apply Qlt_shift_div_l; lra.
Qed.

Lemma pid_step_inv : forall m f o f', 0 < m -> pid_inv m f -> pid_step f o = Some f' -> pid_inv m f'.
Proof.
  intros m f o f' Hm [I1 [I2 [I3 [I4 I5]]]] H. destruct o as [d t| |a b c r|t]; cbn [pid_step] in H.
  - unfold pid_update in H.
    destruct (pid_interval f t) as [[[iv avg] last]|] eqn:E; [|discriminate].
    cbn [bind] in H. injection H as <-.
    destruct (pid_interval_pos _ _ _ _ _ I4 I5 E).
    unfold pid_inv; cbn [i_max i_term d_term conf_interval avg_interval]. rewrite I1.
    split; [reflexivity|]. split; [apply saturate_bound; assumption|]. auto.
  - injection H as <-. unfold pid_inv, pid_reset; cbn [i_max i_term d_term conf_interval avg_interval].
    repeat split; auto; try lra; try reflexivity.
  - injection H as <-. unfold pid_adjust. destruct r; unfold pid_inv, pid_reset;
      cbn [i_max i_term d_term conf_interval avg_interval]; repeat split; auto; try lra; try reflexivity.
  - unfold pid_set_interval in H. destruct (Qlt_bool 0 t) eqn:E; [|discriminate].
    injection H as <-. apply Qlt_bool_iff in E.
    unfold pid_inv; cbn [i_max i_term d_term conf_interval avg_interval]. auto.
Qed.

Lemma pid_run_inv : forall m ops f f', 0 < m -> pid_inv m f -> pid_run f ops = Some f' -> pid_inv m f'.
Proof.
  intros m ops. induction ops as [|o ops IH]; intros f f' Hm Hi H; cbn in H.
  - injection H as <-. assumption.
  - destruct (pid_step f o) as [f1|] eqn:E; [|discriminate]. cbn [bind] in H.
    eapply IH; [assumption| |eassumption]. eapply pid_step_inv; eauto.
Qed.

Lemma pid_init_inv : forall kp ki kd t m, 0 < t -> 0 < m ->
  exists f, pid_set_i_max (pid_init kp ki kd t) m = Some f /\ pid_inv m f.
Proof.
  intros kp ki kd t m Ht Hm. unfold pid_set_i_max.
  replace (Qle_bool 0 m) with true by (symmetry; apply Qle_bool_iff; lra).
  eexists; split; [reflexivity|].
  unfold pid_inv, pid_init, pid_reset; cbn [i_max i_term d_term conf_interval avg_interval].
  repeat split; try lra; try reflexivity; assumption.
Qed.

(** Closed form without time stamps or saturation. *)
Lemma pid_plain_run : forall deltas f f',
  i_max f == 0 -> d_term f == 0 ->
  pid_run f (map (fun d => PUpdate d None) deltas) = Some f' ->
  i_term f' == i_term f + k_i f * conf_interval f * Qsum deltas /\
  k_p f' = k_p f /\ i_max f' = i_max f /\ d_term f' = d_term f /\
  k_i f' = k_i f /\ conf_interval f' = conf_interval f.
Proof.
  induction deltas as [|d ds IH]; intros f f' Hm Hd H; cbn [map pid_run pid_step] in H.
  - injection H as <-. change (Qsum []) with 0. repeat split; try reflexivity. ring.
  - unfold pid_update, pid_interval in H. cbn [bind] in H.
    match type of H with pid_run ?g _ = _ => set (f1 := g) in * end.
    assert (Hi : i_term f1 = i_term f + k_i f * conf_interval f * d).
    { unfold f1; cbn [i_term]. unfold saturate.
      replace (Qlt_bool 0 (i_max f)) with false by (symmetry; apply Qlt_bool_false; lra).
      reflexivity. }
    destruct (IH f1 f') as [A [B [C [D [E F]]]]]; auto.
    repeat split; auto. rewrite A, Hi, Qsum_cons. cbn [k_i conf_interval f1].
    unfold f1; cbn [k_i conf_interval]. ring.
Qed.

(** ** Standard deviation *)
Definition sd_inv (s : sdev) (l : list Q) : Prop :=
  sd_n s = Z.of_nat (length l) /\ sd_sum s == Qsum l /\
  sd_sumsq s == Qsum (map (fun x => x * x) l).

Lemma sd_add_inv : forall s l x, sd_inv s l -> sd_inv (sd_add s x) (x :: l).
Proof.
  intros s l x [H1 [H2 H3]]. unfold sd_inv, sd_add; cbn [sd_n sd_sum sd_sumsq map length].
  rewrite !Qsum_cons, H2, H3, H1. split; [lia|]. split; ring.
Qed.

Lemma sd_inv_perm : forall s a b, Permutation a b -> sd_inv s a -> sd_inv s b.
Proof.
  intros s a b P [H1 [H2 H3]]. unfold sd_inv. rewrite <- (Permutation_length P).
  split; [assumption|]. split.
  - rewrite H2. apply Qsum_perm. assumption.
  - rewrite H3. apply Qsum_perm, Permutation_map. assumption.
Qed.

Lemma sd_remove_inv : forall s l l' x, sd_inv s l -> remove_one x l = Some l' ->
  exists s', sd_remove s x = Some s' /\ sd_inv s' l'.
Proof.
  intros s l l' x [H1 [H2 H3]] H.
  assert (Hex : length l = S (length l') /\ Qsum l == x + Qsum l' /\
     Qsum (map (fun x => x * x) l) == x * x + Qsum (map (fun x => x * x) l')).
  { clear - H. revert l' H. induction l as [|y l IH]; intros l' H; cbn in H; [discriminate|].
    destruct (Qeq_bool x y) eqn:E.
    - injection H as <-. apply Qeq_bool_iff in E. cbn [length map]. rewrite !Qsum_cons.
      split; [reflexivity|]. rewrite E. split; reflexivity.
    - destruct (remove_one x l) as [r|] eqn:Er; [|discriminate]. injection H as <-.
      destruct (IH r eq_refl) as [A [B C]]. cbn [length map]. rewrite !Qsum_cons, B, C, A.
      split; [reflexivity|]. split; ring. }
  destruct Hex as [A [B C]]. unfold sd_remove.
  replace (0 <? sd_n s)%Z with true by lia.
  eexists; split; [reflexivity|]. unfold sd_inv; cbn [sd_n sd_sum sd_sumsq].
  split; [lia|]. rewrite H2, H3, B, C. split; ring.
Qed.

Lemma sd_run_inv : forall ops s acc l, sd_inv s acc -> remaining ops acc = Some l ->
  exists s', sd_run s ops = Some s' /\ sd_inv s' l.
Proof.
  induction ops as [|o ops IH]; intros s acc l Hi H; cbn [remaining sd_run] in *.
  - injection H as <-. eauto.
  - destruct o as [x|x]; cbn [sd_step bind].
    + eapply IH; [|eassumption]. apply sd_add_inv. assumption.
    + destruct (remove_one x acc) as [a|] eqn:E; [|discriminate].
      destruct (sd_remove_inv s acc a x Hi E) as [s' [H1 H2]]. rewrite H1; cbn [bind].
      eapply IH; eauto.
Qed.

Lemma sd_get_inv : forall s l, sd_inv s l -> l <> [] ->
  exists m v, sd_get s = Some (m, v) /\ m == Qmean l /\ v == Qvar l.
Proof.
  intros s l [H1 [H2 H3]] Hne. unfold sd_get.
  replace (0 <? sd_n s)%Z with true by (destruct l; [congruence|cbn in H1; lia]).
  eexists _, _. split; [reflexivity|].
  assert (Hm : sd_sum s / inject_Z (sd_n s) == Qmean l).
  { rewrite H1, H2. reflexivity. }
  split; [assumption|]. rewrite !Hm. rewrite <- Qvar_alt by assumption.
  rewrite H1, H3. reflexivity.
Qed.

(** ** Peirce *)
Definition peirce_inv (f : peirce) (h : list Q) : Prop :=
  (0 < pe_max f <= PEIRCE_MAX)%nat /\ length (pe_data f) = pe_max f /\
  ring_inv (pe_max f) (pe_data f) (pe_num f) (pe_widx f) h /\
  sd_inv (pe_sd f) (lastn (pe_max f) h).

Lemma Qeq_bool_refl : forall x, Qeq_bool x x = true.
Proof. intros. apply Qeq_bool_iff. reflexivity. Qed.

Lemma criterion_defined : forall n, (0 < n <= PEIRCE_MAX)%nat ->
  exists c, peirce_criterion n = Some c /\ 0 <= c.
Proof.
  intros n Hn. unfold peirce_criterion. destruct n as [|i]; [lia|].
  destruct (nth_error peirce_table i) as [c|] eqn:E.
  - exists c. split; [reflexivity|]. apply nth_error_In in E.
    assert (F : forallb (Qle_bool 0) peirce_table = true) by (vm_compute; reflexivity).
    rewrite forallb_forall in F. apply F in E. apply Qle_bool_iff. assumption.
  - exfalso. apply nth_error_None in E. unfold PEIRCE_MAX in Hn.
    change (length peirce_table) with 60%nat in E. lia.
Qed.

Lemma peirce_update_inv : forall f h x, peirce_inv f h ->
  exists out f' y, peirce_update f x = Some (out, f') /\ peirce_inv f' (h ++ [y]) /\
    pe_max f' = pe_max f /\ pe_weight f' = pe_weight f /\
    verdict_ok peirce_table PEIRCE_MIN (pe_max f) (pe_weight f) h x out y.
Proof.
  intros f h x [Hm [Hl [Hr Hs]]].
  assert (Hnum : pe_num f = length (lastn (pe_max f) h)).
  { rewrite lastn_length. destruct Hr as [_ [E _]]. lia. }
  assert (Hj : exists out y, peirce_judge f x = Some (out, y) /\
     verdict_ok peirce_table PEIRCE_MIN (pe_max f) (pe_weight f) h x out y).
  { unfold peirce_judge, verdict_ok. rewrite <- Hnum.
    destruct (PEIRCE_MIN <=? pe_num f)%nat eqn:E.
    - assert (Hne : lastn (pe_max f) h <> []).
      { intro Z. rewrite Z in Hnum. cbn in Hnum. unfold PEIRCE_MIN in E. lia. }
      destruct (sd_get_inv _ _ Hs Hne) as [m [v [Hg [Em Ev]]]]. rewrite Hg; cbn [bind].
      destruct (criterion_defined (pe_num f)) as [c [Hc Hc0]].
      { rewrite lastn_length in Hnum. unfold PEIRCE_MIN in E. lia. }
      rewrite Hc; cbn [bind].
      assert (Hnth : nth_error peirce_table (pe_num f - 1) = Some c).
      { unfold peirce_criterion in Hc. destruct (pe_num f) as [|i]; [discriminate|].
        replace (S i - 1)%nat with i by lia. assumption. }
      destruct (Qlt_bool (c * c * v) ((x - m) * (x - m))) eqn:Eo.
      + apply Qlt_bool_iff in Eo. eexists _, _. split; [reflexivity|]. split.
        * split; [|reflexivity]. intros _. split; [lia|]. exists c. split; [assumption|].
          unfold is_outlier. rewrite <- Em, <- Ev. assumption.
        * rewrite <- Em. ring.
      + apply Qlt_bool_false in Eo. eexists _, _. split; [reflexivity|]. split.
        * split; [discriminate|]. intros [_ [c' [Hc' Ho]]].
          rewrite Hnth in Hc'. injection Hc' as <-. unfold is_outlier in Ho.
          rewrite <- Em, <- Ev in Ho. exfalso. apply (Qlt_not_le _ _ Ho). assumption.
        * reflexivity.
    - eexists _, _. split; [reflexivity|]. split; [|reflexivity].
      split; [discriminate|]. intros [H _]. lia. }
  destruct Hj as [out [y [Hj Hv]]].
  unfold peirce_update. rewrite Hj; cbn [bind].
  pose proof (ring_inv_push _ _ _ _ _ _ y Hr) as Hr'.
  destruct Hr as [Hc [Hn [Hw Hcase]]] eqn:HrE. clear HrE.
  assert (Hsd : exists sd1, (if (pe_max f <=? pe_num f)%nat then
               do old <- nth_error (pe_data f) (pe_widx f); sd_remove (pe_sd f) old
             else Some (pe_sd f)) = Some sd1 /\
             sd_inv (sd_add sd1 y) (lastn (pe_max f) (h ++ [y]))).
  { destruct (pe_max f <=? pe_num f)%nat eqn:E.
    - assert (Hfull : pe_num f = pe_max f) by lia.
      destruct (ring_inv_oldest _ _ _ _ _ _ Hr Hfull) as [o [rest [Ho Hrest]]].
      rewrite Ho; cbn [bind].
      rewrite Hrest in Hs.
      destruct (sd_remove_inv (pe_sd f) (o :: rest) rest o Hs) as [s' [Hs1 Hs2]].
      { cbn. rewrite Qeq_bool_refl. reflexivity. }
      exists s'. split; [assumption|].
      rewrite lastn_app_one by lia. rewrite Hrest. cbn [tl].
      eapply sd_inv_perm; [|apply sd_add_inv; eassumption].
      apply Permutation_cons_append.
    - exists (pe_sd f). split; [reflexivity|].
      assert (length h < pe_max f)%nat by (rewrite lastn_length in Hnum; lia).
      rewrite lastn_all in Hs by lia.
      rewrite lastn_all by (rewrite app_length; cbn; lia).
      eapply sd_inv_perm; [|apply sd_add_inv; eassumption].
      apply Permutation_cons_append. }
  destruct Hsd as [sd1 [Hsd Hsd']]. rewrite Hsd; cbn [bind].
  replace (pe_widx f <? length (pe_data f))%nat with true by lia.
  eexists out, _, y. split; [reflexivity|]. split; [|split; [reflexivity|split; [reflexivity|exact Hv]]].
  unfold peirce_inv; cbn [pe_max pe_data pe_num pe_widx pe_sd].
  split; [assumption|]. split; [rewrite set_nth_length; assumption|].
  split; [|assumption].
  unfold ring_next in Hr'.
  replace (pe_max f <=? S (pe_widx f))%nat with (S (pe_widx f) =? pe_max f)%nat by lia.
  exact Hr'.
Qed.

(** The k-th verdict and stored value are those of the specification. *)
Lemma peirce_run_inv : forall xs f h, peirce_inv f h ->
  exists outs f' ys, peirce_run f xs = Some (outs, f') /\
    length outs = length xs /\ length ys = length xs /\
    (forall k x, nth_error xs k = Some x ->
      exists out y, nth_error outs k = Some out /\ nth_error ys k = Some y /\
        verdict_ok peirce_table PEIRCE_MIN (pe_max f) (pe_weight f) (h ++ firstn k ys) x out y).
Proof.
  induction xs as [|x xs IH]; intros f h Hi; cbn [peirce_run].
  - exists [], f, []. repeat split; try reflexivity. intros k x H. destruct k; discriminate.
  - destruct (peirce_update_inv f h x Hi) as [out [f1 [y [Hu [Hi1 [Em [Ew Hv]]]]]]].
    rewrite Hu; cbn [bind fst snd].
    destruct (IH f1 _ Hi1) as [outs [f' [ys [Hr [L1 [L2 Hk]]]]]].
    rewrite Hr; cbn [bind fst snd].
    exists (out :: outs), f', (y :: ys). cbn [length]. split; [reflexivity|].
    split; [lia|]. split; [lia|].
    intros k z Hz. destruct k as [|k]; cbn in Hz |- *.
    + injection Hz as <-. exists out, y. rewrite app_nil_r. auto.
    + destruct (Hk k z Hz) as [o [y' [A [B C]]]]. exists o, y'.
      rewrite Em, Ew in C. rewrite <- app_assoc in C. cbn in C. auto.
Qed.

Lemma peirce_create_inv : forall max w f, peirce_create max w = Some f ->
  peirce_inv f [] /\ pe_max f = max /\ pe_weight f = w.
Proof.
  intros max w f H. unfold peirce_create in H.
  destruct (_ && _ && _)%bool eqn:E in H; [|discriminate]. injection H as <-.
  apply andb_prop in E as [E E3]. apply andb_prop in E as [E1 E2].
  split; [|auto]. unfold peirce_inv; cbn [pe_max pe_data pe_num pe_widx pe_sd].
  split; [lia|]. split; [apply repeat_length|].
  split. { apply ring_inv_init. rewrite repeat_length. lia. }
  unfold lastn; cbn. unfold sd_inv; cbn. repeat split; reflexivity.
Qed.

(** ** Smallest *)
Lemma to_float_s_secs : forall t, to_float_s t == secs_of (instant t).
Proof.
  intros t. unfold to_float_s, secs_of, instant, s_unit.
  rewrite !inject_Z_plus, !inject_Z_mult, !inject_Z_plus, !inject_Z_mult.
  field; try (repeat split; intro H; unfold Qeq in H; cbn in H; lia).
Qed.

Definition mono_ok (now : ts) (s : sample) : Prop :=
  normal (s_mono s) /\ (- 2^60 < sec (s_mono s) < 2^60)%Z /\ (instant (s_mono s) <= instant now)%Z.

Definition best_ok (coeff : Q) (timeout : Z) (now : ts) (l : list sample)
           (r : option (sample * Q)) : Prop :=
  match r with
  | None => forall s, In s l -> ~ eligible timeout now s
  | Some (b, q) => In b l /\ eligible timeout now b /\ q == aged_delay coeff now b /\
      forall s, In s l -> eligible timeout now s ->
        aged_delay coeff now b <= aged_delay coeff now s
  end.

Lemma is_ge_exact : forall a b, normal a -> normal b ->
  (- 2^62 < sec a < 2^62)%Z -> (- 2^62 < sec b < 2^62)%Z ->
  is_ge a b = Some (instant b <=? instant a)%Z.
Proof.
  intros a b Ha Hb H1 H2. destruct (is_ge_defined a b Ha Hb H1 H2) as [r Hr].
  rewrite Hr. f_equal. pose proof (is_ge_spec a b r Ha Hb Hr) as S.
  destruct r.
  - symmetry. apply Z.leb_le. apply S. reflexivity.
  - symmetry. apply Z.leb_gt. destruct (Z_lt_le_dec (instant a) (instant b)); [assumption|].
    apply S in l. discriminate.
Qed.

Lemma search_ok : forall coeff timeout now l done best,
  normal now -> (- 2^60 < sec now < 2^60)%Z -> (0 < timeout < 2^60)%Z ->
  (forall s, In s l -> mono_ok now s) ->
  best_ok coeff timeout now done best ->
  exists r, smallest_search coeff (from_s timeout) now l best = Some r /\
    best_ok coeff timeout now (done ++ l) r.
Proof.
  intros coeff timeout now l. induction l as [|s l IH]; intros done best Hn Hb Ht Hl Hbest.
  - exists best. rewrite app_nil_r. auto.
  - cbn [smallest_search].
    destruct (Hl s (or_introl eq_refl)) as [Hs1 [Hs2 Hs3]].
    destruct (proj2 (subtract_defined now (s_mono s) Hn Hs1)) as [a Ha].
    { split; [lia|]. destruct Hn as [? [? ?]], Hs1 as [? [? ?]].
      unfold representable, instant, s_unit. lia. }
    destruct (subtract_exact _ _ _ Hn Hs1 Ha) as [Han Hai].
    rewrite Ha; cbn [bind].
    assert (Hage : instant a = age now s) by (unfold age; lia).
    assert (Hsec : (0 <= sec a < 2^62)%Z).
    { destruct Hn as [? [? ?]], Hs1 as [? [? ?]], Han as [? [? ?]].
      unfold instant in *. lia. }
    replace (sec a <? 0)%Z with false by lia.
    rewrite is_ge_exact; [| |assumption| |lia].
    2: { unfold normal, from_s; cbn. lia. }
    2: { unfold from_s; cbn. lia. }
    cbn [bind].
    assert (Hto : instant (from_s timeout) = (timeout * s_unit)%Z).
    { unfold instant, from_s, s_unit; cbn. lia. }
    rewrite Hto, Hage.
    assert (Haged : s_delay s + coeff * to_float_s a == aged_delay coeff now s).
    { unfold aged_delay. rewrite to_float_s_secs, Hage. reflexivity. }
    replace (done ++ s :: l) with ((done ++ [s]) ++ l) by (rewrite <- app_assoc; reflexivity).
    apply IH; auto. { intros; apply Hl; right; assumption. }
    destruct (age now s <=? timeout * s_unit)%Z eqn:E1;
    destruct (Qle_bool 0 (s_delay s)) eqn:E2; cbn [andb].
    + apply Qle_bool_iff in E2.
      assert (Hel : eligible timeout now s) by (split; [lia|assumption]).
      destruct best as [[b q]|].
      * destruct Hbest as [B1 [B2 [B3 B4]]].
        destruct (Qlt_bool (s_delay s + coeff * to_float_s a) q) eqn:E3.
        -- apply Qlt_bool_iff in E3. unfold best_ok. split; [apply in_or_app; right; left; reflexivity|].
           split; [assumption|]. split; [assumption|].
           intros x Hx Hxe. apply in_app_or in Hx as [Hx|[<-|[]]]; [|apply Qle_refl].
           specialize (B4 x Hx Hxe). rewrite Haged, B3 in E3. lra.
        -- apply Qlt_bool_false in E3. unfold best_ok. split; [apply in_or_app; left; assumption|].
           split; [assumption|]. split; [assumption|].
           intros x Hx Hxe. apply in_app_or in Hx as [Hx|[<-|[]]]; [auto|].
           rewrite Haged, B3 in E3. assumption.
      * unfold best_ok in *. split; [apply in_or_app; right; left; reflexivity|].
        split; [assumption|]. split; [assumption|].
        intros x Hx Hxe. apply in_app_or in Hx as [Hx|[<-|[]]]; [|apply Qle_refl].
        exfalso. apply (Hbest x Hx Hxe).
    + assert (Hel : ~ eligible timeout now s).
      { intros [_ Z]. apply Qle_bool_iff in Z. congruence. }
      destruct best as [[b q]|]; unfold best_ok in *.
      * destruct Hbest as [B1 [B2 [B3 B4]]]. split; [apply in_or_app; left; assumption|].
        split; [assumption|]. split; [assumption|].
        intros x Hx Hxe. apply in_app_or in Hx as [Hx|[<-|[]]]; [auto|contradiction].
      * intros x Hx. apply in_app_or in Hx as [Hx|[<-|[]]]; auto.
    + assert (Hel : ~ eligible timeout now s) by (intros [Z _]; lia).
      destruct best as [[b q]|]; unfold best_ok in *.
      * destruct Hbest as [B1 [B2 [B3 B4]]]. split; [apply in_or_app; left; assumption|].
        split; [assumption|]. split; [assumption|].
        intros x Hx Hxe. apply in_app_or in Hx as [Hx|[<-|[]]]; [auto|contradiction].
      * intros x Hx. apply in_app_or in Hx as [Hx|[<-|[]]]; auto.
    + assert (Hel : ~ eligible timeout now s) by (intros [Z _]; lia).
      destruct best as [[b q]|]; unfold best_ok in *.
      * destruct Hbest as [B1 [B2 [B3 B4]]]. split; [apply in_or_app; left; assumption|].
        split; [assumption|]. split; [assumption|].
        intros x Hx Hxe. apply in_app_or in Hx as [Hx|[<-|[]]]; [auto|contradiction].
      * intros x Hx. apply in_app_or in Hx as [Hx|[<-|[]]]; auto.
Qed.

Definition smallest_inv (f : smallest) (h : list sample) : Prop :=
  (0 < sm_max f)%nat /\ length (sm_data f) = sm_max f /\
  ring_inv (sm_max f) (sm_data f) (sm_num f) (sm_widx f) h.

Lemma smallest_update_inv : forall f h s timeout, smallest_inv f h ->
  sm_timeout f = from_s timeout -> (0 < timeout < 2^60)%Z ->
  (forall x, In x (h ++ [s]) -> mono_ok (s_mono s) x) ->
  exists f' r, smallest_update f s = Some (f', r) /\ smallest_inv f' (h ++ [s]) /\
    sm_max f' = sm_max f /\ sm_ageing f' = sm_ageing f /\ sm_timeout f' = sm_timeout f /\
    picks (sm_max f) (sm_ageing f) timeout h s r.
Proof.
  intros f h s timeout [Hm [Hl Hr]] Hto Ht Hmono.
  pose proof (ring_inv_push _ _ _ _ _ _ s Hr) as Hr'.
  destruct Hr as [Hc [Hn [Hw _]]].
  unfold smallest_update.
  replace (sm_widx f <? length (sm_data f))%nat with true by lia.
  unfold ring_next in Hr'.
  replace (sm_max f <=? S (sm_widx f))%nat with (S (sm_widx f) =? sm_max f)%nat by lia.
  set (n := if (sm_num f <? sm_max f)%nat then S (sm_num f) else sm_num f) in *.
  set (d := set_nth (sm_widx f) s (sm_data f)) in *.
  pose proof (ring_inv_perm _ _ _ _ _ _ Hr') as Hp.
  assert (Hin : forall x, In x (firstn n d) <-> In x (lastn (sm_max f) (h ++ [s]))).
  { intros x; split; apply Permutation_in; [assumption|apply Permutation_sym; assumption]. }
  destruct (Hmono s) as [Hs1 [Hs2 _]]; [apply in_or_app; right; left; reflexivity|].
  destruct (search_ok (sm_ageing f) timeout (s_mono s) (firstn n d) [] None) as [best [Hb1 Hb2]]; auto.
  { intros x Hx. apply Hmono. apply Hin in Hx. apply in_lastn in Hx. assumption. }
  { cbn. intros ? []. }
  rewrite Hto, Hb1; cbn [bind].
  eexists _, _. split; [reflexivity|].
  split. { unfold smallest_inv; cbn [sm_max sm_data sm_num sm_widx]. split; [assumption|].
           split; [unfold d; rewrite set_nth_length; assumption|exact Hr']. }
  split; [reflexivity|]. split; [reflexivity|]. split; [reflexivity|].
  cbn [app] in Hb2. unfold picks. destruct best as [[b q]|]; cbn in Hb2.
  - destruct Hb2 as [B1 [B2 [B3 B4]]]. left. split; [apply Hin; assumption|].
    split; [assumption|]. intros x Hx. apply B4. apply Hin. assumption.
  - right. split; [reflexivity|]. intros x Hx. apply Hb2. apply Hin. assumption.
Qed.

Lemma smallest_create_inv : forall max a t f, smallest_create max a t = Some f ->
  smallest_inv f [] /\ sm_max f = max /\ sm_ageing f = a /\ sm_timeout f = from_s t /\ (0 < t)%Z.
Proof.
  intros max a t f H. unfold smallest_create in H.
  destruct ((0 <? max)%nat && (0 <? t)%Z)%bool eqn:E; [|discriminate]. injection H as <-.
  split; [|repeat split; lia]. unfold smallest_inv; cbn [sm_max sm_data sm_num sm_widx].
  split; [lia|]. split; [apply repeat_length|]. apply ring_inv_init. rewrite repeat_length. lia.
Qed.

Lemma since_reset_suffix : forall ops, exists pre, pushes ops = pre ++ since_reset ops.
Proof.
  induction ops as [|o ops IH] using rev_ind.
  - exists []. reflexivity.
  - destruct IH as [pre IH]. rewrite since_reset_app. unfold pushes in *.
    rewrite flat_map_app, IH. destruct o as [s|]; cbn.
    + exists pre. rewrite app_assoc. reflexivity.
    + exists (pre ++ since_reset ops). rewrite !app_nil_r. reflexivity.
Qed.

Lemma nondecreasing_mono_ok : forall h s, nondecreasing (h ++ [s]) ->
  Forall sane_sample (h ++ [s]) -> forall x, In x (h ++ [s]) -> mono_ok (s_mono s) x.
Proof.
  intros h s Hd Hs x Hx. rewrite Forall_forall in Hs. destruct (Hs x Hx) as [A B].
  split; [assumption|]. split; [assumption|].
  apply in_app_or in Hx as [Hx|[<-|[]]]; [|lia].
  apply in_split in Hx as [l1 [l2 E]]. subst h.
  apply (Hd l1 x l2 s []). rewrite <- app_assoc. reflexivity.
Qed.

Lemma nondecreasing_suffix : forall a b, nondecreasing (a ++ b) -> nondecreasing b.
Proof.
  intros a b H l1 x l2 y l3 E. apply (H (a ++ l1) x l2 y l3). rewrite E, <- app_assoc. reflexivity.
Qed.
Lemma nondecreasing_prefix : forall a b, nondecreasing (a ++ b) -> nondecreasing a.
Proof.
  intros a b H l1 x l2 y l3 E. apply (H l1 x l2 y (l3 ++ b)). rewrite E.
  rewrite <- app_assoc. cbn. rewrite <- app_assoc. reflexivity.
Qed.

Lemma smallest_run_app : forall a f b, smallest_run f (a ++ b) =
  match smallest_run f a with Some f' => smallest_run f' b | None => None end.
Proof.
  induction a as [|o a IH]; intros f b; cbn; [reflexivity|].
  destruct o as [s|]; [|apply IH].
  destruct (smallest_update f s) as [[f1 r]|]; cbn; [apply IH|reflexivity].
Qed.

Lemma smallest_run_inv : forall ops max a t f, smallest_create max a t = Some f -> (t < 2^60)%Z ->
  nondecreasing (pushes ops) -> Forall sane_sample (pushes ops) ->
  exists f', smallest_run f ops = Some f' /\ smallest_inv f' (since_reset ops) /\
    sm_max f' = max /\ sm_ageing f' = a /\ sm_timeout f' = from_s t.
Proof.
  induction ops as [|o ops IH] using rev_ind; intros max a t f Hf Ht Hd Hs.
  - exists f. destruct (smallest_create_inv _ _ _ _ Hf) as [A [B [C [D E]]]]. auto.
  - unfold pushes in Hd, Hs. rewrite flat_map_app in Hd, Hs.
    destruct (IH max a t f Hf Ht) as [f1 [R1 [I1 [E1 [E2 E3]]]]].
    { eapply nondecreasing_prefix; eassumption. }
    { apply Forall_app in Hs. apply Hs. }
    rewrite smallest_run_app, R1, since_reset_app.
    destruct (smallest_create_inv _ _ _ _ Hf) as [_ [_ [_ [_ Htp]]]].
    destruct o as [s|]; cbn [smallest_run].
    + destruct (since_reset_suffix ops) as [pre Epre]. unfold pushes in Epre.
      rewrite Epre in Hd, Hs. cbn in Hd, Hs.
      rewrite <- app_assoc in Hd, Hs. apply nondecreasing_suffix in Hd.
      apply Forall_app in Hs as [_ Hs].
      destruct (smallest_update_inv f1 (since_reset ops) s t I1 E3) as [f2 [r [U [I2 [M1 [M2 [M3 _]]]]]]].
      { lia. } { apply nondecreasing_mono_ok; assumption. }
      rewrite U; cbn [bind fst]. exists f2. split; [reflexivity|]. split; [assumption|].
      split; [congruence|]. split; congruence.
    + exists (smallest_reset f1). split; [reflexivity|]. split; [|auto].
      destruct I1 as [A [B C]]. unfold smallest_inv, smallest_reset; cbn [sm_max sm_data sm_num sm_widx].
      split; [assumption|]. split; [assumption|]. apply ring_inv_init. lia.
Qed.
