(** Proofs about bracketed readings of a hardware clock (C73). *)
Require Import ZArith QArith Qround Lqa List Bool Lia.
From Verif Require Import Base TimeSpec TimeModel TimeProof FltSpec FltModel FltProof PhcSpec PhcModel.
Import ListNotations.
Open Scope Z_scope.

Lemma clock_time_normal t : clock_time t -> normal t.
Proof. intros (A & B & C). unfold normal. rewrite C. lia. Qed.

(** Half of a whole number of nanoseconds, below 2^20 s, is converted exactly. *)
Lemma half_no_carry rd (ns : Q) n : double_like rd -> 0 < n < 2^20 * 1000000000 ->
  (ns * inject_Z 2 == inject_Z n)%Q -> no_carry rd ns.
Proof.
  intros [M F] R E. unfold no_carry. set (y := (ns / inject_Z 1000000000)%Q).
  assert (Ey : (y * inject_Z 2000000000 == inject_Z n)%Q).
  { unfold y. rewrite <- E. field. }
  destruct (Qfloor_bounds y) as [L U]. set (K := Qfloor y) in *.
  assert (HK : 0 <= K).
  { assert (0 < y * inject_Z 2000000000)%Q by (rewrite Ey; change 0%Q with (inject_Z 0); rewrite <- Zlt_Qlt; lia).
    assert (0 < y)%Q by (change (inject_Z 2000000000) with 2000000000%Q in *; lra).
    assert (inject_Z 0 < inject_Z (K + 1))%Q. { rewrite inject_Z_plus. eapply Qlt_trans; [|exact U]. assumption. }
    rewrite <- Zlt_Qlt in H1. lia. }
  assert (HU : n < (K + 1) * 2000000000).
  { assert (inject_Z n < inject_Z ((K+1) * 2000000000))%Q.
    { rewrite <- Ey, inject_Z_mult, inject_Z_plus. apply Qmult_lt_compat_r; [reflexivity|exact U]. }
    rewrite <- Zlt_Qlt in H. exact H. }
  assert (HL : K * 2000000000 <= n).
  { assert (inject_Z (K * 2000000000) <= inject_Z n)%Q.
    { rewrite <- Ey, inject_Z_mult. apply Qmult_le_compat_r; [exact L|discriminate]. }
    rewrite <- Zle_Qle in H. exact H. }
  apply Qfloor_unique.
  - pose proof (F (K * 2^31) ltac:(lia)) as Fk.
    assert (Ek : (inject_Z (K * 2^31) / inject_Z (2^31) == inject_Z K)%Q).
    { rewrite inject_Z_mult. field. discriminate. }
    rewrite Ek in Fk at 2. rewrite <- Fk. apply M. rewrite Ek. exact L.
  - pose proof (F ((K+1) * 2^31 - 1) ltac:(lia)) as Fk.
    eapply Qle_lt_trans; [apply M with (y := (inject_Z ((K + 1) * 2 ^ 31 - 1) / inject_Z (2 ^ 31))%Q)|].
    + apply Qle_shift_div_l; [reflexivity|].
      assert (Z1 : (y * inject_Z (2^31) * inject_Z 2000000000 <= inject_Z ((K+1) * 2^31 - 1) * inject_Z 2000000000)%Q).
      { setoid_replace (y * inject_Z (2^31) * inject_Z 2000000000)%Q with (inject_Z n * inject_Z (2^31))%Q by (rewrite <- Ey; ring).
        rewrite <- !inject_Z_mult, <- Zle_Qle. lia. }
      apply Qmult_lt_0_le_reg_r with (z := inject_Z 2000000000); [reflexivity|exact Z1].
    + rewrite Fk. apply Qlt_shift_div_r; [reflexivity|]. rewrite <- inject_Z_mult, <- Zlt_Qlt. lia.
Qed.

Lemma half_exact rd (w : Q) n : double_like rd -> 0 < n < 2^20 * 1000000000 -> (w == inject_Z n)%Q ->
  exists h, of_float_ns rd (w / inject_Z 2)%Q = Some h /\ normal h /\ 2 * instant h = n * 2^32.
Proof.
  intros D R E.
  assert (E2 : (w / inject_Z 2 * inject_Z 2 == inject_Z n)%Q) by (rewrite <- E; field; discriminate).
  destruct (of_float_ns_exact rd (w / inject_Z 2)%Q) as (h & H1 & H2 & H3).
  - eapply half_no_carry; eauto.
  - assert (P : (0 < inject_Z n)%Q) by (change 0%Q with (inject_Z 0); rewrite <- Zlt_Qlt; lia).
    assert (P2 : (inject_Z n < inject_Z (2^63 * 1000000000))%Q) by (rewrite <- Zlt_Qlt; lia).
    set (z := (w / inject_Z 2)%Q) in *. change (inject_Z 2) with 2%Q in E2.
    unfold in_range. split.
    + apply Qle_trans with 0%Q; [|lra]. change 0%Q with (inject_Z 0). rewrite <- Zle_Qle. lia.
    + apply Qle_lt_trans with (inject_Z n); [lra|exact P2].
  - exists h. repeat split; try assumption; try apply H2. rewrite H3. unfold units_floor.
    assert (E3 : (w / inject_Z 2 * inject_Z (2^32) == inject_Z (n * 2^31))%Q).
    { rewrite inject_Z_mult, <- E2. change (inject_Z (2^32)) with (inject_Z (2 * 2^31)). rewrite inject_Z_mult. field. }
    rewrite E3, Qfloor_Z. lia.
Qed.

(** Differences of clock times. *)
Lemma sub_times a b : clock_time a -> clock_time b ->
  exists c, subtract a b = Some c /\ normal c /\ instant c = instant a - instant b.
Proof.
  intros A B. destruct (proj2 (subtract_defined a b (clock_time_normal _ A) (clock_time_normal _ B))) as [c Hc].
  - destruct A as (? & ? & ?), B as (? & ? & ?). unfold representable, instant, s_unit. lia.
  - exists c. split; [exact Hc|]. eapply subtract_exact; eauto using clock_time_normal.
Qed.

Definition linv (l : list tri) (d0 : ts) (st : Z * option Q * ts) : Prop :=
  let '(rc, sm, d) := st in
  (rc = EAGAIN /\ sm = None /\ d = d0 /\ forall x, In x l -> width x <= 0) \/
  (rc = 0 /\ normal d /\ exists i x q, tightest l i x /\ sm = Some q /\
     (q == inject_Z (width x) / inject_Z (2^32))%Q /\ 2 * instant d = twice_offset x).

Lemma tightest_keep l i x y : tightest l i x -> (0 < width y -> width x <= width y) ->
  tightest (l ++ [y]) i x.
Proof.
  intros (A & B & C & D) W.
  assert (Li : (i < length l)%nat) by (apply nth_error_Some; congruence).
  split; [rewrite nth_error_app1 by assumption; exact A|]. split; [exact B|]. split.
  - intros j z Hz Pz. destruct (Nat.lt_ge_cases j (length l)).
    + rewrite nth_error_app1 in Hz by assumption. eauto.
    + rewrite nth_error_app2 in Hz by assumption. destruct (j - length l)%nat as [|k]; cbn in Hz.
      * injection Hz as <-. auto.
      * destruct k; discriminate.
  - intros j z Lj Hz Pz. rewrite nth_error_app1 in Hz by lia. eauto.
Qed.
Lemma tightest_new l y : 0 < width y -> (forall z, In z l -> 0 < width z -> width y < width z) ->
  tightest (l ++ [y]) (length l) y.
Proof.
  intros P H. assert (H' : forall j z, (j < length l)%nat -> nth_error (l ++ [y]) j = Some z -> 0 < width z -> width y < width z).
  { intros j z Lj Hz Pz. rewrite nth_error_app1 in Hz by assumption. apply nth_error_In in Hz. auto. }
  split; [rewrite nth_error_app2, Nat.sub_diag by lia; reflexivity|]. split; [exact P|]. split; [|exact H'].
  intros j z Hz Pz. destruct (Nat.lt_ge_cases j (length l)).
  - apply Z.lt_le_incl. eauto.
  - rewrite nth_error_app2 in Hz by assumption. destruct (j - length l)%nat as [|k]; cbn in Hz.
    + injection Hz as <-. lia.
    + destruct k; discriminate.
Qed.

Lemma width_ns x : reading x -> exists n, width x = n * 2^32 /\ - 2^20 * 1000000000 < n < 2^20 * 1000000000.
Proof.
  intros ((A1 & A2 & A3) & _ & (B1 & B2 & B3) & W). unfold width, instant. rewrite A3, B3.
  exists ((sec (t_after x) - sec (t_before x)) * 1000000000 + nsec (t_after x) - nsec (t_before x)). lia.
Qed.

Lemma start_minus_half dev h b x n : normal dev -> normal h -> instant dev = instant (t_dev x) - instant (t_before x) ->
  b = width x -> width x = n * 2^32 -> 2 * instant h = n * 2^32 -> reading x -> 0 < n < 2^20 * 1000000000 ->
  exists d, subtract dev h = Some d /\ normal d /\ 2 * instant d = twice_offset x.
Proof.
  intros N1 N2 E _ W H R Rn.
  destruct (proj2 (subtract_defined dev h N1 N2)) as [d Hd].
  - destruct R as ((A1 & A2 & A3) & (B1 & B2 & B3) & _ & _).
    unfold representable, s_unit. unfold instant in E at 2 3. rewrite A3, B3 in E.
    assert (0 <= sec h). { destruct N2 as (? & ? & ?). unfold instant in H. lia. }
    destruct N1 as (? & ? & ?), N2 as (? & ? & ?). split; [lia|]. lia.
  - exists d. split; [exact Hd|]. destruct (subtract_exact _ _ _ N1 N2 Hd) as [Nd Ed]. split; [exact Nd|].
    rewrite Ed, E. unfold twice_offset. unfold width in W. lia.
Qed.

Lemma sample_step rd l d0 st x : double_like rd -> linv l d0 st -> reading x ->
  exists st', sample rd x st = Some st' /\ linv (l ++ [x]) d0 st'.
Proof.
  intros D V R. destruct st as [[rc sm] d]. unfold sample.
  destruct (width_ns x R) as (n & Wn & Rn).
  destruct R as (R1 & R2 & R3 & R4) eqn:ER. clear ER.
  destruct (sub_times _ _ R3 R1) as (win & S1 & N1 & I1). destruct (sub_times _ _ R2 R1) as (dev & S2 & N2 & I2).
  rewrite S1, S2. cbn [bind]. fold (width x) in I1.
  assert (Ew : (to_float_ns win == inject_Z (width x) / inject_Z (2^32))%Q).
  { rewrite to_float_ns_exact. unfold ns_of. rewrite I1. reflexivity. }
  assert (En : (to_float_ns win == inject_Z n)%Q).
  { rewrite Ew, Wn, inject_Z_mult. field. discriminate. }
  assert (Rx : reading x) by (split; [exact R1|split; [exact R2|split; [exact R3|exact R4]]]).
  assert (Upd : 0 < n -> (forall z, In z l -> 0 < width z -> width x < width z) -> update rd win sm dev d =
     (do h <- of_float_ns rd (to_float_ns win / inject_Z 2)%Q; do d <- subtract dev h; Some (true, Some (to_float_ns win), d)) ->
     exists st', (do u <- update rd win sm dev d; let '(upd, s', d') := u in Some (if upd then 0 else rc, s', d')) = Some st' /\ linv (l ++ [x]) d0 st').
  { intros Pn T U. destruct (half_exact rd (to_float_ns win) n D ltac:(lia) En) as (h & H1 & H2 & H3).
    destruct (start_minus_half dev h _ x n N2 H2 I2 eq_refl Wn H3 Rx ltac:(lia)) as (dd & G1 & G2 & G3).
    rewrite U, H1. cbn [bind]. rewrite G1. cbn [bind]. eexists; split; [reflexivity|]. cbn [linv]. right.
    split; [reflexivity|]. split; [exact G2|]. exists (length l), x, (to_float_ns win).
    split; [apply tightest_new; [lia|exact T]|]. auto. }
  assert (Keep : update rd win sm dev d = Some (false, sm, d) -> linv (l ++ [x]) d0 (rc, sm, d) ->
     exists st', (do u <- update rd win sm dev d; let '(upd, s', d') := u in Some (if upd then 0 else rc, s', d')) = Some st' /\ linv (l ++ [x]) d0 st').
  { intros U L. rewrite U. cbn [bind]. eexists; split; [reflexivity|exact L]. }
  unfold update in *. destruct (Qlt_le_dec 0 (to_float_ns win)) as [P|P].
  - assert (Pn : 0 < n). { rewrite En in P. change 0%Q with (inject_Z 0) in P. rewrite <- Zlt_Qlt in P. exact P. }
    destruct V as [(V1 & V2 & V3 & V4)|(V1 & V2 & i & y & q & T & V3 & V4 & V5)]; subst sm; cbn [andb] in *.
    + apply Upd; [exact Pn| |reflexivity]. intros z Hz Pz. specialize (V4 z Hz). lia.
    + destruct (Qlt_le_dec (to_float_ns win) q) as [Q1|Q1]; cbn [andb] in *.
      * apply Upd; [exact Pn| |reflexivity]. intros z Hz Pz.
        apply In_nth_error in Hz as [j Hj]. destruct T as (_ & _ & T3 & _). specialize (T3 j z Hj Pz).
        rewrite Ew, V4 in Q1. assert (inject_Z (width x) < inject_Z (width y))%Q.
        { apply Qmult_lt_r with (z := (/ inject_Z (2^32))%Q); [reflexivity|exact Q1]. }
        rewrite <- Zlt_Qlt in H. lia.
      * apply Keep; [reflexivity|]. cbn [linv]. right. split; [exact V1|]. split; [exact V2|]. exists i, y, q.
        split; [|auto]. apply tightest_keep; [exact T|]. intros _.
        rewrite Ew, V4 in Q1. assert (inject_Z (width y) <= inject_Z (width x))%Q.
        { apply Qmult_le_r with (z := (/ inject_Z (2^32))%Q); [reflexivity|exact Q1]. }
        rewrite <- Zle_Qle in H. exact H.
  - assert (Pn : n <= 0). { rewrite En in P. change 0%Q with (inject_Z 0) in P. rewrite <- Zle_Qle in P. exact P. }
    cbn [andb] in *. apply Keep; [reflexivity|]. cbn [linv].
    destruct V as [(V1 & V2 & V3 & V4)|(V1 & V2 & i & y & q & T & V3 & V4 & V5)].
    + left. split; [exact V1|]. split; [exact V2|]. split; [exact V3|]. intros z Hz. apply in_app_or in Hz as [Hz|[<-|[]]]; [auto|lia].
    + right. split; [exact V1|]. split; [exact V2|]. exists i, y, q. split; [|auto]. apply tightest_keep; [exact T|lia].
Qed.

Lemma kernel_loop_spec rd f d0 : double_like rd -> forall n i l st,
  (forall j, (i <= j < i + n)%nat -> reading (f j)) -> linv l d0 st ->
  exists st', kernel_loop rd f i n st = Some st' /\ linv (l ++ map f (seq i n)) d0 st'.
Proof.
  intros D. induction n as [|n IH]; intros i l st R V; cbn [kernel_loop seq map].
  - rewrite app_nil_r. eauto.
  - destruct (sample_step rd l d0 st (f i) D V (R i ltac:(lia))) as (st1 & E1 & V1). rewrite E1. cbn [bind].
    destruct (IH (S i) (l ++ [f i]) st1) as (st2 & E2 & V2); [intros j Hj; apply R; lia|exact V1|].
    exists st2. split; [exact E2|]. rewrite <- app_assoc in V2. exact V2.
Qed.

Lemma linv_measured l d0 rc sm d : linv l d0 (rc, sm, d) -> measured l d0 rc d.
Proof.
  intros [(A & B & C & D)|(A & B & i & x & q & C & D & E & F)]; [left|right]; auto.
  split; [exact A|]. split; [exact B|]. eauto.
Qed.
Lemma linv0 d0 : linv [] d0 (EAGAIN, None, d0).
Proof. left. repeat split; auto. intros x []. Qed.

Lemma kernel_n_spec rd f n p d : double_like rd -> (forall j, (j < n)%nat -> reading (f j)) ->
  exists rc d', kernel_n rd f n p d = Some (rc, d', if rc =? 0 then set_diff p d' else p) /\
  measured (map f (seq 0 n)) d rc d'.
Proof.
  intros D R. unfold kernel_n.
  destruct (kernel_loop_spec rd f d D n 0%nat [] (EAGAIN, None, d)) as ([[rc sm] d'] & E & V);
    [intros j Hj; apply R; lia|apply linv0|].
  rewrite E. cbn [bind]. exists rc, d'. split; [reflexivity|]. eapply linv_measured; exact V.
Qed.

Lemma read_loop_spec rd f d0 : double_like rd -> forall n i l st,
  (forall j x, (i <= j < i + n)%nat -> f j = inr x -> reading x) -> linv l d0 st ->
  (exists j e d, (i <= j < i + n)%nat /\ f j = inl e /\ (forall k, (i <= k < j)%nat -> exists x, f k = inr x) /\
     read_loop rd f i n st = Some (inr (e, d))) \/
  (exists g st', (forall j, (i <= j < i + n)%nat -> f j = inr (g j)) /\
     read_loop rd f i n st = Some (inl st') /\ linv (l ++ map g (seq i n)) d0 st').
Proof.
  intros D. induction n as [|n IH]; intros i l st R V; cbn [read_loop seq map].
  - right. exists (fun _ => mkTri d0 d0 d0), st. split; [lia|]. rewrite app_nil_r. auto.
  - destruct (f i) as [e|x] eqn:Ef.
    + left. exists i, e, (snd st). split; [lia|]. split; [exact Ef|]. split; [lia|reflexivity].
    + destruct (sample_step rd l d0 st x D V (R i x ltac:(lia) Ef)) as (st1 & E1 & V1). rewrite E1. cbn [bind].
      destruct (IH (S i) (l ++ [x]) st1) as [(j & e & d & A & B & C & E)|(g & st2 & A & B & C)];
        [intros j y Hj; apply R; lia|exact V1| |].
      * left. exists j, e, d. split; [lia|]. split; [exact B|]. split; [|exact E].
        intros k Hk. destruct (Nat.eq_dec k i) as [->|]; [eauto|apply C; lia].
      * right. exists (fun j => if Nat.eqb j i then x else g j), st2. split.
        { intros j Hj. destruct (Nat.eqb_spec j i) as [->|]; [exact Ef|apply A; lia]. }
        split; [exact B|]. rewrite <- app_assoc in C. cbn [app] in C. rewrite Nat.eqb_refl.
        replace (map (fun j => if Nat.eqb j i then x else g j) (seq (S i) n)) with (map g (seq (S i) n)); [exact C|].
        apply map_ext_in. intros j Hj. apply in_seq in Hj. destruct (Nat.eqb_spec j i); [lia|reflexivity].
Qed.

Lemma read_time_spec rd f n p d : double_like rd -> (forall j x, (j < n)%nat -> f j = inr x -> reading x) ->
  (exists j e d', (j < n)%nat /\ f j = inl e /\ (forall k, (k < j)%nat -> exists x, f k = inr x) /\
     read_time_n rd f n p d = Some (e, d', p)) \/
  (exists g rc d', (forall j, (j < n)%nat -> f j = inr (g j)) /\
     read_time_n rd f n p d = Some (rc, d', if rc =? 0 then set_diff p d' else p) /\
     measured (map g (seq 0 n)) d rc d').
Proof.
  intros D R. unfold read_time_n.
  destruct (read_loop_spec rd f d D n 0%nat [] (EAGAIN, None, d)) as [(j & e & d' & A & B & C & E)|(g & [[rc sm] d'] & A & B & C)];
    [intros j x Hj; apply R; lia|apply linv0| |].
  - left. exists j, e, d'. split; [lia|]. split; [exact B|]. split; [intros k Hk; apply C; lia|]. rewrite E. reflexivity.
  - right. exists g, rc, d'. split; [intros j Hj; apply A; lia|]. rewrite B. cbn [bind]. split; [reflexivity|].
    eapply linv_measured; exact C.
Qed.

(** The middle of a bracket is within half its width of any time in it. *)
Lemma middle_accuracy x d s : 2 * instant d = twice_offset x ->
  instant (t_before x) <= s <= instant (t_after x) ->
  2 * Z.abs (instant d - (instant (t_dev x) - s)) <= width x.
Proof. unfold twice_offset, width. lia. Qed.
