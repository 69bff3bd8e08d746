(** Properties of the clock feed: C24-C27. *)
Require Import ZArith List Bool Lia.
Require Import Verif.Base Verif.ListLib Verif.TimeSpec Verif.TimeModel Verif.TimeProof Verif.FeedSpec Verif.FeedModel Verif.FeedProof.
Import ListNotations.
Open Scope Z_scope.

(** The samples written are complete and their number has not reached INT_MAX. *)
Definition sound (tr : list wstep) : Prop := all_complete tr /\ Z.of_nat (length (published tr)) < 2^31 - 16.
(** A read has delivered: it wrote the caller's timestamps. *)
Definition delivered (r : result) : Prop := r_t1 r <> None.
(** The sample that is the newest when a read begins. *)
Definition newest (tr : list wstep) (e : env) (sm : list (nat * Z)) : Prop :=
  exists n, count tr (e_time e 0) = S n /\ nth_error (published tr) n = Some sm.
(** Fewer than fifteen samples are published between the beginning of a read and its access [k]. *)
Definition not_overtaken (tr : list wstep) (e : env) (k : nat) : Prop := (count tr (e_time e k) < count tr (e_time e 0) + 15)%nat.

(** *** C24 *)
(** Full statement: whatever the schedule, the offset and the timestamps of a comparison that
    returns 0 are those of one sample.  The offset of a delivering read always is the
    difference of the two times of the newest sample at the beginning of the call, one whose
    own comparison succeeded. *)
Theorem C24_offset : forall tr e s r, sound tr -> ordered (e_time e) -> compare_to_sys tr e s = Some r -> delivered r ->
  exists sm snap sys, newest tr e sm /\ has_rc sm 0 /\ has_ts W_SNAP sm snap /\ has_ts W_SYS sm sys /\ subtract snap sys = Some (r_diff r).
Proof.
  intros tr e s r [Hc Hb] Ho H Hd. destruct (read_success tr Hb Hc e Ho s r H Hd) as (n & sm & snap & sys & mono & t1 & t2 & m2 & A & B & C & D & E & F & _).
  exists sm, snap, sys. split; [exists n; split; assumption|]. repeat (split; [assumption|]). assumption.
Qed.
Print Assumptions C24_offset.

(** Everything comes from that one sample if the reader is not overtaken during the call, and
    then returning 0 is the same as delivering. *)
Theorem C24_partial : forall tr e s r, sound tr -> ordered (e_time e) -> not_overtaken tr e LAST -> compare_to_sys tr e s = Some r ->
  (r_rc r = 0 <-> delivered r) /\
  (r_rc r = 0 -> exists sm t1 t2 m, newest tr e sm /\ has_rc sm 0 /\
    r_t1 r = Some t1 /\ has_ts W_SNAP sm t1 /\ r_t2 r = Some t2 /\ has_ts W_SYS sm t2 /\ r_mono r = Some m /\ has_ts W_MONO sm m /\
    subtract t1 t2 = Some (r_diff r)).
Proof.
  intros tr e s r [Hc Hb] Ho Hn H. unfold not_overtaken in Hn.
  assert (M : (count tr (e_time e 2) <= count tr (e_time e LAST))%nat) by (apply (pub_mono tr), Ho; unfold LAST; lia).
  assert (D : r_rc r = 0 -> delivered r) by (intros Hr; apply (read_rc0 tr Hb Hc e Ho s r H Hr); unfold pub; lia).
  assert (G : delivered r -> exists sm t1 t2 m, newest tr e sm /\ has_rc sm 0 /\
    r_t1 r = Some t1 /\ has_ts W_SNAP sm t1 /\ r_t2 r = Some t2 /\ has_ts W_SYS sm t2 /\ r_mono r = Some m /\ has_ts W_MONO sm m /\
    subtract t1 t2 = Some (r_diff r) /\ r_rc r = 0).
  { intros Hd. destruct (read_success tr Hb Hc e Ho s r H Hd) as (n & sm & snap & sys & mono & t1 & t2 & m2 & A & B & C & Sn & Sy & F & R1 & R2 & R3 & _ & _ & _ & _ & _ & G & _).
    unfold pub in A. destruct G as [G1 [G2 [G3 [G4 _]]]]; [unfold pub; lia|].
    assert (snap = t1) by (destruct Sn as [? [? ?]], G1 as [? [? ?]], snap, t1; cbn in *; congruence).
    assert (sys = t2) by (destruct Sy as [? [? ?]], G2 as [? [? ?]], sys, t2; cbn in *; congruence). subst snap sys.
    exists sm, t1, t2, m2. split; [exists n; split; assumption|]. repeat (split; [assumption|]). assumption. }
  split.
  - split; [exact D|]. intros Hd. destruct (G Hd) as (sm & t1 & t2 & m & P). apply P.
  - intros Hr. destruct (G (D Hr)) as (sm & t1 & t2 & m & P1 & P2 & P3 & P4 & P5 & P6 & P7 & P8 & P9 & _). exists sm, t1, t2, m.
    repeat (split; [assumption|]). assumption.
Qed.
Print Assumptions C24_partial.

(** With the feed's own writer: the offset of a delivering read is the one the clock
    comparison gave for the newest sample. *)
Theorem C24_program : forall ks tr e s r, take_all 0 ks = Some tr -> Z.of_nat (length ks) < 2^31 - 16 ->
  Forall (fun k => normal (k_diff k) /\ normal (k_sys k) /\ 0 <= sec (k_sys k)) ks ->
  ordered (e_time e) -> compare_to_sys tr e s = Some r -> delivered r ->
  exists n k, count tr (e_time e 0) = S n /\ nth_error ks n = Some k /\ k_rc k = 0 /\ r_diff r = k_diff k /\
    (not_overtaken tr e LAST -> r_rc r = 0 /\ r_t2 r = Some (k_sys k) /\ r_mono r = Some (k_mono k) /\ r_t1 r = add (k_diff k) (k_sys k)).
Proof.
  intros ks tr e s r Ht Hl Hk Ho H Hd. destruct (take_all_samples ks 0 tr [] Ht) as [cs [Sc [Lc Pc]]].
  assert (Ep : published tr = cs) by (unfold published, samples; rewrite Sc; reflexivity).
  assert (Snd : sound tr).
  { split; [|rewrite Ep, Lc; assumption]. unfold all_complete. rewrite Ep. apply Forall_forall. intros c Hin. apply In_nth_error in Hin as [i Hi].
    destruct (nth_error ks i) as [k|] eqn:Ek; [apply (Pc i c k Hi Ek)|]. apply nth_error_None in Ek. assert (i < length cs)%nat by (apply nth_error_Some; congruence). lia. }
  destruct (C24_offset tr e s r Snd Ho H Hd) as (sm & snap & sys & [n [Hn Hsm]] & Hrc & Hsnap & Hsys & Hdf).
  rewrite Ep in Hsm. assert (Hkn : exists k, nth_error ks n = Some k).
  { destruct (nth_error ks n) as [k|] eqn:Ek; [exists k; reflexivity|]. apply nth_error_None in Ek. assert (n < length cs)%nat by (apply nth_error_Some; congruence). lia. }
  destruct Hkn as [k Ek]. destruct (Pc n sm k Hsm Ek) as [_ [P1 [P2 [P3 P4]]]].
  assert (Rk : k_rc k = 0) by (unfold has_rc in *; congruence). destruct (P4 Rk) as [sn [Ea Hsn]].
  assert (T : forall j a b, has_ts j sm a -> has_ts j sm b -> a = b).
  { intros j a b [A1 [A2 A3]] [B1 [B2 B3]]. destruct a, b; cbn in *; congruence. }
  rewrite (T _ _ _ Hsnap Hsn) in Hdf. rewrite (T _ _ _ Hsys P3) in Hdf.
  rewrite Forall_forall in Hk. destruct (Hk k (nth_error_In _ _ Ek)) as [N1 [N2 N3]].
  assert (Ea' : add (k_diff k) (k_sys k) = Some sn).
  { destruct (add_exact _ _ _ N2 N1 Ea) as [Nn In']. destruct (proj2 (add_defined (k_diff k) (k_sys k) N1 N2)) as [c Hc'].
    - destruct (proj1 (add_defined (k_sys k) (k_diff k) N2 N1) (ex_intro _ sn Ea)) as [X Y]. split; [lia|]. replace (instant (k_diff k) + instant (k_sys k)) with (instant (k_sys k) + instant (k_diff k)) by lia. assumption.
    - rewrite Hc'. f_equal. destruct (add_exact _ _ _ N1 N2 Hc') as [Nc Ic]. apply instant_inj; [assumption|assumption|lia]. }
  exists n, k. split; [assumption|]. split; [assumption|]. split; [assumption|]. split.
  - pose proof (add_exact _ _ _ N1 N2 Ea') as [[Ns _] _]. rewrite (add_subtract_cancel (k_diff k) (k_sys k) sn N1 N2 Ea' ltac:(lia)) in Hdf. congruence.
  - intros No. destruct (C24_partial tr e s r Snd Ho No H) as [Hr G]. specialize (proj2 Hr Hd) as R0. destruct (G R0) as (sm' & t1 & t2 & m & [n' [Hn' Hsm']] & _ & G1 & G2 & G3 & G4 & G5 & G6 & _).
    assert (n' = n) by lia. subst n'. rewrite Ep in Hsm'. assert (sm' = sm) by congruence. subst sm'.
    split; [assumption|]. split; [rewrite G3; f_equal; apply (T _ _ _ G4 P3)|]. split; [rewrite G5; f_equal; apply (T _ _ _ G6 P2)|].
    rewrite G1, Ea'. f_equal. apply (T _ _ _ G2 Hsn).
Qed.
Print Assumptions C24_program.

(** Seventeen samples; sample [k] has offset k+1 seconds and system time 1000+k. *)
Definition ex_k (rc : Z) (n : nat) : taken := mkTaken rc (mkTs (Z.of_nat n + 1) 5 0) (mkTs (Z.of_nat n) 0 0) (mkTs (Z.of_nat n + 1000) 0 0).
Definition ex_ks : list taken := map (ex_k 0) (seq 0 17).
Definition ex_steps (ks : list taken) : list wstep := match take_all 0 ks with Some tr => tr | None => [] end.
Definition ex_tr : list wstep := ex_steps ex_ks.
Definition at_step (a b : nat) (k : nat) : env := mkEnv (fun i => if Nat.ltb i k then a else b) false true (Some (mkTs 10 0 0)).
Lemma at_step_ordered : forall a b k, (a <= b)%nat -> ordered (e_time (at_step a b k)).
Proof. intros a b k H i j Hij. unfold at_step. cbn [e_time]. destruct (Nat.ltb_spec i k), (Nat.ltb_spec j k); lia. Qed.

Example C24_program_example : exists r, take_all 0 ex_ks = Some ex_tr /\ Forall (fun k => normal (k_diff k) /\ normal (k_sys k) /\ 0 <= sec (k_sys k)) ex_ks /\
  compare_to_sys ex_tr (at_step 12 (12 + 14 * 12) 5) sub0 = Some r /\ delivered r /\ r_diff r = mkTs 1 5 0 /\ not_overtaken ex_tr (at_step 12 (12 + 14 * 12) 5) LAST.
Proof.
  eexists. split; [vm_compute; reflexivity|]. split.
  { apply Forall_forall. intros k Hk. apply in_map_iff in Hk as [n [<- Hn]]. apply in_seq in Hn. unfold normal, ex_k. cbn [k_diff k_sys sec nsec frac]. lia. }
  split; [vm_compute; reflexivity|]. split; [discriminate|]. split; [reflexivity|]. vm_compute. lia.
Qed.

(** The full statement fails: the timestamps are read again after the check for having been
    overtaken.  Here the offset is the first sample's and the timestamps the seventeenth's. *)
Theorem C24_torn_refuted : exists ks tr e r, take_all 0 ks = Some tr /\ ordered (e_time e) /\ compare_to_sys tr e sub0 = Some r /\ r_rc r = 0 /\
  ~ exists k, In k ks /\ k_diff k = r_diff r /\ r_t2 r = Some (k_sys k).
Proof.
  exists ex_ks, ex_tr, (at_step 12 (17 * 12) 13). eexists. split; [vm_compute; reflexivity|]. split; [apply at_step_ordered; lia|].
  split; [vm_compute; reflexivity|]. split; [reflexivity|]. intros [k [Hk [E1 E2]]]. apply in_map_iff in Hk as [n [<- _]]. cbn [ex_k k_diff k_sys r_diff r_t2] in E1, E2.
  injection E1 as E1. injection E2 as E2. lia.
Qed.
Print Assumptions C24_torn_refuted.
(** One timestamp can itself be put together from two samples. *)
Theorem C24_torn_timestamp_refuted : exists ks tr e r t, take_all 0 ks = Some tr /\ ordered (e_time e) /\ compare_to_sys tr e sub0 = Some r /\ r_rc r = 0 /\
  r_t2 r = Some t /\ ~ exists k, In k ks /\ k_sys k = t.
Proof.
  exists (map (fun n => mkTaken 0 (mkTs 1 0 0) (mkTs 5 0 0) (mkTs (Z.of_nat n) (Z.of_nat n) 0)) (seq 0 17)).
  exists (ex_steps (map (fun n => mkTaken 0 (mkTs 1 0 0) (mkTs 5 0 0) (mkTs (Z.of_nat n) (Z.of_nat n) 0)) (seq 0 17))), (at_step 12 (17 * 12) 17).
  eexists; eexists. split; [vm_compute; reflexivity|]. split; [apply at_step_ordered; lia|].
  split; [vm_compute; reflexivity|]. split; [reflexivity|]. split; [reflexivity|]. intros [k [Hk E]]. apply in_map_iff in Hk as [n [<- _]]. cbn [k_sys] in E.
  injection E as E1 E2. lia.
Qed.
Print Assumptions C24_torn_timestamp_refuted.
(** The return code of a failed sample is read twice: success can be returned with a zero
    offset that no sample had. *)
Theorem C24_false_success_refuted : exists ks tr e r, take_all 0 ks = Some tr /\ ordered (e_time e) /\ compare_to_sys tr e sub0 = Some r /\ r_rc r = 0 /\
  ~ delivered r /\ forall k, In k ks -> k_diff k <> r_diff r.
Proof.
  exists (ex_k 5 0 :: map (ex_k 0) (seq 1 16)), (ex_steps (ex_k 5 0 :: map (ex_k 0) (seq 1 16))), (at_step 12 (17 * 12) 2). eexists. split; [vm_compute; reflexivity|].
  split; [apply at_step_ordered; lia|]. split; [vm_compute; reflexivity|]. split; [reflexivity|]. split; [intros H; apply H; reflexivity|].
  intros k Hk. assert (exists rc n, k = ex_k rc n) as [rc [n ->]]. { destruct Hk as [<-|Hk]; [exists 5, 0%nat; reflexivity|]. apply in_map_iff in Hk as [n [<- _]]. exists 0, n. reflexivity. }
  intros E. injection E as E. lia.
Qed.
Print Assumptions C24_false_success_refuted.
(** The write counter is read into an int: after 2^32 samples the feed looks empty. *)
Theorem C24_counter_refuted : forall tr e s, e_inactive e = false -> e_active e = true ->
  Z.of_nat (count tr (e_time e 0)) = 2^32 -> exists r, compare_to_sys tr e s = Some r /\ r_rc r = EAGAIN.
Proof.
  intros tr e s Hi Ha Hn. unfold compare_to_sys. rewrite Hi, Ha. cbn [negb].
  assert (Ec : counter (mem_at tr (e_time e 0)) = 2^32).
  { unfold count in Hn. pose proof (ring_inv (firstn (e_time e 0) tr)) as R. rewrite Hn in R. specialize (R ltac:(lia)). destruct R as [R _]. unfold mem_at. rewrite R, Hn. reflexivity. }
  unfold rd_counter. rewrite Ec. change (s32 (2 ^ 32) =? 0) with true. cbv iota. eexists. split; reflexivity.
Qed.
Print Assumptions C24_counter_refuted.
Lemma published_repeat : forall n d, length (fst (samples_from d [] (repeat WPub n))) = (length d + n)%nat.
Proof. induction n as [|n IH]; intros d; cbn [repeat samples_from fst]; [lia|]. rewrite IH, app_length. cbn. lia. Qed.
Example C24_counter_example : exists tr e, e_inactive e = false /\ e_active e = true /\ Z.of_nat (count tr (e_time e 0)) = 2^32.
Proof.
  exists (repeat WPub (Z.to_nat (2^32))), (at_step (Z.to_nat (2^32)) (Z.to_nat (2^32)) 1). split; [reflexivity|]. split; [reflexivity|].
  unfold count. change (e_time (at_step (Z.to_nat (2^32)) (Z.to_nat (2^32)) 1) 0) with (Z.to_nat (2^32)).
  rewrite firstn_all2 by (rewrite repeat_length; lia). unfold published, samples. rewrite published_repeat. cbn [length]. lia.
Qed.

(** *** C25 *)
(** Every sample delivered after a call of require_fresh is newer than the ones delivered
    before it: of the reads [e1] and [e2] of a subscriber with require_fresh in between, both
    delivering, the newest sample at the beginning of the second is a later one.  The first
    read must not be overtaken. *)
Theorem C25_fresh_partial : forall tr h1 e1 h2 e2 s1 rs1 r1 s2 rs2 r2, sound tr ->
  timed 0 (h1 ++ SRead e1 :: h2 ++ [SRead e2]) -> In SFresh h2 ->
  srun tr sub0 h1 = Some (s1, rs1) -> compare_to_sys tr e1 s1 = Some r1 -> delivered r1 -> not_overtaken tr e1 LAST ->
  srun tr (r_sub r1) h2 = Some (s2, rs2) -> compare_to_sys tr e2 s2 = Some r2 -> delivered r2 ->
  (count tr (e_time e1 0) < count tr (e_time e2 0))%nat.
Proof. intros tr h1 e1 h2 e2 s1 rs1 r1 s2 rs2 r2 [Hc Hb]. apply (fresh_after tr Hb Hc). Qed.
Print Assumptions C25_fresh_partial.
Example C25_fresh_example : exists s2 rs2 r1 r2, timed 0 ([] ++ SRead (at_step 12 12 1) :: [SFresh] ++ [SRead (at_step 24 24 1)]) /\
  compare_to_sys ex_tr (at_step 12 12 1) sub0 = Some r1 /\ delivered r1 /\ not_overtaken ex_tr (at_step 12 12 1) LAST /\
  srun ex_tr (r_sub r1) [SFresh] = Some (s2, rs2) /\ compare_to_sys ex_tr (at_step 24 24 1) s2 = Some r2 /\ delivered r2 /\
  exists r3, compare_to_sys ex_tr (at_step 14 23 3) s2 = Some r3 /\ r_rc r3 = ESTALE.
Proof.
  do 4 eexists. split; [cbn [timed app]; split; [apply at_step_ordered; lia|]; split; [lia|]; split; [apply at_step_ordered; lia|]; split; [vm_compute; lia|exact I]|]. split; [vm_compute; reflexivity|]. split; [discriminate|]. split; [vm_compute; lia|].
  split; [vm_compute; reflexivity|]. split; [vm_compute; reflexivity|]. split; [discriminate|]. eexists. split; [vm_compute; reflexivity|reflexivity].
Qed.
(** Before anything has been read successfully, require_fresh demands nothing: the oldest
    sample satisfies it. *)
Theorem C25_first_read_refuted : exists tr e s rs r, sound tr /\ ordered (e_time e) /\ srun tr sub0 [SFresh] = Some (s, rs) /\
  (forall i, e_time e i = length tr) /\ length (published tr) = 1%nat /\ compare_to_sys tr e s = Some r /\ r_rc r = 0.
Proof.
  exists (ex_steps [ex_k 0 0]), (at_step 12 12 1). do 3 eexists. split; [split; [|vm_compute; reflexivity]|].
  { unfold all_complete. assert (E : published (ex_steps [ex_k 0 0]) = [[(0%nat,0);(1%nat,0);(2%nat,0);(3%nat,0);(4%nat,0);(5%nat,1000);(6%nat,0);(7%nat,0);(8%nat,1001);(9%nat,5);(10%nat,0)]]) by (vm_compute; reflexivity).
    rewrite E. constructor; [|constructor]. intros j Hj. unfold N_WORDS in Hj. do 11 (destruct j as [|j]; [discriminate|]). lia. }
  split; [apply at_step_ordered; lia|]. split; [vm_compute; reflexivity|]. split; [intros i; cbn [at_step e_time]; destruct (Nat.ltb i 1); reflexivity|].
  split; [reflexivity|]. split; [vm_compute; reflexivity|reflexivity].
Qed.
Print Assumptions C25_first_read_refuted.

(** With a maximum age, what is delivered is no older when its age is looked at. *)
Theorem C25_max_age_partial : forall tr e s r d now m, sound tr -> ordered (e_time e) -> not_overtaken tr e LAST ->
  max_age s = Some d -> e_now e = Some now -> normal d -> normal now -> normal m ->
  compare_to_sys tr e s = Some r -> r_rc r = 0 -> r_mono r = Some m ->
  instant now - instant m <= instant d.
Proof.
  intros tr e s r d now m [Hc Hb] Ho No Hd Hn Nd Nn Nm H Hr Hm.
  destruct (C24_partial tr e s r (conj Hc Hb) Ho No H) as [Dl _]. apply Dl in Hr.
  destruct (read_success tr Hb Hc e Ho s r H Hr) as (n & sm & snap & sys & mono & t1 & t2 & m2 & A & B & C & Sn & Sy & F & R1 & R2 & R3 & _ & _ & _ & Fr & Mo & G & _).
  unfold not_overtaken in No. unfold pub in A. assert (M : (count tr (e_time e 12) <= count tr (e_time e LAST))%nat) by (apply (pub_mono tr), Ho; unfold LAST; lia).
  destruct G as [_ [_ [G3 _]]]; [unfold pub; lia|]. specialize (Mo ltac:(unfold pub; lia)).
  assert (mono = m) by (destruct Mo as [? [? ?]], G3 as [? [? ?]], mono, m, m2; cbn in *; congruence). subst mono.
  unfold fresh_enough in Fr. rewrite Hd, Hn in Fr. destruct Fr as [age [Ea Ec]]. destruct (subtract_exact _ _ _ Nn Nm Ea) as [Na Ia].
  rewrite cmp_spec in Ec by assumption. rewrite <- Ia. destruct (Z.compare_spec (instant age) (instant d)); lia.
Qed.
Print Assumptions C25_max_age_partial.
Example C25_max_age_example : exists r1 r2, let s := set_max_age (mkTs 6 0 0) sub0 in
  compare_to_sys ex_tr (at_step (12 * 5) (12 * 5) 1) s = Some r1 /\ r_mono r1 = Some (mkTs 4 0 0) /\ r_rc r1 = 0 /\
  compare_to_sys ex_tr (at_step (12 * 4) (12 * 4) 1) s = Some r2 /\ r_rc r2 = ESTALE.
Proof. do 2 eexists. cbv zeta. split; [vm_compute; reflexivity|]. split; [reflexivity|]. split; [reflexivity|]. split; [vm_compute; reflexivity|reflexivity]. Qed.
(** If the monotonic clock cannot be read the limit is not applied. *)
Theorem C25_no_clock_refuted : exists tr e s r, max_age s = Some (mkTs 0 1 0) /\ e_now e = None /\ ordered (e_time e) /\
  compare_to_sys tr e s = Some r /\ r_rc r = 0.
Proof.
  exists ex_tr, (mkEnv (fun _ => 12%nat) false true None), (set_max_age (mkTs 0 1 0) sub0). eexists. split; [reflexivity|]. split; [reflexivity|].
  split; [intros i j _; cbn; lia|]. split; [vm_compute; reflexivity|reflexivity].
Qed.
Print Assumptions C25_no_clock_refuted.

(** A removed source, or an inactive clock, yields an error, a zero offset and nothing else,
    and leaves the subscriber alone. *)
Theorem C25_removed : forall tr e s, e_inactive e = true -> compare_to_sys tr e s = Some (mkRes EOWNERDEAD null_time None None None s).
Proof. intros tr e s H. unfold compare_to_sys. rewrite H. reflexivity. Qed.
Print Assumptions C25_removed.
Theorem C25_inactive : forall tr e s, e_inactive e = false -> e_active e = false -> compare_to_sys tr e s = Some (mkRes ENOENT null_time None None None s).
Proof. intros tr e s H H0. unfold compare_to_sys. rewrite H, H0. reflexivity. Qed.
Print Assumptions C25_inactive.

(** *** C26 *)
(** The users: they unsubscribe, and read through, only subscriptions they hold. *)
Definition allowed (held : list nat) (o : fop) : Prop := match o with FUnsubscribe n | FAccess n => In n held | _ => True end.
Definition holds (held : list nat) (o : fop) (r : option nat) : list nat :=
  match o, r with FSubscribe _, Some n => n :: held | FUnsubscribe n, _ => List.remove Nat.eq_dec n held | _, _ => held end.
Inductive reach : feeds -> list nat -> Prop :=
| reach0 : reach feeds0 []
| reach1 : forall f held o f' r, reach f held -> allowed held o -> fstep f o = Some (f', r) -> reach f' (holds held o r).

Lemma reach_inv : forall f held, reach f held -> finv f held.
Proof.
  intros f held H. induction H as [|f held o f' r H IH Ha E]; [apply finv0|]. destruct o as [c|c|c|n|n]; cbn [fstep allowed holds] in *.
  - inversion E; subst. apply add_inv. assumption.
  - destruct (remove_ok f held c IH) as [g [R [I _]]]. rewrite R in E. cbn [bind] in E. inversion E; subst. assumption.
  - destruct (subscribe_ok f held c IH) as [g [q [R P]]]. rewrite R in E. inversion E; subst. destruct r as [n|]; [apply P|destruct P as [-> _]; assumption].
  - destruct (unsubscribe_ok f held n IH Ha) as [g [R [I _]]]. rewrite R in E. cbn [bind] in E. inversion E; subst. assumption.
  - destruct (access f n); [|discriminate]. cbn [bind] in E. inversion E; subst. assumption.
Qed.

(** No operation of such users touches a freed source, or fails an assertion. *)
Theorem C26_safe : forall f held o, reach f held -> allowed held o -> exists f' r, fstep f o = Some (f', r).
Proof.
  intros f held o H Ha. apply reach_inv in H. destruct o as [c|c|c|n|n]; cbn [fstep allowed] in *.
  - do 2 eexists. reflexivity.
  - destruct (remove_ok f held c H) as [g [R _]]. rewrite R. do 2 eexists. reflexivity.
  - destruct (subscribe_ok f held c H) as [g [q [R _]]]. rewrite R. do 2 eexists. reflexivity.
  - destruct (unsubscribe_ok f held n H Ha) as [g [R _]]. rewrite R. do 2 eexists. reflexivity.
  - unfold access. apply (v_held _ _ H) in Ha. destruct (f_subs f n) as [i|] eqn:E; [|contradiction]. destruct (v_src _ _ H n i E) as [s [Es _]]. cbn [bind]. rewrite Es. do 2 eexists. reflexivity.
Qed.
Print Assumptions C26_safe.

(** A source is freed exactly when it has been removed and its last subscriber is gone. *)
Theorem C26_freed_when : forall f held o f' r i s, reach f held -> allowed held o -> fstep f o = Some (f', r) -> f_heap f i = Some s ->
  (f_heap f' i = None ->
     (exists n, o = FUnsubscribe n /\ s_inactive s = true /\ s_subs s = [n]) \/
     (exists c, o = FRemove c /\ s_clock s = c /\ s_inactive s = false /\ s_subs s = [])).
Proof.
  intros f held o f' r i s H Ha E Hs Hf. apply reach_inv in H. destruct o as [c|c|c|n|n]; cbn [fstep allowed] in *.
  - inversion E; subst. cbn in Hf. destruct (Nat.eq_dec i (f_next f)) as [->|Hi]; [rewrite upd_same in Hf; discriminate|rewrite upd_other in Hf by assumption; congruence].
  - destruct (remove_ok f held c H) as [g [R [I [_ [[_ ->]|[k [s' [B1 [B2 [B3 [B4 [B5 [B6 B7]]]]]]]]]]]]]; rewrite R in E; cbn [bind] in E; inversion E; subst.
    + congruence.
    + destruct (Nat.eq_dec i k) as [->|Hi]; [|rewrite B7 in Hf by assumption; congruence]. assert (s' = s) by congruence. subst s'. right. exists (s_clock s). split; [reflexivity|]. split; [reflexivity|].
      split; [|destruct (s_subs s); [reflexivity|exfalso; apply B6; [discriminate|assumption]]].
      destruct (s_inactive s) eqn:Ei; [|reflexivity]. exfalso. apply (v_flag _ _ H k s Hs) in Ei. pose proof (v_nd _ _ H) as Nd. apply NoDup_app_iff in Nd as [_ [_ Nd]]. apply (Nd k B1 Ei).
  - destruct (subscribe_ok f held c H) as [g [q [R P]]]. rewrite R in E. inversion E; subst. destruct r; [|destruct P as [-> _]; congruence]. destruct P as [_ [_ [_ P]]]. apply P in Hf. congruence.
  - destruct (unsubscribe_ok f held n H Ha) as [g [R [I [k [s' [B1 [B2 [B3 B4]]]]]]]]. rewrite R in E. cbn [bind] in E. inversion E; subst.
    destruct (Nat.eq_dec i k) as [->|Hi]; [|rewrite B4 in Hf by assumption; congruence]. assert (s' = s) by congruence. subst s'. left. exists n. split; [reflexivity|]. apply B3. assumption.
  - destruct (access f n); [|discriminate]. cbn [bind] in E. inversion E; subst. congruence.
Qed.
Print Assumptions C26_freed_when.

(** Nothing else is kept: a live source is in use, being either offered by the feed or still
    subscribed to; a subscription held has its source, live, and is one of its subscribers. *)
Theorem C26_no_leak : forall f held, reach f held ->
  (forall i s, f_heap f i = Some s -> s_inactive s = true -> s_subs s <> []) /\
  (forall n, In n held <-> f_subs f n <> None) /\
  (forall n, In n held -> exists i s, f_subs f n = Some i /\ f_heap f i = Some s /\ In n (s_subs s)) /\
  (forall i s n, f_heap f i = Some s -> In n (s_subs s) -> In n held /\ f_subs f n = Some i).
Proof.
  intros f held H. apply reach_inv in H. split; [|split; [|split]].
  - intros i s Hs Hi. apply (v_zombie _ _ H i s Hs). apply (v_flag _ _ H i s Hs). assumption.
  - apply (v_held _ _ H).
  - intros n Hn. apply (v_held _ _ H) in Hn. destruct (f_subs f n) as [i|] eqn:E; [|contradiction]. destruct (v_src _ _ H n i E) as [s [Es Hin]]. exists i, s. split; [reflexivity|]. split; assumption.
  - intros i s n Hs Hn. pose proof (v_subs _ _ H i s n Hs Hn) as E. split; [|assumption]. apply (v_held _ _ H). congruence.
Qed.
Print Assumptions C26_no_leak.
(** Once freed, a source stays freed: it is freed at most once. *)
Theorem C26_freed_once : forall f held o f' r i, reach f held -> allowed held o -> fstep f o = Some (f', r) ->
  (i < f_next f)%nat -> f_heap f i = None -> f_heap f' i = None /\ (i < f_next f')%nat.
Proof.
  intros f held o f' r i H Ha E Hi Hn. apply reach_inv in H. destruct o as [c|c|c|n|n]; cbn [fstep allowed] in *.
  - inversion E; subst. cbn. rewrite upd_other by lia. split; [assumption|lia].
  - unfold remove_clock in E. destruct (find_clock (f_heap f) (f_active f) c) as [[k|]|] eqn:Ef; cbn [bind] in E; [|inversion E; subst; split; assumption|discriminate].
    destruct (f_heap f k) as [s|] eqn:Ek; [|discriminate]. cbn [bind] in E. unfold reap in E. cbn [f_heap f_subs f_active f_inactive f_next f_nsub] in E. rewrite upd_same in E. cbn [bind s_inactive s_subs] in E.
    assert (i <> k) by congruence. destruct (s_subs s); [destruct (walk _ _ _); [|discriminate]|]; cbn [bind] in E; inversion E; subst; cbn; rewrite ?upd_other by assumption; split; assumption.
  - unfold subscribe in E. destruct (find_clock (f_heap f) (f_active f) c) as [q|]; [|discriminate]. cbn [bind] in E.
    destruct (match q with Some i => Some (Some i) | None => find_clock (f_heap f) (f_inactive f) c end) as [[k|]|]; cbn [bind] in E; [|inversion E; subst; split; assumption|discriminate].
    destruct (f_heap f k) as [s|] eqn:Ek; [|discriminate]. cbn [bind] in E. inversion E; subst. cbn. rewrite upd_other by congruence. split; assumption.
  - destruct (unsubscribe_ok f held n H Ha) as [g [R [I [k [s' [B1 [B2 [B3 B4]]]]]]]]. rewrite R in E. cbn [bind] in E. inversion E; subst. rewrite B4 by congruence. split; [assumption|].
    unfold unsubscribe in R. rewrite B1 in R. cbn [bind] in R. rewrite B2 in R. cbn [bind] in R. unfold reap in R. cbn [f_heap f_subs f_active f_inactive f_next f_nsub] in R. rewrite upd_same in R. cbn [bind s_inactive s_subs] in R.
    destruct (s_inactive s'); [destruct (List.remove Nat.eq_dec n (s_subs s')); [match type of R with context [walk ?a ?b ?c] => destruct (walk a b c) end; [|discriminate]|]|]; cbn [bind] in R; inversion R; subst; assumption.
  - destruct (access f n); [|discriminate]. cbn [bind] in E. inversion E; subst. split; assumption.
Qed.
Print Assumptions C26_freed_once.
(** Subscribing fails exactly when the feed has no source for the clock. *)
Theorem C26_subscribe : forall f held c f' r, reach f held -> fstep f (FSubscribe c) = Some (f', r) ->
  (r = None <-> forall i s, f_heap f i = Some s -> s_clock s <> c) /\
  (forall n, r = Some n -> ~ In n held /\ exists i s, f_subs f' n = Some i /\ f_heap f i = Some s /\ s_clock s = c).
Proof.
  intros f held c f' r H E. apply reach_inv in H. cbn [fstep] in E. destruct (subscribe_ok f held c H) as [g [q [R P]]]. rewrite R in E. inversion E; subst. split.
  - split; [intros ->; apply P|]. intros Hn. destruct r as [n|]; [|reflexivity]. exfalso. destruct P as [_ [_ [[i [s [_ [P1 P2]]]] _]]]. apply (Hn i s P1 P2).
  - intros n ->. destruct P as [P1 [_ [P2 _]]]. split; assumption.
Qed.
Print Assumptions C26_subscribe.

Fixpoint fexec (f : feeds) (held : list nat) (os : list fop) : option (feeds * list nat) :=
  match os with
  | [] => Some (f, held)
  | o :: os' => if match o with FUnsubscribe n | FAccess n => existsb (Nat.eqb n) held | _ => true end
                then match fstep f o with Some (g, r) => fexec g (holds held o r) os' | None => None end else None
  end.
Lemma fexec_reach : forall os f held f' held', reach f held -> fexec f held os = Some (f', held') -> reach f' held'.
Proof.
  induction os as [|o os IH]; intros f held f' held' H E; cbn [fexec] in E; [inversion E; subst; assumption|].
  destruct (match o with FUnsubscribe n | FAccess n => existsb (Nat.eqb n) held | _ => true end) eqn:Ea; [|discriminate]. destruct (fstep f o) as [[g r]|] eqn:Es; [|discriminate].
  apply (IH g (holds held o r)); [|assumption]. apply (reach1 f held o g r H); [|assumption].
  destruct o; cbn; try exact I; apply existsb_exists in Ea as [k [Hk Ek]]; apply Nat.eqb_eq in Ek; subst; assumption.
Qed.
Definition ex_ops := [FAdd 7; FAdd 8; FSubscribe 7; FSubscribe 7; FRemove 7; FAccess 1; FUnsubscribe 0].
Example C26_example : match fexec feeds0 [] ex_ops with
  | Some (f, held) => reach f held /\ held = [1%nat] /\ allowed held (FUnsubscribe 1) /\
      f_heap f 0%nat = Some (mkSource 7 [1%nat] true) /\ f_heap f 1%nat = Some (mkSource 8 [] false) /\
      match fstep f (FUnsubscribe 1) with Some (f', _) => f_heap f' 0%nat = None | None => False end
  | None => False end.
Proof.
  assert (C : match fexec feeds0 [] ex_ops with
    | Some (f, held) => held = [1%nat] /\ f_heap f 0%nat = Some (mkSource 7 [1%nat] true) /\ f_heap f 1%nat = Some (mkSource 8 [] false) /\
      match fstep f (FUnsubscribe 1) with Some (f', _) => f_heap f' 0%nat = None | None => False end
    | None => False end) by (vm_compute; repeat split).
  destruct (fexec feeds0 [] ex_ops) as [[f held]|] eqn:E; [|exact C]. destruct C as [C1 [C2 [C3 C4]]].
  split; [apply (fexec_reach ex_ops feeds0 [] f held); [apply reach0|assumption]|]. split; [assumption|]. split; [rewrite C1; left; reflexivity|]. split; [assumption|]. split; assumption.
Qed.

(** Shutting down uses freed memory exactly when some source on offer has no subscriber: the
    loop reads the link of the source it has just freed. *)
Theorem C26_shutdown_refuted : forall f held, reach f held ->
  (shutdown f = None <-> exists i s, f_heap f i = Some s /\ s_inactive s = false /\ s_subs s = []).
Proof.
  intros f held H. apply reach_inv in H. split.
  - intros E. destruct (existsb (fun i => match f_heap f i with Some s => match s_subs s with [] => true | _ => false end | None => false end) (f_active f)) eqn:Ex.
    + apply existsb_exists in Ex as [i [Hi Ex]]. destruct (f_heap f i) as [s|] eqn:Es; [|discriminate]. destruct (s_subs s) eqn:Eu; [|discriminate]. exists i, s. split; [assumption|]. split; [|assumption].
      destruct (s_inactive s) eqn:Ei; [|reflexivity]. exfalso. apply (v_flag _ _ H i s Es) in Ei. pose proof (v_nd _ _ H) as Nd. apply NoDup_app_iff in Nd as [_ [_ Nd]]. apply (Nd i Hi Ei).
    + exfalso. apply (shutdown_used f held H); [|assumption]. intros i s Hi Hs Hu.
      assert (T : existsb (fun i => match f_heap f i with Some s => match s_subs s with [] => true | _ => false end | None => false end) (f_active f) = true).
      { apply existsb_exists. exists i. split; [assumption|]. rewrite Hs, Hu. reflexivity. }
      congruence.
  - intros [i [s [Hs [Hi Hu]]]]. apply (shutdown_unused f held i s H); [|assumption|assumption].
    assert (L : In i (f_active f ++ f_inactive f)) by (apply (v_live _ _ H); congruence). apply in_app_or in L as [L|L]; [assumption|]. apply (v_flag _ _ H i s Hs) in L. congruence.
Qed.
Print Assumptions C26_shutdown_refuted.
Example C26_shutdown_example : exists f, reach f [] /\ shutdown f = None.
Proof.
  exists (add_clock feeds0 7). split; [|reflexivity]. change (@nil nat) with (holds [] (FAdd 7) None). eapply reach1; [apply reach0|exact I|reflexivity].
Qed.

(** *** C27 *)
(** Full statement: with a limit set on either subscription, a comparison of two clocks
    returns 0 only if the monotonic times of the samples differ, in either direction, by no
    more than the limit.  Proved when the second sample is the newer one, where equality
    with the limit is refused too. *)
Theorem C27_partial : forall a b s1 s2 mono0 d out m1 m2 l,
  compare (Some a) (Some b) s1 s2 mono0 = Some (0, d, out) ->
  r_mono a = Some m1 -> r_mono b = Some m2 -> normal m1 -> normal m2 ->
  (max_age_diff s1 = Some l \/ max_age_diff s2 = Some l) ->
  (forall x, max_age_diff s1 = Some x \/ max_age_diff s2 = Some x -> normal x) ->
  instant m2 - instant m1 < instant l.
Proof.
  intros a b s1 s2 mono0 d out m1 m2 l H E1 E2 N1 N2 Hl Hn. unfold compare in H.
  destruct (min_diff s1 s2) as [lim|] eqn:El; [|discriminate]. cbn [bind] in H.
  assert (Lm : exists x, lim = Some x /\ normal x /\ instant x <= instant l).
  { unfold min_diff in El. destruct (max_age_diff s1) as [d1|] eqn:D1, (max_age_diff s2) as [d2|] eqn:D2.
    - destruct (is_ge d1 d2) as [g|] eqn:Eg; [|discriminate]. cbn [bind] in El. inversion El; subst lim.
      pose proof (is_ge_spec d1 d2 g (Hn d1 (or_introl eq_refl)) (Hn d2 (or_intror eq_refl)) Eg) as G. destruct g; eexists; (split; [reflexivity|]).
      + split; [apply Hn; right; reflexivity|]. destruct Hl as [Hl|Hl]; inversion Hl; subst; [apply G; reflexivity|lia].
      + split; [apply Hn; left; reflexivity|]. assert (~ instant d2 <= instant d1) by (intros X; apply G in X; discriminate). destruct Hl as [Hl|Hl]; inversion Hl; subst; lia.
    - inversion El; subst. exists d1. split; [reflexivity|]. split; [apply Hn; left; reflexivity|]. destruct Hl as [Hl|Hl]; inversion Hl; subst; lia.
    - inversion El; subst. exists d2. split; [reflexivity|]. split; [apply Hn; right; reflexivity|]. destruct Hl as [Hl|Hl]; inversion Hl; subst; lia.
    - destruct Hl; discriminate. }
  destruct Lm as [x [-> [Nx Lx]]].
  destruct (r_rc a =? 0) eqn:Ra; cbn [negb] in H; [|apply Z.eqb_neq in Ra; inversion H; congruence].
  destruct (r_rc b =? 0) eqn:Rb; cbn [negb] in H; [|apply Z.eqb_neq in Rb; inversion H; congruence].
  destruct (subtract (r_diff a) (r_diff b)) as [dd|]; [|discriminate]. cbn [bind] in H.
  replace (negb match mono0 with Some _ => true | None => true end) with false in H by (destruct mono0; reflexivity). rewrite E1, E2 in H.
  destruct (is_ge m1 m2) as [g|] eqn:Eg; [|discriminate]. cbn [bind] in H. pose proof (is_ge_spec m1 m2 g N1 N2 Eg) as G.
  destruct g.
  - assert (instant m2 <= instant m1) by (apply G; reflexivity).
    destruct (is_ge m2 m2) as [g2|] eqn:Eg2; [|discriminate]. cbn [bind] in H.
    replace (if g2 then subtract m2 m2 else subtract m2 m2) with (subtract m2 m2) in H by (destruct g2; reflexivity).
    destruct (subtract m2 m2) as [ad|] eqn:Ead; [|discriminate]. cbn [bind] in H. destruct (is_ge ad x) as [bad|] eqn:Eb; [|discriminate]. cbn [bind] in H.
    destruct (subtract_exact _ _ _ N2 N2 Ead) as [Na Ia]. pose proof (is_ge_spec ad x bad Na Nx Eb) as B. destruct bad; [inversion H|].
    assert (~ instant x <= instant ad) by (intros X; apply B in X; discriminate). lia.
  - assert (~ instant m2 <= instant m1) by (intros X; apply G in X; discriminate).
    destruct (is_ge m2 m1) as [g2|] eqn:Eg2; [|discriminate]. cbn [bind] in H. pose proof (is_ge_spec m2 m1 g2 N2 N1 Eg2) as G2.
    assert (g2 = true) by (apply G2; lia). subst g2.
    destruct (subtract m2 m1) as [ad|] eqn:Ead; [|discriminate]. cbn [bind] in H. destruct (is_ge ad x) as [bad|] eqn:Eb; [|discriminate]. cbn [bind] in H.
    destruct (subtract_exact _ _ _ N2 N1 Ead) as [Na Ia]. pose proof (is_ge_spec ad x bad Na Nx Eb) as B. destruct bad; [inversion H|].
    assert (~ instant x <= instant ad) by (intros X; apply B in X; discriminate). lia.
Qed.
Print Assumptions C27_partial.

Definition ok_at (m : ts) : result := mkRes 0 (mkTs 1 0 0) (Some m) (Some m) (Some m) sub0.
Definition with_limit (l : ts) : sub := set_max_age_diff l sub0.
Example C27_example : compare (Some (ok_at (mkTs 5 0 0))) (Some (ok_at (mkTs 7 0 0))) (with_limit (mkTs 3 0 0)) sub0 None = Some (0, null_time, None) /\
  compare (Some (ok_at (mkTs 5 0 0))) (Some (ok_at (mkTs 8 0 0))) sub0 (with_limit (mkTs 3 0 0)) None = Some (ESTALE, null_time, None).
Proof. split; vm_compute; reflexivity. Qed.

(** When the first sample is the newer one, however much, the comparison succeeds: the
    caller's variable has been overwritten with the older time before the two are compared. *)
Theorem C27_refuted : forall m1 m2 l, normal m1 -> normal m2 -> normal l -> 0 <= sec m2 -> instant m2 <= instant m1 -> 0 < instant l ->
  exists d, compare (Some (ok_at m1)) (Some (ok_at m2)) (with_limit l) sub0 None = Some (0, d, None).
Proof.
  intros m1 m2 l N1 N2 Nl P2 H Hl. unfold compare, min_diff, with_limit, set_max_age_diff. cbn [max_age_diff sub0 bind ok_at r_rc r_diff r_mono Z.eqb negb].
  destruct (subtract (mkTs 1 0 0) (mkTs 1 0 0)) as [dd|] eqn:Edd; [|vm_compute in Edd; discriminate]. cbn [bind]. exists dd.
  assert (S : forall a b, normal a -> normal b -> 0 <= sec b -> instant b <= instant a -> exists c, subtract a b = Some c).
  { intros a b Na Nb Pb Hab. apply subtract_defined; [assumption|assumption|]. unfold normal, representable, instant, s_unit in *. lia. }
  destruct (S m1 m2 N1 N2 P2 H) as [c Hc]. unfold is_ge at 1. rewrite Hc. cbn [bind]. destruct (subtract_exact _ _ _ N1 N2 Hc) as [Nc Ic].
  assert (Hs : 0 <=? sec c = true) by (apply Z.leb_le; unfold normal, instant in *; lia). rewrite Hs.
  destruct (S m2 m2 N2 N2 P2 ltac:(lia)) as [z Hz]. unfold is_ge at 1. rewrite Hz. cbn [bind]. destruct (subtract_exact _ _ _ N2 N2 Hz) as [Nz Iz].
  replace (if 0 <=? sec z then Some z else Some z) with (Some z) by (destruct (0 <=? sec z); reflexivity). cbn [bind].
  assert (G : is_ge z l = Some false).
  { assert (D : exists q, subtract z l = Some q).
    { apply subtract_defined; [assumption|assumption|]. unfold normal, representable, instant, s_unit in *. lia. }
    destruct D as [q Hq]. assert (E : is_ge z l = Some (0 <=? sec q)) by (unfold is_ge; rewrite Hq; reflexivity). rewrite E. f_equal.
    pose proof (is_ge_spec z l _ Nz Nl E) as B. destruct (0 <=? sec q); [|reflexivity]. assert (instant l <= instant z) by (apply B; reflexivity). lia. }
  rewrite G. reflexivity.
Qed.
Print Assumptions C27_refuted.
Example C27_refuted_example : compare (Some (ok_at (mkTs 1000000 0 0))) (Some (ok_at (mkTs 1 0 0))) (with_limit (mkTs 3 0 0)) sub0 None = Some (0, null_time, None).
Proof. vm_compute. reflexivity. Qed.
