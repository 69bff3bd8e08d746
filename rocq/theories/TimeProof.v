Require Import ZArith Lia Bool List.
Require Import ZifyBool.
Require Import Verif.Base Verif.TimeSpec Verif.TimeModel.
Open Scope Z_scope.

Ltac psimpl := cbn [sec nsec frac bind fst snd] in *.

Lemma quot_cases : forall n, -1000000000 <= n < 2000000000 ->
  Z.quot n 1000000000 = if 1000000000 <=? n then 1 else if n =? -1000000000 then -1 else 0.
Proof.
  intros n H. destruct (1000000000 <=? n) eqn:E.
  - rewrite Z.quot_div_nonneg by lia. lia.
  - destruct (n =? -1000000000) eqn:E2.
    + replace n with (-1000000000) by lia. reflexivity.
    + destruct (Z_lt_le_dec n 0).
      * replace n with (- (- n)) by lia. rewrite Z.quot_opp_l by lia.
        rewrite Z.quot_small by lia. reflexivity.
      * rewrite Z.quot_small by lia. reflexivity.
Qed.

Lemma s32_u32_id : forall x, - 2^31 <= x < 2^31 -> s32 (u32 x) = x.
Proof. intros. unfold s32, u32. lia. Qed.

Lemma u32_id : forall x, 0 <= x < 2^32 -> u32 x = x.
Proof. intros. unfold u32. lia. Qed.

Lemma u64_id : forall x, 0 <= x < 2^64 -> u64 x = x.
Proof. intros. unfold u64. lia. Qed.

Lemma s64_id : forall x, - 2^63 <= x < 2^63 -> s64 x = x.
Proof. intros. unfold s64. lia. Qed.

Lemma fits_s64_iff : forall x, fits_s64 x = true <-> - 2^63 <= x < 2^63.
Proof. intros. unfold fits_s64. lia. Qed.

(** Carry out of a nanosecond count in [-1e9, 2e9). *)
Definition carry (n : Z) : Z := if 1000000000 <=? n then 1 else if n <? 0 then -1 else 0.

Lemma normalise_carry : forall s n f,
  -1000000000 <= n < 2000000000 -> fits_s64 s = true ->
  normalise (mkTs s (u32 n) f) =
  if fits_s64 (s + carry n)
  then Some (mkTs (s + carry n) (n - 1000000000 * carry n) f) else None.
Proof.
  intros s n f Hn Hs. unfold normalise; psimpl.
  rewrite s32_u32_id by lia. rewrite quot_cases by lia. unfold carry, chk_s64.
  destruct (1000000000 <=? n) eqn:E1.
  - destruct (fits_s64 (s + 1)); psimpl; [|reflexivity].
    replace (n - 1 * 1000000000 <? 0) with false by lia.
    rewrite u32_id by lia. do 2 f_equal; lia.
  - destruct (n =? -1000000000) eqn:E2.
    + replace (n <? 0) with true by lia.
      destruct (fits_s64 (s + -1)); psimpl; [|reflexivity].
      replace (n - -1 * 1000000000 <? 0) with false by lia.
      rewrite u32_id by lia. do 2 f_equal; lia.
    + rewrite Z.add_0_r, Hs; psimpl.
      replace (n - 0 * 1000000000) with n by lia.
      destruct (n <? 0) eqn:E3.
      * change (s - 1) with (s + -1).
        destruct (fits_s64 (s + -1)); psimpl; [|reflexivity].
        rewrite u32_id by lia. do 2 f_equal; lia.
      * rewrite u32_id by lia. rewrite Z.add_0_r, Hs. do 2 f_equal; lia.
Qed.

Lemma lor_shift : forall n f, 0 <= n -> 0 <= f < 2^32 ->
  Z.lor (n * 2^32) f = n * 2^32 + f.
Proof.
  intros n f Hn Hf. rewrite <- Z.shiftl_mul_pow2 by lia.
  symmetry. rewrite <- Z.lxor_lor, <- Z.add_nocarry_lxor; try reflexivity.
  all: apply Z.bits_inj'; intros k Hk; rewrite Z.land_spec, Z.bits_0;
    rewrite Z.shiftl_spec by lia;
    destruct (Z_lt_le_dec k 32);
    [ rewrite Z.testbit_neg_r by lia; reflexivity
    | assert (Z.testbit f k = false) as ->; [|apply andb_false_r] ].
  all: destruct (Z.eq_dec f 0); [subst; apply Z.bits_0|];
    apply Z.bits_above_log2; [lia|];
    assert (Z.log2 f < 32) by (apply Z.log2_lt_pow2; lia); lia.
Qed.

(** Addition: what it computes and exactly when it is defined. *)
Definition nsum (a b : ts) : Z := nsec a + nsec b + (frac a + frac b) / 2^32.

Lemma add_carry : forall a b, normal a -> normal b ->
  add a b =
  if fits_s64 (sec a + sec b) && fits_s64 (sec a + sec b + carry (nsum a b))
  then Some (mkTs (sec a + sec b + carry (nsum a b))
                  (nsum a b - 1000000000 * carry (nsum a b))
                  ((frac a + frac b) mod 2^32))
  else None.
Proof.
  intros a b [Ha1 [Ha2 Ha3]] [Hb1 [Hb2 Hb3]]. unfold add.
  rewrite !(u64_id (nsec _ * 2^32)) by lia.
  rewrite !(u64_id (nsec a * 2^32 + nsec b * 2^32)) by lia.
  rewrite !(u64_id (nsec a * 2^32 + nsec b * 2^32 + frac a)) by lia.
  rewrite !u64_id by lia.
  unfold chk_s64. destruct (fits_s64 (sec a + sec b)) eqn:E; psimpl; [|reflexivity].
  replace ((nsec a * 2^32 + nsec b * 2^32 + frac a + frac b) / 2^32) with (nsum a b)
    by (unfold nsum; lia).
  rewrite normalise_carry; [|unfold nsum; lia|assumption].
  replace (u32 (nsec a * 2^32 + nsec b * 2^32 + frac a + frac b))
    with ((frac a + frac b) mod 2^32) by (unfold u32; lia).
  reflexivity.
Qed.

Definition ndiff (a b : ts) : Z := nsec a - nsec b + (frac a - frac b) / 2^32.

Lemma subtract_carry : forall a b, normal a -> normal b ->
  subtract a b =
  if fits_s64 (sec a - sec b) && fits_s64 (sec a - sec b + carry (ndiff a b))
  then Some (mkTs (sec a - sec b + carry (ndiff a b))
                  (ndiff a b - 1000000000 * carry (ndiff a b))
                  ((frac a - frac b) mod 2^32))
  else None.
Proof.
  intros a b [Ha1 [Ha2 Ha3]] [Hb1 [Hb2 Hb3]]. unfold subtract.
  rewrite !(u64_id (nsec _ * 2^32)) by lia.
  rewrite !lor_shift by lia. rewrite !s64_id by lia.
  unfold chk_s64.
  replace (fits_s64 (nsec a * 2 ^ 32 + frac a - (nsec b * 2 ^ 32 + frac b))) with true
    by (unfold fits_s64; lia). psimpl.
  destruct (fits_s64 (sec a - sec b)) eqn:E; psimpl; [|reflexivity].
  replace ((nsec a * 2 ^ 32 + frac a - (nsec b * 2 ^ 32 + frac b)) / 2^32) with (ndiff a b)
    by (unfold ndiff; lia).
  rewrite normalise_carry; [|unfold ndiff; lia|assumption].
  replace (u32 (nsec a * 2 ^ 32 + frac a - (nsec b * 2 ^ 32 + frac b)))
    with ((frac a - frac b) mod 2^32) by (unfold u32; lia).
  reflexivity.
Qed.

Lemma add_exact : forall a b c, normal a -> normal b -> add a b = Some c ->
  normal c /\ instant c = instant a + instant b.
Proof.
  intros a b c Ha Hb H. rewrite add_carry in H by assumption.
  destruct (fits_s64 (sec a + sec b) && _) eqn:E in H; [|discriminate].
  injection H as <-. apply andb_prop in E as [E1 E2].
  apply fits_s64_iff in E1, E2.
  destruct Ha as [Ha1 [Ha2 Ha3]], Hb as [Hb1 [Hb2 Hb3]].
  unfold normal, instant; psimpl.
  assert (0 <= nsum a b < 2000000000) by (unfold nsum; lia).
  split.
  - repeat split; try lia; unfold carry in *;
      destruct (1000000000 <=? nsum a b) eqn:?; destruct (nsum a b <? 0) eqn:?; lia.
  - unfold carry. replace (nsum a b <? 0) with false by lia.
    destruct (1000000000 <=? nsum a b); unfold nsum; lia.
Qed.

Lemma add_defined : forall a b, normal a -> normal b ->
  (exists c, add a b = Some c) <->
  (- 2^63 <= sec a + sec b /\ representable (instant a + instant b)).
Proof.
  intros a b Ha Hb. rewrite add_carry by assumption.
  destruct Ha as [Ha1 [Ha2 Ha3]], Hb as [Hb1 [Hb2 Hb3]].
  unfold representable, instant, s_unit.
  assert (Hn : 0 <= nsum a b < 2000000000) by (unfold nsum; lia).
  assert (Hs : nsum a b = nsec a + nsec b + (frac a + frac b) / 2^32) by reflexivity.
  unfold carry. replace (nsum a b <? 0) with false by lia.
  destruct (fits_s64 (sec a + sec b)) eqn:E1;
  destruct (1000000000 <=? nsum a b) eqn:E2; cbn [andb].
  - destruct (fits_s64 (sec a + sec b + 1)) eqn:E3; unfold fits_s64 in *; split; intros H0.
    all: try (destruct H0; discriminate). all: try (eexists; reflexivity).
    all: lia.
  - rewrite Z.add_0_r, E1. unfold fits_s64 in *. split; intros H0.
    2: eexists; reflexivity. lia.
  - unfold fits_s64 in *. split; intros H0. { destruct H0; discriminate. } lia.
  - unfold fits_s64 in *. split; intros H0. { destruct H0; discriminate. } lia.
Qed.

Lemma subtract_exact : forall a b c, normal a -> normal b -> subtract a b = Some c ->
  normal c /\ instant c = instant a - instant b.
Proof.
  intros a b c Ha Hb H. rewrite subtract_carry in H by assumption.
  destruct (fits_s64 (sec a - sec b) && _) eqn:E in H; [|discriminate].
  injection H as <-. apply andb_prop in E as [E1 E2].
  apply fits_s64_iff in E1, E2.
  destruct Ha as [Ha1 [Ha2 Ha3]], Hb as [Hb1 [Hb2 Hb3]].
  unfold normal, instant; psimpl.
  assert (-1000000000 <= ndiff a b < 1000000000) by (unfold ndiff; lia).
  split.
  - repeat split; try lia; unfold carry in *;
      destruct (1000000000 <=? ndiff a b) eqn:?; destruct (ndiff a b <? 0) eqn:?; lia.
  - unfold carry. replace (1000000000 <=? ndiff a b) with false by lia.
    destruct (ndiff a b <? 0); unfold ndiff; lia.
Qed.

Lemma subtract_defined : forall a b, normal a -> normal b ->
  (exists c, subtract a b = Some c) <->
  (sec a - sec b < 2^63 /\ representable (instant a - instant b)).
Proof.
  intros a b Ha Hb. rewrite subtract_carry by assumption.
  destruct Ha as [Ha1 [Ha2 Ha3]], Hb as [Hb1 [Hb2 Hb3]].
  unfold representable, instant, s_unit.
  assert (Hn : -1000000000 <= ndiff a b < 1000000000) by (unfold ndiff; lia).
  assert (Hs : ndiff a b = nsec a - nsec b + (frac a - frac b) / 2^32) by reflexivity.
  unfold carry. replace (1000000000 <=? ndiff a b) with false by lia.
  destruct (fits_s64 (sec a - sec b)) eqn:E1;
  destruct (ndiff a b <? 0) eqn:E2; cbn [andb].
  - destruct (fits_s64 (sec a - sec b + -1)) eqn:E3; unfold fits_s64 in *; split; intros H0.
    all: try (destruct H0; discriminate). all: try (eexists; reflexivity).
    all: lia.
  - rewrite Z.add_0_r, E1. unfold fits_s64 in *. split; intros H0.
    2: eexists; reflexivity. lia.
  - unfold fits_s64 in *. split; intros H0. { destruct H0; discriminate. } lia.
  - unfold fits_s64 in *. split; intros H0. { destruct H0; discriminate. } lia.
Qed.

Lemma instant_inj : forall a b, normal a -> normal b -> instant a = instant b -> a = b.
Proof.
  intros [s1 n1 f1] [s2 n2 f2]; unfold normal, instant; psimpl. intros.
  assert (f1 = f2) by lia. subst. assert (n1 = n2) by lia. subst.
  assert (s1 = s2) by lia. subst. reflexivity.
Qed.

Lemma add_subtract_cancel : forall a b c, normal a -> normal b -> add a b = Some c ->
  sec c - sec b < 2^63 ->
  subtract c b = Some a.
Proof.
  intros a b c Ha Hb Hc Hs. destruct (add_exact _ _ _ Ha Hb Hc) as [Hn Hi].
  destruct (proj2 (subtract_defined c b Hn Hb)) as [d Hd].
  - split; [assumption|]. replace (instant c - instant b) with (instant a) by lia.
    destruct Ha as [? [? ?]]. unfold representable, instant, s_unit. lia.
  - rewrite Hd. f_equal. destruct (subtract_exact _ _ _ Hn Hb Hd) as [Hdn Hdi].
    apply instant_inj; auto. lia.
Qed.

Lemma cmp_spec : forall a b, normal a -> normal b ->
  cmp a b = match instant a ?= instant b with Lt => -1 | Eq => 0 | Gt => 1 end.
Proof.
  intros [s1 n1 f1] [s2 n2 f2]; unfold normal, instant, cmp; psimpl. intros.
  destruct (Z.compare_spec ((s1 * 1000000000 + n1) * 2^32 + f1) ((s2 * 1000000000 + n2) * 2^32 + f2));
  destruct (s1 <? s2) eqn:?; [lia| |lia| |lia|];
  destruct (s2 <? s1) eqn:?; try lia;
  destruct (n1 <? n2) eqn:?; try lia;
  destruct (n2 <? n1) eqn:?; try lia;
  destruct (f1 <? f2) eqn:?; try lia;
  destruct (f2 <? f1) eqn:?; lia.
Qed.

Lemma is_ge_spec : forall a b r, normal a -> normal b -> is_ge a b = Some r ->
  (r = true <-> instant b <= instant a).
Proof.
  intros a b r Ha Hb H. unfold is_ge in H.
  destruct (subtract a b) as [c|] eqn:E; [|discriminate]. psimpl.
  injection H as <-. destruct (subtract_exact _ _ _ Ha Hb E) as [[Hc1 [Hc2 Hc3]] Hi].
  unfold instant at 1 in Hi. rewrite Z.leb_le. lia.
Qed.

Lemma is_ge_defined : forall a b, normal a -> normal b ->
  - 2^62 < sec a < 2^62 -> - 2^62 < sec b < 2^62 -> exists r, is_ge a b = Some r.
Proof.
  intros a b Ha Hb H1 H2. destruct (proj2 (subtract_defined a b Ha Hb)) as [c Hc].
  - destruct Ha as [? [? ?]], Hb as [? [? ?]].
    unfold representable, instant, s_unit. lia.
  - unfold is_ge. rewrite Hc. eexists; reflexivity.
Qed.

(** Conversions. *)
Lemma negate_exact : forall a, normal a -> - 2^63 < sec a ->
  exists c, negate a = Some c /\ normal c /\ instant c = - instant a.
Proof.
  intros a Ha Hs. assert (normal null_time) by (unfold normal, null_time; psimpl; lia).
  destruct (proj2 (subtract_defined null_time a H Ha)) as [c Hc].
  - destruct Ha as [? [? ?]]. unfold representable, instant, s_unit, null_time; psimpl. lia.
  - exists c. unfold negate. split; [assumption|].
    destruct (subtract_exact _ _ _ H Ha Hc). split; [assumption|]. 
    unfold instant at 2 in H1. unfold null_time in H1. psimpl. lia.
Qed.

(** The nanosecond field need not be normalised for a small negation. *)
Lemma from_ns_exact : forall ns, - 2^31 < ns < 2^31 ->
  exists t, from_ns ns = Some t /\ normal t /\ instant t = ns * ns_unit.
Proof.
  intros ns H. unfold from_ns, ns_unit. destruct (ns <? 0) eqn:E.
  - unfold chk_s64. replace (fits_s64 (- ns)) with true by (unfold fits_s64; lia). psimpl.
    replace (1000000000 <=? ns) with false by lia. psimpl.
    unfold negate, subtract, null_time; psimpl.
    rewrite (u32_id (- ns)) by lia.
    rewrite !(u64_id (_ * 2^32)) by lia. rewrite !lor_shift by lia. rewrite !s64_id by lia.
    unfold chk_s64.
    replace (fits_s64 (0 * 2 ^ 32 + 0 - (- ns * 2 ^ 32 + 0))) with true by (unfold fits_s64; lia).
    psimpl. change (fits_s64 (0 - 0)) with true. psimpl.
    unfold normalise; psimpl.
    replace ((0 * 2 ^ 32 + 0 - (- ns * 2 ^ 32 + 0)) / 2^32) with ns by lia.
    replace (u32 (0 * 2 ^ 32 + 0 - (- ns * 2 ^ 32 + 0))) with 0 by (unfold u32; lia).
    rewrite s32_u32_id by lia.
    assert (Hq : Z.quot ns 1000000000 = - ((- ns) / 1000000000)).
    { replace ns with (- (- ns)) at 1 by lia. rewrite Z.quot_opp_l by lia.
      rewrite Z.quot_div_nonneg by lia. reflexivity. }
    rewrite Hq. unfold chk_s64.
    replace (fits_s64 (0 - 0 + - (- ns / 1000000000))) with true by (unfold fits_s64; lia).
    psimpl. destruct (ns - - (- ns / 1000000000) * 1000000000 <? 0) eqn:E2.
    + replace (fits_s64 (0 - 0 + - (- ns / 1000000000) - 1)) with true by (unfold fits_s64; lia).
      psimpl. eexists; split; [reflexivity|]. unfold normal, instant; psimpl.
      rewrite u32_id by lia. lia.
    + eexists; split; [reflexivity|]. unfold normal, instant; psimpl.
      rewrite u32_id by lia. lia.
  - psimpl. rewrite (u32_id ns) by lia. destruct (1000000000 <=? ns) eqn:E2; psimpl.
    + unfold normalise; psimpl. replace (s32 ns) with ns by (unfold s32; lia).
      rewrite Z.quot_div_nonneg by lia. unfold chk_s64.
      replace (fits_s64 (0 + ns / 1000000000)) with true by (unfold fits_s64; lia). psimpl.
      replace (ns - ns / 1000000000 * 1000000000 <? 0) with false by lia. psimpl.
      eexists; split; [reflexivity|]. unfold normal, instant; psimpl.
      rewrite u32_id by lia. lia.
    + eexists; split; [reflexivity|]. unfold normal, instant; psimpl. lia.
Qed.

Lemma from_ns16_exact : forall x, - 2^63 < x < 2^63 ->
  exists t, from_ns16 x = Some t /\ normal t /\ instant t = x * 2^16.
Proof.
  intros x H. unfold from_ns16.
  assert (Hpos : forall a, 0 <= a < 2^63 -> exists t,
     (if 1000000000 <=? u64 a / 2^16
      then mkTs (u64 a / 2^16 / 1000000000)
                (u32 (u64 a / 2^16 - u64 a / 2^16 / 1000000000 * 1000000000))
                (u32 (u64 (u64 a * 2^16)))
      else mkTs 0 (u32 (u64 a / 2^16)) (u32 (u64 (u64 a * 2^16)))) = t /\
     normal t /\ instant t = a * 2^16 /\ 0 <= sec t).
  { intros a Ha. eexists; split; [reflexivity|]. rewrite (u64_id a) by lia.
    destruct (1000000000 <=? a / 2^16) eqn:E; unfold normal, instant; psimpl;
      unfold u32, u64; lia. }
  destruct (x <? 0) eqn:E.
  - unfold chk_s64. replace (fits_s64 (- x)) with true by (unfold fits_s64; lia). psimpl.
    destruct (Hpos (- x)) as [t [Ht [Hn [Hi Hs]]]]; [lia|]. rewrite Ht.
    destruct (negate_exact t Hn) as [c [Hc [Hcn Hci]]]; [lia|].
    exists c. repeat split; try assumption; try apply Hcn. lia.
  - psimpl. destruct (Hpos x) as [t [Ht [Hn [Hi Hs]]]]; [lia|]. rewrite Ht.
    exists t. auto.
Qed.


Lemma to_ns16_exact : forall t, normal t -> - 2^79 < instant t < 2^79 ->
  to_ns16 t = Some (Z.quot (instant t) (2^16)).
Proof.
  intros t Ht Hr. unfold to_ns16. destruct (sec t <? 0) eqn:E.
  - assert (Hs : - 2^63 < sec t).
    { destruct Ht as [Ht1 [Ht2 Ht3]]. unfold instant in Hr. lia. }
    destruct (negate_exact t Ht) as [c [Hc [[Hc1 [Hc2 Hc3]] Hci]]]; [lia|]. rewrite Hc; psimpl.
    destruct Ht as [Ht1 [Ht2 Ht3]].
    assert (Hcs : 0 <= sec c <= 140737) by (unfold instant in Hci, Hr; lia).
    rewrite (u64_id (sec c)) by lia.
    replace (281474 <=? sec c) with false by lia.
    rewrite (u64_id (sec c * 1000000000 + nsec c)) by lia.
    rewrite (u64_id ((sec c * 1000000000 + nsec c) * 2 ^ 16)) by lia.
    assert (Hv : (frac c / 2^16 + (sec c * 1000000000 + nsec c) * 2 ^ 16) = instant c / 2^16).
    { unfold instant. lia. }
    rewrite Hv. assert (0 <= instant c < 2^79) by lia.
    assert (0 <= instant c / 2^16 < 2^63) by lia.
    rewrite (u64_id (instant c / 2^16)) by lia.
    assert (s64 (u64 (- (instant c / 2^16))) = - (instant c / 2^16)) as ->.
    { unfold s64, u64. lia. }
    f_equal. replace (instant t) with (- instant c) by lia.
    rewrite Z.quot_opp_l by lia. rewrite Z.quot_div_nonneg by lia. reflexivity.
  - psimpl. destruct Ht as [Ht1 [Ht2 Ht3]].
    assert (Hcs : 0 <= sec t <= 140737) by (unfold instant in Hr; lia).
    rewrite (u64_id (sec t)) by lia.
    replace (281474 <=? sec t) with false by lia.
    rewrite (u64_id (sec t * 1000000000 + nsec t)) by lia.
    rewrite (u64_id ((sec t * 1000000000 + nsec t) * 2 ^ 16)) by lia.
    assert (Hv : (frac t / 2^16 + (sec t * 1000000000 + nsec t) * 2 ^ 16) = instant t / 2^16).
    { unfold instant. lia. }
    rewrite Hv. assert (0 <= instant t) by (unfold instant; lia).
    rewrite u64_id by lia. rewrite s64_id by lia.
    rewrite Z.quot_div_nonneg by lia. reflexivity.
Qed.

Lemma to_ns16_saturates : forall t, normal t -> - 2^63 < sec t ->
  (281474 <= sec t -> to_ns16 t = Some (2^63 - 1)) /\
  (sec t < - 281474 -> to_ns16 t = Some (- 2^63)).
Proof.
  intros t Ht Hs. unfold to_ns16. split; intros H.
  - replace (sec t <? 0) with false by lia. psimpl. destruct Ht as [Ht1 _].
    rewrite u64_id by lia. replace (281474 <=? sec t) with true by lia. reflexivity.
  - replace (sec t <? 0) with true by lia.
    destruct (negate_exact t Ht Hs) as [c [Hc [[Hc1 [Hc2 Hc3]] Hci]]]. rewrite Hc; psimpl.
    destruct Ht as [Ht1 [Ht2 Ht3]]. unfold instant in Hci.
    rewrite u64_id by lia. replace (281474 <=? sec c) with true by lia. reflexivity.
Qed.

Lemma ns16_round_trip : forall x, - 2^63 < x < 2^63 ->
  exists t, from_ns16 x = Some t /\ to_ns16 t = Some x.
Proof.
  intros x H. destruct (from_ns16_exact x H) as [t [H1 [H2 H3]]].
  exists t. split; [assumption|]. rewrite to_ns16_exact; [|assumption|lia].
  rewrite H3. f_equal. rewrite Z.quot_mul; lia.
Qed.

Lemma testbit31 : forall f, 0 <= f < 2^32 -> Z.testbit f 31 = (2^31 <=? f).
Proof.
  intros f H. rewrite Z.testbit_odd, Z.shiftr_div_pow2 by lia.
  destruct (2^31 <=? f) eqn:E.
  - assert (f / 2^31 = 1) as -> by lia. reflexivity.
  - assert (f / 2^31 = 0) as -> by lia. reflexivity.
Qed.

Lemma to_std_nearest_exact : forall t, normal t ->
  - 2^31 <= std_instant (to_std_nearest t) - instant t <= 2^31 /\
  (std_normal (to_std_nearest t) <-> ~ (nsec t = 999999999 /\ 2^31 <= frac t)).
Proof.
  intros t [H1 [H2 H3]]. unfold to_std_nearest, std_instant, std_normal, instant.
  cbn [tv_sec tv_nsec]. rewrite testbit31 by assumption.
  destruct (2^31 <=? frac t) eqn:E; lia.
Qed.

Lemma std_round_trips : forall t, std_normal t ->
  normal (from_std_nearest t) /\ normal (from_std_floor t) /\
  to_std_floor (from_std_nearest t) = t /\ to_std_nearest (from_std_nearest t) = t /\
  to_std_floor (from_std_floor t) = t /\ to_std_nearest (from_std_floor t) = t /\
  instant (from_std_floor t) = std_instant t /\
  instant (from_std_nearest t) = std_instant t + 2^31 - 1.
Proof.
  intros [s n]; unfold std_normal, normal, from_std_nearest, from_std_floor, to_std_floor,
    to_std_nearest, instant, std_instant; psimpl; cbn [tv_sec tv_nsec]. intros [H1 H2].
  rewrite !u32_id by lia. change (Z.testbit 2147483647 31) with false.
  change (Z.testbit 0 31) with false. rewrite Z.add_0_r. repeat split; lia.
Qed.

Lemma to_std_floor_exact : forall t, normal t ->
  std_normal (to_std_floor t) /\
  std_instant (to_std_floor t) <= instant t < std_instant (to_std_floor t) + ns_unit.
Proof.
  intros t [H1 [H2 H3]].
  unfold to_std_floor, std_instant, std_normal, instant, ns_unit; cbn [tv_sec tv_nsec]. lia.
Qed.

(** Pointer versions. *)
Lemma upd_same : forall m p t, upd m p t p = t.
Proof. intros. unfold upd. now rewrite Z.eqb_refl. Qed.
Lemma upd_other : forall m p q t, q <> p -> upd m p t q = m q.
Proof. intros. unfold upd. destruct (q =? p) eqn:E; [lia|reflexivity]. Qed.

Lemma upd_sec_keep : forall m c q n f,
  sec (upd m c (mkTs (sec (m c)) n f) q) = sec (m q).
Proof.
  intros. unfold upd. destruct (q =? c) eqn:E; [|reflexivity].
  apply Z.eqb_eq in E. subst. reflexivity.
Qed.

Lemma add_mem_aliasing : forall m c a b, writes m (add_mem m c a b) c (add (m a) (m b)).
Proof.
  intros. unfold add_mem, add, writes, normalise_mem.
  set (fp := u64 (u64 _ + frac (m b))).
  set (m1 := upd m c (mkTs (sec (m c)) (nsec (m c)) (u32 fp))).
  set (m2 := upd m1 c (mkTs (sec (m1 c)) (u32 (fp / 2 ^ 32)) (frac (m1 c)))).
  assert (E : forall q, sec (m2 q) = sec (m q)).
  { intros. unfold m2. rewrite upd_sec_keep. unfold m1. now rewrite upd_sec_keep. }
  rewrite !E.
  destruct (chk_s64 (sec (m a) + sec (m b))) as [s|]; cbn [bind]; [|exact I].
  rewrite upd_same.
  assert (nsec (m2 c) = u32 (fp / 2^32)) as -> by (unfold m2; now rewrite upd_same).
  assert (frac (m2 c) = u32 fp) as ->
    by (unfold m2; rewrite upd_same; unfold m1; now rewrite upd_same).
  destruct (normalise _) as [t|]; cbn [bind]; [|exact I].
  rewrite upd_same. split; [reflexivity|]. intros q Hq.
  unfold m2, m1. now rewrite !upd_other.
Qed.

Lemma subtract_mem_aliasing : forall m c a b,
  writes m (subtract_mem m c a b) c (subtract (m a) (m b)).
Proof.
  intros. unfold subtract_mem, subtract, writes, normalise_mem.
  set (d := s64 _ - s64 _).
  destruct (chk_s64 d) as [d'|]; cbn [bind]; [|exact I].
  destruct (chk_s64 (sec (m a) - sec (m b))) as [s|]; cbn [bind]; [|exact I].
  rewrite !upd_same. psimpl.
  destruct (normalise _) as [t|]; cbn [bind]; [|exact I].
  rewrite upd_same. split; [reflexivity|]. intros q Hq.
  now rewrite !upd_other.
Qed.
