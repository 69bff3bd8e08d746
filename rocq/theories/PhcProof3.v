(** Proofs about histories of comparisons of a hardware clock (C73). *)
Require Import ZArith QArith List Bool String Lia.
From Verif Require Import Base TimeSpec TimeModel TimeProof FltSpec FltModel FltProof PhcSpec PhcModel PhcProof PhcProof2.
Import ListNotations.
Open Scope Z_scope.

Definition inv (l : list method) (p : phc) : Prop :=
  clock_time (p_mono p) /\
  (p_meth p = MPPS \/ p_state p = NOT_READY -> exists l1 l2, l = l1 ++ MPPS :: l2 /\ ~ In READ l1 /\
     (p_meth p = MPPS -> p_idx p = Z.of_nat (List.length l1))).

Lemma null_clock_time : clock_time null_time.
Proof. unfold clock_time; cbn; lia. Qed.

Lemma nodup_split (l1 l2 r1 r2 : list method) (x : method) : NoDup (l1 ++ x :: l2) ->
  l1 ++ x :: l2 = r1 ++ x :: r2 -> l1 = r1 /\ l2 = r2.
Proof.
  revert r1. induction l1 as [|a l1 IH]; intros [|b r1] N E; cbn in *.
  - injection E as ->. auto.
  - injection E as -> ->. exfalso. inversion N; subst. apply H1. apply in_or_app. right. left. reflexivity.
  - injection E as -> <-. exfalso. inversion N; subst. apply H1. apply in_or_app. right. left. reflexivity.
  - injection E as -> E. inversion N; subst. destruct (IH r1 H2 E) as [-> ->]. auto.
Qed.

(** Leaving the PPS method. *)
Lemma fallback_pps order l l1 l2 e p : is_order order l -> names_fit (w_pps e) ->
  l = l1 ++ MPPS :: l2 -> ~ In READ l1 -> p_idx p = Z.of_nat (List.length l1) ->
  exists rc q, fallback order e p = Some (rc, q) /\ same_rest p q /\
  p_state q = p_state p /\ p_mono q = p_mono p /\ p_prev q = p_prev p /\ p_meth q <> MPPS /\
  ((rc = 0 /\ first_of (usable e (c_cross p) (c_pps p) (p_efx p)) l2 (p_meth q)) \/
   (rc = EOPNOTSUPP /\ p_meth q = MMAX /\ forall m, In m l2 -> ~ usable e (c_cross p) (c_pps p) (p_efx p) m)).
Proof.
  intros O F El Nr I. destruct (firstn6 order l O) as (tl & E & T1 & T2 & T3). unfold fallback.
  rewrite I, E. replace (Z.to_nat (Z.of_nat (List.length l1) + 1)) with (S (List.length l1)) by lia.
  destruct O as (N & M & _).
  assert (Sk : skipn (S (List.length l1)) (l ++ tl) = l2 ++ tl).
  { rewrite El, <- app_assoc. cbn [app]. rewrite skipn_app, skipn_all2 by lia.
    replace (S (List.length l1) - List.length l1)%nat with 1%nat by lia. reflexivity. }
  rewrite Sk.
  assert (N2 : ~ In MPPS l2).
  { rewrite El in N. apply NoDup_remove_2 in N. intros H. apply N. apply in_or_app. right. exact H. }
  assert (M2 : ~ In MMAX l2). { intros H. apply M. rewrite El. apply in_or_app. right. right. exact H. }
  assert (H : In READ (l2 ++ tl) \/ In MMAX (l2 ++ tl)).
  { destruct tl as [|t tl].
    - left. rewrite app_nil_r. assert (X : In READ l) by (apply full_has_read; auto; rewrite T1 by reflexivity; lia).
      rewrite El in X. apply in_app_or in X as [X|[X|X]]; [contradiction|discriminate|exact X].
    - right. destruct T2 as (t' & Et); [discriminate|]. rewrite Et. apply in_or_app. right. left. reflexivity. }
  assert (N3 : ~ In MPPS (l2 ++ tl)) by (intros X; apply in_app_or in X as [X|X]; auto).
  destruct (fallback_spec e F (l2 ++ tl) (Z.of_nat (List.length l1) + 1) p H) as (rc & q & G1 & G2 & _ & G4 & r1 & r2 & L1 & L2 & L3 & L4).
  destruct (G4 N3) as (S1 & S2 & S3).
  exists rc, q. split; [exact G1|]. split; [exact G2|]. split; [exact S1|]. split; [exact S2|]. split; [exact S3|].
  split. { intros X. apply N3. rewrite L1, X. apply in_or_app. right. left. reflexivity. }
  destruct (app_eq_app _ _ _ _ L1) as (u & [(U1 & U2)|(U1 & U2)]).
  - destruct u as [|x u].
    + cbn in U2. rewrite app_nil_r in U1. subst r1.
      destruct tl as [|t tl]; [discriminate|]. destruct T2 as (t' & Et); [discriminate|]. injection Et as -> ->.
      injection U2 as Hm _. right. destruct L4 as [(_ & B)|(A & B)]; [rewrite Hm in B; destruct B|].
      split; [exact A|]. split; [exact B|]. intros m Hm'. apply L3. exact Hm'.
    + injection U2 as Hx Hu. rewrite <- Hx in U1. left. destruct L4 as [(A & B)|(_ & B)].
      2:{ exfalso. apply M2. rewrite U1, B. apply in_or_app. right. left. reflexivity. }
      split; [exact A|]. exists r1, u. split; [exact U1|]. split; [exact B|]. intros y Hy. apply L3. exact Hy.
  - destruct tl as [|t tl]. { destruct u; discriminate. }
    destruct T2 as (t' & Et); [discriminate|]. injection Et as -> ->.
    destruct u as [|x u].
    + injection U2 as Hm _. right. rewrite app_nil_r in U1. destruct L4 as [(_ & B)|(A & B)]; [rewrite <- Hm in B; destruct B|].
      split; [exact A|]. split; [exact B|]. intros m Hm'. apply L3. rewrite U1. exact Hm'.
    + injection U2 as Hm _. exfalso. subst x. destruct (L3 MMAX) as [_ X]; [rewrite U1; apply in_or_app; right; left; reflexivity|].
      apply X. reflexivity.
Qed.

(** The methods other than PPS. *)
Definition by_method (rd : Q -> Q) (e : env) (p : phc) (diff : ts) : option (Z * ts * phc) :=
  match p_meth p with
  | MMAX | MPPS => Some (EOPNOTSUPP, diff, p)
  | PRECISE => precise (e_precise e) p diff
  | EFX => if p_efx p then efx (e_efx e) p diff else Some (EOPNOTSUPP, diff, p)
  | EXT => extended_n rd (e_ext e) SAMPLES p diff
  | SYS => sys_offset_n rd (e_sys e) SAMPLES p diff
  | READ => read_time_n rd (e_read e) SAMPLES p diff
  end.
Lemma compare_S rd order es f p d : compare rd order es (S f) p d =
  do p <- second_chance order (e_now (es f)) p;
  match p_meth p with
  | MPPS => compare_pps rd order (compare rd order es f) (es f) p d
  | _ => by_method rd (es f) p d
  end.
Proof. cbn [compare]. destruct (second_chance order (e_now (es f)) p) as [q|]; [|reflexivity]. cbn [bind]. unfold by_method. destruct (p_meth q); reflexivity. Qed.

Lemma by_method_defined rd e p d : double_like rd -> world_ok e ->
  exists rc d' q, by_method rd e p d = Some (rc, d', q) /\ (q = p \/ q = set_diff p d').
Proof.
  intros D (W1 & W2 & W3 & W4 & W5 & W6 & W7 & W8). unfold by_method. destruct (p_meth p).
  - unfold precise. destruct (e_precise e) as [er|[dv s]]; [eauto 8|].
    destruct (W5 dv s eq_refl) as [A B]. destruct (sub_times _ _ A B) as (c & E & _). rewrite E. cbn [bind]. eauto 8.
  - destruct (p_efx p); [|eauto 8]. unfold efx. destruct (e_efx e); eauto 8.
  - eauto 8.
  - unfold extended_n. destruct (e_ext e) as [er|f]; [eauto 8|].
    destruct (kernel_n_spec rd f SAMPLES p d D) as (rc & d' & E & _); [intros j _; eapply W6; reflexivity|].
    rewrite E. exists rc, d'. eexists. split; [reflexivity|]. destruct (rc =? 0); auto.
  - unfold sys_offset_n. destruct (e_sys e) as [er|f]; [eauto 8|].
    destruct (kernel_n_spec rd (overlapping f) SAMPLES p d D) as (rc & d' & E & _); [intros j _; apply W7; reflexivity|].
    rewrite E. exists rc, d'. eexists. split; [reflexivity|]. destruct (rc =? 0); auto.
  - destruct (read_time_spec rd (e_read e) SAMPLES p d D) as [(j & er & d' & _ & _ & _ & E)|(g & rc & d' & _ & E & _)].
    + intros j x _. apply W4.
    + rewrite E. eauto 8.
    + rewrite E. exists rc, d'. eexists. split; [reflexivity|]. destruct (rc =? 0); auto.
  - eauto 8.
Qed.

Lemma retry_normal : normal RETRY.
Proof. unfold normal, RETRY; cbn; lia. Qed.

Lemma second_chance_spec order l now p : is_order order l -> inv l p -> clock_time now ->
  exists q, second_chance order now p = Some q /\ inv l q /\ same_rest p q /\ p_state q = p_state p /\
  p_mono q = p_mono p /\ p_prev q = p_prev p /\
  (p_state p = NOT_READY /\ instant (p_mono p) + instant RETRY <= instant now /\ p_meth q = MPPS \/
   ~ (p_state p = NOT_READY /\ instant (p_mono p) + instant RETRY <= instant now) /\ q = p).
Proof.
  intros O (V1 & V2) C. unfold second_chance. destruct (p_state p) eqn:Es;
    try (exists p; split; [reflexivity|]; split; [split; [exact V1|rewrite Es; exact V2]|];
         split; [repeat split|]; split; [exact Es|]; split; [reflexivity|]; split; [reflexivity|];
         right; split; [intros [X _]; discriminate|reflexivity]).
  assert (Nm : normal (p_mono p)) by (apply clock_time_normal; exact V1).
  destruct (proj2 (add_defined (p_mono p) RETRY Nm retry_normal)) as [x Hx].
  { destruct V1 as (? & ? & ?). unfold representable, instant, s_unit, RETRY; cbn [sec nsec frac]. lia. }
  destruct (add_exact _ _ _ Nm retry_normal Hx) as [Nx Ix]. rewrite Hx. cbn [bind].
  assert (Bx : - 2^62 < sec x < 2^62).
  { destruct V1 as (? & ? & ?), Nx as (? & ? & ?). revert Ix. unfold instant, RETRY; cbn [sec nsec frac]. lia. }
  destruct (is_ge_defined now x (clock_time_normal _ C) Nx) as [b Hb]; [destruct C; lia|exact Bx|].
  pose proof (is_ge_spec _ _ _ (clock_time_normal _ C) Nx Hb) as G. rewrite Ix in G. rewrite Hb. cbn [bind].
  destruct (V2 (or_intror eq_refl)) as (l1 & l2 & L1 & L2 & L3).
  destruct b.
  - destruct (firstn6 order l O) as (tl & Ef & _ & _ & T3). destruct O as (N & _).
    pose proof (find_method_spec (firstn 6 order) 0) as FM. rewrite Ef in *.
    destruct (find_method (l ++ tl) 0) as [j|].
    2:{ exfalso. apply FM. apply in_or_app. left. rewrite L1. apply in_or_app. right. left. reflexivity. }
    destruct FM as (r1 & r2 & R1 & R2 & R3).
    assert (Er : r1 = l1).
    { rewrite L1 in R1. rewrite <- app_assoc in R1. cbn [app] in R1. rewrite L1 in N. apply NoDup_remove_2 in N.
      assert (N1 : ~ In MPPS l1) by (intros X; apply N; apply in_or_app; left; exact X). clear -R1 R2 N1.
      revert r1 R1 R2. induction l1 as [|a l1 IH]; intros [|b r1] R1 R2; cbn in R1.
      - reflexivity.
      - injection R1 as <- _. exfalso. apply R2. left. reflexivity.
      - injection R1 as -> _. exfalso. apply N1. left. reflexivity.
      - injection R1 as -> R1. f_equal. apply IH; [intros X; apply N1; right; exact X|exact R1|intros X; apply R2; right; exact X]. }
    subst r1. exists (set_meth (set_idx p j) MPPS). split; [reflexivity|]. split.
    { split; [exact V1|]. intros _. exists l1, l2. split; [exact L1|]. split; [exact L2|]. intros _. cbn. lia. }
    split; [repeat split|]. split; [exact Es|]. split; [reflexivity|]. split; [reflexivity|]. left.
    split; [reflexivity|]. split; [apply G; reflexivity|reflexivity].
  - exists p. split; [reflexivity|]. split; [split; [exact V1|rewrite Es; exact V2]|]. split; [repeat split|].
    split; [exact Es|]. split; [reflexivity|]. split; [reflexivity|]. right. split; [|reflexivity].
    intros [_ X]. apply G in X. discriminate.
Qed.

(** The PPS method. *)
Lemma same_event_spec a b : same_event a b = true <-> a = b.
Proof.
  destruct a, b. unfold same_event; cbn [fst snd]. rewrite andb_true_iff, !Z.eqb_eq. split; [intros [-> ->]; reflexivity|intros E; injection E; auto].
Qed.
Lemma no_event_spec a : no_event a = true <-> a = (0, 0).
Proof. apply (same_event_spec a (0, 0)). Qed.

Definition no_data (e : env) (p : phc) : phc :=
  match p_state p with INIT => set_state (set_mono p (e_mono e)) NOT_READY | _ => set_state p BAD end.

Lemma compare_pps_spec rd order l rec e p d : double_like rd -> is_order order l -> world_ok e -> inv l p -> p_meth p = MPPS ->
  (too_soon (e_mono e) (p_mono p) = true /\
   compare_pps rd order rec e p d = Some (if p_stepped p then EAGAIN else 0, p_diff p, p)) \/
  (too_soon (e_mono e) (p_mono p) = false /\
   ((exists er, e_fetch e = inl er /\ compare_pps rd order rec e p d = Some (er, d, p)) \/
    (e_fetch e = inr (0, 0) /\ p_prev p = (0, 0) /\ exists rc q, fallback order e (no_data e p) = Some (rc, q) /\
       same_rest p q /\ p_meth q <> MPPS /\ inv l q /\ p_state q = p_state (no_data e p) /\
       p_mono q = p_mono (no_data e p) /\ p_prev q = (0, 0) /\
       ((rc <> 0 /\ p_meth q = MMAX /\ compare_pps rd order rec e p d = Some (rc, d, q)) \/
        (rc = 0 /\ compare_pps rd order rec e p d = rec q d))) \/
    (e_fetch e = inr (p_prev p) /\ p_prev p <> (0, 0) /\
     compare_pps rd order rec e p d = Some (if p_stepped p then EAGAIN else 0, p_diff p, p)) \/
    (exists ev, e_fetch e = inr ev /\ ev <> p_prev p /\
      let q := set_state (set_mono p (e_mono e)) GOOD in
      ((exists er, er <> 0 /\ compare_pps rd order rec e p d = Some (er, d, q)) \/
       (exists g approx, (forall j, (j < 4)%nat -> e_read e j = inr (g j)) /\
         measured (map g (seq 0 4)) null_time 0 approx /\
         compare_pps rd order rec e p d = Some (0, pps_diff approx (snd ev),
           set_stepped (set_diff (set_prev (set_diff q approx) ev) (pps_diff approx (snd ev))) false)) \/
       (exists j a, (j < 4)%nat /\ e_read e j = inl 0 /\ compare_pps rd order rec e p d = Some (0, pps_diff a (snd ev),
           set_stepped (set_diff (set_prev q ev) (pps_diff a (snd ev))) false)))))).
Proof.
  intros D O W V M. pose proof W as (W1 & W2 & W3 & W4 & W5 & W6 & W7 & W8).
  unfold compare_pps. destruct (too_soon (e_mono e) (p_mono p)); [left; auto|right]. split; [reflexivity|].
  destruct (e_fetch e) as [er|ev]; [left; eauto|right].
  destruct (same_event ev (p_prev p)) eqn:Se.
  - apply same_event_spec in Se. subst ev. destruct (no_event (p_prev p)) eqn:Ne.
    + left. apply no_event_spec in Ne. split; [congruence|]. split; [exact Ne|].
      destruct V as (V1 & V2). destruct (V2 (or_introl M)) as (l1 & l2 & L1 & L2 & L3). specialize (L3 M).
      assert (In' : p_idx (no_data e p) = Z.of_nat (List.length l1)) by (unfold no_data; destruct (p_state p); exact L3).
      assert (Sr : same_rest p (no_data e p) /\ p_prev (no_data e p) = p_prev p /\ clock_time (p_mono (no_data e p)))
        by (unfold no_data; destruct (p_state p); repeat split; first [exact V1|apply V1|apply W2]).
      destruct (fallback_pps order l l1 l2 e (no_data e p) O W8 L1 L2 In') as (rc & q & F1 & F2 & F3 & F4 & F5 & F6 & F7).
      exists rc, q. split; [exact F1|]. destruct Sr as ((S1 & S2 & S3 & S4 & S5) & S6 & S7).
      destruct F2 as (G1 & G2 & G3 & G4 & G5).
      split; [repeat split; congruence|]. split; [exact F6|].
      split. { split; [rewrite F4; exact S7|]. intros [X|X]; [contradiction|]. exists l1, l2. split; [exact L1|]. split; [exact L2|]. intros Y. contradiction. }
      split; [exact F3|]. split; [exact F4|]. split; [congruence|].
      fold (no_data e p). rewrite F1. cbn [bind fst snd].
      destruct F7 as [(-> & F7)|(-> & F7 & _)].
      * right. split; [reflexivity|]. cbn [Z.eqb negb]. destruct (p_meth q); try reflexivity. contradiction.
      * left. split; [discriminate|]. split; [exact F7|reflexivity].
    + right; left. split; [reflexivity|]. split; [|reflexivity].
      intros X. apply no_event_spec in X. congruence.
  - right; right. exists ev. split; [reflexivity|]. split. { intros X. apply same_event_spec in X. congruence. }
    cbv zeta. destruct (read_time_spec rd (e_read e) SAMPLES (set_state (set_mono p (e_mono e)) GOOD) null_time D) as [(j & er & d' & A & B & _ & E)|(g & rc & d' & A & E & B)].
    + intros j x _. apply W4.
    + rewrite E. cbn [bind]. destruct (Z.eqb_spec er 0) as [->|Nz]; cbn [negb].
      * right; right. exists j, d'. split; [exact A|]. split; [exact B|reflexivity].
      * left. exists er. auto.
    + rewrite E. cbn [bind]. destruct (Z.eqb_spec rc 0) as [->|Nz]; cbn [negb].
      * right; left. exists g, d'. split; [exact A|]. split; [exact B|reflexivity].
      * left. exists rc. auto.
Qed.

Lemma inv_diff l p d : inv l p -> inv l (set_diff p d).
Proof. intros H; exact H. Qed.

Definition is_pps (m : method) : {m = MPPS} + {m <> MPPS}.
Proof. decide equality. Defined.

(** Definedness, by how much recursion is left. *)
Lemma direct rd order l es f p d : double_like rd -> is_order order l -> world_ok (es f) -> inv l p ->
  p_meth p <> MPPS -> p_state p <> NOT_READY ->
  exists rc d' q, compare rd order es (S f) p d = Some (rc, d', q) /\
    by_method rd (es f) p d = Some (rc, d', q) /\ (q = p \/ q = set_diff p d').
Proof.
  intros D O W V M Ns. destruct (by_method_defined rd (es f) p d D W) as (rc & d' & q & E & G).
  exists rc, d', q. rewrite compare_S. pose proof W as (W1 & _).
  destruct (second_chance_spec order l (e_now (es f)) p O V W1) as (p1 & S1 & _ & _ & _ & _ & _ & [(X & _)|(_ & ->)]); [contradiction|].
  rewrite S1. cbn [bind]. rewrite <- E. split; [destruct (p_meth p); try reflexivity; contradiction|]. auto.
Qed.

Lemma pps_level rd order l es f p d : double_like rd -> is_order order l -> world_ok (es f) -> inv l p -> p_meth p = MPPS ->
  (forall q, inv l q -> p_meth q <> MPPS -> p_state q = p_state (no_data (es f) p) ->
     exists rc d' q', compare rd order es f q d = Some (rc, d', q') /\ inv l q') ->
  exists rc d' q, compare_pps rd order (compare rd order es f) (es f) p d = Some (rc, d', q) /\ inv l q.
Proof.
  intros D O W V M H.
  assert (Vg : forall x y z, inv l (set_stepped (set_diff (set_prev (set_state (set_mono p (e_mono (es f))) GOOD) x) y) z)).
  { intros x y z. destruct V as (V1 & V2). split; [apply W|]. intros _. apply V2. left. exact M. }
  destruct (compare_pps_spec rd order l (compare rd order es f) (es f) p d D O W V M)
    as [(_ & E)|(_ & [(er & _ & E)|[(_ & _ & rc & q & _ & _ & Nm & Vq & Sq & _ & _ & [(_ & _ & E)|(_ & E)])|[(_ & _ & E)|(ev & _ & _ & H1)]]])].
  - rewrite E. eauto 8.
  - rewrite E. eauto 8.
  - rewrite E. eauto 8.
  - rewrite E. apply H; assumption.
  - rewrite E. eauto 8.
  - cbv zeta in H1. destruct H1 as [(er & _ & E)|[(g & a & _ & _ & E)|(j & a & _ & _ & E)]]; rewrite E.
    + eexists; eexists; eexists; split; [reflexivity|]. exact (Vg (p_prev p) (p_diff p) (p_stepped p)).
    + eexists; eexists; eexists; split; [reflexivity|]. apply Vg.
    + eexists; eexists; eexists; split; [reflexivity|]. apply Vg.
Qed.

(** Fuel two is enough unless PPS is in its initial state. *)
Lemma level2 rd order l es f p d : double_like rd -> is_order order l -> (forall n, world_ok (es n)) -> inv l p ->
  (p_meth p = MPPS -> p_state p <> INIT) ->
  exists rc d' q, compare rd order es (S (S f)) p d = Some (rc, d', q) /\ inv l q.
Proof.
  intros D O W V Hi. rewrite compare_S. pose proof (W (S f)) as (W1 & _).
  destruct (second_chance_spec order l (e_now (es (S f))) p O V W1) as (p1 & S1 & V1 & _ & St1 & _ & _ & C).
  rewrite S1. cbn [bind].
  destruct (is_pps (p_meth p1)) as [M|M].
  - rewrite M. apply (pps_level rd order l es (S f) p1 d D O (W (S f)) V1 M). intros q Vq Mq Sq.
    assert (Sb : p_state q <> NOT_READY).
    { rewrite Sq. unfold no_data. destruct (p_state p1) eqn:E1; cbn; try discriminate. exfalso.
      destruct C as [(X & _)|(_ & ->)]; [congruence|]. apply Hi; [exact M|]. congruence. }
    destruct (direct rd order l es f q d D O (W f) Vq Mq Sb) as (rc & d' & q' & E & _ & G). rewrite E.
    exists rc, d', q'. split; [reflexivity|]. destruct G as [->| ->]; [exact Vq|apply inv_diff; exact Vq].
  - destruct (by_method_defined rd (es (S f)) p1 d D (W (S f))) as (rc & d' & q & E & G).
    exists rc, d', q. split; [rewrite <- E; destruct (p_meth p1); try reflexivity; contradiction|].
    destruct G as [->| ->]; [exact V1|apply inv_diff; exact V1].
Qed.

Lemma level3 rd order l es f p d : double_like rd -> is_order order l -> (forall n, world_ok (es n)) -> inv l p ->
  exists rc d' q, compare rd order es (S (S (S f))) p d = Some (rc, d', q) /\ inv l q.
Proof.
  intros D O W V. rewrite compare_S. pose proof (W (S (S f))) as (W1 & _).
  destruct (second_chance_spec order l (e_now (es (S (S f)))) p O V W1) as (p1 & S1 & V1 & _ & St1 & _ & _ & C).
  rewrite S1. cbn [bind].
  destruct (is_pps (p_meth p1)) as [M|M].
  - rewrite M. apply (pps_level rd order l es (S (S f)) p1 d D O (W _) V1 M). intros q Vq Mq Sq.
    apply (level2 rd order l es f q d D O W Vq). intros X. contradiction.
  - destruct (by_method_defined rd (es (S (S f))) p1 d D (W _)) as (rc & d' & q & E & G).
    exists rc, d', q. split; [rewrite <- E; destruct (p_meth p1); try reflexivity; contradiction|].
    destruct G as [->| ->]; [exact V1|apply inv_diff; exact V1].
Qed.

Lemma inv_new l a b c : inv l (phc_new a b c).
Proof. split; [exact null_clock_time|]. cbn. intros [X|X]; discriminate. Qed.
Lemma inv_step l p : inv l p -> inv l (record_step p).
Proof. intros H; exact H. Qed.
Lemma inv_start order l e p : is_order order l -> names_fit (w_pps e) -> inv l p ->
  exists rc q, start order e p = Some (rc, q) /\ inv l q.
Proof.
  intros O F (V1 & V2). destruct (start_spec order l e p O F) as (rc & q & E & S1 & A & C).
  exists rc, q. split; [exact E|].
  assert (Vm : clock_time (p_mono q)).
  { destruct A as [(_ & X & _)|[(_ & X)|(_ & X & _)]]; rewrite X; try exact V1. exact null_clock_time. }
  split; [exact Vm|]. destruct C as [(_ & _ & l1 & l2 & L1 & L2 & L3)|(_ & Mq & _)].
  - intros [X|X].
    + exists l1, l2. rewrite X in L1. split; [exact L1|]. split; [exact L3|]. intros _. exact L2.
    + destruct A as [(Y & _ & _)|[(Y & _)|(Y & _ & _)]]; try congruence. rewrite X in Y. symmetry in Y.
      destruct (V2 (or_intror Y)) as (r1 & r2 & R1 & R2 & R3). exists r1, r2. split; [exact R1|]. split; [exact R2|].
      intros Mq. rewrite Mq in L1. destruct O as (N & _). rewrite R1 in N.
      destruct (nodup_split r1 r2 l1 l2 MPPS N) as (-> & _); [congruence|exact L2].
  - intros [X|X]; [congruence|]. destruct A as [(Y & _ & _)|[(Y & _)|(Y & _ & _)]]; try congruence.
    rewrite X in Y. symmetry in Y. destruct (V2 (or_intror Y)) as (r1 & r2 & R1 & R2 & R3). exists r1, r2.
    split; [exact R1|]. split; [exact R2|]. congruence.
Qed.
