(** Proofs about the choice of the comparison method and PPS (C73). *)
Require Import ZArith QArith List Bool String Lia.
From Verif Require Import Base TimeSpec TimeModel TimeProof FltSpec FltModel FltProof PhcSpec PhcModel PhcProof.
Import ListNotations.
Open Scope Z_scope.

(** PPS. *)
Lemma pps_exact approx ns k M : normal approx -> 0 <= ns < 1000000000 ->
  let D := k * s_unit - ns * ns_unit in
  2 * (Z.abs (D - M * s_unit) + Z.abs (instant approx - D)) < s_unit ->
  instant (pps_diff approx ns) = D.
Proof.
  intros (A & B & C) N D H. unfold pps_diff.
  assert (En : u32 (1000000000 - ns) = 1000000000 - ns) by (unfold u32; rewrite Z.mod_small; lia).
  rewrite En. unfold D, instant, s_unit, ns_unit in *. cbn [sec nsec frac].
  destruct (Z.leb_spec 500000000 (nsec approx)); destruct (Z.leb_spec 500000000 (1000000000 - ns)); lia.
Qed.

(** Configuration of the PPS input: the return code does not depend on the state. *)
Definition configure_rc (v : pps_env) (name : string) : option Z :=
  match v_open v, v_read v, v_list v with
  | Some e, _, _ => Some e
  | None, Some e, _ => Some e
  | None, None, inl e => Some e
  | None, None, inr l =>
      do r <- find_pps name l;
      match r with
      | None => Some ENOENT
      | Some dev => if v_dev v dev <? 0 then Some (- v_dev v dev) else
                    if negb (v_enable v =? 0) then Some (v_enable v) else Some 0
      end
  end.

Lemma find_pps_spec name l : (forall en t, In en l -> en_name en = Some (Some t) -> (String.length t < 16)%nat) ->
  exists r, find_pps name l = Some r /\
  match r with
  | Some dev => exists l1 en l2, l = l1 ++ en :: l2 /\ en_dev en = dev /\ en_name en = Some (Some name) /\
                  (forall x, In x l1 -> en_name x <> Some (Some name))
  | None => forall x, In x l -> en_name x <> Some (Some name)
  end.
Proof.
  induction l as [|en l IH]; intros F; cbn [find_pps].
  - exists None. split; [reflexivity|]. intros x [].
  - assert (F' : forall x t, In x l -> en_name x = Some (Some t) -> (String.length t < 16)%nat) by (intros x t Hx; apply F; right; exact Hx).
    destruct (IH F') as (r & E & R).
    assert (Skip : en_name en <> Some (Some name) -> exists r0, find_pps name l = Some r0 /\
       match r0 with
       | Some dev => exists l1 x l2, en :: l = l1 ++ x :: l2 /\ en_dev x = dev /\ en_name x = Some (Some name) /\
                  (forall y, In y l1 -> en_name y <> Some (Some name))
       | None => forall x, In x (en :: l) -> en_name x <> Some (Some name)
       end).
    { intros Ne. exists r. split; [exact E|]. destruct r as [dev|].
      - destruct R as (l1 & x & l2 & -> & A & B & C). exists (en :: l1), x, l2. split; [reflexivity|].
        split; [exact A|]. split; [exact B|]. intros y [<-|Hy]; auto.
      - intros x [<-|Hx]; auto. }
    destruct (en_name en) as [[t|]|] eqn:En; try (apply Skip; discriminate).
    assert (Lt : (String.length t < 16)%nat) by (apply (F en); [left; reflexivity|exact En]).
    unfold fits16. apply Nat.ltb_lt in Lt. rewrite Lt.
    destruct (String.eqb_spec t name) as [->|Ne].
    + exists (Some (en_dev en)). split; [reflexivity|]. exists [], en, l. repeat split; auto. all: try (intros y []).
    + apply Skip. congruence.
Qed.

Lemma configure_spec v name p : names_fit v ->
  exists rc q, configure_rc v name = Some rc /\ configure_pps v name p = Some (rc, q) /\
  p_meth q = p_meth p /\ p_idx q = p_idx p /\ p_diff q = p_diff p /\ p_stepped q = p_stepped p /\
  p_efx q = p_efx p /\ c_cross q = c_cross p /\ c_pps q = c_pps p /\
  ((p_state q = BAD /\ p_mono q = p_mono p) \/ (rc = 0 /\ p_state q = INIT /\ p_mono q = null_time /\ p_prev q = (0, 0))).
Proof.
  intros F. unfold configure_rc, configure_pps, names_fit in *.
  destruct (v_open v) as [e|]. { exists e. eexists. repeat split. left. split; reflexivity. }
  destruct (v_read v) as [e|]. { exists e. eexists. repeat split. left. split; reflexivity. }
  destruct (v_list v) as [e|l]. { exists e. eexists. repeat split. left. split; reflexivity. }
  destruct (find_pps_spec name l F) as (r & E & _). rewrite E. cbn [bind]. destruct r as [dev|].
  2:{ exists ENOENT. eexists. repeat split. left. split; reflexivity. }
  destruct (v_dev v dev <? 0). { eexists. eexists. repeat split. left. split; reflexivity. }
  destruct (negb (v_enable v =? 0)). { eexists. eexists. repeat split. left. split; reflexivity. }
  exists 0. eexists. repeat split. right. repeat split.
Qed.

(** Availability of a method as the search meets it. *)
Definition usable (e : env) (cross pps has_efx : bool) (m : method) : Prop :=
  match m with
  | PRECISE => cross = true
  | EXT => w_ext e = 0
  | MPPS => pps = true /\ configure_rc (w_pps e) (w_name e) = Some 0
  | SYS => w_sys e = EFAULT
  | READ => True
  | EFX => has_efx = true /\ w_efx e = 0
  | MMAX => False
  end.

Definition same_rest (p q : phc) : Prop :=
  p_diff q = p_diff p /\ p_stepped q = p_stepped p /\
  p_efx q = p_efx p /\ c_cross q = c_cross p /\ c_pps q = c_pps p.
Definition state_after (p q : phc) : Prop :=
  (p_state q = p_state p /\ p_mono q = p_mono p /\ p_prev q = p_prev p) \/
  (p_state q = BAD /\ p_mono q = p_mono p) \/
  (p_state q = INIT /\ p_mono q = null_time /\ p_meth q = MPPS /\ p_prev q = (0, 0)).

Lemma fallback_spec e : names_fit (w_pps e) -> forall rest i p,
  (In READ rest \/ In MMAX rest) ->
  exists rc q, fallback_loop e rest i p = Some (rc, q) /\ same_rest p q /\ state_after p q /\
  (~ In MPPS rest -> p_state q = p_state p /\ p_mono q = p_mono p /\ p_prev q = p_prev p) /\
  exists l1 l2, rest = l1 ++ p_meth q :: l2 /\ p_idx q = i + Z.of_nat (List.length l1) /\
    (forall y, In y l1 -> ~ usable e (c_cross p) (c_pps p) (p_efx p) y /\ y <> MMAX) /\
    ((rc = 0 /\ usable e (c_cross p) (c_pps p) (p_efx p) (p_meth q)) \/ (rc = EOPNOTSUPP /\ p_meth q = MMAX)).
Proof.
  intros F. induction rest as [|m r IH]; intros i p H; [destruct H as [[]|[]]|]. cbn [fallback_loop].
  set (p1 := set_idx p i).
  assert (Chosen : forall q0, same_rest p q0 -> p_idx q0 = i -> state_after p (set_meth q0 m) ->
     (m <> MPPS -> p_state q0 = p_state p /\ p_mono q0 = p_mono p /\ p_prev q0 = p_prev p) ->
     usable e (c_cross p) (c_pps p) (p_efx p) m ->
     exists rc q, Some (0, set_meth q0 m) = Some (rc, q) /\ same_rest p q /\ state_after p q /\
     (~ In MPPS (m :: r) -> p_state q = p_state p /\ p_mono q = p_mono p /\ p_prev q = p_prev p) /\
     exists l1 l2, m :: r = l1 ++ p_meth q :: l2 /\ p_idx q = i + Z.of_nat (List.length l1) /\
       (forall y, In y l1 -> ~ usable e (c_cross p) (c_pps p) (p_efx p) y /\ y <> MMAX) /\
       ((rc = 0 /\ usable e (c_cross p) (c_pps p) (p_efx p) (p_meth q)) \/ (rc = EOPNOTSUPP /\ p_meth q = MMAX))).
  { intros q0 S0 I0 A0 N0 U0. exists 0, (set_meth q0 m). split; [reflexivity|]. split; [exact S0|].
    split; [exact A0|]. split. { intros Ni. apply N0. intros ->. apply Ni. left. reflexivity. }
    exists [], r. split; [reflexivity|]. split; [cbn; rewrite I0; lia|]. split; [intros y []|]. left. split; [reflexivity|exact U0]. }
  assert (Next : forall q0, same_rest p q0 -> m <> MMAX -> m <> READ -> ~ usable e (c_cross p) (c_pps p) (p_efx p) m ->
     ((p_state q0 = p_state p /\ p_mono q0 = p_mono p /\ p_prev q0 = p_prev p) \/ (m = MPPS /\ p_state q0 = BAD /\ p_mono q0 = p_mono p)) ->
     exists rc q, fallback_loop e r (i + 1) q0 = Some (rc, q) /\ same_rest p q /\ state_after p q /\
     (~ In MPPS (m :: r) -> p_state q = p_state p /\ p_mono q = p_mono p /\ p_prev q = p_prev p) /\
     exists l1 l2, m :: r = l1 ++ p_meth q :: l2 /\ p_idx q = i + Z.of_nat (List.length l1) /\
       (forall y, In y l1 -> ~ usable e (c_cross p) (c_pps p) (p_efx p) y /\ y <> MMAX) /\
       ((rc = 0 /\ usable e (c_cross p) (c_pps p) (p_efx p) (p_meth q)) \/ (rc = EOPNOTSUPP /\ p_meth q = MMAX))).
  { intros q0 S0 NM NR NU A0.
    destruct (IH (i + 1) q0) as (rc & q & E & S1 & A1 & N1 & l1 & l2 & L1 & L2 & L3 & L4).
    { destruct H as [[H|H]|[H|H]]; [congruence|auto|congruence|auto]. }
    exists rc, q. split; [exact E|].
    destruct S0 as (S01 & S02 & S03 & S04 & S05). destruct S1 as (S11 & S12 & S13 & S14 & S15).
    rewrite S03, S04, S05 in L3, L4.
    split; [repeat split; congruence|]. split.
    { unfold state_after in *. destruct A0 as [(B1 & B2 & B3)|(B0 & B1 & B2)];
        destruct A1 as [(C1 & C2 & C3)|[(C1 & C2)|(C1 & C2 & C3)]].
      - left. repeat split; congruence.
      - right; left. split; congruence.
      - right; right. auto.
      - right; left. split; congruence.
      - right; left. split; congruence.
      - right; right. auto. }
    split. { intros Ni. destruct N1 as (C1 & C2 & C3); [intros Hi; apply Ni; right; exact Hi|].
      destruct A0 as [(B1 & B2 & B3)|(B0 & _)]; [repeat split; congruence|]. exfalso. apply Ni. left. exact B0. }
    exists (m :: l1), l2. split; [rewrite L1; reflexivity|]. split; [cbn [List.length]; rewrite L2; lia|].
    split; [intros y [<-|Hy]; [split; assumption|apply L3; exact Hy]|exact L4]. }
  assert (Sp : same_rest p p1) by (repeat split).
  assert (Ap : forall x, state_after p (set_meth p1 x)) by (intros x; left; repeat split).
  assert (Pp : p_state p1 = p_state p /\ p_mono p1 = p_mono p /\ p_prev p1 = p_prev p) by (repeat split).
  assert (Tp : (p_state p1 = p_state p /\ p_mono p1 = p_mono p /\ p_prev p1 = p_prev p) \/ (m = MPPS /\ p_state p1 = BAD /\ p_mono p1 = p_mono p)) by (left; repeat split).
  destruct m.
  - change (c_cross p1) with (c_cross p). destruct (c_cross p) eqn:Ec.
    + apply Chosen; auto. reflexivity.
    + apply Next; auto; cbn; congruence.
  - change (p_efx p1) with (p_efx p). destruct (p_efx p && (w_efx e =? 0)) eqn:Ec.
    + apply andb_prop in Ec as [E1 E2]. apply Z.eqb_eq in E2. apply Chosen; auto. cbn. auto.
    + apply Next; auto; cbn; try congruence. intros [E1 E2]. rewrite E1, E2 in Ec. discriminate.
  - change (c_pps p1) with (c_pps p). destruct (c_pps p) eqn:Ec.
    + destruct (configure_spec (w_pps e) (w_name e) p1 F) as (rc & q & G1 & G2 & G3 & G4 & G5 & G6 & G7 & G8 & G9 & G10).
      rewrite G2. cbn [bind fst snd].
      assert (Sq : same_rest p q) by (unfold same_rest; rewrite G5, G6, G7, G8, G9; repeat split; exact Ec).
      destruct (Z.eqb_spec rc 0) as [->|Nz].
      * apply Chosen; auto; try (rewrite G4; reflexivity); try congruence.
        { destruct G10 as [(X & Y)|(_ & X & Y & Y2)]; [right; left; split; assumption|right; right; repeat split; assumption]. }
        cbn. auto.
      * apply Next; auto; try congruence. { cbn. intros [_ Y]. congruence. }
        right. destruct G10 as [(X & Y)|(X & _)]; [|contradiction]. split; [reflexivity|]. split; assumption.
    + apply Next; auto; cbn; try congruence. intros [X _]. congruence.
  - destruct (Z.eqb_spec (w_ext e) 0) as [Ee|Ee].
    + apply Chosen; auto.
    + apply Next; auto; cbn; congruence.
  - destruct (Z.eqb_spec (w_sys e) EFAULT) as [Ee|Ee].
    + apply Chosen; auto.
    + apply Next; auto; cbn; congruence.
  - apply Chosen; auto. exact Logic.I.
  - exists EOPNOTSUPP, (set_meth p1 MMAX). split; [reflexivity|]. split; [exact Sp|]. split; [apply Ap|].
    split; [intros _; repeat split|]. exists [], r. split; [reflexivity|]. split; [cbn; lia|].
    split; [intros y []|]. right. split; reflexivity.
Qed.

(** Lists of methods. *)
Lemma full_has_read l : NoDup l -> ~ In MMAX l -> (List.length l >= 6)%nat -> In READ l.
Proof.
  intros N M L. assert (D : forall a b : method, {a = b} + {a <> b}) by decide equality.
  destruct (in_dec D READ l) as [H|H]; [exact H|]. exfalso.
  pose proof (NoDup_incl_length N (l' := [PRECISE; EFX; MPPS; EXT; SYS])) as P. cbn [List.length] in P.
  assert (incl l [PRECISE; EFX; MPPS; EXT; SYS]).
  { intros x Hx. destruct x; cbn; auto 10; contradiction. }
  specialize (P H0). lia.
Qed.
Lemma short l : NoDup l -> ~ In MMAX l -> (List.length l <= 6)%nat.
Proof.
  intros N M. pose proof (NoDup_incl_length N (l' := [PRECISE; EFX; MPPS; EXT; SYS; READ])) as P. cbn [List.length] in P.
  apply P. intros x Hx. destruct x; cbn; auto 10; contradiction.
Qed.

Lemma firstn6 order l : is_order order l ->
  exists tl, firstn 6 order = l ++ tl /\ (tl = [] -> List.length l = 6%nat) /\
    (tl <> [] -> exists t, tl = MMAX :: t) /\ ~ In MPPS tl.
Proof.
  intros (N & M & tail & -> & P & L). pose proof (short l N M) as Sh. rewrite firstn_app.
  rewrite (firstn_all2 l) by lia. exists (firstn (6 - List.length l) (MMAX :: tail)).
  split; [reflexivity|]. destruct (6 - List.length l)%nat as [|k] eqn:E; cbn [firstn].
  - split; [intros _; lia|]. split; [congruence|]. intros [].
  - split; [discriminate|]. split; [intros _; eauto|]. intros [H|H]; [discriminate|].
    apply P. rewrite <- (firstn_skipn k tail). apply in_or_app. left. exact H.
Qed.

Lemma find_method_spec r i : match find_method r i with
  | Some j => exists l1 l2, r = l1 ++ MPPS :: l2 /\ ~ In MPPS l1 /\ j = i + Z.of_nat (List.length l1)
  | None => ~ In MPPS r
  end.
Proof.
  revert i. induction r as [|m r IH]; intros i; cbn [find_method]; [intros []|].
  assert (G : m <> MPPS -> match find_method r (i + 1) with
     | Some j => exists l1 l2, m :: r = l1 ++ MPPS :: l2 /\ ~ In MPPS l1 /\ j = i + Z.of_nat (List.length l1)
     | None => ~ In MPPS (m :: r) end).
  { intros Nm. specialize (IH (i + 1)). destruct (find_method r (i + 1)) as [j|].
    - destruct IH as (l1 & l2 & -> & A & B). exists (m :: l1), l2. split; [reflexivity|].
      split; [intros [H|H]; auto|]. cbn [List.length]. lia.
    - intros [H|H]; auto. }
  destruct m; try (apply G; discriminate).
  exists [], r. split; [reflexivity|]. split; [intros []|]. cbn. lia.
Qed.

(** The choice at the start. *)
Lemma start_spec order l e p : is_order order l -> names_fit (w_pps e) ->
  exists rc q, start order e p = Some (rc, q) /\ same_rest p q /\ state_after p q /\
  ((rc = 0 /\ first_of (usable e (c_cross p) (c_pps p) (p_efx p)) l (p_meth q) /\
    exists l1 l2, l = l1 ++ p_meth q :: l2 /\ p_idx q = Z.of_nat (List.length l1) /\ ~ In READ l1) \/
   (rc = EOPNOTSUPP /\ p_meth q = MMAX /\ forall m, In m l -> ~ usable e (c_cross p) (c_pps p) (p_efx p) m)).
Proof.
  intros O F. destruct (firstn6 order l O) as (tl & E & T1 & T2 & T3). unfold start, fallback.
  change (p_idx (set_idx p (-1)) + 1) with 0. change (Z.to_nat 0) with 0%nat. cbn [skipn]. rewrite E.
  destruct O as (N & M & _).
  assert (H : In READ (l ++ tl) \/ In MMAX (l ++ tl)).
  { destruct tl as [|t tl]; [left; rewrite app_nil_r; apply full_has_read; auto; rewrite T1 by reflexivity; lia|].
    right. destruct T2 as (t' & Et); [discriminate|]. rewrite Et. apply in_or_app. right. left. reflexivity. }
  destruct (fallback_spec e F (l ++ tl) 0 (set_idx p (-1)) H) as (rc & q & G1 & G2 & G3 & _ & l1 & l2 & L1 & L2 & L3 & L4).
  exists rc, q. split; [exact G1|]. split; [exact G2|]. split; [exact G3|].
  change (c_cross (set_idx p (-1))) with (c_cross p) in *. change (c_pps (set_idx p (-1))) with (c_pps p) in *.
  change (p_efx (set_idx p (-1))) with (p_efx p) in *.
  destruct (app_eq_app _ _ _ _ L1) as (u & [(U1 & U2)|(U1 & U2)]).
  - (* the method found is in l *)
    destruct u as [|x u].
    + cbn in U2. rewrite app_nil_r in U1. subst l1.
      destruct tl as [|t tl]; [discriminate|]. destruct T2 as (t' & Et); [discriminate|]. injection Et as -> ->.
      injection U2 as Hm _. right. destruct L4 as [(_ & B)|(A & B)]; [rewrite Hm in B; destruct B|].
      split; [exact A|]. split; [exact B|]. intros m Hm'. apply L3. exact Hm'.
    + injection U2 as Hx Hu. rewrite <- Hx in U1. left. destruct L4 as [(A & B)|(_ & B)].
      2:{ exfalso. apply M. rewrite U1, B. apply in_or_app. right. left. reflexivity. }
      split; [exact A|]. split.
      * exists l1, u. split; [exact U1|]. split; [exact B|]. intros y Hy. apply L3. exact Hy.
      * exists l1, u. split; [exact U1|]. split; [exact L2|]. intros Hr. destruct (L3 _ Hr) as [X _]. apply X. exact Logic.I.
  - destruct tl as [|t tl]. { destruct u; discriminate. }
    destruct T2 as (t' & Et); [discriminate|]. injection Et as -> ->.
    destruct u as [|x u].
    + injection U2 as Hm _. right. rewrite app_nil_r in U1. destruct L4 as [(_ & B)|(A & B)]; [rewrite <- Hm in B; destruct B|].
      split; [exact A|]. split; [exact B|]. intros m Hm'. apply L3. rewrite U1. exact Hm'.
    + injection U2 as Hm _. exfalso. subst x. destruct (L3 MMAX) as [_ X]; [rewrite U1; apply in_or_app; right; left; reflexivity|].
      apply X. reflexivity.
Qed.
