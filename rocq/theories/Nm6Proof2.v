(** Proofs about the mode 6 client: every message cut up into fragments is put together (C66). *)
Require Import ZArith List Bool String QArith Lia Sorting.Sorted.
Require Import Verif.Base Verif.ListLib Verif.CevSpec Verif.Nm6Spec Verif.Nm6Model Verif.Nm6Proof.
Import ListNotations.
Open Scope Z_scope.

Lemma not_answers : forall seq op s p, u16p seq -> Forall byte p -> (List.length p <= 516)%nat -> ~ answers seq op p -> on_packet seq op s p = Some (Go s).
Proof.
  intros seq op s p SQ FB LP N. unfold on_packet. cbv zeta. rewrite (firstn_all2 (n := PKT_SIZE) p) by exact LP.
  destruct (validate seq op p) eqn:V; [|reflexivity]. exfalso. apply N. apply validate_answers; assumption.
Qed.

(** What a fragment's packet comes to. *)
Definition accept (s : rst) (f : frag) : option verdict :=
  if (len (f_data f) =? 0) && f_more f then Some (Go s) else
  if BUFFER_SIZE <? f_off f + len (f_data f) then Some (Ret ENOSPC (r_buf s)) else
  if r_last s && negb (f_more f) then Some (Go s) else
  if (MAXFRAGS - 1 <? List.length (r_frags s))%nat then Some (Ret EFBIG (r_buf s)) else
  let (before, after) := place (f_off f) (r_frags s) in
  if match after with (o, _) :: _ => f_off f =? o | [] => false end then Some (Go s) else
  if over_before before (f_off f) then Some (Go s) else
  if match after with (o, _) :: _ => o <? f_off f + len (f_data f) | [] => false end then Some (Go s) else
  let frags := before ++ desc f :: after in
  let last := r_last s || negb (f_more f) in
  let buf := splice (r_buf s) (f_off f) (f_data f) in
  if last && (match frags with (o, _) :: _ => o =? 0 | [] => false end) && no_gap frags
  then Some (Done (total frags) buf)
  else Some (Go (mkR frags last buf)).

Lemma carries_accept : forall seq op s p f, 0 <= op < 32 -> carries seq op p f -> on_packet seq op s p = accept s f.
Proof.
  intros seq op s p f OP (li & v & st & asn & pad & L1 & L2 & L3 & L4 & L5 & B1 & B2 & M4 & LP & EP).
  unfold on_packet. cbv zeta. rewrite (firstn_all2 (n := PKT_SIZE) p) by exact LP. rewrite EP in *. clear EP.
  set (bits := if f_more f then 5 else 4) in *. assert (BI : 4 <= bits <= 5) by (unfold bits; destruct (f_more f); lia).
  rewrite validate_packet by lia. cbn [negb].
  pose proof (packet_fields li v bits op seq st asn (f_off f) (len (f_data f)) (f_data f ++ pad)) as PF. cbv zeta in PF.
  destruct PF as (F0 & F1 & F2 & F4 & F8 & F10 & FS & FL). rewrite F1, F8, F10, FS, FL.
  assert (B : byte (32 * bits + op)) by (unfold byte; lia). destruct (bit_spec _ B) as (_ & E2 & E3). rewrite E2, !E3.
  replace ((32 * bits + op) / 32) with bits by (apply Z.div_unique with op; lia).
  replace ((bits / 2) mod 2 =? 1) with false by (unfold bits; destruct (f_more f); reflexivity).
  replace (bits mod 2 =? 1) with (f_more f) by (unfold bits; destruct (f_more f); reflexivity).
  assert (M4' : (12 + len (f_data f ++ pad)) mod 4 = 0).
  { rewrite <- FL. clear - M4. revert M4. generalize (packet li v bits op seq st asn (f_off f) (len (f_data f)) (f_data f ++ pad)) as q. intros q M4.
    unfold len. change 4 with (Z.of_nat 4). rewrite <- Nat2Z.inj_mod, M4. reflexivity. }
  pose proof (len_nonneg _ (f_data f)). pose proof (len_nonneg _ pad).
  rewrite land3 by (rewrite len_app; lia). rewrite M4'. cbn [Z.eqb negb].
  assert (RU : (12 + len (f_data f ++ pad) <? Z.land (HEADER + len (f_data f) + 3) (Z.lnot 3)) = false).
  { apply Z.ltb_ge. unfold HEADER. change (Z.lnot 3) with (Z.lnot (Z.ones 2)). rewrite <- Z.ldiff_land, Z.ldiff_ones_r by lia.
    rewrite Z.shiftl_mul_pow2, Z.shiftr_div_pow2 by lia. change (2 ^ 2) with 4. rewrite len_app in *.
    pose proof (Z.div_mod (12 + len (f_data f) + 3) 4 ltac:(lia)). pose proof (Z.mod_pos_bound (12 + len (f_data f) + 3) 4 ltac:(lia)).
    pose proof (Z.div_mod (12 + (len (f_data f) + len pad)) 4 ltac:(lia)). lia. }
  rewrite RU. replace (12 + len (f_data f ++ pad) - HEADER <? len (f_data f)) with false
    by (symmetry; apply Z.ltb_ge; rewrite len_app; unfold HEADER; lia).
  replace (firstn (Z.to_nat (len (f_data f))) (f_data f ++ pad)) with (f_data f).
  2:{ unfold len. rewrite Nat2Z.id, firstn_app, Nat.sub_diag, firstn_all. cbn [firstn]. rewrite app_nil_r. reflexivity. }
  reflexivity.
Qed.

(** ** A message cut up *)
Lemma chain_bounds : forall fs o m f, chain o fs m -> In f fs -> o <= f_off f /\ f_off f + len (f_data f) <= o + len m.
Proof.
  induction fs as [|g fs IH]; intros o m f C I; [destruct I|]. destruct C as (<- & m' & -> & C). rewrite len_app.
  pose proof (len_nonneg _ (f_data g)). pose proof (len_nonneg _ m'). destruct I as [->|I]; [lia|]. destruct (IH _ _ _ C I). lia.
Qed.
Definition full (f : frag) : Prop := f_more f = true /\ f_data f <> [].
Lemma full_pos : forall f, full f -> 0 < len (f_data f).
Proof. intros f [_ N]. unfold len. destruct (f_data f); [congruence|cbn [List.length]; lia]. Qed.
Lemma chain_sorted : forall init z o m, chain o (init ++ [z]) m -> Forall full init -> StronglySorted before (init ++ [z]).
Proof.
  induction init as [|g init IH]; intros z o m C F; cbn [app] in *.
  - repeat constructor.
  - destruct C as (<- & m' & -> & C). inversion F as [|? ? Fg Fr]; subst. constructor; [eapply IH; eauto|].
    apply Forall_forall. intros f I. destruct (chain_bounds _ _ _ f C I). pose proof (full_pos g Fg). split; lia.
Qed.

Section Message.
  Variables (seq op : Z) (m : list Z) (init : list frag) (z : frag).
  Let fs := init ++ [z].
  Hypothesis OP : 0 <= op < 32.
  Hypothesis CH : chain 0 fs m.
  Hypothesis LAST : f_more z = false.
  Hypothesis FULL : Forall full init.
  Hypothesis FEW : (List.length fs <= 32)%nat.
  Hypothesis SMALL : len m <= 4096.

  Definition st_of (P : Z -> bool) (s : rst) : Prop :=
    r_frags s = map desc (filter (fun f => P (f_off f)) fs) /\ r_last s = P (f_off z) /\ List.length (r_buf s) = 4096%nat /\
    forall f, In f fs -> P (f_off f) = true -> held (r_buf s) f.

  Lemma sorted_fs : StronglySorted before fs.
  Proof. eapply chain_sorted; [exact CH|exact FULL]. Qed.

  Lemma all_held : forall b, (forall f, In f fs -> held b f) -> slice b 0 (len m) = m.
  Proof.
    intros b H. assert (G : forall l o k, chain o l k -> 0 <= o -> (forall f, In f l -> held b f) -> slice b o (len k) = k).
    { induction l as [|g l IH]; intros o k C O HH.
      - cbn in C. subst k. reflexivity.
      - destruct C as (<- & k' & -> & C). rewrite len_app, slice_app by (try apply len_nonneg; lia).
        pose proof (HH g (or_introl eq_refl)) as Hg. unfold held in Hg. rewrite Hg. f_equal.
        apply IH; [exact C|pose proof (len_nonneg _ (f_data g)); lia|intros; apply HH; right; assumption]. }
    apply (G fs 0 m CH); [lia|exact H].
  Qed.

  Lemma no_gap_fs : no_gap (map desc fs) = true /\ (match map desc fs with (o, _) :: _ => o =? 0 | [] => false end) = true /\ total (map desc fs) = len m.
  Proof.
    assert (G : forall l o k, l <> [] -> chain o l k -> no_gap (map desc l) = true /\ (match map desc l with (x, _) :: _ => x =? o | [] => false end) = true
       /\ total (map desc l) = o + len k).
    { induction l as [|g l IH]; intros o k NE C; [congruence|]. destruct C as (<- & k' & -> & C). destruct l as [|h l].
      - cbn in C. subst k'. rewrite app_nil_r. repeat split. cbn [map]. change (desc g) with (f_off g, len (f_data g)). cbn iota. apply Z.eqb_refl.
      - destruct (IH _ _ ltac:(discriminate) C) as (N & H & T). rewrite len_app. split; [|split].
        + cbn [map no_gap] in *. change (desc g) with (f_off g, len (f_data g)). change (desc h) with (f_off h, len (f_data h)) in *. cbn iota in *.
          rewrite N. apply Z.eqb_eq in H. rewrite H, Z.eqb_refl. reflexivity.
        + cbn [map]. change (desc g) with (f_off g, len (f_data g)). cbn iota. apply Z.eqb_refl.
        + change (map desc (g :: h :: l)) with (desc g :: map desc (h :: l)). rewrite total_cons by discriminate. rewrite T. lia. }
    destruct (G fs 0 m) as (A & B & C); [unfold fs; intros X; apply app_eq_nil in X; destruct X; discriminate|exact CH|]. auto.
  Qed.

  (** Fragments without a gap from the beginning that include the last are all of them. *)
  Lemma complete_all : forall P : frag -> bool, P z = true ->
    (match map desc (filter P fs) with (x, _) :: _ => x =? 0 | [] => false end) = true -> no_gap (map desc (filter P fs)) = true -> filter P fs = fs.
  Proof.
    intros P PZ. assert (G : forall l o k, chain o (l ++ [z]) k -> Forall full l ->
      (match map desc (filter P (l ++ [z])) with (x, _) :: _ => x =? o | [] => false end) = true -> no_gap (map desc (filter P (l ++ [z]))) = true ->
      filter P (l ++ [z]) = l ++ [z]).
    { induction l as [|g l IH]; intros o k C F H N; cbn [app] in *.
      - cbn [filter] in *. rewrite PZ. reflexivity.
      - destruct C as (<- & k' & -> & C). inversion F as [|? ? Fg Fr]; subst. pose proof (full_pos g Fg) as PG.
        cbn [filter] in *. destruct (P g) eqn:PGT.
        + f_equal. assert (NE : filter P (l ++ [z]) <> []).
          { intros X. assert (In z (filter P (l ++ [z]))) by (apply filter_In; split; [apply in_or_app; right; left; reflexivity|exact PZ]). rewrite X in H0. destruct H0. }
          destruct (filter P (l ++ [z])) as [|h r] eqn:FE; [congruence|].
          cbn [map no_gap] in N. change (desc g) with (f_off g, len (f_data g)) in N. change (desc h) with (f_off h, len (f_data h)) in N. cbn iota in N.
          apply andb_prop in N. destruct N as [N1 N2].
          apply (IH (f_off g + len (f_data g)) k' C Fr); [|exact N2].
          cbn [map]. change (desc h) with (f_off h, len (f_data h)). cbn iota. rewrite Z.eqb_sym. exact N1.
        + exfalso. destruct (filter P (l ++ [z])) as [|h r] eqn:FE; [discriminate|].
          assert (I : In h (l ++ [z])) by (apply (proj1 (filter_In P h (l ++ [z]))); rewrite FE; left; reflexivity).
          destruct (chain_bounds _ _ _ h C I). cbn [map] in H. change (desc h) with (f_off h, len (f_data h)) in H. cbn iota in H. apply Z.eqb_eq in H. lia. }
    intros H N. apply (G init 0 m CH FULL H N).
  Qed.

  Lemma filter_eq : forall (P Q : frag -> bool) l, (forall f, In f l -> P f = Q f) -> filter P l = filter Q l.
  Proof.
    induction l as [|f l IH]; intros H; [reflexivity|]. cbn [filter]. rewrite (H f (or_introl eq_refl)), IH; [reflexivity|].
    intros; apply H; right; assumption.
  Qed.
  Lemma filter_id : forall (P : frag -> bool) l, filter P l = l -> forall f, In f l -> P f = true.
  Proof.
    induction l as [|g l IH]; intros H f I; [destruct I|]. cbn [filter] in H. destruct (P g) eqn:E.
    - injection H as H. destruct I as [<-|I]; [exact E|apply IH; assumption].
    - exfalso. pose proof (f_equal (@List.length frag) H) as L. cbn [List.length] in L.
      assert (K : (List.length (filter P l) <= List.length l)%nat) by (clear; induction l as [|x l IH]; [apply le_n|]; cbn [filter]; destruct (P x); cbn [List.length]; lia). lia.
  Qed.
  Lemma filter_lt : forall (P : frag -> bool) l f, In f l -> P f = false -> (List.length (filter P l) < List.length l)%nat.
  Proof.
    induction l as [|g l IH]; intros f I N; [destruct I|].
    assert (K : forall l', (List.length (filter P l') <= List.length l')%nat) by (clear; induction l' as [|x l IH]; [apply le_n|]; cbn [filter]; destruct (P x); cbn [List.length]; lia).
    cbn [filter]. destruct I as [->|I].
    - rewrite N. cbn [List.length]. specialize (K l). lia.
    - specialize (IH f I N). destruct (P g); cbn [List.length]; lia.
  Qed.

  Definition covered (P : Z -> bool) : Prop := forall f, In f fs -> P (f_off f) = true.

  (** One fragment's packet: the set of the offsets seen grows by it, and when it is complete the
      message is there. *)
  Lemma accept_step : forall P s f, st_of P s -> ~ covered P -> In f fs ->
    exists v, accept s f = Some v /\
      match v with
      | Go s' => ~ covered (fun o => P o || (o =? f_off f)) /\ st_of (fun o => P o || (o =? f_off f)) s'
      | Done n b => covered (fun o => P o || (o =? f_off f)) /\ n = len m /\ firstn (Z.to_nat n) b = m
      | Ret _ _ => False
      end.
  Proof.
    intros P s f (SF & SL & LB & HE) NC IN.
    pose proof sorted_fs as SO. pose proof (chain_bounds _ _ _ f CH IN) as [O0 O1]. rewrite Z.add_0_l in O1.
    set (P' := fun o => P o || (o =? f_off f)).
    assert (FM : f_more f = false -> f = z).
    { intros X. unfold fs in IN. apply in_app_or in IN. destruct IN as [IN|[<-|[]]]; [|reflexivity].
      rewrite Forall_forall in FULL. destruct (FULL f IN). congruence. }
    assert (FD : (len (f_data f) =? 0) && f_more f = false).
    { destruct (f_more f) eqn:M; [|apply andb_false_r]. rewrite andb_true_r. apply Z.eqb_neq. intros X.
      unfold fs in IN. apply in_app_or in IN. destruct IN as [IN|[<-|[]]]; [|congruence].
      rewrite Forall_forall in FULL. pose proof (full_pos f (FULL f IN)). lia. }
    destruct (in_split f fs IN) as (l1 & l2 & SP).
    rewrite SP in SO. destruct (sorted_split l1 (f :: l2) SO) as (_ & S2 & C12). apply StronglySorted_inv in S2. destruct S2 as [_ F2]. rewrite Forall_forall in F2.
    assert (PL : place (f_off f) (map desc (filter (fun g => P (f_off g)) fs)) =
      (map desc (filter (fun g => P (f_off g)) l1), map desc (filter (fun g => P (f_off g)) (f :: l2)))).
    { rewrite SP, filter_app, map_app.
      assert (A : forall x, In x (filter (fun g => P (f_off g)) l1) -> f_off x < f_off f).
      { intros x X. apply filter_In in X. destruct X as [X _]. apply (C12 x f X). left. reflexivity. }
      assert (B : forall x, In x (filter (fun g => P (f_off g)) (f :: l2)) -> f_off f <= f_off x).
      { intros x X. apply filter_In in X. destruct X as [[<-|X] _]; [lia|]. destruct (F2 x X). lia. }
      revert A B. generalize (filter (fun g => P (f_off g)) l1) as u, (filter (fun g => P (f_off g)) (f :: l2)) as w. clear.
      induction u as [|x u IH]; intros w A B; cbn [map app place].
      - destruct w as [|y w]; [reflexivity|]. cbn [map place]. change (desc y) with (f_off y, len (f_data y)). cbn iota.
        replace (f_off y <? f_off f) with false by (symmetry; apply Z.ltb_ge, B; left; reflexivity). reflexivity.
      - change (desc x) with (f_off x, len (f_data x)). cbn iota.
        replace (f_off x <? f_off f) with true by (symmetry; apply Z.ltb_lt, A; left; reflexivity).
        rewrite IH; [reflexivity| |exact B]. intros y Y. apply A. right. exact Y. }
    assert (FEW' : (MAXFRAGS - 1 <? List.length (r_frags s))%nat = false).
    { apply Nat.ltb_ge. rewrite SF, map_length. unfold MAXFRAGS.
      destruct (List.length (filter (fun g => P (f_off g)) fs) <? List.length fs)%nat eqn:E; [apply Nat.ltb_lt in E; lia|].
      exfalso. apply NC. intros g G. destruct (P (f_off g)) eqn:PG; [reflexivity|].
      pose proof (filter_lt (fun g => P (f_off g)) fs g G PG). apply Nat.ltb_ge in E. lia. }
    unfold accept. rewrite FD. replace (BUFFER_SIZE <? f_off f + len (f_data f)) with false by (symmetry; apply Z.ltb_ge; unfold BUFFER_SIZE; lia).
    rewrite FEW', SF, PL.
    assert (SAME : P (f_off f) = true -> ~ covered P' /\ st_of P' s).
    { intros PF. assert (EQ : forall o, P' o = P o).
      { intros o. unfold P'. destruct (o =? f_off f) eqn:E; [apply Z.eqb_eq in E; subst o; rewrite PF; reflexivity|apply orb_false_r]. }
      split; [intros C; apply NC; intros g G; rewrite <- EQ; apply C, G|].
      split; [rewrite SF; f_equal; apply filter_eq; intros; symmetry; apply EQ|]. split; [rewrite EQ; exact SL|]. split; [exact LB|].
      intros g G PG. apply HE; [exact G|rewrite <- EQ; exact PG]. }
    destruct (P (f_off f)) eqn:PF.
    - (* seen before *)
      cbn [filter]. rewrite PF. cbn [map]. change (desc f) with (f_off f, len (f_data f)). cbn iota. rewrite Z.eqb_refl.
      destruct (r_last s && negb (f_more f)); eexists; (split; [reflexivity|]); apply SAME; reflexivity.
    - replace (r_last s && negb (f_more f)) with false.
      2:{ symmetry. destruct (f_more f) eqn:M; [apply andb_false_r|]. rewrite SL, <- (FM eq_refl), PF. reflexivity. }
      cbn [filter]. rewrite PF.
      assert (C1 : (match map desc (filter (fun g => P (f_off g)) l2) with (o, _) :: _ => f_off f =? o | [] => false end) = false).
      { destruct (filter (fun g => P (f_off g)) l2) as [|y r] eqn:E; [reflexivity|]. cbn [map]. change (desc y) with (f_off y, len (f_data y)). cbn iota.
        apply Z.eqb_neq. assert (I : In y l2) by (apply (proj1 (filter_In (fun g => P (f_off g)) y l2)); rewrite E; left; reflexivity). destruct (F2 y I). lia. }
      assert (C3 : (match map desc (filter (fun g => P (f_off g)) l2) with (o, _) :: _ => o <? f_off f + len (f_data f) | [] => false end) = false).
      { destruct (filter (fun g => P (f_off g)) l2) as [|y r] eqn:E; [reflexivity|]. cbn [map]. change (desc y) with (f_off y, len (f_data y)). cbn iota.
        apply Z.ltb_ge. assert (I : In y l2) by (apply (proj1 (filter_In (fun g => P (f_off g)) y l2)); rewrite E; left; reflexivity). destruct (F2 y I). lia. }
      assert (C2 : over_before (map desc (filter (fun g => P (f_off g)) l1)) (f_off f) = false).
      { unfold over_before. destruct (rev (map desc (filter (fun g => P (f_off g)) l1))) as [|[o c] r] eqn:E; [reflexivity|].
        apply Z.ltb_ge. assert (I : In (o, c) (map desc (filter (fun g => P (f_off g)) l1))) by (apply in_rev; rewrite E; left; reflexivity).
        apply in_map_iff in I. destruct I as (y & Y & I). injection Y as <- <-. apply filter_In in I. destruct I as [I _].
        destruct (C12 y f I (or_introl eq_refl)). lia. }
      rewrite C1, C2, C3.
      assert (FL : map desc (filter (fun g => P (f_off g)) l1) ++ desc f :: map desc (filter (fun g => P (f_off g)) l2) = map desc (filter (fun g => P' (f_off g)) fs)).
      { rewrite SP, filter_app. cbn [filter]. replace (P' (f_off f)) with true by (unfold P'; rewrite Z.eqb_refl, orb_true_r; reflexivity).
        rewrite map_app. cbn [map]. f_equal; [|f_equal]; f_equal; apply filter_eq; intros g G; unfold P'.
        - destruct (C12 g f G (or_introl eq_refl)). replace (f_off g =? f_off f) with false by (symmetry; apply Z.eqb_neq; lia). symmetry. apply orb_false_r.
        - destruct (F2 g G). replace (f_off g =? f_off f) with false by (symmetry; apply Z.eqb_neq; lia). symmetry. apply orb_false_r. }
      cbv zeta. rewrite FL.
      assert (LBZ : len (r_buf s) = 4096) by (unfold len; rewrite LB; reflexivity).
      assert (OFFS : forall g, In g fs -> f_off g = f_off f -> g = f).
      { intros g G X. rewrite SP in G. apply in_app_or in G. destruct G as [G|[<-|G]]; [|reflexivity|].
        - destruct (C12 g f G (or_introl eq_refl)). lia.
        - destruct (F2 g G). lia. }
      assert (HE' : forall g, In g fs -> P' (f_off g) = true -> held (splice (r_buf s) (f_off f) (f_data f)) g).
      { intros g G PG. destruct (f_off g =? f_off f) eqn:E.
        - apply Z.eqb_eq in E. rewrite (OFFS g G E). unfold held. apply slice_splice_same; lia.
        - unfold P' in PG. rewrite E, orb_false_r in PG. unfold held.
          destruct (chain_bounds _ _ _ g CH G). rewrite slice_splice_other; try lia; [apply HE; assumption|apply len_nonneg|].
          rewrite SP in G. apply in_app_or in G. destruct G as [G|[<-|G]].
          + destruct (C12 g f G (or_introl eq_refl)). lia. + rewrite Z.eqb_refl in E. discriminate. + destruct (F2 g G). lia. }
      assert (LA : r_last s || negb (f_more f) = P' (f_off z)).
      { rewrite SL. unfold P'. f_equal. destruct (f_more f) eqn:M; cbn [negb].
        - symmetry. apply Z.eqb_neq. intros X. assert (Iz : In z fs) by (unfold fs; apply in_or_app; right; left; reflexivity).
          rewrite (OFFS z Iz X) in LAST. congruence.
        - rewrite (FM eq_refl), Z.eqb_refl. reflexivity. }
      rewrite LA.
      destruct (P' (f_off z) && (match map desc (filter (fun g => P' (f_off g)) fs) with (o, _) :: _ => o =? 0 | [] => false end)
                && no_gap (map desc (filter (fun g => P' (f_off g)) fs))) eqn:CO.
      + eexists. split; [reflexivity|]. cbn iota. apply andb_prop in CO. destruct CO as [CO NG]. apply andb_prop in CO. destruct CO as [PZ HD].
        pose proof (complete_all (fun g => P' (f_off g)) PZ HD NG) as ALL. rewrite ALL.
        assert (CV : covered P') by (intros g G; exact (filter_id (fun g => P' (f_off g)) fs ALL g G)).
        destruct no_gap_fs as (_ & _ & T). rewrite T. split; [exact CV|]. split; [reflexivity|].
        apply (all_held (splice (r_buf s) (f_off f) (f_data f))). intros g G. apply HE'; [exact G|apply CV, G].
      + eexists. split; [reflexivity|]. cbn iota. split.
        * intros CV. assert (ALL : filter (fun g => P' (f_off g)) fs = fs).
          { clear - CV. revert CV. unfold covered. generalize fs as l. induction l as [|g l IH]; intros CV; [reflexivity|]. cbn [filter].
            rewrite (CV g (or_introl eq_refl)). f_equal. apply IH. intros; apply CV; right; assumption. }
          rewrite ALL in CO. destruct no_gap_fs as (A & B & _). rewrite A, B in CO. rewrite (CV z) in CO; [discriminate|].
          unfold fs. apply in_or_app. right. left. reflexivity.
        * split; [reflexivity|]. split; [exact eq_refl|]. cbn [r_buf]. split; [rewrite splice_length; lia|exact HE'].
  Qed.

  Hypothesis SQ : u16p seq.

  Lemma loop_complete : forall ps P s rest, st_of P s -> ~ covered P ->
    (forall p, In p ps -> (Forall byte p /\ (List.length p <= 516)%nat /\ ~ answers seq op p) \/ exists f, In f fs /\ carries seq op p f) ->
    (forall f, In f fs -> P (f_off f) = true \/ exists p, In p ps /\ carries seq op p f) ->
    exists b, response_loop seq op s (map Packet ps ++ rest) = Some (Done (len m) b) /\ firstn (Z.to_nat (len m)) b = m.
  Proof.
    induction ps as [|p ps IH]; intros P s rest ST NC ALL COV.
    - exfalso. apply NC. intros f F. destruct (COV f F) as [X|(p & [] & _)]. exact X.
    - cbn [map app response_loop]. destruct (ALL p (or_introl eq_refl)) as [(B & L & N)|(f & F & C)].
      + rewrite not_answers by assumption. cbn [bind]. apply (IH P); auto.
        * intros q Q. apply ALL. right. exact Q.
        * intros f F. destruct (COV f F) as [X|(q & [->|Q] & C)]; [left; exact X| |right; exists q; auto].
          exfalso. apply N. destruct C as (li & v & st & asn & pad & L1 & L2 & L3 & L4 & L5 & B1 & B2 & M4 & LP & EP).
          exists li, v, (if f_more f then 5 else 4), st, asn, (f_off f), (len (f_data f)), (f_data f ++ pad).
          do 2 (split; [assumption|]). split; [destruct (f_more f); lia|]. do 3 (split; [assumption|]).
          split; [|split; [apply Forall_app; split; assumption|exact EP]].
          destruct (chain_bounds _ _ _ f CH F). pose proof (len_nonneg _ (f_data f)). unfold u16p. lia.
      + rewrite (carries_accept seq op s p f OP C). destruct (accept_step P s f ST NC F) as (v & -> & J). cbn [bind].
        destruct v as [s'|rc b|n b].
        * destruct J as [NC' ST']. apply (IH (fun o => P o || (o =? f_off f))); auto.
          -- intros q Q. apply ALL. right. exact Q.
          -- intros g G. destruct (COV g G) as [X|(q & [<-|Q] & Cq)]; [left; rewrite X; reflexivity| |right; exists q; auto].
             left. assert (E : f_off g = f_off f).
             { destruct C as (li & v & st & asn & pad & _ & _ & _ & _ & _ & _ & _ & _ & _ & EP).
               destruct Cq as (li' & v' & st' & asn' & pad' & _ & _ & _ & _ & _ & _ & _ & _ & _ & EP').
               pose proof (packet_fields li v (if f_more f then 5 else 4) op seq st asn (f_off f) (len (f_data f)) (f_data f ++ pad)) as PF. cbv zeta in PF.
               pose proof (packet_fields li' v' (if f_more g then 5 else 4) op seq st' asn' (f_off g) (len (f_data g)) (f_data g ++ pad')) as PF'. cbv zeta in PF'.
               rewrite <- EP in PF. rewrite <- EP' in PF'. destruct PF as (_ & _ & _ & _ & X1 & _). destruct PF' as (_ & _ & _ & _ & X2 & _). congruence. }
             rewrite E, Z.eqb_refl. apply orb_true_r.
        * destruct J.
        * destruct J as (_ & -> & J). exists b. auto.
  Qed.
End Message.

Theorem complete : forall seq op buf m fs ps rest, u16p seq -> 0 <= op < 32 -> List.length buf = 4096%nat ->
  cut_up m fs -> (List.length fs <= 32)%nat -> len m <= 4096 ->
  (forall p, In p ps -> (Forall byte p /\ (List.length p <= 516)%nat /\ ~ answers seq op p) \/ exists f, In f fs /\ carries seq op p f) ->
  (forall f, In f fs -> exists p, In p ps /\ carries seq op p f) ->
  exists b, response seq op buf (map Packet ps ++ rest) = Some (Done (len m) b) /\ firstn (Z.to_nat (len m)) b = m.
Proof.
  intros seq op buf m fs ps rest SQ OP LB (CH & init & z & -> & LZ & FU) FEW SM ALL COV. unfold response.
  apply (loop_complete seq op m init z OP CH LZ FU FEW SM SQ ps (fun _ => false)); auto.
  - split; [|split; [reflexivity|split; [exact LB|discriminate]]].
    cbn [r_frags]. generalize (init ++ [z]). induction l as [|x l IH]; [reflexivity|exact IH].
  - intros C. assert (X : In z (init ++ [z])) by (apply in_or_app; right; left; reflexivity). discriminate (C z X).
Qed.
