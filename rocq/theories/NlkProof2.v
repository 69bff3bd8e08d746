(** Link tables: the ring of versions. *)
Require Import ZArith List Bool Lia ZifyBool Permutation.
Import ListNotations.
From Verif Require Import Base NlkSpec NlkModel NlkProof.
Open Scope Z_scope.

(** Where a version is. *)
Definition at_v (s : state) (v : Z) : slot := hist s (M (v - 1)).

(** [p] versions so far, [ow v] consumers of [v] outstanding, [nw] and [la] what is known now and what the last version said, [po] whether reading was put off,
    [W] whether reading was whole. *)
Record inv (p : Z) (ow : Z -> Z) (nw la : knowledge) (po : bool) (W : Prop) (s : state) : Prop := {
  v_p : 0 <= p;
  v_ver : ver_next s = p + 2;
  v_next : hist_next s = M p;
  v_count : hist_count s = p + 1;
  v_in : forall v, p - 2 <= v <= p + 1 -> 1 <= v -> sl_ver (at_v s v) = v;
  v_out : forall v, p - 2 <= v <= 0 -> sl_ver (at_v s v) = 0 /\ sl_ref (at_v s v) = 0 /\ sl_rows (at_v s v) = [];
  v_ref : forall v, p - 2 <= v <= p -> 1 <= v -> sl_ref (at_v s v) = ow v;
  v_ow : forall v, 0 <= ow v;
  v_none : forall v, v < p - 2 \/ v > p \/ v < 1 -> ow v = 0;
  v_need : need_service s = po;
  v_po : po = true -> 0 < ow (p - 2);
  v_uniq : uniq (sl_rows (at_v s (p + 1)));
  v_pos : positive (sl_rows (at_v s (p + 1)));
  v_now : forall i, look (sl_rows (at_v s (p + 1))) i = nw i;
  v_last : forall i, look (sl_rows (at_v s p)) i = la i;
  v_asc : ascending 0 (sl_rows (at_v s p));
  v_W : W -> ascending 0 (sl_rows (at_v s (p + 1))) }.

Lemma M_neq : forall a b, 0 < Z.abs (a - b) < 4 -> M a <> M b.
Proof. intros a b H. unfold M, MAX_LINK_DB_VERSIONS. lia. Qed.
Lemma M_four : forall a, M (a + 4) = M a.
Proof. intros a. unfold M, MAX_LINK_DB_VERSIONS. lia. Qed.
Lemma at_put_same : forall s v x, at_v (put s (M (v - 1)) x) v = x.
Proof. intros. unfold at_v. cbn [hist put]. rewrite Z.eqb_refl. reflexivity. Qed.
Lemma at_put_other : forall s v w x, 0 < Z.abs (v - w) < 4 -> at_v (put s (M (w - 1)) x) v = at_v s v.
Proof. intros s v w x H. unfold at_v. cbn [hist put]. assert (N := M_neq (v - 1) (w - 1)). destruct (Z.eqb_spec (M (v - 1)) (M (w - 1))) as [E|E]; [exfalso; apply N; [lia|exact E]|reflexivity]. Qed.

Definition upd (f : Z -> Z) (v x : Z) : Z -> Z := fun w => if w =? v then x else f w.

Lemma inv_ext : forall p ow nw la po (W : Prop) s ow' nw' la' (W' : Prop), inv p ow nw la po W s -> (forall v, ow v = ow' v) -> (forall i, nw i = nw' i) -> (forall i, la i = la' i) -> (W' -> W) ->
  inv p ow' nw' la' po W' s.
Proof.
  intros p ow nw la po W s ow' nw' la' W' I E1 E2 E3 E4. destruct I. constructor; try assumption.
  - intros. rewrite <- E1. auto.
  - intros. rewrite <- E1. auto.
  - intros. rewrite <- E1. auto.
  - intros. rewrite <- E1. auto.
  - intros. rewrite <- E2. auto.
  - intros. rewrite <- E3. auto.
  - auto.
Qed.

Lemma ascending_m1 : forall t, ascending 0 t -> ascending (-1) t.
Proof. intros t H. eapply ascending_weaken; [exact H|lia]. Qed.

Definition whole_read (rounds : list (list msg)) (e : ending) : Prop := rounds = [] -> e = Quiet.

(** Everything [service] does. *)
Lemma service_spec : forall p ow nw la po W s c co rs e, inv p ow nw la po W s -> 0 < c -> Forall proper_msg (brought rs e) ->
  let nw' : knowledge := fold_left learn (brought rs e) nw in
  let W' := W /\ whole_read rs e in
  (0 < ow (p - 2) -> service s c co rs e = Some (with_need s true, [Again]) /\ inv p ow nw la true W (with_need s true)) /\
  (ow (p - 2) = 0 -> po = false /\
    (W' -> service s c co rs e <> None) /\
    forall s' os, service s c co rs e = Some (s', os) ->
      (forall v, p - 2 <= v <= p -> 0 < ow v -> at_v s' v = at_v s v) /\
      match e, co with
      | Broken _, _ => os = [Error] /\ inv p ow nw' la po W' s'
      | Quiet, true => os = [Nothing] /\ inv p ow nw' la po W' s'
      | Quiet, false =>
          (os = [Nothing] /\ inv p ow nw' la po W' s' /\ forall i, differs (la i) (nw' i) = false) \/
          (os = [Version (p + 1)] /\ inv (p + 1) (upd ow (p + 1) c) nw' nw' po W' s' /\ (exists i, differs (la i) (nw' i) = true) /\
           ascending 0 (sl_rows (at_v s' (p + 1))) /\
           (forall i, find_row (sl_rows (at_v s' (p + 1))) i = option_map (fun r => (r, event_of (la i) r)) (nw' i)))
      end).
Proof.
  intros p ow nw la po W s c co rs e I C PM nw' W'. assert (P0 := v_p _ _ _ _ _ _ s I).
  assert (NI : M (hist_next s + 1) = M ((p - 2) - 1)) by (rewrite (v_next _ _ _ _ _ _ s I); unfold M, MAX_LINK_DB_VERSIONS; lia).
  assert (CI : hist_next s = M ((p + 1) - 1)) by (rewrite (v_next _ _ _ _ _ _ s I); f_equal; lia).
  assert (PI : M (hist_next s + MAX_LINK_DB_VERSIONS - 1) = M (p - 1)) by (rewrite (v_next _ _ _ _ _ _ s I); unfold M, MAX_LINK_DB_VERSIONS; lia).
  assert (NREF : sl_ref (hist s (M ((p - 2) - 1))) = ow (p - 2)).
  { fold (at_v s (p - 2)). destruct (Z_lt_le_dec (p - 2) 1) as [L|L].
    - rewrite (v_none _ _ _ _ _ _ s I) by lia. apply (v_out _ _ _ _ _ _ s I). lia.
    - apply (v_ref _ _ _ _ _ _ s I); lia. }
  split.
  - intros OW. split.
    + unfold service. rewrite NI, NREF. destruct (Z.eqb_spec (ow (p - 2)) 0); [lia|reflexivity].
    + destruct I. constructor; try assumption; auto.
  - intros OW. assert (PF : po = false) by (destruct po; [assert (X := v_po _ _ _ _ _ _ s I eq_refl); lia|reflexivity]). split; [exact PF|].
    set (rows0 := fold_left handle (brought rs e) (sl_rows (at_v s (p + 1)))).
    set (rows := match rs with [] => rows0 | _ => if ordered 0 rows0 then rows0 else sort rows0 end).
    destruct (handles_ok (brought rs e) (sl_rows (at_v s (p + 1))) (v_uniq _ _ _ _ _ _ s I) (v_pos _ _ _ _ _ _ s I) PM) as [H1 [H2 H3]]. fold rows0 in H1, H2, H3.
    assert (R : uniq rows /\ positive rows /\ (forall i, look rows i = nw' i) /\ (rs <> [] -> ascending 0 rows)).
    { assert (L0 : forall i, look rows0 i = nw' i) by (intros i; rewrite H1; apply fold_learn_ext; apply (v_now _ _ _ _ _ _ s I)).
      unfold rows. destruct rs as [|r0 rs0]; [repeat split; auto; contradiction|]. destruct (ordered 0 rows0) eqn:O.
      - repeat split; auto. intros _. apply ordered_asc; auto. intros X. apply in_map_iff in X. destruct X as [x [E X]]. unfold positive in H3. rewrite Forall_forall in H3. apply H3 in X. lia.
      - split; [unfold uniq; eapply Permutation_NoDup; [apply Permutation_map; symmetry; apply sort_perm|exact H2]|]. split; [unfold positive; eapply Permutation_Forall; [symmetry; apply sort_perm|exact H3]|].
        split; [intros i; rewrite <- L0; symmetry; apply perm_look; [symmetry; apply sort_perm|exact H2]|]. intros _. apply sort_asc; assumption. }
    destruct R as [U [P [L A]]].
    assert (AW : W' -> ascending 0 rows).
    { intros [HW HR]. destruct rs as [|r0 rs0]; [|apply A; discriminate]. assert (EQ := HR eq_refl). subst e. exact (v_W _ _ _ _ _ _ s I HW). }
    assert (KEEP : forall x v, p - 2 <= v <= p -> at_v (put s (M ((p + 1) - 1)) x) v = at_v s v) by (intros x v V; apply at_put_other; lia).
    assert (INV1 : forall t, map idx t = map idx rows -> (forall i, look t i = look rows i) -> (ascending 0 rows -> ascending 0 t) -> inv p ow nw' la po W' (put s (M ((p + 1) - 1)) (mkSlot t (sl_ver (at_v s (p + 1))) c))).
    { intros t EI EL EA. destruct I as [I1 I2 I3 I4 I5 I6 I7 I8 I9 I10 I11 I12 I13 I14 I15 I16 I17]. constructor; try assumption.
      - intros v V1 V2. destruct (Z.eq_dec v (p + 1)) as [->|N]; [rewrite at_put_same; cbn [sl_ver]; apply I5; lia|]. rewrite KEEP by lia. apply I5; lia.
      - intros v V. rewrite KEEP by lia. apply I6. lia.
      - intros v V1 V2. rewrite KEEP by lia. apply I7; lia.
      - rewrite at_put_same. cbn [sl_rows]. unfold uniq. rewrite EI. exact U.
      - rewrite at_put_same. cbn [sl_rows]. rewrite positive_idx, EI, <- positive_idx. exact P.
      - intros i. rewrite at_put_same. cbn [sl_rows]. rewrite EL. apply L.
      - intros i. rewrite KEEP by lia. apply I15.
      - rewrite KEEP by lia. exact I16.
      - intros HW. rewrite at_put_same. cbn [sl_rows]. apply EA. apply AW. exact HW. }
    unfold service. cbv zeta. rewrite NI, PI, CI, NREF, OW. cbn [Z.eqb negb]. fold (at_v s (p + 1)). cbv zeta. fold rows0. fold rows.
    destruct e as [|ms].
    2:{ split; [discriminate|]. intros s' os E. injection E as <- <-. split; [intros v V _; apply KEEP; lia|]. split; [reflexivity|]. apply INV1; auto. }
    destruct co.
    { split; [discriminate|]. intros s' os E. injection E as <- <-. split; [intros v V _; apply KEEP; lia|]. split; [reflexivity|]. apply INV1; auto. }
    fold (at_v (put s (M (p + 1 - 1)) (mkSlot rows (sl_ver (at_v s (p + 1))) c)) p). rewrite KEEP by lia.
    set (prev := sl_rows (at_v s p)). set (t := map (classify prev) rows).
    assert (AP : ascending (-1) prev) by (apply ascending_m1; apply (v_asc _ _ _ _ _ _ s I)).
    assert (WOK : ascending (-1) rows -> walk (length t + length prev) prev t prev 0 (-1) (-1) false = Some (existsb (fun y => negb (has rows (idx y))) prev)).
    { intros AR. apply (walk_ok (length t + length prev) [] t prev rows (-1) (-1) false).
      - lia.
      - apply classify_asc. exact AR.
      - exact AP.
      - intros ? ? _ [].
      - intros x X. apply in_map_iff in X. destruct X as [z [<- Z0]]. rewrite classify_event. reflexivity.
      - intros y _. rewrite !has_look. unfold t. rewrite classify_look. reflexivity. }
    set (s2 := put (put s (M (p + 1 - 1)) (mkSlot rows (sl_ver (at_v s (p + 1))) c)) (M (p + 1 - 1)) (mkSlot t (sl_ver (at_v s (p + 1))) c)).
    assert (S2 : forall j, hist s2 j = hist (put s (M (p + 1 - 1)) (mkSlot t (sl_ver (at_v s (p + 1))) c)) j) by (intros j; unfold s2; cbn [hist put]; destruct (j =? M (p + 1 - 1)); reflexivity).
    assert (TI : map idx t = map idx rows) by apply classify_idx.
    assert (TL : forall i, look t i = look rows i) by (intros; apply classify_look).
    assert (INV2 := INV1 t TI TL (fun AR => proj2 (classify_asc prev rows 0) AR)).
    assert (INV2' : inv p ow nw' la po W' s2).
    { destruct INV2 as [I1 I2 I3 I4 I5 I6 I7 I8 I9 I10 I11 I12 I13 I14 I15 I16 I17]. unfold at_v in *. constructor; unfold at_v; try assumption; intros; rewrite ?S2; auto. }
    assert (KEEP2 : forall v, p - 2 <= v <= p -> at_v s2 v = at_v s v) by (intros v V; unfold at_v at 1; rewrite S2; apply KEEP; lia).
    fold (at_v s2 (p - 2)). rewrite !KEEP2 by lia. assert (REF2 : sl_ref (at_v s (p - 2)) = 0) by (unfold at_v; rewrite NREF; exact OW). rewrite !REF2. cbn [Z.ltb Z.compare Z.eqb negb]. rewrite !andb_false_r.
    split.
    { intros HW. rewrite (WOK (ascending_m1 rows (AW HW))). cbn [bind]. destruct (changes t || _); discriminate. }
    intros s' os E. destruct (walk (length t + length prev) prev t prev 0 (-1) (-1) false) as [deleted|] eqn:WK; [cbn [bind] in E|discriminate E].
    assert (AR : ascending (-1) rows).
    { destruct (walk_asc _ _ _ _ _ _ _ _ _ (le_n _) WK) as [X _]. apply (classify_asc prev). exact X. }
    assert (DEL := WOK AR). injection DEL as ->.
    assert (CH := change_iff prev rows AP AR). fold t in CH.
    assert (DF : forall i, differs (look prev i) (look rows i) = differs (la i) (nw' i)) by (intros i; rewrite L; unfold prev; rewrite (v_last _ _ _ _ _ _ s I); reflexivity).
    assert (ASC0 : ascending 0 t).
    { assert (A1 : ascending (-1) t) by (apply classify_asc; exact AR). destruct t as [|x t0] eqn:ET; [exact Logic.I|]. destruct A1 as [A1 A2]. split; [|exact A2].
      assert (PX : positive (x :: t0)) by (rewrite positive_idx, TI, <- positive_idx; exact P). inversion PX; assumption. }
    destruct (changes t || existsb (fun y => negb (has rows (idx y))) prev) eqn:CC.
    + injection E as <- <-. set (s3 := put s2 (M (p - 2 - 1)) (mkSlot t (ver_next s2) c)).
      set (s4 := mkSt (hist s3) (ver_next s3 + 1) (M (p - 2 - 1)) (hist_count s3 + 1) (need_service s3)).
      assert (NX : forall x v, p - 2 < v <= p + 1 -> at_v (put s2 (M (p - 2 - 1)) x) v = at_v s2 v) by (intros x v V; apply at_put_other; lia).
      assert (A4 : forall v, at_v s4 v = at_v s3 v) by reflexivity.
      assert (W3 : at_v s3 (p + 2) = mkSlot t (ver_next s2) c). { unfold at_v, s3. cbn [hist put]. assert (EQ : M (p + 2 - 1) = M (p - 2 - 1)) by (rewrite <- (M_four (p - 2 - 1)); f_equal; lia). rewrite EQ, Z.eqb_refl. reflexivity. }
      assert (C3 : at_v s3 (p + 1) = mkSlot t (sl_ver (at_v s (p + 1))) c). { unfold s3. rewrite NX by lia. unfold at_v at 1. rewrite S2. apply at_put_same. }
      split.
      { intros v V OV. rewrite A4. destruct (Z.eq_dec v (p - 2)) as [->|N]; [lia|]. unfold s3. rewrite NX by lia. apply KEEP2. lia. }
      right. split; [rewrite (v_in _ _ _ _ _ _ s I) by lia; reflexivity|].
      assert (DD : exists i, differs (la i) (nw' i) = true). { destruct (proj1 CH eq_refl) as [i D]. exists i. rewrite <- DF. exact D. }
      split.
      { destruct INV2' as [I1 I2 I3 I4 I5 I6 I7 I8 I9 I10 I11 I12 I13 I14 I15 I16 I17]. constructor.
        - lia.
        - change (ver_next s2 + 1 = p + 1 + 2). lia.
        - change (M (p - 2 - 1) = M (p + 1)). rewrite <- (M_four (p - 2 - 1)). f_equal. lia.
        - change (hist_count s2 + 1 = p + 1 + 1). lia.
        - intros v V1 V2. rewrite A4. destruct (Z.eq_dec v (p + 2)) as [->|N]; [rewrite W3; cbn [sl_ver]; lia|]. unfold s3. rewrite NX by lia. apply I5; lia.
        - intros v V. rewrite A4. unfold s3. rewrite NX by lia. apply I6. lia.
        - intros v V1 V2. rewrite A4. unfold upd. destruct (Z.eqb_spec v (p + 1)) as [->|N]; [rewrite C3; reflexivity|]. unfold s3. rewrite NX by lia. apply I7; lia.
        - intros v. unfold upd. destruct (v =? p + 1); [lia|apply I8].
        - intros v V. unfold upd. destruct (Z.eqb_spec v (p + 1)) as [->|N]; [lia|]. destruct (Z.eq_dec v (p - 2)) as [->|N2]; [exact OW|apply I9; lia].
        - exact I10.
        - rewrite PF. discriminate.
        - rewrite A4. replace (p + 1 + 1) with (p + 2) by lia. rewrite W3. cbn [sl_rows]. unfold uniq. rewrite TI. exact U.
        - rewrite A4. replace (p + 1 + 1) with (p + 2) by lia. rewrite W3. cbn [sl_rows]. rewrite positive_idx, TI, <- positive_idx. exact P.
        - intros i. rewrite A4. replace (p + 1 + 1) with (p + 2) by lia. rewrite W3. cbn [sl_rows]. rewrite TL. apply L.
        - intros i. rewrite A4, C3. cbn [sl_rows]. rewrite TL. apply L.
        - rewrite A4, C3. exact ASC0.
        - intros _. rewrite A4. replace (p + 1 + 1) with (p + 2) by lia. rewrite W3. exact ASC0. }
      split; [exact DD|]. rewrite A4, C3. cbn [sl_rows]. split; [exact ASC0|]. intros i. unfold t. rewrite classify_find, L. unfold prev. rewrite (v_last _ _ _ _ _ _ s I). reflexivity.
    + injection E as <- <-. split; [intros v V _; apply KEEP2; lia|]. left. split; [reflexivity|]. split; [exact INV2'|]. intros i. rewrite <- DF.
      destruct (differs (look prev i) (look rows i)) eqn:D; [|reflexivity]. exfalso. assert (X : false = true) by (apply CH; eauto). discriminate X.
Qed.

Lemma find_ok : forall p ow nw la po W s v, inv p ow nw la po W s -> 0 < ow v -> find_version s v = Some (Some (M (v - 1))) /\ p - 2 <= v <= p /\ 1 <= v.
Proof.
  intros p ow nw la po W s v I OV. assert (V : p - 2 <= v <= p /\ 1 <= v).
  { destruct (Z_lt_le_dec v (p - 2)) as [X|X]; [rewrite (v_none _ _ _ _ _ _ s I) in OV by lia; lia|]. destruct (Z_lt_le_dec p v) as [Y|Y]; [rewrite (v_none _ _ _ _ _ _ s I) in OV by lia; lia|].
    destruct (Z_lt_le_dec v 1) as [Z0|Z0]; [rewrite (v_none _ _ _ _ _ _ s I) in OV by lia; lia|]. lia. }
  split; [|exact V]. destruct V as [V1 V2]. assert (P0 := v_p _ _ _ _ _ _ s I). unfold find_version. rewrite (v_count _ _ _ _ _ _ s I).
  assert (IDX : forall k, 0 <= k <= 2 -> Z.rem (hist_next s + MAX_LINK_DB_VERSIONS - 1 - k) MAX_LINK_DB_VERSIONS = M (p - k - 1)).
  { intros k K. rewrite (v_next _ _ _ _ _ _ s I). unfold M, MAX_LINK_DB_VERSIONS. assert (0 <= p mod 4 < 4) by lia. rewrite Z.rem_mod_nonneg by lia. lia. }
  assert (GO : forall n k, 0 <= k <= p - v -> (Z.to_nat (p - v - k) < n)%nat -> find_from n s v k = Some (Some (M (v - 1)))).
  { intros n. induction n as [|n IH]; intros k K N; [lia|]. cbn [find_from]. rewrite IDX by lia. assert (NN : 0 <= M (p - k - 1) < 4) by (unfold M, MAX_LINK_DB_VERSIONS; lia).
    destruct (Z.ltb_spec (M (p - k - 1)) 0) as [X|_]; [lia|]. fold (at_v s (p - k)). rewrite (v_in _ _ _ _ _ _ s I) by lia. destruct (Z.eqb_spec (p - k) v) as [E|E]; [rewrite <- E; reflexivity|]. apply IH; lia. }
  apply GO; lia.
Qed.

Lemma get_ok : forall p ow nw la po W s v, inv p ow nw la po W s -> 0 < ow v -> get_table s v = Some (s, [Table (sl_rows (at_v s v))]).
Proof.
  intros p ow nw la po W s v I OV. destruct (find_ok p ow nw la po W s v I OV) as [F [V1 V2]]. unfold get_table. rewrite F. cbn [bind]. fold (at_v s v). rewrite (v_ref _ _ _ _ _ _ s I) by lia.
  destruct (Z.eqb_spec (ow v) 0); [lia|reflexivity].
Qed.

Definition freed (s : state) (v : Z) : state := put s (M (v - 1)) (mkSlot (sl_rows (at_v s v)) (sl_ver (at_v s v)) (sl_ref (at_v s v) - 1)).
Lemma freed_inv : forall p ow nw la po W s v s1, inv p ow nw la po W s -> 0 < ow v -> (forall j, hist s1 j = hist (freed s v) j) -> ver_next s1 = ver_next s -> hist_next s1 = hist_next s -> hist_count s1 = hist_count s ->
  need_service s1 = false -> inv p (upd ow v (ow v - 1)) nw la false W s1.
Proof.
  intros p ow nw la po W s v s1 I OV EH E1 E2 E3 E4. destruct (find_ok p ow nw la po W s v I OV) as [_ [V1 V2]].
  assert (A1 : forall w, p - 2 <= w <= p + 1 -> w <> v -> at_v s1 w = at_v s w) by (intros w B N; unfold at_v at 1; rewrite EH; apply at_put_other; lia).
  assert (A2 : at_v s1 v = mkSlot (sl_rows (at_v s v)) (sl_ver (at_v s v)) (sl_ref (at_v s v) - 1)) by (unfold at_v at 1; rewrite EH; apply at_put_same).
  assert (A3 : forall w, p - 2 <= w <= p + 1 -> sl_rows (at_v s1 w) = sl_rows (at_v s w) /\ sl_ver (at_v s1 w) = sl_ver (at_v s w)).
  { intros w B. destruct (Z.eq_dec w v) as [->|N]; [rewrite A2; auto|rewrite A1 by assumption; auto]. }
  destruct I as [I1 I2 I3 I4 I5 I6 I7 I8 I9 I10 I11 I12 I13 I14 I15 I16 I17]. constructor; try congruence.
  - intros w B1 B2. rewrite (proj2 (A3 w B1)). apply I5; assumption.
  - intros w B. rewrite A1 by lia. apply I6. exact B.
  - intros w B1 B2. unfold upd. destruct (Z.eqb_spec w v) as [->|N]; [rewrite A2; cbn [sl_ref]; rewrite I7 by lia; reflexivity|rewrite A1 by lia; apply I7; lia].
  - intros w. unfold upd. destruct (w =? v); [lia|apply I8].
  - intros w B. unfold upd. destruct (Z.eqb_spec w v) as [->|N]; [lia|apply I9; exact B].
  - rewrite (proj1 (A3 (p + 1) ltac:(lia))). exact I12.
  - rewrite (proj1 (A3 (p + 1) ltac:(lia))). exact I13.
  - intros i. rewrite (proj1 (A3 (p + 1) ltac:(lia))). apply I14.
  - intros i. rewrite (proj1 (A3 p ltac:(lia))). apply I15.
  - rewrite (proj1 (A3 p ltac:(lia))). exact I16.
  - intros HW. rewrite (proj1 (A3 (p + 1) ltac:(lia))). apply I17. exact HW.
Qed.

(** The log, one entry on. *)
Lemma versions_snoc : forall l e, versions (l ++ [e]) = match publishes e with Some _ => versions l + 1 | None => versions l end.
Proof. intros. unfold versions. rewrite fold_left_app. reflexivity. Qed.
Lemma owed_snoc : forall v l e, owed v (l ++ [e]) = owed_step v (owed v l) e.
Proof. intros. unfold owed. rewrite fold_left_app. reflexivity. Qed.
Lemma postponed_snoc : forall l e, postponed (l ++ [e]) = postponed_step (postponed l) e.
Proof. intros. unfold postponed. rewrite fold_left_app. reflexivity. Qed.
Lemma now_snoc : forall l e, now (l ++ [e]) = fold_left learn (heard e) (now l).
Proof. intros. unfold now, view. rewrite fold_left_app. reflexivity. Qed.
Lemma last_snoc : forall l e, last (l ++ [e]) = match publishes e with Some _ => now (l ++ [e]) | None => last l end.
Proof. intros. rewrite now_snoc. unfold last, now, view. rewrite fold_left_app. reflexivity. Qed.

Definition linv (l : log) (s : state) : Prop := inv (versions l) (fun v => owed v l) (now l) (last l) (postponed l) (Forall whole l) s.

Lemma start_inv : linv [] start.
Proof.
  assert (AT : forall v, -2 <= v <= 1 -> at_v start v = mkSlot [] (if v =? 1 then 1 else 0) 0).
  { intros v V. assert (v = -2 \/ v = -1 \/ v = 0 \/ v = 1) as [-> | [-> | [-> | ->]]] by lia; reflexivity. }
  unfold linv. change (versions []) with 0. constructor; try reflexivity; try lia.
  - intros v V1 V2. rewrite AT by lia. cbn [sl_ver]. destruct (Z.eqb_spec v 1); lia.
  - intros v V. rewrite AT by lia. cbn [sl_ver sl_ref sl_rows]. destruct (Z.eqb_spec v 1); [lia|auto].
  - discriminate.
  - constructor.
  - constructor.
Qed.

Lemma fold_nw_ext : forall l e, heard e = [] -> forall i, now l i = now (l ++ [e]) i.
Proof. intros l e H i. rewrite now_snoc, H. reflexivity. Qed.

(** One entry. *)
Lemma step_inv : forall l s o s' os, linv l s -> allowed o l -> step o s = Some (s', os) ->
  linv (l ++ [(o, os)]) s' /\
  (forall v, 0 < owed v l -> 0 < owed v (l ++ [(o, os)]) -> sl_rows (at_v s' v) = sl_rows (at_v s v)) /\
  match o with
  | OService c co rs e =>
      (0 < owed (versions l - 2) l /\ os = [Again]) \/
      (owed (versions l - 2) l = 0 /\
       match e, co with
       | Broken _, _ => os = [Error]
       | Quiet, true => os = [Nothing]
       | Quiet, false =>
           (os = [Nothing] /\ forall i, differs (last l i) (fold_left learn (brought rs e) (now l) i) = false) \/
           (os = [Version (versions l + 1)] /\ (exists i, differs (last l i) (fold_left learn (brought rs e) (now l) i) = true) /\
            ascending 0 (sl_rows (at_v s' (versions l + 1))) /\
            forall i, find_row (sl_rows (at_v s' (versions l + 1))) i = option_map (fun r => (r, event_of (last l i) r)) (fold_left learn (brought rs e) (now l) i))
       end)
  | OGet v => s' = s /\ os = [Table (sl_rows (at_v s v))]
  | ORelease v c rs e =>
      if postponed l then
        if (0 <? owed (versions l - 2) l) && negb ((v =? versions l - 2) && (owed v l =? 1)) then os = [Freed; Again]
        else match e with
             | Broken _ => os = [Freed; Error]
             | Quiet =>
                 (os = [Freed; Nothing] /\ forall i, differs (last l i) (fold_left learn (brought rs e) (now l) i) = false) \/
                 (os = [Freed; Version (versions l + 1)] /\ (exists i, differs (last l i) (fold_left learn (brought rs e) (now l) i) = true) /\
                  ascending 0 (sl_rows (at_v s' (versions l + 1))) /\
                  forall i, find_row (sl_rows (at_v s' (versions l + 1))) i = option_map (fun r => (r, event_of (last l i) r)) (fold_left learn (brought rs e) (now l) i))
             end
      else os = [Freed]
  end.
Proof.
  intros l s o s' os I AL ST. unfold linv in I. set (p := versions l) in *. destruct o as [c co rs e|v|v c rs e]; cbn [step allowed] in *.
  - destruct AL as [C PM]. destruct (service_spec p _ _ _ _ _ s c co rs e I C PM) as [SA SB].
    destruct (Z_lt_le_dec 0 (owed (p - 2) l)) as [OW|OW].
    + destruct (SA OW) as [E J]. rewrite E in ST. injection ST as <- <-. split; [|split].
      * unfold linv. rewrite versions_snoc, postponed_snoc, last_snoc. cbn [publishes postponed_step]. fold p. eapply inv_ext; [exact J| | | |].
        -- intros v. rewrite owed_snoc. reflexivity.
        -- apply fold_nw_ext. reflexivity.
        -- reflexivity.
        -- intros F. apply Forall_app in F. apply F.
      * reflexivity.
      * left. auto.
    + assert (OZ : owed (p - 2) l = 0) by (assert (X := v_ow _ _ _ _ _ _ s I (p - 2)); cbn beta in X; lia). destruct (SB OZ) as [PF [_ SC]]. destruct (SC s' os ST) as [KP SD].
      assert (KR : forall v, 0 < owed v l -> 0 < owed v (l ++ [(OService c co rs e, os)]) -> sl_rows (at_v s' v) = sl_rows (at_v s v)).
      { intros v OV _. destruct (find_ok p _ _ _ _ _ s v I OV) as [_ [V1 V2]]. rewrite KP by assumption. reflexivity. }
      assert (WH : os <> [Again] -> Forall whole (l ++ [(OService c co rs e, os)]) -> Forall whole l /\ whole_read rs e).
      { intros NA F. apply Forall_app in F. destruct F as [F1 F2]. split; [exact F1|]. inversion F2 as [|? ? F3 _]; subst. intros ->. destruct e; [reflexivity|]. cbn [whole] in F3. contradiction. }
      assert (MID : (os = [Nothing] \/ os = [Error]) -> inv p (fun v => owed v l) (fold_left learn (brought rs e) (now l)) (last l) (postponed l) (Forall whole l /\ whole_read rs e) s' -> linv (l ++ [(OService c co rs e, os)]) s').
      { intros EO J. unfold linv. rewrite versions_snoc, postponed_snoc, last_snoc. assert (PB : publishes (OService c co rs e, os) = None) by (destruct EO as [-> | ->]; reflexivity). rewrite PB. fold p.
        assert (PP : postponed_step (postponed l) (OService c co rs e, os) = postponed l) by (destruct EO as [-> | ->]; reflexivity). rewrite PP. eapply inv_ext; [exact J| | | |].
        - intros v. rewrite owed_snoc. unfold owed_step. rewrite PB. reflexivity.
        - intros i. rewrite now_snoc. destruct EO as [-> | ->]; reflexivity.
        - reflexivity.
        - apply WH. destruct EO as [-> | ->]; discriminate. }
      destruct e as [|ms]; [destruct co|].
      * destruct SD as [EO J]. split; [apply MID; auto|]. split; [exact KR|]. right. auto.
      * destruct SD as [[EO [J D]]|[EO [J [D [A T]]]]].
        -- split; [apply MID; auto|]. split; [exact KR|]. right. split; [exact OZ|]. left. auto.
        -- split; [|split; [exact KR|right; split; [exact OZ|]; right; auto]]. subst os. unfold linv. rewrite versions_snoc, postponed_snoc, last_snoc, now_snoc. cbn [publishes postponed_step heard]. fold p.
           eapply inv_ext; [exact J| | | |].
           ++ intros v. rewrite owed_snoc. unfold owed_step. cbn [publishes]. unfold upd. rewrite (Z.eqb_sym (p + 1)). destruct (Z.eqb_spec v (p + 1)) as [E|E]; [|reflexivity].
              subst v. rewrite (v_none _ _ _ _ _ _ s I (p + 1)) by lia. reflexivity.
           ++ reflexivity.
           ++ reflexivity.
           ++ apply WH. discriminate.
      * destruct SD as [EO J]. split; [apply MID; auto|]. split; [exact KR|]. right. destruct co; auto.
  - rewrite (get_ok p _ _ _ _ _ s v I AL) in ST. injection ST as <- <-. split; [|split; [reflexivity|auto]]. unfold linv. rewrite versions_snoc, postponed_snoc, last_snoc. cbn [publishes postponed_step]. fold p.
    eapply inv_ext; [exact I| | | |].
    + intros w. rewrite owed_snoc. reflexivity.
    + apply fold_nw_ext. reflexivity.
    + reflexivity.
    + intros F. apply Forall_app in F. apply F.
  - destruct AL as [OV [C PM]]. destruct (find_ok p _ _ _ _ _ s v I OV) as [F [V1 V2]]. unfold release in ST. rewrite F in ST. cbn [bind] in ST. fold (at_v s v) in ST.
    assert (RF := v_ref _ _ _ _ _ _ s I v V1 V2). cbn beta in RF. destruct (Z.eqb_spec (sl_ref (at_v s v)) 0) as [X|_]; [lia|]. fold (freed s v) in ST. change (need_service (freed s v)) with (need_service s) in ST.
    assert (ND := v_need _ _ _ _ _ _ s I). rewrite ND in ST.
    assert (FR : forall w, 0 < owed w l -> sl_rows (at_v (freed s v) w) = sl_rows (at_v s w)).
    { intros w OW'. destruct (find_ok p _ _ _ _ _ s w I OW') as [_ [W1 W2]]. destruct (Z.eq_dec w v) as [->|N]; [unfold freed; rewrite at_put_same; reflexivity|]. unfold freed. rewrite at_put_other by lia. reflexivity. }
    destruct (postponed l) eqn:PO.
    + set (s1 := with_need (freed s v) false) in *. assert (J1 : inv p (upd (fun v => owed v l) v (owed v l - 1)) (now l) (last l) false (Forall whole l) s1).
      { eapply (freed_inv p _ _ _ _ _ s v s1 I OV); reflexivity. }
      destruct (service s1 c false rs e) as [[s2 os2]|] eqn:SV; [cbn [bind fst snd] in ST|discriminate ST]. injection ST as <- <-.
      destruct (service_spec p _ _ _ _ _ s1 c false rs e J1 C PM) as [SA SB]. cbv zeta in SB.
      assert (OWE : upd (fun v => owed v l) v (owed v l - 1) (p - 2) = if p - 2 =? v then owed v l - 1 else owed (p - 2) l) by reflexivity.
      assert (COND : ((0 <? owed (p - 2) l) && negb ((v =? p - 2) && (owed v l =? 1))) = (0 <? upd (fun v => owed v l) v (owed v l - 1) (p - 2))).
      { rewrite OWE. rewrite (Z.eqb_sym v). destruct (Z.eqb_spec (p - 2) v) as [E|E]; [rewrite E; cbn [andb]|cbn [andb negb]; apply andb_true_r].
        destruct (Z.eqb_spec (owed v l) 1), (Z.ltb_spec 0 (owed v l)), (Z.ltb_spec 0 (owed v l - 1)); try reflexivity; lia. }
      rewrite COND.
      assert (WH : os2 <> [Again] -> Forall whole (l ++ [(ORelease v c rs e, Freed :: os2)]) -> Forall whole l /\ whole_read rs e).
      { intros NA FF. apply Forall_app in FF. destruct FF as [F1 F2]. split; [exact F1|]. inversion F2 as [|? ? F3 _]; subst. intros ->. destruct e; [reflexivity|]. cbn [whole] in F3.
        exfalso. destruct F3 as [F3|F3].
        - injection F3 as ->. unfold service in SV. destruct (negb _) in SV; discriminate SV.
        - injection F3 as ->. contradiction. }
      assert (OWS : forall w, upd (fun v0 => owed v0 l) v (owed v l - 1) w = if v =? w then owed w l - 1 else owed w l).
      { intros w. unfold upd. rewrite (Z.eqb_sym v). destruct (Z.eqb_spec w v) as [->|N]; reflexivity. }
      assert (OST : forall w, owed w (l ++ [(ORelease v c rs e, Freed :: os2)]) = match publishes (ORelease v c rs e, Freed :: os2) with Some (x, k) => if x =? w then upd (fun v0 => owed v0 l) v (owed v l - 1) w + k else upd (fun v0 => owed v0 l) v (owed v l - 1) w | None => upd (fun v0 => owed v0 l) v (owed v l - 1) w end).
      { intros w. rewrite owed_snoc, OWS. unfold owed_step. destruct (publishes _) as [[x k]|]; reflexivity. }
      destruct (Z_lt_le_dec 0 (upd (fun v0 => owed v0 l) v (owed v l - 1) (p - 2))) as [OX|OX].
      * destruct (SA OX) as [E J]. rewrite E in SV. injection SV as <- <-. apply Z.ltb_lt in OX. rewrite OX. split; [|split; [|reflexivity]].
        -- unfold linv. rewrite versions_snoc, postponed_snoc, last_snoc. cbn [publishes postponed_step]. fold p. eapply inv_ext; [exact J| | | |].
           ++ intros w. rewrite OST. reflexivity.
           ++ apply fold_nw_ext. reflexivity.
           ++ reflexivity.
           ++ intros FF. apply Forall_app in FF. apply FF.
        -- intros w OW' _. exact (FR w OW').
      * assert (OZ : upd (fun v0 => owed v0 l) v (owed v l - 1) (p - 2) = 0) by (assert (X := v_ow _ _ _ _ _ _ s1 J1 (p - 2)); lia).
        destruct (Z.ltb_spec 0 (upd (fun v0 => owed v0 l) v (owed v l - 1) (p - 2))) as [X|_]; [lia|].
        destruct (SB OZ) as [_ [_ SC]]. destruct (SC s2 os2 SV) as [KP SD].
        assert (KR : forall w, 0 < owed w l -> 0 < owed w (l ++ [(ORelease v c rs e, Freed :: os2)]) -> sl_rows (at_v s2 w) = sl_rows (at_v s w)).
        { intros w OW' OA. rewrite <- (FR w OW'). change (at_v (freed s v) w) with (at_v s1 w). destruct (find_ok p _ _ _ _ _ s w I OW') as [_ [W1 W2]]. rewrite KP; [reflexivity|exact W1|].
          rewrite OST in OA. destruct (publishes (ORelease v c rs e, Freed :: os2)) as [[x k]|] eqn:PB; [|exact OA]. destruct (Z.eqb_spec x w) as [EX|EX]; [|exact OA]. exfalso. subst x.
          destruct e as [|ms]; [|destruct SD as [-> _]; discriminate PB]. destruct SD as [[-> _]|[-> _]]; [discriminate PB|]. cbn [publishes] in PB. injection PB as PB _. lia. }
        assert (MID : (os2 = [Nothing] \/ os2 = [Error]) -> inv p (upd (fun v0 => owed v0 l) v (owed v l - 1)) (fold_left learn (brought rs e) (now l)) (last l) false (Forall whole l /\ whole_read rs e) s2 -> linv (l ++ [(ORelease v c rs e, Freed :: os2)]) s2).
        { intros EO J. unfold linv. rewrite versions_snoc, postponed_snoc, last_snoc. assert (PB : publishes (ORelease v c rs e, Freed :: os2) = None) by (destruct EO as [-> | ->]; reflexivity). rewrite PB. fold p.
          assert (PP : postponed_step (postponed l) (ORelease v c rs e, Freed :: os2) = false) by (destruct EO as [-> | ->]; reflexivity). rewrite PP. eapply inv_ext; [exact J| | | |].
          - intros w. rewrite OST, PB. reflexivity.
          - intros i. rewrite now_snoc. destruct EO as [-> | ->]; reflexivity.
          - reflexivity.
          - apply WH. destruct EO as [-> | ->]; discriminate. }
        destruct e as [|ms].
        -- destruct SD as [[EO [J D]]|[EO [J [D [A T]]]]].
           ++ split; [apply MID; auto|]. split; [exact KR|]. left. subst os2. auto.
           ++ split; [|split; [exact KR|right; subst os2; auto]]. subst os2. unfold linv. rewrite versions_snoc, postponed_snoc, last_snoc, now_snoc. cbn [publishes postponed_step heard]. fold p.
              eapply inv_ext; [exact J| | | |].
              ** intros w. rewrite OST. cbn [publishes]. unfold upd at 1. rewrite (Z.eqb_sym (p + 1)). destruct (Z.eqb_spec w (p + 1)) as [E|E]; [|reflexivity].
                 subst w. rewrite (v_none _ _ _ _ _ _ s1 J1 (p + 1)) by lia. reflexivity.
              ** reflexivity.
              ** reflexivity.
              ** apply WH. discriminate.
        -- destruct SD as [EO J]. split; [apply MID; auto|]. split; [exact KR|]. subst os2. reflexivity.
    + injection ST as <- <-. split; [|split; [intros w OW' _; apply FR; exact OW'|reflexivity]].
      unfold linv. rewrite versions_snoc, postponed_snoc, last_snoc. cbn [publishes postponed_step]. fold p.
      eapply inv_ext; [eapply (freed_inv p _ _ _ _ _ s v (freed s v) I OV); try reflexivity; exact ND| | | |].
      * intros w. rewrite owed_snoc. unfold owed_step, upd. cbn [publishes]. rewrite (Z.eqb_sym v). destruct (Z.eqb_spec w v) as [->|N]; reflexivity.
      * apply fold_nw_ext. reflexivity.
      * reflexivity.
      * intros FF. apply Forall_app in FF. apply FF.
Qed.

Lemma history_inv : forall l s, history l s -> linv l s.
Proof. intros l s H. induction H as [|l s o s' os H IH AL ST]; [exact start_inv|]. exact (proj1 (step_inv l s o s' os IH AL ST)). Qed.
