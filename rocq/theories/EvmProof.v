(** Proofs for C59. *)
Require Import ZArith List Bool Lia ZifyBool.
Import ListNotations.
From Verif Require Import Base EvmSpec EvmModel.
Open Scope Z_scope.

Lemma combine_snoc : forall (A B : Type) (a : list A) (b : list B) x y, length a = length b -> combine (a ++ [x]) (b ++ [y]) = combine a b ++ [(x, y)].
Proof. intros A B a. induction a as [|u a IH]; intros [|v b] x y L; try discriminate L; [reflexivity|]. cbn [combine app]. rewrite IH by (injection L as L; exact L). reflexivity. Qed.
Lemma sampled_snoc : forall (A : Type) n (l : list A) x, sampled n (l ++ [x]) = sampled n l ++ (if Z.of_nat (length l) mod (n + 1) =? 0 then [x] else []).
Proof.
  intros A n l x. unfold sampled. rewrite app_length. cbn [length]. rewrite Nat.add_1_r, seq_S, combine_snoc by (rewrite seq_length; reflexivity).
  rewrite filter_app, map_app. cbn [filter fst]. rewrite Nat.add_0_l. destruct (_ =? 0); reflexivity.
Qed.
Lemma grouping_snoc : forall l e, grouping (l ++ [e]) = group_step (grouping l) e.
Proof. intros. unfold grouping. rewrite fold_left_app. reflexivity. Qed.

(** A report and the group it should report. *)
Definition fits (src : group -> identity) (ok : Prop) (x : identity * list rec) (g : group) : Prop :=
  fst x = src g /\ length (snd x) = length (g_recs g) /\ (ok -> g_interrupting g = false -> snd x = g_recs g) /\ (ok -> tl (snd x) = tl (g_recs g)).

Definition tracks (skip base : Z) (ok : Prop) (l : list (identity * rec)) (m : mst) (f : Z -> rec) : Prop :=
  let g := waiting (sampled skip l) in
  skip_count m = Z.of_nat (length l) mod (skip + 1) /\ num_events m = Z.of_nat (length (g_recs g)) /\ (length (g_recs g) < 8)%nat /\ source_port m = g_source g /\
  (ok -> forall i, (i < length (g_recs g))%nat -> (g_interrupting g = false \/ (0 < i)%nat) -> f (base + Z.of_nat i) = nth i (g_recs g) []).

Lemma read_length : forall f b n, length (read f b n) = Z.to_nat n.
Proof. intros. unfold read. rewrite map_length, seq_length. reflexivity. Qed.
Lemma read_nth : forall f b n i, (i < Z.to_nat n)%nat -> nth i (read f b n) [] = f (b + Z.of_nat i).
Proof.
  intros f b n i L. unfold read. set (h := fun i0 : nat => f (b + Z.of_nat i0)). rewrite (nth_indep _ [] (h 0%nat)) by (rewrite map_length, seq_length; exact L).
  rewrite (map_nth h), seq_nth by exact L. reflexivity.
Qed.
Lemma nth_tl : forall (A : Type) (l : list A) d i, nth i (tl l) d = nth (Datatypes.S i) l d.
Proof. intros A [|x l] d i; [destruct i; reflexivity|reflexivity]. Qed.
Lemma fits_read : forall src (ok : Prop) f b g, (ok -> forall i, (i < length (g_recs g))%nat -> (g_interrupting g = false \/ (0 < i)%nat) -> f (b + Z.of_nat i) = nth i (g_recs g) []) ->
  forall n, n = Z.of_nat (length (g_recs g)) -> fits src ok (src g, read f b n) g.
Proof.
  intros src ok f b g H n ->. assert (L : length (read f b (Z.of_nat (length (g_recs g)))) = length (g_recs g)) by (rewrite read_length; lia).
  split; [reflexivity|]. cbn [snd]. split; [exact L|]. split; intros O.
  - intros NI. apply (nth_ext _ _ [] []); [exact L|]. intros i LI. assert (LI' : (i < length (g_recs g))%nat) by (rewrite <- L; exact LI). rewrite read_nth by lia. apply H; auto.
  - apply (nth_ext _ _ [] []); [destruct (read f b _), (g_recs g); cbn [tl length] in *; lia|]. intros i LI. rewrite !nth_tl.
    assert (LI' : (Datatypes.S i < length (g_recs g))%nat) by (destruct (read f b _) eqn:E; cbn [tl length] in *; lia).
    rewrite read_nth by lia. apply H; [exact O|exact LI'|right; lia].
Qed.

Lemma monitor_spec : forall skip base size (ok : Prop) l m f p r, 0 <= skip < 32768 -> 0 <= base -> base + 8 <= size -> tracks skip base ok l m f ->
  exists m' f' gs new, monitor skip base size m f p r = Some (m', f', gs) /\ tracks skip base ok (l ++ [(p, r)]) m' f' /\
    groups (sampled skip (l ++ [(p, r)])) = groups (sampled skip l) ++ new /\ Forall2 (fits g_source ok) gs new.
Proof.
  intros skip base size ok l m f p r SK B SZ T. unfold tracks in *. destruct T as [T1 [T2 [T3 [T4 T5]]]]. unfold monitor. set (g := waiting (sampled skip l)) in *.
  assert (NEXT : skip_count m = skip -> Z.of_nat (length (l ++ [(p, r)])) mod (skip + 1) = 0).
  { intros E. rewrite app_length. cbn [length]. rewrite T1 in E. replace (Z.of_nat (length l + 1)) with (Z.of_nat (length l) + 1) by lia. assert (X := Z.div_mod (Z.of_nat (length l)) (skip + 1) ltac:(lia)).
    symmetry. apply (Z.mod_unique _ _ (Z.of_nat (length l) / (skip + 1) + 1)); lia. }
  assert (NEXT' : skip_count m <> skip -> Z.of_nat (length (l ++ [(p, r)])) mod (skip + 1) = skip_count m + 1 /\ skip_count m < skip).
  { intros E. rewrite app_length. cbn [length]. assert (X := Z.div_mod (Z.of_nat (length l)) (skip + 1) ltac:(lia)). assert (Y := Z.mod_pos_bound (Z.of_nat (length l)) (skip + 1) ltac:(lia)). rewrite <- T1 in *. split; [|lia].
    symmetry. apply (Z.mod_unique _ _ (Z.of_nat (length l) / (skip + 1))); lia. }
  rewrite sampled_snoc. rewrite <- T1.
  (* the end, common to all cases *)
  assert (END : forall n src f' gs new G, groups (sampled skip l ++ (if skip_count m =? 0 then [(p, r)] else [])) = groups (sampled skip l) ++ new ->
    waiting (sampled skip l ++ (if skip_count m =? 0 then [(p, r)] else [])) = G -> n = Z.of_nat (length (g_recs G)) -> (length (g_recs G) < 8)%nat -> src = g_source G ->
    (ok -> forall i, (i < length (g_recs G))%nat -> (g_interrupting G = false \/ (0 < i)%nat) -> f' (base + Z.of_nat i) = nth i (g_recs G) []) ->
    Forall2 (fits g_source ok) gs new ->
    exists m'0 f'0 gs0 new0,
      (if skip_count (mkM (skip_count m) n src) =? skip then Some (mkM 0 (num_events (mkM (skip_count m) n src)) (source_port (mkM (skip_count m) n src)), f', gs)
       else if 2147483647 <=? skip_count (mkM (skip_count m) n src) then None
       else Some (mkM (skip_count (mkM (skip_count m) n src) + 1) (num_events (mkM (skip_count m) n src)) (source_port (mkM (skip_count m) n src)), f', gs)) = Some (m'0, f'0, gs0) /\
      (let g0 := waiting (sampled skip l ++ (if skip_count m =? 0 then [(p, r)] else [])) in
       skip_count m'0 = Z.of_nat (length (l ++ [(p, r)])) mod (skip + 1) /\ num_events m'0 = Z.of_nat (length (g_recs g0)) /\ (length (g_recs g0) < 8)%nat /\ source_port m'0 = g_source g0 /\
       (ok -> forall i, (i < length (g_recs g0))%nat -> (g_interrupting g0 = false \/ (0 < i)%nat) -> f'0 (base + Z.of_nat i) = nth i (g_recs g0) [])) /\
      groups (sampled skip l ++ (if skip_count m =? 0 then [(p, r)] else [])) = groups (sampled skip l) ++ new0 /\ Forall2 (fits g_source ok) gs0 new0).
  { intros n src f' gs new G E1 E2 E3 E4 E5 E6 E7. cbn [skip_count num_events source_port]. destruct (Z.eqb_spec (skip_count m) skip) as [E|E].
    - exists (mkM 0 n src), f', gs, new. rewrite E2, (NEXT E). cbv zeta. cbn [skip_count num_events source_port]. auto 10.
    - destruct (NEXT' E) as [N1 N2]. destruct (Z.leb_spec 2147483647 (skip_count m)) as [X|_]; [lia|]. exists (mkM (skip_count m + 1) n src), f', gs, new. rewrite E2, N1. cbv zeta. cbn [skip_count num_events source_port]. auto 10. }
  destruct (Z.eqb_spec (skip_count m) 0) as [Z0|NZ].
  - (* recorded *)
    assert (RB : ((base + num_events m <? 0) || (size <=? base + num_events m)) = false) by lia. rewrite RB.
    assert (GS := grouping_snoc (sampled skip l) (p, r)). unfold group_step in GS. cbn [fst snd] in GS. change (snd (grouping (sampled skip l))) with g in GS. change (fst (grouping (sampled skip l))) with (groups (sampled skip l)) in GS.
    rewrite T4. destruct (Z.eqb_spec p (g_source g)) as [EP|NP].
    + cbn [bind]. cbn [g_source g_recs g_interrupting] in GS. rewrite app_length in GS. cbn [length] in GS. rewrite T4.
      set (G := mkG (g_source g) (g_recs g ++ [r]) (g_interrupting g)) in *.
      assert (MEM : ok -> forall i, (i < length (g_recs G))%nat -> (g_interrupting G = false \/ (0 < i)%nat) -> set f (base + num_events m) r (base + Z.of_nat i) = nth i (g_recs G) []).
      { intros O i L C. cbn [g_recs g_interrupting G] in L, C |- *. rewrite app_length in L. cbn [length] in L. unfold set. destruct (Z.eqb_spec (base + Z.of_nat i) (base + num_events m)) as [E|E].
        - assert (EI : i = length (g_recs g)) by lia. rewrite EI, app_nth2, Nat.sub_diag by lia. reflexivity.
        - rewrite app_nth1 by lia. apply T5; [exact O|lia|exact C]. }
      assert (LG : length (g_recs G) = (length (g_recs g) + 1)%nat) by (cbn [g_recs G]; rewrite app_length; reflexivity).
      unfold events_per_tlv, PER in *. destruct (Nat.eqb_spec (length (g_recs g) + 1) 8) as [E8|N8].
      * destruct (Z.eqb_spec (num_events m + 1) 8) as [_|X]; [|lia]. cbn [bind app].
        eapply (END 0 (g_source g) _ _ [G]); [unfold groups at 1; rewrite GS; reflexivity|unfold waiting; rewrite GS; reflexivity|reflexivity|cbn; lia|reflexivity|intros _ i L; cbn in L; lia|].
        constructor; [|constructor]. change (g_source g) with (g_source G). apply fits_read; [exact MEM|lia].
      * destruct (Z.eqb_spec (num_events m + 1) 8) as [X|_]; [lia|]. cbn [bind app].
        eapply (END _ (g_source g) _ _ []); [unfold groups at 1; rewrite GS; cbn [fst]; rewrite app_nil_r; reflexivity|unfold waiting; rewrite GS; reflexivity|cbn [snd]; lia|cbn [snd]; lia|reflexivity|exact MEM|constructor].
    + destruct (g_recs g) as [|r0 rs] eqn:RG.
      * cbn [length] in *. assert (N0 : num_events m = 0) by lia. rewrite N0. cbn [Z.eqb negb bind num_events skip_count source_port Z.add]. cbn [g_source g_recs g_interrupting app length Nat.eqb PER] in GS.
        change (0 + 1 =? events_per_tlv) with false. cbn [bind].
        eapply (END _ p _ _ []); [unfold groups at 1; rewrite GS; cbn [fst]; rewrite app_nil_r; reflexivity|unfold waiting; rewrite GS; reflexivity|reflexivity|cbn; lia|reflexivity| |constructor].
        intros O i L C. cbn [g_recs snd length] in *. assert (i = 0%nat) by lia. subst i. change (Z.of_nat 0) with 0. unfold set. rewrite Z.eqb_refl. reflexivity.
      * assert (NN : (num_events m =? 0) = false) by (cbn [length] in *; lia). rewrite NN. cbn [negb]. assert (LE : (num_events m <=? events_per_tlv) = true) by (unfold events_per_tlv; cbn [length] in *; lia). rewrite LE.
        cbn [bind num_events skip_count source_port]. cbn [g_source g_recs g_interrupting app length Nat.eqb PER] in GS. change (0 + 1 =? events_per_tlv) with false. cbn [bind].
        eapply (END _ p _ _ [g]); [unfold groups at 1; rewrite GS; reflexivity|unfold waiting; rewrite GS; reflexivity|reflexivity|cbn; lia|reflexivity| |].
        -- intros O i L [C|C]; cbn [g_recs g_interrupting snd length] in *; [discriminate C|lia].
        -- constructor; [|constructor]. apply fits_read; [rewrite RG; exact T5|rewrite RG; exact T2].
  - cbn [bind]. rewrite app_nil_r in *. specialize (END (num_events m) (source_port m) f [] [] g). cbn [skip_count num_events source_port] in END.
    apply END; [symmetry; apply app_nil_r|reflexivity|exact T2|exact T3|exact T4|exact T5|constructor].
Qed.

Lemma tracks_weaken : forall skip base (ok ok' : Prop) l m f f', tracks skip base ok l m f -> (ok' -> ok) -> (ok' -> f' = f) -> tracks skip base ok' l m f'.
Proof. intros skip base ok ok' l m f f' [T1 [T2 [T3 [T4 T5]]]] O F. unfold tracks. cbv zeta in *. repeat (split; [assumption|]). intros Y. rewrite (F Y). auto. Qed.
Lemma fits_weaken : forall src (ok ok' : Prop), (ok' -> ok) -> forall a b, Forall2 (fits src ok) a b -> Forall2 (fits src ok') a b.
Proof. intros src ok ok' O a b H. induction H as [|x g a b [A [B [C D]]] H IH]; constructor; [|exact IH]. split; [exact A|]. split; [exact B|]. split; auto. Qed.

Lemma messages_app : forall c rs n rs', messages c n (rs ++ rs') = messages c n rs ++ messages c (n + Z.of_nat (length rs)) rs'.
Proof.
  intros c rs. induction rs as [|[[k s] r] rs IH]; intros n rs'; [cbn [app length Z.of_nat messages]; rewrite Z.add_0_r; reflexivity|]. cbn [app messages length]. rewrite IH, app_assoc. do 2 f_equal. lia.
Qed.
Lemma of_kind_app : forall k a b, of_kind k (a ++ b) = of_kind k a ++ of_kind k b.
Proof. intros. unfold of_kind. apply flat_map_app. Qed.
Lemma sent_eqb_refl : forall t, sent_eqb t t = true.
Proof. intros []; reflexivity. Qed.
Lemma sent_eqb_eq : forall a b, sent_eqb a b = true -> a = b.
Proof. intros [] []; try discriminate; reflexivity. Qed.
Lemma kind_eqb_refl : forall k, kind_eqb k k = true.
Proof. intros []; try reflexivity. apply sent_eqb_refl. Qed.
Lemma kind_eqb_eq : forall a b, kind_eqb a b = true -> a = b.
Proof. intros [] []; try discriminate; try reflexivity. cbn [kind_eqb]. intros H. f_equal. apply sent_eqb_eq. exact H. Qed.

Lemma dests : forall c, seq 0 (match named c with O => 1%nat | n => n end) = destinations c.
Proof. intros c. unfold destinations. destruct (named c); reflexivity. Qed.
Lemma send_one_spec : forall c k s r n id, id = n mod 65536 -> send_one c k s r id = (messages c n [(k, s, r)], (n + 1) mod 65536).
Proof. intros c k s r n id ->. unfold send_one. rewrite dests. cbn [messages]. rewrite app_nil_r. f_equal. unfold u16. apply Zplus_mod_idemp_l. Qed.
Lemma send_spec : forall c k gs n id, id = n mod 65536 -> send c k gs id = (messages c n (map (fun g => (k, fst g, snd g)) gs), (n + Z.of_nat (length gs)) mod 65536).
Proof.
  intros c k gs. induction gs as [|g gs IH]; intros n id E; [cbn [send map length messages Z.of_nat]; rewrite Z.add_0_r; f_equal; exact E|].
  cbn [send map]. rewrite (send_one_spec c k (fst g) (snd g) n id E). rewrite (IH (n + 1) _ eq_refl). cbn [messages length]. rewrite app_nil_r. f_equal. f_equal. lia.
Qed.
Lemma of_kind_same : forall k (gs : list (identity * list rec)), of_kind k (map (fun g => (k, fst g, snd g)) gs) = gs.
Proof. intros k gs. induction gs as [|[a b] gs IH]; [reflexivity|]. cbn [map of_kind flat_map fst snd]. rewrite kind_eqb_refl. cbn [app]. f_equal. exact IH. Qed.
Lemma of_kind_other : forall k k' (gs : list (identity * list rec)), k <> k' -> of_kind k (map (fun g => (k', fst g, snd g)) gs) = [].
Proof. intros k k' gs N. induction gs as [|[a b] gs IH]; [reflexivity|]. cbn [map of_kind flat_map fst snd]. destruct (kind_eqb k k') eqn:E; [apply kind_eqb_eq in E; contradiction|]. exact IH. Qed.

Definition okk (k : kind) (es : list event) : Prop := match k with Tx t => only t es | _ => True end.
Definition m_of (k : kind) (s : state) : mst := match k with Timing => m_timing s | Computed => m_computed s | Tx t => m_tx s t | Status => zero end.
Definition f_of (k : kind) (s : state) : Z -> rec := match k with Timing => r_timing s | Computed => r_computed s | Tx _ => r_tx s | Status => fun _ => [] end.
Definition base_of (k : kind) : Z := match k with Tx t => 3 * type_index t | _ => 0 end.

(** The part of the invariant that concerns one kind, seeing occurrences [l]. *)
Definition part (c : config) (k : kind) (ok : Prop) (l : list (identity * rec)) (s : state) (rs : list report) : Prop :=
  (on c k = true -> tracks (skip c k) (base_of k) ok l (m_of k s) (f_of k s)) /\
  Forall2 (fits (source_of c k) ok) (of_kind k rs) (if on c k then groups (sampled (skip c k) l) else []).

Lemma part_other : forall c k (ok ok' : Prop) l s s' rs rs', part c k ok l s rs -> (ok' -> ok) -> m_of k s' = m_of k s -> (ok' -> f_of k s' = f_of k s) -> of_kind k rs' = [] -> part c k ok' l s' (rs ++ rs').
Proof.
  intros c k ok ok' l s s' rs rs' [A B] O M F R. split; [intros ON; rewrite M; eapply tracks_weaken; [exact (A ON)|exact O|exact F]|]. rewrite of_kind_app, R, app_nil_r. eapply fits_weaken; [exact O|exact B].
Qed.
Lemma part_same : forall c k (ok ok' : Prop) l s p r rs n size, k <> Status -> proper c -> part c k ok l s rs -> (ok' -> ok) -> on c k = true -> base_of k + 8 <= size -> sentSequenceId s = n mod 65536 ->
  exists m f gs, monitor (skip c k) (base_of k) size (m_of k s) (f_of k s) p r = Some (m, f, gs) /\
    forall s' gs', m_of k s' = m -> f_of k s' = f -> gs' = map (fun g => (match k with Tx _ => own c | _ => fst g end, snd g)) gs ->
      part c k ok' (l ++ [(p, r)]) s' (rs ++ map (fun g => (k, fst g, snd g)) gs').
Proof.
  intros c k ok ok' l s p r rs n size NS P [A B] O ON SZ ID. assert (SK : 0 <= skip c k < 32768) by (destruct P as [P1 [P2 P3]]; destruct k; cbn [skip]; [assumption|assumption|assumption|contradiction]).
  assert (BZ : 0 <= base_of k) by (destruct k as [| |t|]; cbn [base_of]; try lia; destruct t; cbn [type_index]; lia).
  destruct (monitor_spec (skip c k) (base_of k) size ok' l (m_of k s) (f_of k s) p r SK BZ SZ (tracks_weaken _ _ _ ok' _ _ _ _ (A ON) O (fun _ => eq_refl))) as [m [f [gs [new [E [T [G FT]]]]]]].
  exists m, f, gs. split; [exact E|]. intros s' gs' M F EG. split; [intros _; rewrite M, F; exact T|].
  rewrite ON in *. rewrite of_kind_app, of_kind_same, G. apply Forall2_app; [eapply fits_weaken; [exact O|exact B]|]. subst gs'.
  clear - FT NS. induction FT as [|x g gs new FX FT IH]; [constructor|]. cbn [map]. constructor; [|exact IH]. destruct FX as [X1 [X2 [X3 X4]]]. split; [|split; [exact X2|split; assumption]].
  destruct k; cbn [fst source_of]; try exact X1; [reflexivity|contradiction].
Qed.

Definition INV (c : config) (es : list event) (s : state) (os : list out) : Prop :=
  exists rs, os = messages c 0 rs /\ sentSequenceId s = Z.of_nat (length rs) mod 65536 /\
    (forall k, k <> Status -> part c k (okk k es) (occurrences k es) s rs) /\
    of_kind Status rs = (if on c Status then map (fun r => (own c, [r])) (statuses es) else []).

Lemma occ_snoc : forall k es e, occurrences k (es ++ [e]) = occurrences k es ++ match concerns k e with Some x => [x] | None => [] end.
Proof. intros. unfold occurrences. rewrite flat_map_app. cbn [flat_map]. rewrite app_nil_r. reflexivity. Qed.
Lemma statuses_snoc : forall es e, statuses (es ++ [e]) = statuses es ++ match e with StatusDue r => [r] | _ => [] end.
Proof. intros. unfold statuses. rewrite flat_map_app. cbn [flat_map]. rewrite app_nil_r. reflexivity. Qed.
Lemma okk_snoc : forall k es e, okk k (es ++ [e]) -> okk k es.
Proof. intros [] es e H; try exact Logic.I. intros t' p r IN. eapply H. apply in_or_app. left. exact IN. Qed.

Lemma start_INV : forall c, INV c [] start [].
Proof.
  intros c. exists []. split; [reflexivity|]. split; [reflexivity|]. split; [|destruct (on c Status); reflexivity]. intros k N. split.
  - intros _. unfold tracks. change (waiting (sampled (skip c k) (occurrences k []))) with (mkG 0 [] false). cbv zeta. cbn [g_recs length g_source].
    assert (M : m_of k start = zero) by (destruct k; reflexivity). rewrite M. cbn [zero skip_count num_events source_port]. split; [symmetry; apply Zmod_0_l|]. split; [reflexivity|]. split; [lia|]. split; [reflexivity|]. intros _ i L. lia.
  - destruct (on c k); constructor.
Qed.

(** The two kinds about Syncs, one after the other. *)
Lemma timing_part : forall c es s rs p r n (OK : kind -> Prop) (L : kind -> list (identity * rec)), proper c -> sentSequenceId s = n mod 65536 -> n = Z.of_nat (length rs) ->
  (forall k, k <> Status -> part c k (okk k es) (occurrences k es) s rs) ->
  exists s' new, timing_monitor c s p r = Some (s', messages c n new) /\ sentSequenceId s' = (n + Z.of_nat (length new)) mod 65536 /\ of_kind Status new = [] /\
    forall k, k <> Status -> part c k (okk k es) (occurrences k es ++ match k with Timing => [(p, r)] | _ => [] end) s' (rs ++ new).
Proof.
  intros c es s rs p r n OK L P ID EN H. unfold timing_monitor. destruct (on_timing c) eqn:ON.
  - destruct (part_same c Timing True True (occurrences Timing es) s p r rs n 10 ltac:(discriminate) P (H Timing ltac:(discriminate)) (fun x => x) ON ltac:(cbn; lia) ID) as [m [f [gs [E K]]]].
    cbn [skip base_of m_of f_of] in E. change MAX_EVENTS_PER_TLV with 10. rewrite E. cbn [bind]. rewrite (send_spec c Timing gs n _ ID).
    eexists _, (map (fun g => (Timing, fst g, snd g)) gs). split; [reflexivity|]. split; [cbn [sentSequenceId]; rewrite map_length; reflexivity|]. split; [apply of_kind_other; discriminate|].
    intros k NS. destruct k as [| |t|].
    + apply K; [reflexivity|reflexivity|]. rewrite <- (map_id gs) at 1. apply map_ext. intros [a b]; reflexivity.
    + rewrite app_nil_r. eapply part_other; [apply (H Computed NS)|auto|reflexivity|reflexivity|apply of_kind_other; discriminate].
    + rewrite app_nil_r. eapply part_other; [apply (H (Tx t) NS)|auto|reflexivity|reflexivity|apply of_kind_other; discriminate].
    + contradiction.
  - exists s, []. split; [reflexivity|]. split; [cbn [length]; rewrite Z.add_0_r; exact ID|]. split; [reflexivity|]. intros k NS. rewrite app_nil_r. destruct k as [| |t|]; try (rewrite app_nil_r; apply (H _ NS)).
    destruct (H Timing NS) as [_ B]. split; [cbn [on]; rewrite ON; discriminate|]. cbn [on] in *. rewrite ON in *. exact B.
Qed.
Lemma computed_part : forall c s rs p r n (ok : kind -> Prop) (L : kind -> list (identity * rec)), proper c -> sentSequenceId s = n mod 65536 -> ok Computed = True ->
  (forall k, k <> Status -> part c k (ok k) (L k) s rs) ->
  exists s' new, computed_monitor c s p r = Some (s', messages c n new) /\ sentSequenceId s' = (n + Z.of_nat (length new)) mod 65536 /\ of_kind Status new = [] /\
    forall k, k <> Status -> part c k (ok k) (L k ++ match k with Computed => [(p, r)] | _ => [] end) s' (rs ++ new).
Proof.
  intros c s rs p r n ok L P ID OC H. unfold computed_monitor. destruct (on_computed c) eqn:ON.
  - destruct (part_same c Computed (ok Computed) (ok Computed) (L Computed) s p r rs n 10 ltac:(discriminate) P (H Computed ltac:(discriminate)) (fun x => x) ON ltac:(cbn; lia) ID) as [m [f [gs [E K]]]].
    cbn [skip base_of m_of f_of] in E. change MAX_EVENTS_PER_TLV with 10. rewrite E. cbn [bind]. rewrite (send_spec c Computed gs n _ ID).
    eexists _, (map (fun g => (Computed, fst g, snd g)) gs). split; [reflexivity|]. split; [cbn [sentSequenceId]; rewrite map_length; reflexivity|]. split; [apply of_kind_other; discriminate|].
    intros k NS. destruct k as [| |t|].
    + rewrite app_nil_r. eapply part_other; [apply (H Timing NS)|auto|reflexivity|reflexivity|apply of_kind_other; discriminate].
    + apply K; [reflexivity|reflexivity|]. rewrite <- (map_id gs) at 1. apply map_ext. intros [a b]; reflexivity.
    + rewrite app_nil_r. eapply part_other; [apply (H (Tx t) NS)|auto|reflexivity|reflexivity|apply of_kind_other; discriminate].
    + contradiction.
  - exists s, []. split; [reflexivity|]. split; [cbn [length]; rewrite Z.add_0_r; exact ID|]. split; [reflexivity|]. intros k NS. rewrite app_nil_r. destruct k as [| |t|]; try (rewrite app_nil_r; apply (H _ NS)).
    destruct (H Computed NS) as [_ B]. split; [cbn [on]; rewrite ON; discriminate|]. cbn [on] in *. rewrite ON in *. exact B.
Qed.

Lemma only_last : forall t t' es p r, only t (es ++ [MsgSent t' p r]) -> t' = t.
Proof. intros t t' es p r H. eapply H. apply in_or_app. right. left. reflexivity. Qed.

Lemma step_INV : forall c es s os e, proper c -> INV c es s os -> exists s' os', step c s e = Some (s', os') /\ INV c (es ++ [e]) s' (os ++ os').
Proof.
  intros c es s os e P [rs [EO [ID [H ST]]]]. set (n := Z.of_nat (length rs)) in *. destruct e as [p a b|t p r|r]; cbn [step].
  - destruct (timing_part c es s rs p a n (fun _ => True) (fun _ => []) P ID eq_refl H) as [s1 [n1 [E1 [I1 [S1 H1]]]]]. rewrite E1. cbn [bind fst snd].
    destruct (computed_part c s1 (rs ++ n1) p b (n + Z.of_nat (length n1)) (fun k => okk k es) _ P I1 eq_refl H1) as [s2 [n2 [E2 [I2 [S2 H2]]]]]. rewrite E2. cbn [bind fst snd].
    eexists s2, _. split; [reflexivity|]. exists ((rs ++ n1) ++ n2). rewrite !app_length. split; [rewrite !messages_app, EO, !app_length; fold n; rewrite <- app_assoc; do 3 f_equal; lia|].
    split; [rewrite I2; f_equal; lia|]. split.
    + intros k NS. specialize (H2 k NS). assert (OK : okk k (es ++ [SyncDone p a b]) -> okk k es) by apply okk_snoc. rewrite occ_snoc.
      assert (EL : occurrences k es ++ match concerns k (SyncDone p a b) with Some x => [x] | None => [] end = (occurrences k es ++ match k with Timing => [(p, a)] | _ => [] end) ++ match k with Computed => [(p, b)] | _ => [] end).
      { destruct k; cbn [concerns]; rewrite ?app_nil_r; reflexivity. }
      rewrite EL. destruct H2 as [X Y]. split; [intros ON; eapply tracks_weaken; [exact (X ON)|exact OK|reflexivity]|eapply fits_weaken; [exact OK|exact Y]].
    + rewrite !of_kind_app, S1, S2, !app_nil_r, statuses_snoc, app_nil_r. exact ST.
  - unfold egress_monitor. destruct (on_tx c) eqn:ON.
    + assert (SZ : base_of (Tx t) + 8 <= 3 * MAX_EVENTS_PER_TLV) by (destruct t; cbn; lia).
      destruct (part_same c (Tx t) (okk (Tx t) es) (okk (Tx t) (es ++ [MsgSent t p r])) (occurrences (Tx t) es) s p r rs n _ ltac:(discriminate) P (H (Tx t) ltac:(discriminate)) (okk_snoc (Tx t) es _) ON SZ ID) as [m [f [gs [E K]]]].
      cbn [skip base_of m_of f_of] in E. rewrite E. cbn [bind]. rewrite (send_spec c (Tx t) _ n _ ID). set (gs' := map (fun g => (own c, snd g)) gs) in *.
      eexists _, _. split; [reflexivity|]. exists (rs ++ map (fun g => (Tx t, fst g, snd g)) gs'). split; [rewrite messages_app, EO; reflexivity|].
      split; [cbn [sentSequenceId]; rewrite app_length, map_length; fold n; f_equal; lia|]. split.
      * intros k NS. rewrite occ_snoc. destruct k as [| |t'|]; [| | |contradiction].
        -- cbn [concerns]. rewrite app_nil_r. eapply part_other; [apply (H Timing NS)|auto|reflexivity|reflexivity|apply of_kind_other; discriminate].
        -- cbn [concerns]. rewrite app_nil_r. eapply part_other; [apply (H Computed NS)|auto|reflexivity|reflexivity|apply of_kind_other; discriminate].
        -- cbn [concerns]. destruct (sent_eqb t' t) eqn:ET.
           ++ apply sent_eqb_eq in ET. subst t'. apply K; [cbn [m_of m_tx]; rewrite sent_eqb_refl; reflexivity|reflexivity|reflexivity].
           ++ rewrite app_nil_r. assert (NT : t <> t') by (intros ->; rewrite sent_eqb_refl in ET; discriminate ET). eapply part_other; [apply (H (Tx t') NS)|apply okk_snoc| | |].
              ** cbn [m_of m_tx]. destruct (sent_eqb t t') eqn:X; [apply sent_eqb_eq in X; contradiction|reflexivity].
              ** intros O. cbn [okk] in O. apply only_last in O. contradiction.
              ** apply of_kind_other. congruence.
      * rewrite of_kind_app, statuses_snoc, app_nil_r, of_kind_other by discriminate. rewrite app_nil_r. exact ST.
    + exists s, []. split; [reflexivity|]. exists rs. rewrite app_nil_r. split; [exact EO|]. split; [exact ID|]. split; [|rewrite statuses_snoc, app_nil_r; exact ST].
      intros k NS. rewrite occ_snoc. destruct (H k NS) as [X Y]. assert (OK : okk k (es ++ [MsgSent t p r]) -> okk k es) by apply okk_snoc. destruct k as [| |t'|]; cbn [concerns]; rewrite ?app_nil_r; [split; assumption|split; assumption| |contradiction].
      cbn [on] in *. rewrite ON in *. split; [cbn [on]; rewrite ON; discriminate|]. cbn [on]. rewrite ON. eapply fits_weaken; [exact OK|exact Y].
  - unfold status_monitor. assert (KEEP : forall s' new, (forall k, m_of k s' = m_of k s /\ f_of k s' = f_of k s) -> (forall k, k <> Status -> of_kind k new = []) -> forall k, k <> Status -> part c k (okk k (es ++ [StatusDue r])) (occurrences k (es ++ [StatusDue r])) s' (rs ++ new)).
    { intros s' new MF OF k NS. rewrite occ_snoc. assert (CN : concerns k (StatusDue r) = None) by (destruct k; reflexivity). rewrite CN, app_nil_r. eapply part_other; [apply (H k NS)|apply okk_snoc|apply MF|intros _; apply MF|apply OF; exact NS]. }
    destruct (on_status c) eqn:ON.
    + rewrite (send_one_spec c Status (own c) [r] n _ ID). eexists _, _. split; [reflexivity|]. exists (rs ++ [(Status, own c, [r])]). split; [rewrite messages_app, EO; reflexivity|].
      split; [cbn [sentSequenceId]; rewrite app_length; cbn [length]; fold n; f_equal; lia|]. split.
      * apply KEEP; [intros [| |t|]; split; reflexivity|]. intros k NS. destruct k; try reflexivity. contradiction.
      * rewrite of_kind_app, statuses_snoc. cbn [on] in *. rewrite ON in *. rewrite ST, map_app. reflexivity.
    + exists s, []. split; [reflexivity|]. exists rs. rewrite app_nil_r. split; [exact EO|]. split; [exact ID|]. split; [|cbn [on] in *; rewrite ON in *; exact ST].
      intros k NS. rewrite <- (app_nil_r rs). apply KEEP; [intros; split; reflexivity|reflexivity|exact NS].
Qed.

Lemma run_snoc : forall c es s e, run_from c s (es ++ [e]) = (do x <- run_from c s es; do y <- step c (fst x) e; Some (fst y, snd x ++ snd y)).
Proof.
  intros c es. induction es as [|e0 es IH]; intros s e.
  - cbn [app run_from bind fst snd]. destruct (step c s e) as [[s1 o1]|]; cbn [bind fst snd]; [rewrite app_nil_r|]; reflexivity.
  - cbn [app run_from]. destruct (step c s e0) as [[s1 o1]|]; cbn [bind fst snd]; [|reflexivity]. rewrite IH. destruct (run_from c s1 es) as [[s2 o2]|]; cbn [bind fst snd]; [|reflexivity].
    destruct (step c s2 e) as [[s3 o3]|]; cbn [bind fst snd]; [rewrite app_assoc|]; reflexivity.
Qed.
Lemma run_INV : forall c es, proper c -> exists s os, run c es = Some (s, os) /\ INV c es s os.
Proof.
  intros c es P. induction es as [|e es IH] using rev_ind; [exists start, []; split; [reflexivity|apply start_INV]|]. destruct IH as [s [os [R I]]]. destruct (step_INV c es s os e P I) as [s' [os' [E I']]].
  exists s', (os ++ os'). split; [|exact I']. unfold run in *. rewrite run_snoc, R. cbn [bind fst snd]. rewrite E. reflexivity.
Qed.
