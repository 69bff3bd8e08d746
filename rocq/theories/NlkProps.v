(** C47: versions of the link table.

    Full statement: a link table version given to a consumer is never modified or reused until every consumer has released it; versions are
    handed out in increasing order.  Proved for every history of reports from the kernel and of calls by consumers that release a version at most as often as
    there are consumers, together with what a version says, when one is made and when reading is put off.

    What fails beside it: if reading breaks off before a complete round, the table may be left out of order, and the next comparison
    stops the program ([C47_broken_refuted]; [C47_defined_partial] without such breaks); and looking for a version that was released long ago reads outside the
    ring instead of being reported ([C47_stale_refuted]). *)
Require Import ZArith List Bool Lia ZifyBool.
Import ListNotations.
From Verif Require Import Base NlkSpec NlkModel NlkProof NlkProof2.
Open Scope Z_scope.

Lemma history_det : forall l s, history l s -> forall s', history l s' -> s = s'.
Proof.
  intros l s H. induction H as [|l s o s1 os H IH AL ST]; intros s' H'.
  - inversion H' as [|l0 s0 o0 s0' os0 H0 A0 S0 E]; [reflexivity|]. destruct l0; discriminate E.
  - inversion H' as [E|l0 s0 o0 s0' os0 H0 A0 S0 E]; [destruct l; discriminate E|]. apply app_inj_tail in E. destruct E as [-> E]. injection E as -> ->. rewrite (IH s0 H0) in ST. congruence.
Qed.
Lemma history_snoc : forall l e s', history (l ++ [e]) s' -> exists s, history l s /\ allowed (fst e) l /\ step (fst e) s = Some (s', snd e).
Proof.
  intros l e s' H. inversion H as [E|l0 s o s0 os H0 T ST E]; [destruct l; discriminate|]. apply app_inj_tail in E. destruct E as [-> <-]. exists s. auto.
Qed.
Lemma publishes_next : forall l s o s' os v c, history l s -> allowed o l -> step o s = Some (s', os) -> publishes (o, os) = Some (v, c) -> v = versions l + 1.
Proof.
  intros l s o s' os v c H AL ST PB. destruct (step_inv l s o s' os (history_inv l s H) AL ST) as [_ [_ X]]. destruct o as [k co rs e|w|w k rs e].
  - destruct X as [[_ ->]|[_ X]]; [discriminate PB|]. destruct e, co; try (subst os; discriminate PB). destruct X as [[-> _]|[-> _]]; [discriminate PB|]. injection PB as <- _. reflexivity.
  - discriminate PB.
  - destruct (postponed l); [|subst os; discriminate PB]. destruct (_ && _); [subst os; discriminate PB|]. destruct e; [|subst os; discriminate PB]. destruct X as [[-> _]|[-> _]]; [discriminate PB|]. injection PB as <- _. reflexivity.
Qed.

(** Versions are numbered 1, 2, 3 ... in the order they are handed out. *)
Theorem C47_increasing : forall l e s v c, history (l ++ [e]) s -> publishes e = Some (v, c) -> v = versions l + 1 /\ versions (l ++ [e]) = v.
Proof.
  intros l e s v c H PB. destruct (history_snoc l e s H) as [s0 [H0 [AL ST]]]. rewrite versions_snoc, PB. destruct e as [o os]. assert (E := publishes_next l s0 o s os v c H0 AL ST PB). lia.
Qed.
Print Assumptions C47_increasing.

(** As long as some consumer has a version still to release, it can be had, and it says what it said at any earlier moment since it was handed out. *)
Theorem C47_never_modified : forall l1 l2 s1 s2 v, history l1 s1 -> history (l1 ++ l2) s2 -> 0 < owed v l1 -> 0 < owed v (l1 ++ l2) ->
  exists t, step (OGet v) s1 = Some (s1, [Table t]) /\ step (OGet v) s2 = Some (s2, [Table t]).
Proof.
  intros l1 l2 s1 s2 v H1 H2 O1 O2. exists (sl_rows (at_v s1 v)). cbn [step]. split; [eapply get_ok; [exact (history_inv l1 s1 H1)|exact O1]|].
  assert (G := get_ok _ _ _ _ _ _ s2 v (history_inv _ s2 H2) O2). rewrite G. do 3 f_equal. clear G. revert s2 H2 O2. induction l2 as [|e l2 IH] using rev_ind; intros s2 H2 O2.
  - rewrite app_nil_r in *. rewrite (history_det l1 s1 H1 s2 H2). reflexivity.
  - rewrite app_assoc in H2, O2. destruct (history_snoc _ e s2 H2) as [s [H [AL ST]]]. destruct e as [o os]. cbn [fst snd] in *. destruct (step_inv _ s o s2 os (history_inv _ s H) AL ST) as [_ [K _]].
    assert (LE : v <= versions (l1 ++ l2)).
    { assert (V1 : v <= versions l1). { destruct (find_ok _ _ _ _ _ _ s1 v (history_inv l1 s1 H1) O1) as [_ [V _]]. lia. }
      assert (MONO : forall l', versions l1 <= versions (l1 ++ l')). { intros l'. induction l' as [|x l' IH'] using rev_ind; [rewrite app_nil_r; lia|]. rewrite app_assoc, versions_snoc. destruct (publishes x); lia. }
      specialize (MONO l2). lia. }
    assert (OM : 0 < owed v (l1 ++ l2)).
    { rewrite owed_snoc in O2. assert (X : owed_step v (owed v (l1 ++ l2)) (o, os) <= owed v (l1 ++ l2)); [|lia].
      assert (N : match publishes (o, os) with Some (w, _) => w <> v | None => True end).
      { destruct (publishes (o, os)) as [[w c]|] eqn:PB; [|exact Logic.I]. assert (E := publishes_next _ s o s2 os w c H AL ST PB). lia. }
      clear - N. unfold owed_step. cbv zeta. destruct (publishes (o, os)) as [[w c]|].
      - destruct (Z.eqb_spec w v); [contradiction|]. destruct o; try lia. destruct os as [|[]]; try lia. destruct (v0 =? v); lia.
      - destruct o; try lia. destruct os as [|[]]; try lia. destruct (v0 =? v); lia. }
    rewrite (K v OM O2). apply IH; assumption.
Qed.
Print Assumptions C47_never_modified.

(** A read is put off exactly if the oldest version of the ring, the third newest handed out, is not released yet. *)
Theorem C47_put_off : forall l s c co rs e s' os, history l s -> allowed (OService c co rs e) l -> step (OService c co rs e) s = Some (s', os) ->
  (os = [Again] <-> 0 < owed (versions l - 2) l).
Proof.
  intros l s c co rs e s' os H AL ST. assert (I := history_inv l s H). destruct (step_inv l s _ s' os I AL ST) as [_ [_ [[O E]|[O E]]]]; [tauto|].
  assert (N : os <> [Again]) by (destruct e, co; try (subst os; discriminate); destruct E as [[-> _]|[-> _]]; discriminate). split; [contradiction|lia].
Qed.
Print Assumptions C47_put_off.

(** A new version is handed out exactly if something that matters differs from the last one; it says, for every interface, what the kernel last reported, sorted by number, and
    what became of the interface since the last version. *)
Theorem C47_content : forall l s c rs s' os, history l s -> allowed (OService c false rs Quiet) l -> step (OService c false rs Quiet) s = Some (s', os) ->
  let after := now (l ++ [(OService c false rs Quiet, os)]) in
  os <> [Again] ->
  (forall i, after i = fold_left learn (concat rs) (now l) i) /\
  ((exists i, differs (last l i) (after i) = true) -> os = [Version (versions l + 1)] /\
     exists t, step (OGet (versions l + 1)) s' = Some (s', [Table t]) /\ ascending 0 t /\
       forall i, find_row t i = option_map (fun r => (r, event_of (last l i) r)) (after i)) /\
  ((forall i, differs (last l i) (after i) = false) -> os = [Nothing]).
Proof.
  intros l s c rs s' os H AL ST after NA. assert (I := history_inv l s H). destruct (step_inv l s _ s' os I AL ST) as [I' [_ X]]. assert (C : 0 < c) by (destruct AL; assumption).
  destruct X as [[_ E]|[O X]]; [contradiction|]. cbn beta iota in X.
  assert (BR : brought rs Quiet = concat rs) by (unfold brought; apply app_nil_r).
  assert (AE : forall i, after i = fold_left learn (concat rs) (now l) i).
  { intros i. unfold after. rewrite now_snoc. destruct X as [[-> _]|[-> _]]; cbn [heard]; rewrite BR; reflexivity. }
  split; [exact AE|]. rewrite BR in X. destruct X as [[-> D]|[-> [D [A T]]]].
  - split; [|reflexivity]. intros [i Y]. rewrite AE, D in Y. discriminate Y.
  - split; [|intros Y; destruct D as [i D]; rewrite <- AE, Y in D; discriminate D]. intros _. split; [reflexivity|]. exists (sl_rows (at_v s' (versions l + 1))). split.
    + cbn [step]. eapply get_ok; [exact I'|]. cbn beta. rewrite owed_snoc. unfold owed_step. cbn [publishes]. rewrite Z.eqb_refl. rewrite (v_none _ _ _ _ _ _ s I (versions l + 1)) by lia. lia.
    + split; [exact A|]. intros i. rewrite T, AE. reflexivity.
Qed.
Print Assumptions C47_content.

(** A release gives up one consumer's hold; it reads reports only if reading was put off, and can then hand out a new version. *)
Theorem C47_release : forall l s v c rs e s' os, history l s -> allowed (ORelease v c rs e) l -> step (ORelease v c rs e) s = Some (s', os) ->
  (exists os', os = Freed :: os' /\ (os' = [] <-> postponed l = false) /\ forall w, os' = [Version w] -> w = versions l + 1 /\ postponed l = true) /\
  owed v (l ++ [(ORelease v c rs e, os)]) = owed v l - 1.
Proof.
  intros l s v c rs e s' os H AL ST. assert (I := history_inv l s H). destruct (step_inv l s _ s' os I AL ST) as [_ [_ X]]. cbn beta iota in X. assert (AL0 := AL). destruct AL as [OV _]. destruct (find_ok _ _ _ _ _ _ s v I OV) as [_ [V _]].
  split.
  - destruct (postponed l); [|exists []; split; [exact X|]; split; [tauto|discriminate]].
    destruct (_ && _); [exists [Again]|destruct e as [|ms]; [destruct X as [[X _]|[X _]]; [exists [Nothing]|exists [Version (versions l + 1)]]|exists [Error]]];
      (split; [exact X|]); (split; [split; discriminate|]); intros w E; try discriminate E. injection E as <-. auto.
  - rewrite owed_snoc. unfold owed_step. assert (F : exists os', os = Freed :: os').
    { destruct (postponed l); [|eauto]. destruct (_ && _); [eauto|]. destruct e; [|eauto]. destruct X as [[X _]|[X _]]; eauto. }
    destruct F as [os' ->]. rewrite Z.eqb_refl. destruct (publishes (ORelease v c rs e, Freed :: os')) as [[w k]|] eqn:PB; [|reflexivity].
    assert (E := publishes_next l s _ s' _ w k H AL0 ST PB). destruct (Z.eqb_spec w v); [lia|reflexivity].
Qed.
Print Assumptions C47_release.

(** Nothing undefined happens and no assertion fails, unless reading once broke off before a complete round. *)
Lemma service_defined : forall p ow nw la po (W : Prop) s c co rs e, inv p ow nw la po W s -> W -> 0 < c -> Forall proper_msg (brought rs e) -> service s c co rs e <> None.
Proof.
  intros p ow nw la po W s c co rs e I w C PM. destruct e as [|ms]; [|unfold service; destruct (negb _); discriminate].
  destruct (service_spec p ow nw la po W s c co rs Quiet I C PM) as [SA SB]. destruct (Z_lt_le_dec 0 (ow (p - 2))) as [O|O]; [destruct (SA O) as [-> _]; discriminate|].
  assert (OZ : ow (p - 2) = 0) by (assert (X := v_ow _ _ _ _ _ _ s I (p - 2)); lia). destruct (SB OZ) as [_ [D _]]. apply D. split; [exact w|]. intros _. reflexivity.
Qed.
Theorem C47_defined_partial : forall l s o, history l s -> Forall whole l -> allowed o l -> step o s <> None.
Proof.
  intros l s o H W AL. assert (I := history_inv l s H). unfold linv in I. destruct o as [c co rs e|v|v c rs e]; cbn [step allowed] in *.
  - destruct AL as [C PM]. eapply service_defined; eassumption.
  - rewrite (get_ok _ _ _ _ _ _ s v I AL). discriminate.
  - destruct AL as [OV [C PM]]. destruct (find_ok _ _ _ _ _ _ s v I OV) as [F [V1 V2]]. unfold release. rewrite F. cbn [bind]. fold (at_v s v). assert (RF := v_ref _ _ _ _ _ _ s I v V1 V2). cbn beta in RF.
    destruct (Z.eqb_spec (sl_ref (at_v s v)) 0) as [X|_]; [lia|]. destruct (need_service _); [|discriminate].
    set (s1 := with_need (put s (M (v - 1)) _) false). assert (J : inv (versions l) (upd (fun v => owed v l) v (owed v l - 1)) (now l) (last l) false (Forall whole l) s1).
    { eapply (freed_inv _ _ _ _ _ _ s v s1 I OV); reflexivity. }
    assert (D := service_defined _ _ _ _ _ _ s1 c false rs e J W C PM). destruct (service s1 c false rs e); [discriminate|contradiction].
Qed.
Print Assumptions C47_defined_partial.

(** ** Example histories. *)
Definition calls := list op.
Definition allowed_b (o : op) (lg : log) : bool :=
  let ok (ms : list msg) := forallb (fun m => match m with New r | Amend r => 0 <? r_index r | Del _ => true end) ms in
  match o with
  | OService c _ rs e => (0 <? c) && ok (brought rs e)
  | OGet v => 0 <? owed v lg
  | ORelease v c rs e => (0 <? owed v lg) && ((0 <? c) && ok (brought rs e))
  end.
Lemma ok_b : forall ms, forallb (fun m => match m with New r | Amend r => 0 <? r_index r | Del _ => true end) ms = true -> Forall proper_msg ms.
Proof.
  intros ms H. rewrite forallb_forall in H. apply Forall_forall. intros m IN. specialize (H m IN). destruct m; cbn [proper_msg] in *; try exact Logic.I; apply Z.ltb_lt; exact H.
Qed.
Lemma allowed_b_ok : forall o lg, allowed_b o lg = true -> allowed o lg.
Proof.
  intros [c co rs e|v|v c rs e] lg H; cbn [allowed_b allowed] in *; rewrite ?andb_true_iff in H.
  - destruct H as [A B]. apply Z.ltb_lt in A. split; [exact A|apply ok_b; exact B].
  - apply Z.ltb_lt in H. exact H.
  - destruct H as [A [B C]]. apply Z.ltb_lt in A, B. split; [exact A|]. split; [exact B|apply ok_b; exact C].
Qed.
Fixpoint run (cs : calls) (lg : log) (s : state) : option (log * state) :=
  match cs with
  | [] => Some (lg, s)
  | o :: cs => if allowed_b o lg then match step o s with Some (s', os) => run cs (lg ++ [(o, os)]) s' | None => None end else None
  end.
Lemma run_history : forall cs lg s lg' s', history lg s -> run cs lg s = Some (lg', s') -> history lg' s'.
Proof.
  intros cs. induction cs as [|o cs IH]; intros lg s lg' s' H R; cbn [run] in R; [injection R as <- <-; exact H|].
  destruct (allowed_b o lg) eqn:A; [|discriminate R]. destruct (step o s) as [[s1 os]|] eqn:ST; [|discriminate R]. eapply IH; [|exact R]. eapply h_step; [exact H|apply allowed_b_ok; exact A|exact ST].
Qed.

Definition eth (i flags : Z) : row := mkRow i 0 1 0 flags [101; 116; 104; 48 + i] 0 0 0 0 false 0 0 0 0.
Definition appear (i : Z) : op := OService 2 false [[New (eth i 1)]] Quiet.
Definition freed_by_all (v : Z) : calls := [ORelease v 2 [] Quiet; ORelease v 2 [] Quiet].

(** Three versions, the first one still held by one of its two consumers; a read is put off and happens when it is released. *)
Definition busy : calls := [OService 2 false [[New (eth 3 1); New (eth 2 1)]] Quiet; ORelease 1 2 [] Quiet; appear 4; appear 5; appear 6; OGet 1].
Example C47_never_modified_example : exists l1 l2 s1 s2, history l1 s1 /\ history (l1 ++ l2) s2 /\ 0 < owed 1 l1 /\ 0 < owed 1 (l1 ++ l2) /\ versions l1 = 1 /\ versions (l1 ++ l2) = 3 /\
  step (OGet 1) s2 = Some (s2, [Table [(eth 2 1, Up); (eth 3 1, Up)]]).
Proof.
  destruct (run [OService 2 false [[New (eth 3 1); New (eth 2 1)]] Quiet] [] start) as [[l1 s1]|] eqn:R1; [|vm_compute in R1; discriminate R1].
  assert (H1 : history l1 s1) by (eapply run_history; [apply h_start|exact R1]).
  destruct (run [ORelease 1 2 [] Quiet; appear 4; appear 5; appear 6; OGet 1] l1 s1) as [[l2 s2]|] eqn:R2; [|injection R1 as <- <-; vm_compute in R2; discriminate R2].
  assert (H2 : history l2 s2) by (eapply run_history; [exact H1|exact R2]).
  exists l1, (skipn 1 l2), s1, s2. vm_compute in R1. injection R1 as <- <-. vm_compute in R2. injection R2 as <- <-. cbn [skipn app].
  split; [exact H1|]. split; [exact H2|]. split; [vm_compute; reflexivity|]. split; [vm_compute; reflexivity|]. split; [vm_compute; reflexivity|]. split; vm_compute; reflexivity.
Qed.
Example C47_put_off_example : exists l s, history l s /\ map snd l = [[Version 1]; [Freed]; [Version 2]; [Version 3]; [Again]; [Table [(eth 2 1, Up); (eth 3 1, Up)]]; [Freed; Version 4]] /\
  0 < owed 1 (firstn 4 l) /\ owed 1 l = 0 /\ Forall whole l.
Proof.
  destruct (run (busy ++ [ORelease 1 2 [[New (eth 6 1)]] Quiet]) [] start) as [[l s]|] eqn:R; [|vm_compute in R; discriminate R].
  assert (H : history l s) by (eapply run_history; [apply h_start|exact R]). exists l, s. split; [exact H|]. vm_compute in R. injection R as <- <-.
  split; [vm_compute; reflexivity|]. split; [vm_compute; reflexivity|]. split; [vm_compute; reflexivity|]. repeat (constructor; [exact Logic.I|]). constructor.
Qed.
(** A flag that does not matter makes no version; going down does; so does disappearing. *)
Example C47_content_example : exists l s, history l s /\ map snd l = [[Version 1]; [Nothing]; [Version 2]; [Version 3]; [Table []]; [Table [(eth 2 0, Change)]]].
Proof.
  destruct (run [appear 2; OService 2 false [[New (eth 2 3)]] Quiet; OService 2 false [[New (eth 2 0)]] Quiet; OService 2 false [[Del 2]] Quiet; OGet 3; OGet 2] [] start) as [[l s]|] eqn:R; [|vm_compute in R; discriminate R].
  assert (H : history l s) by (eapply run_history; [apply h_start|exact R]). exists l, s. split; [exact H|]. vm_compute in R. injection R as <- <-. vm_compute. reflexivity.
Qed.

(** Reading breaks off in the first round, after interface 3 and then interface 2 have been reported; the next read, which brings nothing, stops the program. *)
Theorem C47_broken_refuted : exists l s o, history l s /\ allowed o l /\ step o s = None.
Proof.
  destruct (run [OService 1 false [] (Broken [New (eth 3 1); New (eth 2 1)])] [] start) as [[l s]|] eqn:R; [|vm_compute in R; discriminate R].
  assert (H : history l s) by (eapply run_history; [apply h_start|exact R]). exists l, s, (OService 1 false [] Quiet). split; [exact H|]. split; [apply allowed_b_ok; reflexivity|].
  vm_compute in R. injection R as <- <-. vm_compute. reflexivity.
Qed.
Print Assumptions C47_broken_refuted.

(** A version that nobody holds any more should be reported as unknown; after five versions the search for the first reads outside the ring. *)
Theorem C47_stale_refuted : exists l s, history l s /\ owed 1 l = 0 /\ versions l = 5 /\ step (OGet 1) s = None.
Proof.
  destruct (run (appear 2 :: freed_by_all 1 ++ appear 3 :: freed_by_all 2 ++ appear 4 :: freed_by_all 3 ++ appear 5 :: freed_by_all 4 ++ [appear 6]) [] start) as [[l s]|] eqn:R; [|vm_compute in R; discriminate R].
  assert (H : history l s) by (eapply run_history; [apply h_start|exact R]). exists l, s. split; [exact H|]. vm_compute in R. injection R as <- <-. split; [vm_compute; reflexivity|]. split; vm_compute; reflexivity.
Qed.
Print Assumptions C47_stale_refuted.
