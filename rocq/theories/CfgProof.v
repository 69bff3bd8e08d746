(** Proofs about configuration parsing. *)
Require Import ZArith Lia List Bool Arith.
Require Import Verif.Base Verif.ListLib Verif.StrSpec Verif.TokSpec Verif.TokModel Verif.TokProof Verif.CfgSpec Verif.CfgModel.
Import ListNotations.
Open Scope Z_scope.

Lemma weqb_true : forall a b, weqb a b = true <-> a = b.
Proof. intros. unfold weqb. destruct (word_dec a b); split; congruence. Qed.
Lemma weqb_false : forall a b, weqb a b = false <-> a <> b.
Proof. intros. unfold weqb. destruct (word_dec a b); split; congruence. Qed.

Lemma convert_dashes_eq : forall w, convert_dashes w = underscored w.
Proof. induction w as [|c w IH]; [reflexivity|]. cbn. rewrite IH. reflexivity. Qed.

(** *** Reading a line *)
Lemma rindex_none : forall x w, rindex_of x w = None -> ~ In x w.
Proof.
  induction w as [|c w IH]; intros H; [intros []|]. cbn in H. destruct (rindex_of x w); [discriminate|].
  destruct (c =? x) eqn:E; [discriminate|]. apply Z.eqb_neq in E. intros [A|A]; [congruence|exact (IH eq_refl A)].
Qed.
Lemma index_none : forall x w, index_of x w = None -> ~ In x w.
Proof.
  induction w as [|c w IH]; intros H; [intros []|]. cbn in H. destruct (c =? x) eqn:E; [discriminate|].
  apply Z.eqb_neq in E. destruct (index_of x w); [discriminate|]. intros [A|A]; [congruence|exact (IH eq_refl A)].
Qed.
Lemma rindex_0 : forall x w, rindex_of x w = Some 0%nat -> ~ In x (tl w).
Proof.
  intros x [|c w] H; [intros []|]. cbn in *. destruct (rindex_of x w) eqn:E; [discriminate|]. apply rindex_none. assumption.
Qed.
Lemma rindex_conv : forall x w, ~ In x (tl w) -> forall i, rindex_of x w = Some i -> i = 0%nat.
Proof.
  intros x [|c w] H i; [discriminate|]. cbn in *. destruct (rindex_of x w) as [j|] eqn:E.
  - exfalso. apply H. clear - E. revert j E. induction w as [|c w IH]; intros j E; [discriminate|]. cbn in E.
    destruct (rindex_of x w); [right; eapply IH; reflexivity|]. destruct (c =? x) eqn:Ec; [|discriminate].
    left. apply Z.eqb_eq. assumption.
  - destruct (c =? x); congruence.
Qed.
Lemma removelast_cons : forall (c d : Z) w, removelast (c :: d :: w) = c :: removelast (d :: w).
Proof. reflexivity. Qed.
Lemma index_last : forall x w i, index_of x w = Some i -> i = (length w - 1)%nat -> ~ In x (removelast w).
Proof.
  induction w as [|c w IH]; intros i H E; [intros []|]. cbn [index_of] in H.
  destruct w as [|d w]; [intros []|]. rewrite removelast_cons.
  destruct (c =? x) eqn:Ec; [inversion H; subst; cbn in *; lia|]. apply Z.eqb_neq in Ec.
  destruct (index_of x (d :: w)) as [j|] eqn:Ej; [|discriminate]. cbn in H. inversion H; subst.
  intros [A|A]; [congruence|]. eapply (IH j eq_refl); [|exact A]. cbn in *. lia.
Qed.
Lemma index_conv : forall x w, ~ In x (removelast w) -> forall i, index_of x w = Some i -> i = (length w - 1)%nat.
Proof.
  induction w as [|c w IH]; intros H i Hi; [discriminate|]. cbn [index_of] in Hi.
  destruct w as [|d w]; [destruct (c =? x); [inversion Hi; reflexivity|discriminate]|].
  rewrite removelast_cons in H. destruct (c =? x) eqn:Ec; [apply Z.eqb_eq in Ec; exfalso; apply H; left; assumption|].
  destruct (index_of x (d :: w)) as [j|] eqn:Ej; [|discriminate]. cbn in Hi. inversion Hi; subst.
  rewrite (IH (fun a => H (or_intror a)) j eq_refl). cbn. lia.
Qed.

Lemma syntax_ok_iff : forall w, syntax_bad w = false <-> ~ In OPEN (tl w) /\ ~ In CLOSE (removelast w).
Proof.
  intros w. unfold syntax_bad. rewrite orb_false_iff. split.
  - intros [A B]. split.
    + destruct (rindex_of OPEN w) as [i|] eqn:E.
      * apply negb_false_iff, Nat.eqb_eq in A. subst. apply rindex_0. assumption.
      * apply rindex_none in E. intros Hin. apply E. destruct w; [destruct Hin|right; assumption].
    + destruct (index_of CLOSE w) as [i|] eqn:E.
      * apply negb_false_iff, Nat.eqb_eq in B. eapply index_last; eassumption.
      * apply index_none in E. intros Hin. apply E. clear - Hin.
        induction w as [|c w IH]; [destruct Hin|]. destruct w as [|d w]; [destruct Hin|].
        rewrite removelast_cons in Hin. destruct Hin as [H|H]; [left; assumption|right; apply IH; assumption].
  - intros [A B]. split.
    + destruct (rindex_of OPEN w) as [i|] eqn:E; [|reflexivity]. rewrite (rindex_conv _ _ A _ E). reflexivity.
    + destruct (index_of CLOSE w) as [i|] eqn:E; [|reflexivity]. rewrite (index_conv _ _ B _ E), Nat.eqb_refl. reflexivity.
Qed.

Lemma new_section_some : forall w n, new_section w = Some n <-> w = OPEN :: n ++ [CLOSE].
Proof.
  intros w n. split.
  - destruct w as [|c w]; [discriminate|]. unfold new_section.
    destruct ((c =? OPEN) && (last (c :: w) 0 =? CLOSE)) eqn:E; [|discriminate]. intros H. inversion H; subst; clear H.
    apply andb_true_iff in E as [A B]. apply Z.eqb_eq in A, B. subst c.
    destruct w as [|d w]; [discriminate|]. f_equal. change (last (OPEN :: d :: w) 0) with (last (d :: w) 0) in B.
    rewrite (app_removelast_last 0 (l := d :: w)) at 1 by discriminate. rewrite B. reflexivity.
  - intros ->. unfold new_section.
    assert (L : last (OPEN :: n ++ [CLOSE]) 0 = CLOSE).
    { change (OPEN :: n ++ [CLOSE]) with ((OPEN :: n) ++ [CLOSE]). apply last_last. }
    rewrite L, !Z.eqb_refl. cbn [andb]. rewrite removelast_last. reflexivity.
Qed.

Lemma tl_underscored : forall w x, x <> UNDERSCORE -> x <> DASH -> (In x (tl (underscored w)) <-> In x (tl w)).
Proof.
  intros [|c w] x H H'; [reflexivity|]. cbn. unfold underscored. rewrite in_map_iff. split.
  - intros [y [E Hy]]. destruct (y =? DASH); congruence.
  - intros Hx. exists x. split; [|assumption]. apply Z.eqb_neq in H'. rewrite H'. reflexivity.
Qed.
Lemma map_removelast : forall (f : Z -> Z) w, removelast (map f w) = map f (removelast w).
Proof.
  intros f. induction w as [|c w IH]; [reflexivity|]. destruct w as [|d w]; [reflexivity|].
  cbn [map] in *. rewrite !removelast_cons. cbn [map]. f_equal. exact IH.
Qed.
Lemma rl_underscored : forall w x, x <> UNDERSCORE -> x <> DASH -> (In x (removelast (underscored w)) <-> In x (removelast w)).
Proof.
  intros w x H H'. unfold underscored. rewrite map_removelast, in_map_iff. split.
  - intros [y [E Hy]]. destruct (y =? DASH); congruence.
  - intros Hx. exists x. split; [|assumption]. apply Z.eqb_neq in H'. rewrite H'. reflexivity.
Qed.

(** What parse_line sees of a line, in terms of [reads]. *)
Lemma line_cases : forall w ps,
  (syntax_bad (underscored w) = true /\ forall e, ~ reads (w :: ps) e) \/
  (syntax_bad (underscored w) = false /\
   ((exists n, new_section (underscored w) = Some n /\ reads (w :: ps) (Section n)) \/
    (new_section (underscored w) = None /\ reads (w :: ps) (Stanza (underscored w) ps)))).
Proof.
  intros w ps. destruct (syntax_bad (underscored w)) eqn:Es.
  - left. split; [reflexivity|]. intros e He.
    assert (syntax_bad (underscored w) = false); [|congruence]. apply syntax_ok_iff.
    inversion He as [|w' n ps' E A B|w' ps' E A B]; subst.
    + rewrite E. cbn [tl]. split.
      * rewrite in_app_iff. intros [H|[H|[]]]; [contradiction|discriminate].
      * change (OPEN :: n ++ [CLOSE]) with ((OPEN :: n) ++ [CLOSE]). rewrite removelast_last. intros [H|H]; [discriminate|contradiction].
    + rewrite tl_underscored by discriminate. rewrite rl_underscored by discriminate. split; assumption.
  - right. split; [reflexivity|]. apply syntax_ok_iff in Es as [A B].
    destruct (new_section (underscored w)) as [n|] eqn:En.
    + left. exists n. split; [reflexivity|]. apply new_section_some in En. apply r_section; [assumption| |].
      * intros H. apply A. rewrite En. cbn. apply in_or_app. left. assumption.
      * intros H. apply B. rewrite En. change (OPEN :: n ++ [CLOSE]) with ((OPEN :: n) ++ [CLOSE]). rewrite removelast_last. right. assumption.
    + right. split; [reflexivity|]. apply r_stanza.
      * intros n E. apply new_section_some in E. congruence.
      * rewrite tl_underscored in A by discriminate. assumption.
      * rewrite rl_underscored in B by discriminate. assumption.
Qed.

Lemma reads_fun : forall l e e', reads l e -> reads l e' -> e = e'.
Proof.
  intros l e e' H H'. inversion H as [|w n ps E A B|w ps E A B]; subst; inversion H' as [|w' n' ps' E' A' B'|w' ps' E' A' B']; subst.
  - reflexivity.
  - rewrite E in E'. inversion E' as [E2]. apply app_inj_tail in E2 as [-> _]. reflexivity.
  - exfalso. eapply E'. eassumption.
  - exfalso. eapply E. eassumption.
  - reflexivity.
Qed.

Section P.
Variable S : Type.
Variable table : nat -> option (list (opt S)).
Variable valid : nat -> validator S.
Variable implicit : S -> S.
Variable boot : list (section S).
Hypothesis HB : boot_ok boot.

Notation cfg := (cfg S).
Notation secs := (c_secs S).
Notation decl := (c_decl S).
Definition tbl (c : nat) : list (opt S) := match table c with Some t => t | None => [] end.

Definition same_id (a b : section S) : Prop :=
  s_cat a = s_cat b /\ s_global a = s_global b /\ s_allows a = s_allows b /\ s_name a = s_name b.
Lemma same_id_refl : forall a, same_id a a. Proof. repeat split. Qed.
Lemma same_id_trans : forall a b c, same_id a b -> same_id b c -> same_id a c.
Proof. intros a b c [A [B [C D]]] [A' [B' [C' D']]]. repeat split; congruence. Qed.
Lemma with_set_id : forall x v, same_id x (with_set S x v). Proof. repeat split. Qed.

Lemma opt_find_lookup : forall t n, opt_find S t n = lookup t n.
Proof. induction t as [|o t IH]; intros n; [reflexivity|]. cbn. unfold weqb. destruct (word_dec n (o_name o)); [reflexivity|apply IH]. Qed.

Lemma bad_arity_false : forall a k, bad_arity a k = false <-> arity_ok a k.
Proof.
  intros a k. unfold bad_arity, arity_ok.  assert (E : Z.lnot a = - a - 1) by (unfold Z.lnot; lia). rewrite E.
  destruct (0 <=? a) eqn:E0.
  - apply Z.leb_le in E0. rewrite negb_false_iff, Z.eqb_eq. lia.
  - apply Z.leb_gt in E0. rewrite Z.ltb_ge. lia.
Qed.

Lemma find_some : forall l n i j, find_from S i l n = Some j ->
  exists k x, j = (i + k)%nat /\ nth_error l k = Some x /\ s_name x = n.
Proof.
  induction l as [|s l IH]; intros n i j H; [discriminate|]. cbn in H.
  destruct (weqb (s_name s) n) eqn:E.
  - inversion H; subst. exists 0%nat, s. apply weqb_true in E. split; [lia|]. split; [reflexivity|assumption].
  - destruct (IH _ _ _ H) as [k [x [A [B C]]]]. exists (Datatypes.S k), x. split; [lia|]. split; assumption.
Qed.
Lemma find_none : forall l n i, find_from S i l n = None <-> ~ In n (map s_name l).
Proof.
  induction l as [|s l IH]; intros n i; [split; [intros _ []|reflexivity]|]. cbn.
  destruct (weqb (s_name s) n) eqn:E.
  - apply weqb_true in E. split; [discriminate|]. intros H. exfalso. apply H. left. assumption.
  - apply weqb_false in E. rewrite IH. split; [intros A [B|B]; [congruence|exact (A B)]|tauto].
Qed.
Lemma cfg_find_some : forall (c : cfg) n j, cfg_find S c n = Some j -> exists x, nth_error (secs c) j = Some x /\ s_name x = n.
Proof. intros c n j H. destruct (find_some _ _ _ _ H) as [k [x [-> [B C]]]]. exists x. split; assumption. Qed.

Lemma NoDup_nth_eq : forall (l : list (section S)) i j x y, NoDup (map s_name l) -> nth_error l i = Some x -> nth_error l j = Some y ->
  s_name x = s_name y -> i = j /\ x = y.
Proof.
  intros l i j x y Hn Hi Hj E. assert (i = j).
  { apply (proj1 (NoDup_nth_error (map s_name l)) Hn).
    - rewrite map_length. apply nth_error_Some. congruence.
    - rewrite !nth_error_map, Hi, Hj. cbn. congruence. }
  subst. split; congruence.
Qed.
Lemma In_name_eq : forall (l : list (section S)) x y, NoDup (map s_name l) -> In x l -> In y l -> s_name x = s_name y -> x = y.
Proof.
  intros l x y Hn Hx Hy E. apply In_nth_error in Hx as [i Hi]. apply In_nth_error in Hy as [j Hj].
  eapply NoDup_nth_eq; eassumption.
Qed.

(** *** Settings *)
Lemma effective_snoc : forall t g x sts st s0, effective t g x (sts ++ [st]) s0 =
  (if word_dec (st_sec st) g then apply t (effective t g x sts s0) st
   else if word_dec (st_sec st) x then apply t (effective t g x sts s0) st else effective t g x sts s0 : S).
Proof. intros. unfold effective. rewrite fold_left_app. reflexivity. Qed.

Lemma effective_new : forall t g x sts (s0 : S), (forall st, In st sts -> st_sec st <> x) ->
  effective t g x sts s0 = effective t g g sts s0.
Proof.
  intros t g x sts. induction sts as [|st sts IH] using rev_ind; intros s0 H; [reflexivity|].
  rewrite !effective_snoc. rewrite IH by (intros; apply H; apply in_or_app; left; assumption).
  destruct (word_dec (st_sec st) g); [reflexivity|].
  destruct (word_dec (st_sec st) x) as [E|_]; [|reflexivity].
  exfalso. apply (H st); [apply in_or_app; right; left; reflexivity|assumption].
Qed.

Definition cat_of (l : list (section S)) (n : word) (c : nat) : Prop := exists x, In x l /\ s_name x = n /\ s_cat x = c.
Definition decl_in (l : list (section S)) (sts : list stanza) (g : section S) (ns : list word) : Prop :=
  exists st c0, In st sts /\ cat_of l (st_sec st) c0 /\ declares table c0 g st ns.

Definition plain_settings (sts : list stanza) (x : section S) : Prop :=
  exists g, In g boot /\ s_cat g = s_cat x /\
    s_set x = effective (tbl (s_cat x)) (s_name g) (s_name x) sts (s_set g).
Definition implicit_settings (l : list (section S)) (sts : list stanza) (x : section S) : Prop :=
  s_cat x = CRNY /\ s_name x = crny0_name /\ s_global x = false /\
  exists g s1 s2, In g boot /\ s_cat g = CRNY /\ sts = s1 ++ s2 /\
    (forall ns, ~ decl_in l s1 g ns) /\
    s_set x = effective (tbl CRNY) (s_name g) (s_name x) s2
                (implicit (effective (tbl CRNY) (s_name g) (s_name g) s1 (s_set g))).

Definition stanza_ok (x : section S) (st : stanza) : Prop :=
  exists t o, table (s_cat x) = Some t /\ lookup t (st_name st) = Some o /\
    (o_global_only o = true -> s_global x = true) /\ arity_ok (o_arity o) (length (st_params st)).

Definition declared_by (l : list (section S)) (sts : list stanza) (x : section S) : Prop :=
  exists g ns, In g boot /\ s_cat g = s_cat x /\ s_allows g = true /\ In (s_name x) ns /\ decl_in l sts g ns.

Record inv (c : cfg) (sts : list stanza) : Prop := {
  i_parts : exists bs is, secs c = bs ++ is /\ Forall2 same_id boot bs /\
     Forall (fun x => s_global x = false /\ s_allows x = false /\ In (s_cat x) (map s_cat boot)) is;
  i_names : NoDup (map s_name (secs c));
  i_stanzas : forall st, In st sts -> exists x, In x (secs c) /\ s_name x = st_sec st /\ stanza_ok x st;
  i_global : forall x, In x (secs c) -> s_global x = true -> plain_settings sts x;
  i_inst : forall x, In x (secs c) -> s_global x = false ->
     (plain_settings sts x /\ declared_by (secs c) sts x) \/ implicit_settings (secs c) sts x;
  i_decl : forall g, In g boot -> (In (s_cat g) (decl c) <-> exists ns, decl_in (secs c) sts g ns);
  i_made : forall g ns n, In g boot -> decl_in (secs c) sts g ns -> In n ns ->
     exists x, In x (secs c) /\ s_name x = n /\ s_cat x = s_cat g /\ s_global x = false
}.

(** Facts from the parts. *)
Lemma F2_in_l : forall (l l' : list (section S)) a, Forall2 same_id l l' -> In a l -> exists b, In b l' /\ same_id a b.
Proof.
  intros l l' a H. induction H as [|x y l l' Hxy H IH]; intros Hin; [destruct Hin|].
  destruct Hin as [->|Hin]; [exists y; split; [left; reflexivity|assumption]|].
  destruct (IH Hin) as [b [A B]]. exists b. split; [right; assumption|assumption].
Qed.
Lemma F2_in_r : forall (l l' : list (section S)) b, Forall2 same_id l l' -> In b l' -> exists a, In a l /\ same_id a b.
Proof.
  intros l l' b H. induction H as [|x y l l' Hxy H IH]; intros Hin; [destruct Hin|].
  destruct Hin as [->|Hin]; [exists x; split; [left; reflexivity|assumption]|].
  destruct (IH Hin) as [a [A B]]. exists a. split; [right; assumption|assumption].
Qed.

Lemma cat_In_eq : forall x y, In x boot -> In y boot -> s_cat x = s_cat y -> x = y.
Proof.
  destruct HB as [_ [Hc _]]. intros x y Hx Hy E. apply In_nth_error in Hx as [i Hi]. apply In_nth_error in Hy as [j Hj].
  assert (i = j).
  { apply (proj1 (NoDup_nth_error (map s_cat boot)) Hc).
    - rewrite map_length. apply nth_error_Some. congruence.
    - rewrite !nth_error_map, Hi, Hj. cbn. congruence. }
  subst. congruence.
Qed.

(** Every global section comes from [boot], and every boot section is there. *)
Lemma global_boot : forall c sts x, inv c sts -> In x (secs c) -> s_global x = true -> exists g, In g boot /\ same_id g x.
Proof.
  intros c sts x I Hx Hg. destruct (i_parts _ _ I) as [bs [is [E [F G]]]]. rewrite E in Hx.
  apply in_app_or in Hx as [Hx|Hx]; [apply (F2_in_r _ _ _ F Hx)|].
  rewrite Forall_forall in G. destruct (G x Hx) as [A _]. congruence.
Qed.
Lemma boot_global : forall c sts g, inv c sts -> In g boot -> exists x, In x (secs c) /\ same_id g x /\ s_global x = true.
Proof.
  intros c sts g I Hg. destruct (i_parts _ _ I) as [bs [is [E [F G]]]].
  destruct (F2_in_l _ _ _ F Hg) as [x [A B]]. exists x. rewrite E. split; [apply in_or_app; left; assumption|].
  split; [assumption|]. destruct HB as [_ [_ HG]]. rewrite Forall_forall in HG. destruct B as [_ [B _]]. rewrite <- B. apply HG. assumption.
Qed.

(** In scope or not. *)
Lemma scope_global : forall c sts sec x g, inv c sts -> In sec (secs c) -> s_global sec = true -> In x (secs c) ->
  In g boot -> s_cat g = s_cat x ->
  (s_cat x = s_cat sec -> s_name sec = s_name g) /\
  (s_cat x <> s_cat sec -> s_name sec <> s_name g /\ s_name sec <> s_name x).
Proof.
  intros c sts sec x g I Hs Hsg Hx Hg Hc. destruct (global_boot c sts sec I Hs Hsg) as [g' [Hg' Id]].
  destruct Id as [A [B [C D]]]. split.
  - intros E. assert (g = g') by (apply cat_In_eq; [assumption|assumption|congruence]). congruence.
  - intros E. split.
    + intros En. apply E. destruct HB as [Hn [_ _]]. assert (g = g') by (apply (In_name_eq boot); [assumption|assumption|assumption|congruence]). congruence.
    + intros En. apply E. assert (sec = x) by (apply (In_name_eq (secs c)); [apply (i_names _ _ I)|assumption|assumption|assumption]). congruence.
Qed.
Lemma scope_inst : forall c sts sec x g, inv c sts -> In sec (secs c) -> s_global sec = false -> In x (secs c) ->
  In g boot -> s_cat g = s_cat x -> s_name sec <> s_name g /\ (x <> sec -> s_name sec <> s_name x).
Proof.
  intros c sts sec x g I Hs Hsg Hx Hg Hc. split.
  - intros En. destruct (boot_global c sts g I Hg) as [y [Hy [Id Gy]]].
    assert (sec = y). { apply (In_name_eq (secs c)); [apply (i_names _ _ I)|assumption|assumption|]. destruct Id as [_ [_ [_ D]]]. congruence. }
    congruence.
  - intros Hne En. apply Hne. symmetry. apply (In_name_eq (secs c)); [apply (i_names _ _ I)|assumption|assumption|assumption].
Qed.

(** *** Updating settings *)
Lemma cat_of_map : forall l l' n k, Forall2 same_id l l' -> (cat_of l n k <-> cat_of l' n k).
Proof.
  intros l l' n k F. split.
  - intros [x [A [B C]]]. destruct (F2_in_l _ _ _ F A) as [y [D [E1 [E2 [E3 E4]]]]]. exists y. repeat split; congruence.
  - intros [x [A [B C]]]. destruct (F2_in_r _ _ _ F A) as [y [D [E1 [E2 [E3 E4]]]]]. exists y. repeat split; congruence.
Qed.
Lemma names_map : forall l l', Forall2 same_id l l' -> map s_name l' = map s_name l.
Proof. intros l l' F. induction F as [|x y l l' [_ [_ [_ D]]] F IH]; [reflexivity|]. cbn. congruence. Qed.

Lemma cat_of_fun : forall l n k k', NoDup (map s_name l) -> cat_of l n k -> cat_of l n k' -> k = k'.
Proof.
  intros l n k k' H [x [A [B C]]] [y [A' [B' C']]]. assert (x = y) by (apply (In_name_eq l); [assumption|assumption|assumption|congruence]). congruence.
Qed.

(** The settings after an option that reads parameters. *)
Definition upd (sec : section S) (f : S -> list word -> S * Z) (ps : list word) (x x' : section S) : Prop :=
  same_id x x' /\
  s_set x' = (if s_global sec then (if (s_cat x =? s_cat sec)%nat then fst (f (s_set x) ps) else s_set x)
              else (if word_dec (s_name x) (s_name sec) then fst (f (s_set x) ps) else s_set x)).

Lemma F2_impl : forall (P Q : section S -> section S -> Prop) l l', (forall a b, In a l -> P a b -> Q a b) -> Forall2 P l l' -> Forall2 Q l l'.
Proof.
  intros P Q l l' H F. induction F as [|x y l l' Hxy F IH]; constructor.
  - apply H; [left; reflexivity|assumption].
  - apply IH. intros. apply H; [right; assumption|assumption].
Qed.

Lemma inv_upd : forall c sts l' sec name f ps t o, inv c sts -> In sec (secs c) -> table (s_cat sec) = Some t ->
  lookup t name = Some o -> o_parse o = Some f -> stanza_ok sec (mkSt (s_name sec) name ps) ->
  Forall2 (upd sec f ps) (secs c) l' -> inv (mkCfg S l' (decl c)) (sts ++ [mkSt (s_name sec) name ps]).
Proof.
  intros c sts l' sec name f ps t o I Hsec Ht Hl Hp Hok F. set (st := mkSt (s_name sec) name ps) in *.
  assert (Fid : Forall2 same_id (secs c) l') by (eapply F2_impl; [|exact F]; intros a b _ [A _]; exact A).
  assert (Ap : forall s, apply t s st = fst (f s ps)). { intros s. unfold apply. cbn [st_name st_params st]. rewrite Hl, Hp. reflexivity. }
  (* old and new *)
  assert (Old : forall x', In x' l' -> exists x, In x (secs c) /\ upd sec f ps x x').
  { clear - F. intros x'. induction F as [|a b l l' Hab F IH]; intros Hin; [destruct Hin|].
    destruct Hin as [->|Hin]; [exists a; split; [left; reflexivity|assumption]|].
    destruct (IH Hin) as [x [A B]]. exists x. split; [right; assumption|assumption]. }
  (* effect on effective settings *)
  assert (Eff : forall x x' g, In x (secs c) -> upd sec f ps x x' -> In g boot -> s_cat g = s_cat x ->
     forall sts0 s0, s_set x = effective (tbl (s_cat x)) (s_name g) (s_name x) sts0 s0 ->
       s_set x' = effective (tbl (s_cat x')) (s_name g) (s_name x') (sts0 ++ [st]) s0).
  { intros x x' g Hx [[A [B [C D]]] Hv] Hg Hc sts0 s0 E. rewrite <- A, <- D, effective_snoc, <- E. cbn [st_sec st].
    destruct (s_global sec) eqn:Gs.
    - destruct (scope_global c sts sec x g I Hsec Gs Hx Hg Hc) as [In1 Out1].
      destruct (s_cat x =? s_cat sec)%nat eqn:Ec.
      + apply Nat.eqb_eq in Ec. destruct (word_dec (s_name sec) (s_name g)) as [_|N]; [|exfalso; apply N; apply In1; assumption].
        assert (Et : tbl (s_cat x) = t) by (unfold tbl; rewrite Ec, Ht; reflexivity). rewrite Et, Ap. assumption.
      + apply Nat.eqb_neq in Ec. destruct (Out1 Ec) as [N1 N2].
        destruct (word_dec (s_name sec) (s_name g)); [contradiction|]. destruct (word_dec (s_name sec) (s_name x)); [contradiction|]. assumption.
    - destruct (scope_inst c sts sec x g I Hsec Gs Hx Hg Hc) as [N1 N2].
      destruct (word_dec (s_name sec) (s_name g)); [contradiction|].
      destruct (word_dec (s_name x) (s_name sec)) as [En|En].
      + assert (x = sec) by (apply (In_name_eq (secs c)); [apply (i_names _ _ I)|assumption|assumption|assumption]). subst x.
        destruct (word_dec (s_name sec) (s_name sec)) as [_|N]; [|congruence].
        assert (Et : tbl (s_cat sec) = t) by (unfold tbl; rewrite Ht; reflexivity). rewrite Et, Ap. assumption.
      + destruct (word_dec (s_name sec) (s_name x)); [congruence|]. assumption. }
  assert (Nodecl : forall g ns k, cat_of (secs c) (st_sec st) k -> ~ declares table k g st ns).
  { intros g ns k Hk [tb [o' [D1 [D2 [D3 _]]]]].
    assert (k = s_cat sec). { eapply cat_of_fun; [apply (i_names _ _ I)|exact Hk|]. exists sec. repeat split. assumption. }
    subst k. cbn in D2. congruence. }
  assert (Dec : forall g ns, decl_in l' (sts ++ [st]) g ns <-> decl_in (secs c) sts g ns).
  { intros g ns. split.
    - intros [st' [k [A [B C]]]]. apply (cat_of_map _ _ _ _ Fid) in B. apply in_app_or in A as [A|[A|[]]].
      + exists st', k. repeat split; assumption.
      + subst st'. exfalso. eapply Nodecl; eassumption.
    - intros [st' [k [A [B C]]]]. exists st', k. split; [apply in_or_app; left; assumption|].
      split; [apply (cat_of_map _ _ _ _ Fid); assumption|assumption]. }
  assert (Dec1 : forall s1 g ns, (forall s, In s s1 -> In s sts) -> decl_in l' s1 g ns -> decl_in (secs c) s1 g ns).
  { intros s1 g ns Hsub [st' [k [A [B C]]]]. exists st', k. split; [assumption|]. split; [|assumption].
    apply (cat_of_map _ _ _ _ Fid). assumption. }
  constructor; cbn [c_secs c_decl].
  - destruct (i_parts _ _ I) as [bs [is [E [F1 F2]]]]. rewrite E in Fid.
    apply Forall2_app_inv_l in Fid as [bs' [is' [Fa [Fb ->]]]]. exists bs', is'. split; [reflexivity|]. split.
    + clear - F1 Fa. revert bs' Fa. induction F1 as [|a b l l2 Hab F1 IH]; intros bs' Fa; inversion Fa; subst; constructor;
        [eapply same_id_trans; eassumption|apply IH; assumption].
    + clear - F2 Fb. induction Fb as [|a b l l2 [A [B [C D]]] Fb IH]; [constructor|]. inversion F2 as [|? ? [G1 [G2 G3]] F2']; subst.
      constructor; [repeat split; congruence|apply IH; assumption].
  - rewrite (names_map _ _ Fid). apply (i_names _ _ I).
  - intros st' Hin. apply in_app_or in Hin as [Hin|[<-|[]]].
    + destruct (i_stanzas _ _ I st' Hin) as [x [A [B [t' [o' [C1 [C2 [C3 C4]]]]]]]].
      destruct (F2_in_l _ _ _ Fid A) as [x' [A' [E1 [E2 [E3 E4]]]]]. exists x'. split; [assumption|]. split; [congruence|].
      exists t', o'. rewrite <- E1, <- E2. repeat split; try assumption; apply C4.
    + destruct (F2_in_l _ _ _ Fid Hsec) as [x' [A' [E1 [E2 [E3 E4]]]]]. exists x'. split; [assumption|]. split; [cbn; congruence|].
      destruct Hok as [t' [o' [C1 [C2 [C3 C4]]]]]. exists t', o'. rewrite <- E1, <- E2. repeat split; try assumption; apply C4.
  - intros x' Hx' Hg'. destruct (Old x' Hx') as [x [Hx U]]. destruct U as [[A [B [C D]]] Hv].
    destruct (i_global _ _ I x Hx ltac:(congruence)) as [g [Hg [Hc Hs]]]. exists g. split; [assumption|]. split; [congruence|].
    eapply Eff; [exact Hx|split; [repeat split; assumption|exact Hv]|assumption|assumption|assumption].
  - intros x' Hx' Hg'. destruct (Old x' Hx') as [x [Hx U]]. pose proof U as [[A [B [C D]]] Hv].
    destruct (i_inst _ _ I x Hx ltac:(congruence)) as [[[g [Hg [Hc Hs]]] [g2 [ns [Q1 [Q2 [Q3 [Q4 Q5]]]]]]]|[P1 [P2 [P3 [g [s1 [s2 [Hg [Hc [E [Nd Hs]]]]]]]]]]].
    + left. split.
      * exists g. split; [assumption|]. split; [congruence|]. eapply Eff; eassumption.
      * exists g2, ns. split; [assumption|]. split; [congruence|]. split; [assumption|]. split; [congruence|]. apply Dec. assumption.
    + right. split; [congruence|]. split; [congruence|]. split; [congruence|]. exists g, s1, (s2 ++ [st]).
      split; [assumption|]. split; [assumption|]. split; [rewrite E, <- app_assoc; reflexivity|]. split.
      * intros ns Hn. apply (Nd ns). apply Dec1; [|assumption]. intros s Hs1. rewrite E. apply in_or_app. left. assumption.
      * replace CRNY with (s_cat x') at 1 by congruence. eapply Eff; try eassumption; [congruence|]. rewrite P1. assumption.
  - intros g Hg. rewrite (i_decl _ _ I g Hg). split; intros [ns Hn]; exists ns; apply Dec; assumption.
  - intros g ns n Hg Hn Hi. apply Dec in Hn. destruct (i_made _ _ I g ns n Hg Hn Hi) as [x [A [B [C D]]]].
    destruct (F2_in_l _ _ _ Fid A) as [x' [A' [E1 [E2 [E3 E4]]]]]. exists x'. repeat split; congruence.
Qed.

(** *** Option lines *)
Lemma ti_true : forall cat f ps l l', to_instances S true cat f ps l = Some l' ->
  Forall2 (fun x x' => same_id x x' /\ s_set x' = if (s_cat x =? cat)%nat then fst (f (s_set x) ps) else s_set x) l l'.
Proof.
  induction l as [|x l IH]; intros l' H; cbn in H; [inversion H; constructor|].
  destruct (s_cat x =? cat)%nat eqn:E; cbn [negb] in H.
  - destruct (f (s_set x) ps) as [v rc] eqn:Ef. destruct (rc =? 0); cbn [negb] in H; [|discriminate].
    destruct (to_instances S true cat f ps l) as [r|]; [|discriminate]. inversion H; subst.
    constructor; [|apply IH; reflexivity]. split; [repeat split|]. cbn. rewrite E, Ef. reflexivity.
  - destruct (to_instances S true cat f ps l) as [r|]; [|discriminate]. inversion H; subst.
    constructor; [|apply IH; reflexivity]. split; [repeat split|]. rewrite E. reflexivity.
Qed.
Lemma ti_false : forall cat f ps b1 g b2 l', (forall x, In x b1 -> s_cat x <> cat) -> s_cat g = cat ->
  to_instances S false cat f ps (b1 ++ g :: b2) = Some l' ->
  exists b2', l' = b1 ++ g :: b2' /\ to_instances S true cat f ps b2 = Some b2'.
Proof.
  induction b1 as [|x b1 IH]; intros g b2 l' Hb Hg H; cbn [app to_instances] in H.
  - rewrite Hg, Nat.eqb_refl in H. cbn [negb] in H. destruct (to_instances S true cat f ps b2) as [r|]; [|discriminate].
    inversion H; subst. exists r. split; reflexivity.
  - assert (E : (s_cat x =? cat)%nat = false) by (apply Nat.eqb_neq; apply Hb; left; reflexivity). rewrite E in H. cbn [negb] in H.
    destruct (to_instances S false cat f ps (b1 ++ g :: b2)) as [r|] eqn:Er; [|discriminate]. inversion H; subst.
    destruct (IH g b2 r (fun y Hy => Hb y (or_intror Hy)) eq_refl Er) as [b2' [-> Eb]]. exists b2'. split; [reflexivity|assumption].
Qed.

Lemma NoDup_map_split : forall (f : section S -> nat) b1 x b2, NoDup (map f (b1 ++ x :: b2)) -> (forall y, In y b1 -> f y <> f x).
Proof.
  intros f b1 x b2 H y Hy E. rewrite map_app in H. cbn in H. apply NoDup_remove_2 in H. apply H. apply in_or_app. left. rewrite <- E. apply in_map. assumption.
Qed.

Lemma global_split : forall c sts cur sec, inv c sts -> nth_error (secs c) cur = Some sec -> s_global sec = true ->
  exists b1 b2, secs c = b1 ++ sec :: b2 /\ length b1 = cur /\ (forall y, In y b1 -> s_cat y <> s_cat sec) /\
    (forall y, In y b2 -> s_cat y = s_cat sec -> s_global y = false).
Proof.
  intros c sts cur sec I Hn Hg. destruct (i_parts _ _ I) as [bs [is [E [F G]]]].
  assert (L : (cur < length bs)%nat).
  { destruct (Nat.lt_ge_cases cur (length bs)) as [L|L]; [assumption|]. exfalso. rewrite E, nth_error_app2 in Hn by assumption.
    apply nth_error_In in Hn. rewrite Forall_forall in G. destruct (G _ Hn) as [A _]. congruence. }
  rewrite E, nth_error_app1 in Hn by assumption. apply nth_error_split in Hn as [b1 [b2 [Eb Lb]]].
  exists b1, (b2 ++ is). split; [rewrite E, Eb, <- app_assoc; reflexivity|]. split; [assumption|].
  assert (ND : NoDup (map s_cat bs)).
  { destruct HB as [_ [Hc _]]. clear - F Hc. assert (map s_cat bs = map s_cat boot); [|congruence].
    induction F as [|a b l l' [A _] F IH]; [reflexivity|]. cbn. rewrite A. f_equal. apply IH. cbn in Hc. inversion Hc; assumption. }
  split.
  - intros y Hy. apply (NoDup_map_split s_cat b1 sec b2); [rewrite <- Eb; assumption|assumption].
  - intros y Hy Ec. apply in_app_or in Hy as [Hy|Hy].
    + exfalso. rewrite Eb, map_app in ND. cbn in ND. apply NoDup_remove_2 in ND. apply ND. apply in_or_app. right. rewrite <- Ec. apply in_map. assumption.
    + rewrite Forall_forall in G. apply (G y Hy).
Qed.

Lemma set_nth_app : forall (b1 : list (section S)) x y b2, set_nth (length b1) y (b1 ++ x :: b2) = b1 ++ y :: b2.
Proof. induction b1 as [|a b1 IH]; intros; [reflexivity|]. cbn. rewrite IH. reflexivity. Qed.

Lemma F2_refl : forall (P : section S -> section S -> Prop) l, (forall x, In x l -> P x x) -> Forall2 P l l.
Proof. induction l as [|x l IH]; intros H; constructor; [apply H; left; reflexivity|apply IH; intros; apply H; right; assumption]. Qed.

(** Instances created. *)
Lemma create_spec : forall ns c p P c', create_instances S c p ns = Some (c', 0) -> nth_error (secs c) p = Some P ->
  NoDup (map s_name (secs c)) ->
  decl c' = decl c /\ NoDup (map s_name (secs c')) /\
  secs c' = secs c ++ map (fun n => mkSec (s_cat P) false false n (s_set P)) ns.
Proof.
  induction ns as [|n ns IH]; intros c p P c' H Hp Hn; cbn [create_instances] in H.
  - inversion H; subst. split; [reflexivity|]. split; [assumption|]. rewrite app_nil_r. reflexivity.
  - destruct (NAME_MAX <=? length n)%nat; [discriminate|]. destruct (cfg_find S c n) eqn:Ef; [discriminate|].
    rewrite Hp in H. cbn [bind] in H. unfold sec_add in H. cbn [s_name] in H. rewrite Ef in H. cbn [bind] in H.
    apply find_none in Ef.
    destruct (IH _ _ P _ H) as [A [B C]].
    + cbn [c_secs]. rewrite nth_error_app1 by (apply nth_error_Some; congruence). assumption.
    + cbn [c_secs]. rewrite map_app. cbn. apply NoDup_app_one; assumption.
    + split; [exact A|]. split; [exact B|]. rewrite C. cbn [c_secs]. rewrite <- app_assoc. reflexivity.
Qed.

(** Adding sections at the end, with a stanza whose option does not change settings. *)
Lemma decl_in_app : forall l new sts g ns, NoDup (map s_name (l ++ new)) ->
  (forall st, In st sts -> exists x, In x l /\ s_name x = st_sec st) ->
  (decl_in (l ++ new) sts g ns <-> decl_in l sts g ns).
Proof.
  intros l new sts g ns Hn Hs. split.
  - intros [st [k [A [B C]]]]. exists st, k. split; [assumption|]. split; [|assumption].
    destruct (Hs st A) as [x [Hx En]]. exists x. split; [assumption|]. split; [assumption|].
    eapply cat_of_fun; [exact Hn| |exact B]. exists x. split; [apply in_or_app; left; assumption|]. split; [assumption|reflexivity].
  - intros [st [k [A [[x [B1 [B2 B3]]] C]]]]. exists st, k. split; [assumption|]. split; [|assumption].
    exists x. split; [apply in_or_app; left; assumption|]. split; assumption.
Qed.

Lemma apply_id : forall t s st o, lookup t (st_name st) = Some o -> o_parse o = None -> apply t s st = (s : S).
Proof. intros t s st o H H'. unfold apply. rewrite H, H'. reflexivity. Qed.

(** A declaring stanza in section [sec] changes nobody's settings. *)
Lemma eff_decl : forall c sts sec x g st t o s1 s0, inv c sts -> In sec (secs c) -> In x (secs c) -> In g boot -> s_cat g = s_cat x ->
  table (s_cat sec) = Some t -> lookup t (st_name st) = Some o -> o_parse o = None -> st_sec st = s_name sec ->
  effective (tbl (s_cat x)) (s_name g) (s_name x) (s1 ++ [st]) s0 = (effective (tbl (s_cat x)) (s_name g) (s_name x) s1 s0 : S).
Proof.
  intros c sts sec x g st t o s1 s0 I Hs Hx Hg Hc Ht Hl Hp Hst. rewrite effective_snoc, Hst.
  assert (Same : s_cat x = s_cat sec -> forall s, apply (tbl (s_cat x)) s st = s).
  { intros E s. unfold tbl. rewrite E, Ht. eapply apply_id; eassumption. }
  destruct (s_global sec) eqn:Gs.
  - destruct (scope_global c sts sec x g I Hs Gs Hx Hg Hc) as [In1 Out1].
    destruct (Nat.eq_dec (s_cat x) (s_cat sec)) as [E|E].
    + rewrite Same by assumption. destruct (word_dec _ _); [reflexivity|]. destruct (word_dec _ _); reflexivity.
    + destruct (Out1 E) as [N1 N2]. destruct (word_dec _ _); [contradiction|]. destruct (word_dec _ _); [contradiction|]. reflexivity.
  - destruct (scope_inst c sts sec x g I Hs Gs Hx Hg Hc) as [N1 N2].
    destruct (word_dec (s_name sec) (s_name g)); [contradiction|].
    destruct (word_dec (s_name sec) (s_name x)) as [E|E]; [|reflexivity].
    assert (x = sec) by (apply (In_name_eq (secs c)); [apply (i_names _ _ I)|assumption|assumption|congruence]). subst. apply Same. reflexivity.
Qed.

Lemma NoDup_app_l : forall A (a b : list A), NoDup (a ++ b) -> NoDup a.
Proof. induction a as [|x a IH]; intros b H; [constructor|]. inversion H; subst. constructor; [intros Hx; apply H2; apply in_or_app; left; assumption|eapply IH; eassumption]. Qed.

Lemma step_decl : forall c sts sec name m ns i P t o c', inv c sts -> In sec (secs c) -> table (s_cat sec) = Some t ->
  lookup t name = Some o -> o_parse o = None -> stanza_ok sec (mkSt (s_name sec) name (m :: ns)) ->
  nth_error (secs c) i = Some P -> s_name P = m -> s_global P = true -> s_allows P = true ->
  create_instances S (mkCfg S (secs c) (s_cat P :: decl c)) i ns = Some (c', 0) ->
  inv c' (sts ++ [mkSt (s_name sec) name (m :: ns)]).
Proof.
  intros c sts sec name m ns i P t o c' I Hsec Ht Hl Hp Hok Hi Hm HPg HPa H.
  destruct (create_spec _ _ _ P _ H Hi (i_names _ _ I)) as [D [N E]]. cbn [c_secs c_decl] in D, E.
  set (st := mkSt (s_name sec) name (m :: ns)) in *.
  set (new := map (fun n => mkSec (s_cat P) false false n (s_set P)) ns) in *.
  assert (HP : In P (secs c)) by (eapply nth_error_In; eassumption).
  destruct (global_boot c sts P I HP HPg) as [gP [HgP IdP]]. destruct IdP as [IP1 [IP2 [IP3 IP4]]].
  assert (Hst : forall s, In s (sts ++ [st]) -> exists x, In x (secs c) /\ s_name x = st_sec s).
  { intros s Hs. apply in_app_or in Hs as [Hs|[<-|[]]].
    - destruct (i_stanzas _ _ I s Hs) as [x [A [B _]]]. exists x. split; assumption.
    - exists sec. split; [assumption|reflexivity]. }
  assert (Newname : forall x, In x new -> forall s, In s (sts ++ [st]) -> st_sec s <> s_name x).
  { intros x Hx s Hs En. destruct (Hst s Hs) as [y [Hy Ey]]. rewrite E in N.
    assert (y = x) by (apply (In_name_eq (secs c ++ new)); [assumption|apply in_or_app; left; assumption|apply in_or_app; right; assumption|congruence]).
    subst y. rewrite map_app in N. clear - N Hx Hy. revert N Hy. generalize (secs c) as l.
    induction l as [|a l IH]; intros N Hy; [destruct Hy|]. cbn in N. inversion N as [|? ? Ha N']; subst.
    destruct Hy as [->|Hy]; [|apply IH; assumption]. apply Ha. apply in_or_app. right. apply in_map. assumption. }
  assert (Dst : declares table (s_cat sec) gP st ns).
  { exists t, o. repeat split; try assumption. cbn. congruence. }
  assert (DecO : forall g ns', decl_in (secs c') sts g ns' <-> decl_in (secs c) sts g ns').
  { intros g ns'. rewrite E. apply decl_in_app; [rewrite <- E; assumption|]. intros s Hs. apply Hst. apply in_or_app. left. assumption. }
  assert (Dec : forall g ns', decl_in (secs c') (sts ++ [st]) g ns' <-> decl_in (secs c) sts g ns' \/ (s_name g = m /\ ns' = ns)).
  { intros g ns'. rewrite E. rewrite decl_in_app; [|rewrite <- E; assumption|assumption]. split.
    - intros [s [k [A [B C]]]]. apply in_app_or in A as [A|[<-|[]]]; [left; exists s, k; repeat split; assumption|].
      right. destruct C as [tb [o' [C1 [C2 [C3 C4]]]]]. cbn in C4. inversion C4; subst. split; reflexivity.
    - intros [[s [k [A [B C]]]]|[A ->]].
      + exists s, k. split; [apply in_or_app; left; assumption|]. split; assumption.
      + exists st, (s_cat sec). split; [apply in_or_app; right; left; reflexivity|].
        split; [exists sec; repeat split; assumption|]. exists t, o. repeat split; try assumption. cbn. congruence. }
  assert (EffO : forall x g s1 s0, In x (secs c) -> In g boot -> s_cat g = s_cat x ->
     effective (tbl (s_cat x)) (s_name g) (s_name x) (s1 ++ [st]) s0 = effective (tbl (s_cat x)) (s_name g) (s_name x) s1 s0).
  { intros x g s1 s0 Hx Hg Hc. apply (eff_decl c sts sec x g st t o s1 s0); assumption || reflexivity. }
  constructor.
  - destruct (i_parts _ _ I) as [bs [is [E1 [F G]]]]. exists bs, (is ++ new). split; [rewrite E, E1, app_assoc; reflexivity|].
    split; [assumption|]. apply Forall_app. split; [assumption|]. apply Forall_forall. intros x Hx. apply in_map_iff in Hx as [n [<- _]].
    cbn. repeat split. rewrite <- IP1. apply in_map. assumption.
  - assumption.
  - intros s Hs. apply in_app_or in Hs as [Hs|[<-|[]]].
    + destruct (i_stanzas _ _ I s Hs) as [x [A B]]. exists x. split; [rewrite E; apply in_or_app; left; assumption|assumption].
    + exists sec. split; [rewrite E; apply in_or_app; left; assumption|]. split; [reflexivity|assumption].
  - intros x Hx Hg. rewrite E in Hx. apply in_app_or in Hx as [Hx|Hx].
    + destruct (i_global _ _ I x Hx Hg) as [g [A [B C]]]. exists g. split; [assumption|]. split; [assumption|]. rewrite EffO by assumption. assumption.
    + apply in_map_iff in Hx as [n [<- _]]. discriminate.
  - intros x Hx Hg. rewrite E in Hx. apply in_app_or in Hx as [Hx|Hx].
    + destruct (i_inst _ _ I x Hx Hg) as [[[g [A [B C]]] [g2 [ns' [Q1 [Q2 [Q3 [Q4 Q5]]]]]]]|[P1 [P2 [P3 [g [s1 [s2 [A [B [C [Nd F]]]]]]]]]]].
      * left. split; [exists g; split; [assumption|]; split; [assumption|]; rewrite EffO by assumption; assumption|].
        exists g2, ns'. repeat (split; [assumption|]). apply Dec. left. assumption.
      * right. repeat (split; [assumption|]). exists g, s1, (s2 ++ [st]). split; [assumption|]. split; [assumption|].
        split; [rewrite C, <- app_assoc; reflexivity|]. split.
        -- intros ns' Hd. apply (Nd ns'). rewrite E in Hd. apply decl_in_app in Hd; [assumption|rewrite <- E; assumption|].
           intros s Hs. apply Hst. rewrite C. apply in_or_app. left. apply in_or_app. left. assumption.
        -- rewrite <- P1 at 1. rewrite EffO by (try assumption; congruence). rewrite P1. assumption.
    + left. pose proof Hx as Hx'. apply in_map_iff in Hx' as [n [En Hn]]. split.
      * exists gP. split; [assumption|]. subst x. cbn [s_cat s_set s_name]. split; [assumption|].
        destruct (i_global _ _ I P HP HPg) as [g [A [B C]]]. assert (g = gP) by (apply cat_In_eq; [assumption|assumption|congruence]). subst g.
        rewrite effective_new by (intros s Hs; apply (Newname _ Hx s Hs)).
        rewrite C at 1. rewrite <- (EffO P gP sts (s_set gP) HP HgP IP1). rewrite IP4. reflexivity.
      * exists gP, ns. split; [assumption|]. subst x. cbn. split; [assumption|]. split; [congruence|]. split; [assumption|]. apply Dec. right. split; [congruence|reflexivity].
  - intros g Hg. rewrite D. cbn [In]. rewrite (i_decl _ _ I g Hg). split.
    + intros [A|[ns' A]].
      * assert (g = gP) by (apply cat_In_eq; [assumption|assumption|congruence]). subst g. exists ns. apply Dec. right. split; [congruence|reflexivity].
      * exists ns'. apply Dec. left. assumption.
    + intros [ns' A]. apply Dec in A as [A|[A _]]; [right; exists ns'; assumption|]. left.
      destruct HB as [Hbn _]. assert (g = gP) by (apply (In_name_eq boot); [assumption|assumption|assumption|congruence]). congruence.
  - intros g ns' n Hg Hd Hn. apply Dec in Hd as [Hd|[A ->]].
    + destruct (i_made _ _ I g ns' n Hg Hd Hn) as [x [B1 B2]]. exists x. split; [rewrite E; apply in_or_app; left; assumption|assumption].
    + destruct HB as [Hbn _]. assert (g = gP) by (apply (In_name_eq boot); [assumption|assumption|assumption|congruence]). subst g.
      exists (mkSec (s_cat P) false false n (s_set P)). split; [rewrite E; apply in_or_app; right; apply in_map_iff; exists n; split; [reflexivity|assumption]|].
      cbn. repeat split. congruence.
Qed.

Theorem step_option : forall c sts cur sec name ps c', inv c sts -> nth_error (secs c) cur = Some sec ->
  parse_option S table c cur name ps = Some (c', 0) -> inv c' (sts ++ [mkSt (s_name sec) name ps]).
Proof.
  intros c sts cur sec name ps c' I Hn H. unfold parse_option in H. rewrite Hn in H. cbn [bind] in H.
  destruct (table (s_cat sec)) as [t|] eqn:Ht; [|discriminate]. rewrite opt_find_lookup in H.
  destruct (lookup t name) as [o|] eqn:Hl; [|discriminate].
  destruct (o_global_only o && negb (s_global sec)) eqn:Eg; [discriminate|].
  destruct (bad_arity (o_arity o) (length ps)) eqn:Ea; [discriminate|]. apply bad_arity_false in Ea.
  assert (Hsec : In sec (secs c)) by (eapply nth_error_In; eassumption).
  assert (Hok : stanza_ok sec (mkSt (s_name sec) name ps)).
  { exists t, o. split; [assumption|]. split; [assumption|]. split; [|assumption]. intros Eo. rewrite Eo in Eg. cbn in Eg.
    apply negb_false_iff. assumption. }
  destruct (o_parse o) as [f|] eqn:Hp.
  - destruct (f (s_set sec) ps) as [v rc] eqn:Ef. destruct (rc =? 0) eqn:Erc; cbn [negb] in H; [|injection H as H1 H2; subst; discriminate].
    destruct (s_global sec) eqn:Gs.
    + destruct (global_split c sts cur sec I Hn Gs) as [b1 [b2 [E [L [N1 N2]]]]]. cbn [c_secs] in H.
      rewrite E, <- L, set_nth_app in H.
      destruct (to_instances S false (s_cat sec) f ps (b1 ++ with_set S sec v :: b2)) as [l|] eqn:El; [|discriminate].
      cbn [bind] in H. inversion H; subst c'; clear H.
      apply ti_false in El; [|assumption|reflexivity]. destruct El as [b2' [-> El]]. apply ti_true in El.
      eapply inv_upd; try eassumption. rewrite E. apply Forall2_app; [|constructor].
      * apply F2_refl. intros x Hx. split; [apply same_id_refl|]. rewrite Gs. apply N1 in Hx. apply Nat.eqb_neq in Hx. rewrite Hx. reflexivity.
      * split; [apply with_set_id|]. rewrite Gs, Nat.eqb_refl. cbn. rewrite Ef. reflexivity.
      * eapply F2_impl; [|exact El]. intros a b _ [A B]. split; [assumption|]. rewrite Gs. assumption.
    + inversion H; subst c'; clear H. eapply inv_upd; try eassumption.
      apply nth_error_split in Hn as [b1 [b2 [E L]]]. rewrite E, <- L, set_nth_app.
      assert (ND := i_names _ _ I). rewrite E in ND.
      assert (Ne : forall x, In x (b1 ++ b2) -> s_name x <> s_name sec).
      { intros x Hx En. rewrite map_app in ND. cbn in ND. apply NoDup_remove_2 in ND. apply ND. rewrite <- map_app, <- En. apply in_map. assumption. }
      apply Forall2_app; [|constructor].
      * apply F2_refl. intros x Hx. split; [apply same_id_refl|]. rewrite Gs. destruct (word_dec _ _) as [E'|_]; [|reflexivity].
        exfalso. apply (Ne x); [apply in_or_app; left; assumption|assumption].
      * split; [apply with_set_id|]. rewrite Gs. destruct (word_dec _ _) as [_|N]; [|congruence]. cbn. rewrite Ef. reflexivity.
      * apply F2_refl. intros x Hx. split; [apply same_id_refl|]. rewrite Gs. destruct (word_dec _ _) as [E'|_]; [|reflexivity].
        exfalso. apply (Ne x); [apply in_or_app; right; assumption|assumption].
  - unfold parse_sync_module in H. destruct ps as [|m ns]; [discriminate|].
    destruct (cfg_find S c m) as [i|] eqn:Ef; [|discriminate]. destruct (cfg_find_some _ _ _ Ef) as [P [Hi Hm]].
    rewrite Hi in H. cbn [bind] in H. destruct (s_global P) eqn:Gp; cbn [negb] in H; [|discriminate].
    destruct (s_allows P) eqn:Ap; cbn [negb] in H; [|discriminate].
    eapply step_decl; eassumption.
Qed.

(** *** Validation *)
Theorem step_validate : forall c sts cur c', inv c sts -> validate S table valid implicit c cur = Some (c', 0) ->
  inv c' sts /\ (forall sec, nth_error (secs c) cur = Some sec -> valid (s_cat sec) = VGeneral S ->
     exists g, In g boot /\ s_name g = crny_name /\ s_cat g = CRNY /\
       ((exists ns, decl_in (secs c') sts g ns) \/ exists x, In x (secs c') /\ s_name x = crny0_name /\ s_cat x = CRNY /\ s_global x = false)).
Proof.
  intros c sts cur c' I H. unfold validate in H.
  destruct (nth_error (secs c) cur) as [sec|] eqn:Hn; [|discriminate]. cbn [bind] in H.
  destruct (table (s_cat sec)) as [t|] eqn:Ht; [|discriminate]. cbn [bind] in H.
  destruct (valid (s_cat sec)) as [| |f] eqn:Ev.
  - inversion H; subst. split; [assumption|]. intros s E Ev'. inversion E; subst. congruence.
  - destruct (cfg_find S c crny_name) as [i|] eqn:Ef; [|discriminate]. destruct (cfg_find_some _ _ _ Ef) as [P [Hi Hm]].
    cbn [bind] in H. rewrite Hi in H. cbn [bind] in H. destruct (s_global P) eqn:Gp; cbn [negb] in H; [|discriminate].
    destruct (s_cat P =? CRNY)%nat eqn:Ec; cbn [negb] in H; [|discriminate]. apply Nat.eqb_eq in Ec.
    assert (HP : In P (secs c)) by (eapply nth_error_In; eassumption).
    destruct (global_boot c sts P I HP Gp) as [g [Hg [I1 [I2 [I3 I4]]]]].
    destruct (existsb (Nat.eqb CRNY) (decl c)) eqn:Ed.
    + inversion H; subst. split; [assumption|]. intros _ _ _. exists g. split; [assumption|]. split; [congruence|]. split; [congruence|].
      left. apply (i_decl _ _ I g Hg). apply existsb_exists in Ed as [k [A B]]. apply Nat.eqb_eq in B. rewrite I1, Ec, B. assumption.
    + unfold sec_add in H. cbn [s_name] in H. destruct (cfg_find S c crny0_name) eqn:Ef0; [discriminate|]. cbn [bind] in H.
      inversion H; subst c'; clear H. apply find_none in Ef0. cbn [c_secs c_decl].
      set (x0 := mkSec CRNY false false crny0_name (implicit (s_set P))).
      assert (N : NoDup (map s_name (secs c ++ [x0]))) by (rewrite map_app; apply NoDup_app_one; [apply (i_names _ _ I)|exact Ef0]).
      assert (Hst : forall s, In s sts -> exists x, In x (secs c) /\ s_name x = st_sec s).
      { intros s Hs. destruct (i_stanzas _ _ I s Hs) as [x [A [B _]]]. exists x. split; assumption. }
      assert (Dec : forall s1 g ns, (forall s, In s s1 -> In s sts) -> decl_in (secs c ++ [x0]) s1 g ns <-> decl_in (secs c) s1 g ns).
      { intros s1 g' ns Hs. apply decl_in_app; [assumption|]. intros s Hi'. apply Hst, Hs. assumption. }
      split.
      * constructor; cbn [c_secs c_decl].
        -- destruct (i_parts _ _ I) as [bs [is [E1 [F G]]]]. exists bs, (is ++ [x0]). split; [rewrite E1, app_assoc; reflexivity|].
           split; [assumption|]. apply Forall_app. split; [assumption|]. constructor; [|constructor]. cbn. repeat split.
           rewrite <- Ec, <- I1. apply in_map. assumption.
        -- assumption.
        -- intros s Hs. destruct (i_stanzas _ _ I s Hs) as [x [A B]]. exists x. split; [apply in_or_app; left; assumption|assumption].
        -- intros x Hx Gx. apply in_app_or in Hx as [Hx|[<-|[]]]; [|discriminate]. apply (i_global _ _ I x Hx Gx).
        -- intros x Hx Gx. apply in_app_or in Hx as [Hx|[<-|[]]].
           ++ destruct (i_inst _ _ I x Hx Gx) as [[A [g2 [ns [Q1 [Q2 [Q3 [Q4 Q5]]]]]]]|[P1 [P2 [P3 [g' [s1 [s2 [A [B [C [Nd F]]]]]]]]]]].
              ** left. split; [assumption|]. exists g2, ns. repeat (split; [assumption|]). apply Dec; [tauto|assumption].
              ** right. repeat (split; [assumption|]). exists g', s1, s2. repeat (split; [assumption|]). split; [|assumption].
                 intros ns Hd. apply (Nd ns). apply Dec in Hd; [assumption|]. intros s Hs. rewrite C. apply in_or_app. left. assumption.
           ++ right. cbn. repeat (split; [reflexivity|]). exists g, sts, []. split; [assumption|]. split; [congruence|].
              split; [rewrite app_nil_r; reflexivity|]. split.
              ** intros ns Hd. apply Dec in Hd; [|tauto]. assert (In (s_cat g) (decl c)) by (apply (i_decl _ _ I g Hg); exists ns; assumption).
                 assert (existsb (Nat.eqb CRNY) (decl c) = true); [|congruence]. apply existsb_exists. exists CRNY. split; [congruence|apply Nat.eqb_refl].
              ** destruct (i_global _ _ I P HP Gp) as [g' [A [B C]]]. assert (g' = g) by (apply cat_In_eq; [assumption|assumption|congruence]). subst g'.
                 unfold x0. cbn [effective fold_left s_set s_name]. rewrite C, Ec, I4. reflexivity.
        -- intros g' Hg'. rewrite (i_decl _ _ I g' Hg'). split; intros [ns Hd]; exists ns; apply Dec; try assumption; tauto.
        -- intros g' ns n Hg' Hd Hin. apply Dec in Hd; [|tauto]. destruct (i_made _ _ I g' ns n Hg' Hd Hin) as [x [A B]].
           exists x. split; [apply in_or_app; left; assumption|assumption].
      * intros _ _ _. exists g. split; [assumption|]. split; [congruence|]. split; [congruence|]. right. exists x0.
        split; [apply in_or_app; right; left; reflexivity|]. repeat split.
  - injection H as H1 H2. subst c'. split; [assumption|]. intros s E Ev'. inversion E; subst. congruence.
Qed.

(** *** Growth *)
Definition grows (c c' : cfg) : Prop :=
  incl (decl c) (decl c') /\
  (forall j x, nth_error (secs c) j = Some x -> exists x', nth_error (secs c') j = Some x' /\ same_id x x').
Lemma grows_refl : forall c, grows c c.
Proof. intros c. split; [apply incl_refl|]. intros j x H. exists x. split; [assumption|apply same_id_refl]. Qed.
Lemma grows_trans : forall a b c, grows a b -> grows b c -> grows a c.
Proof.
  intros a b c [A B] [A' B']. split; [eapply incl_tran; eassumption|]. intros j x H.
  destruct (B j x H) as [y [Hy I]]. destruct (B' j y Hy) as [z [Hz I']]. exists z. split; [assumption|]. eapply same_id_trans; eassumption.
Qed.
Lemma grows_app : forall c new d, incl (decl c) d -> grows c (mkCfg S (secs c ++ new) d).
Proof.
  intros c new d Hd. split; [exact Hd|]. intros j x H. exists x. split; [|apply same_id_refl].
  cbn [c_secs]. rewrite nth_error_app1 by (apply nth_error_Some; congruence). assumption.
Qed.
Lemma F2_nth : forall l l', Forall2 same_id l l' -> forall j x, nth_error l j = Some x -> exists x', nth_error l' j = Some x' /\ same_id x x'.
Proof.
  intros l l' F. induction F as [|a b l l' Hab F IH]; intros j x H; [destruct j; discriminate|].
  destruct j; [cbn in *; inversion H; subst; exists b; split; [reflexivity|assumption]|]. apply IH. assumption.
Qed.
Lemma grows_F2 : forall c l', Forall2 same_id (secs c) l' -> grows c (mkCfg S l' (decl c)).
Proof. intros c l' F. split; [apply incl_refl|]. apply F2_nth. assumption. Qed.
Lemma grows_names : forall c c', grows c c' -> incl (map s_name (secs c)) (map s_name (secs c')).
Proof.
  intros c c' [_ H] n Hn. apply in_map_iff in Hn as [x [<- Hx]]. apply In_nth_error in Hx as [j Hj].
  destruct (H j x Hj) as [x' [A [_ [_ [_ D]]]]]. rewrite D. apply in_map. eapply nth_error_In; eassumption.
Qed.

Lemma create_grows : forall ns c p c' rc, create_instances S c p ns = Some (c', rc) ->
  grows c c' /\ incl (map s_name (secs c')) (map s_name (secs c) ++ ns).
Proof.
  induction ns as [|n ns IH]; intros c p c' rc H; cbn [create_instances] in H.
  - inversion H; subst. split; [apply grows_refl|]. rewrite app_nil_r. apply incl_refl.
  - destruct (NAME_MAX <=? length n)%nat; [inversion H; subst; split; [apply grows_refl|apply incl_appl, incl_refl]|].
    destruct (cfg_find S c n) eqn:Ef; [inversion H; subst; split; [apply grows_refl|apply incl_appl, incl_refl]|].
    destruct (nth_error (secs c) p) as [P|]; [|discriminate]. cbn [bind] in H. unfold sec_add in H. cbn [s_name] in H. rewrite Ef in H. cbn [bind] in H.
    destruct (IH _ _ _ _ H) as [G N]. split.
    + eapply grows_trans; [|exact G]. apply grows_app. apply incl_refl.
    + cbn [c_secs] in N. rewrite map_app in N. cbn in N. rewrite <- app_assoc in N. exact N.
Qed.

Lemma ti_true_id : forall cat f ps l l', to_instances S true cat f ps l = Some l' -> Forall2 same_id l l'.
Proof. intros cat f ps l l' H. eapply F2_impl; [|eapply ti_true; exact H]. intros a b _ [A _]. exact A. Qed.
Lemma ti_false_id : forall cat f ps l l', to_instances S false cat f ps l = Some l' -> Forall2 same_id l l'.
Proof.
  induction l as [|x l IH]; intros l' H; cbn in H; [inversion H; constructor|].
  destruct (s_cat x =? cat)%nat; cbn [negb] in H.
  - destruct (to_instances S true cat f ps l) as [r|] eqn:E; [|discriminate]. inversion H; subst. constructor; [apply same_id_refl|]. eapply ti_true_id; eassumption.
  - destruct (to_instances S false cat f ps l) as [r|] eqn:E; [|discriminate]. inversion H; subst. constructor; [apply same_id_refl|]. apply IH. reflexivity.
Qed.
Lemma F2_set_nth : forall l i (x y : section S), nth_error l i = Some x -> same_id x y -> Forall2 same_id l (set_nth i y l).
Proof.
  induction l as [|a l IH]; intros i x y H I; [destruct i; discriminate|]. destruct i; cbn in *.
  - inversion H; subst. constructor; [assumption|]. apply F2_refl. intros. apply same_id_refl.
  - constructor; [apply same_id_refl|]. eapply IH; eassumption.
Qed.
Lemma F2_trans : forall l1 l2 l3, Forall2 same_id l1 l2 -> Forall2 same_id l2 l3 -> Forall2 same_id l1 l3.
Proof.
  intros l1 l2 l3 H. revert l3. induction H as [|a b l1 l2 Hab H IH]; intros l3 H3; inversion H3; subst; constructor; [eapply same_id_trans; eassumption|apply IH; assumption].
Qed.

Lemma option_grows : forall c cur name ps c' rc, parse_option S table c cur name ps = Some (c', rc) ->
  grows c c' /\ incl (map s_name (secs c')) (map s_name (secs c) ++ ps).
Proof.
  intros c cur name ps c' rc H. unfold parse_option in H.
  destruct (nth_error (secs c) cur) as [sec|] eqn:Hn; [|discriminate]. cbn [bind] in H.
  assert (Same : grows c c /\ incl (map s_name (secs c)) (map s_name (secs c) ++ ps)) by (split; [apply grows_refl|apply incl_appl, incl_refl]).
  assert (Upd : forall l', Forall2 same_id (secs c) l' -> grows c (mkCfg S l' (decl c)) /\ incl (map s_name l') (map s_name (secs c) ++ ps)).
  { intros l' F. split; [apply grows_F2; assumption|]. rewrite (names_map _ _ F). apply incl_appl, incl_refl. }
  destruct (table (s_cat sec)) as [t|]; [|inversion H; subst; assumption].
  destruct (opt_find S t name) as [o|]; [|inversion H; subst; assumption].
  destruct (o_global_only o && negb (s_global sec)); [inversion H; subst; assumption|].
  destruct (bad_arity (o_arity o) (length ps)); [inversion H; subst; assumption|].
  destruct (o_parse o) as [f|].
  - destruct (f (s_set sec) ps) as [v r]. assert (F1 : Forall2 same_id (secs c) (set_nth cur (with_set S sec v) (secs c))) by (eapply F2_set_nth; [eassumption|apply with_set_id]).
    destruct (negb (r =? 0)); [inversion H; subst; apply Upd; assumption|]. destruct (s_global sec).
    + cbn [c_secs] in H. destruct (to_instances _ _ _ _ _ _) as [l|] eqn:El; [|discriminate]. cbn [bind] in H. inversion H; subst.
      apply Upd. eapply F2_trans; [exact F1|]. eapply ti_false_id; eassumption.
    + inversion H; subst. apply Upd. assumption.
  - unfold parse_sync_module in H. destruct ps as [|m ns]; [discriminate|].
    destruct (cfg_find S c m) as [i|]; [|inversion H; subst; assumption].
    destruct (nth_error (secs c) i) as [P|]; [|discriminate]. cbn [bind] in H.
    destruct (negb (s_global P)); [inversion H; subst; assumption|]. destruct (negb (s_allows P)); [inversion H; subst; assumption|].
    apply create_grows in H as [G N]. split.
    + eapply grows_trans; [|exact G]. split; [apply incl_tl, incl_refl|]. intros j x Hj. exists x. split; [assumption|apply same_id_refl].
    + cbn [c_secs] in N. eapply incl_tran; [exact N|]. apply incl_app; [apply incl_appl, incl_refl|]. apply incl_appr, incl_tl, incl_refl.
Qed.

Lemma validate_grows : forall c cur c' rc, validate S table valid implicit c cur = Some (c', rc) -> grows c c'.
Proof.
  intros c cur c' rc H. unfold validate in H. destruct (nth_error (secs c) cur) as [sec|]; [|discriminate]. cbn [bind] in H.
  destruct (table (s_cat sec)); [|discriminate]. cbn [bind] in H. destruct (valid (s_cat sec)); [inversion H; subst; apply grows_refl| |inversion H; subst; apply grows_refl].
  destruct (cfg_find S c crny_name) as [i|]; [|discriminate]. cbn [bind] in H. destruct (nth_error (secs c) i) as [P|]; [|discriminate]. cbn [bind] in H.
  destruct (negb (s_global P)); [discriminate|]. destruct (negb (s_cat P =? CRNY)%nat); [discriminate|].
  destruct (existsb (Nat.eqb CRNY) (decl c)); [inversion H; subst; apply grows_refl|].
  unfold sec_add in H. destruct (cfg_find S c _); [discriminate|]. cbn [bind] in H. inversion H; subst. apply grows_app, incl_refl.
Qed.

(** *** Whole files *)
Definition cur_ok (c : cfg) (cur : option nat) (cn : option word) : Prop :=
  match cur, cn with
  | None, None => True
  | Some i, Some n => exists x, nth_error (secs c) i = Some x /\ s_name x = n
  | _, _ => False
  end.
Lemma cur_ok_grows : forall c c' cur cn, grows c c' -> cur_ok c cur cn -> cur_ok c' cur cn.
Proof.
  intros c c' [i|] [n|] [_ G] H; try assumption. destruct H as [x [A B]]. destruct (G i x A) as [x' [A' [_ [_ [_ D]]]]]. exists x'. split; [assumption|congruence].
Qed.

Definition ready (c : cfg) : Prop :=
  exists g, In g boot /\ s_name g = crny_name /\ s_cat g = CRNY /\
    (In CRNY (decl c) \/ exists j x, nth_error (secs c) j = Some x /\ s_name x = crny0_name /\ s_cat x = CRNY /\ s_global x = false).
Lemma ready_grows : forall c c', grows c c' -> ready c -> ready c'.
Proof.
  intros c c' [D G] [g [A [B [C H]]]]. exists g. repeat (split; [assumption|]). destruct H as [H|[j [x [H1 [H2 [H3 H4]]]]]].
  - left. apply D. assumption.
  - right. destruct (G j x H1) as [x' [A' [I1 [I2 [I3 I4]]]]]. exists j, x'. repeat split; congruence.
Qed.

Fixpoint last_section (cn : option word) (es : list entry) : option word :=
  match es with [] => cn | Section n :: es' => last_section (Some n) es' | _ :: es' => last_section cn es' end.

(** Sections closed by the general validator leave the configuration ready. *)
Definition closed (c : cfg) (n : word) : Prop :=
  forall x, In x (secs c) -> s_name x = n -> valid (s_cat x) = VGeneral S -> ready c.
Lemma closed_grows : forall c c' sts n, inv c sts -> NoDup (map s_name (secs c')) -> In n (map s_name (secs c)) -> grows c c' -> closed c n -> closed c' n.
Proof.
  intros c c' sts n I N Hin G H x Hx En Ev. apply in_map_iff in Hin as [y [Ey Hy]]. pose proof Hy as Hy'. apply In_nth_error in Hy' as [j Hj].
  pose proof G as [_ G']. destruct (G' j y Hj) as [y' [Hy' [I1 [I2 [I3 I4]]]]].
  assert (x = y') by (apply (In_name_eq (secs c')); [assumption|assumption|eapply nth_error_In; eassumption|congruence]). subst y'.
  eapply ready_grows; [exact G|]. apply (H y Hy Ey). congruence.
Qed.

Theorem lines_ok : forall ls c cur sts cn c' cur', inv c sts -> cur_ok c cur cn ->
  parse_lines S table valid implicit c cur ls = Some ((c', cur'), 0) ->
  exists es, Forall2 reads ls es /\ inv c' (sts ++ stanzas cn es) /\ cur_ok c' cur' (last_section cn es) /\ grows c c' /\
    inside (match cn with Some _ => true | None => false end) es /\
    (forall n, In (Section n) es -> In n (map s_name (secs c'))) /\
    (forall n, In (Section n) es \/ cn = Some n -> last_section cn es = Some n \/ closed c' n).
Proof.
  induction ls as [|l ls IH]; intros c cur sts cn c' cur' I Hc H; cbn [parse_lines] in H.
  - inversion H; subst. exists []. rewrite app_nil_r. split; [constructor|]. split; [assumption|]. split; [assumption|]. split; [apply grows_refl|].
    split; [constructor|]. split; [intros n []|]. intros n [[]|E]. left. assumption.
  - destruct (parse_line S table valid implicit c cur l) as [[[c1 cur1] rc]|] eqn:E1; [|discriminate]. cbn [bind] in H.
    destruct (rc =? 0) eqn:Erc; cbn [negb] in H; [|injection H as H1 H2 H3; subst; discriminate].
    apply Z.eqb_eq in Erc. subst rc. unfold parse_line in E1. destruct l as [|w ps].
    + inversion E1; subst. destruct (IH _ _ _ _ _ _ I Hc H) as [es [A [B [C [D [F [G K]]]]]]]. exists (Blank :: es).
      split; [constructor; [constructor|assumption]|]. repeat (split; [assumption|]).
      split; [intros n [Hn|Hn]; [discriminate|apply G; assumption]|].
      intros n [[Hn|Hn]|Hn]; [discriminate|apply K; left; assumption|apply K; right; assumption].
    + rewrite convert_dashes_eq in E1. cbv zeta in E1. destruct (line_cases w ps) as [[Bad _]|[Okw [[n [En Hr]]|[En Hr]]]].
      * rewrite Bad in E1. discriminate.
      * rewrite Okw, En in E1.
        assert (V : exists c0, (match cur with Some i => validate S table valid implicit c i | None => Some (c, 0) end) = Some (c0, 0) /\ inv c0 sts /\ grows c c0 /\
           (forall n', cn = Some n' -> closed c0 n')).
        { destruct cur as [i|].
          - destruct (validate S table valid implicit c i) as [[c0 rc]|] eqn:Ev; [|discriminate]. cbn [bind] in E1.
            destruct (rc =? 0) eqn:Erc; cbn [negb] in E1; [|injection E1 as E1 E2 E3; subst; discriminate]. apply Z.eqb_eq in Erc. subst rc.
            exists c0. split; [reflexivity|]. destruct (step_validate _ _ _ _ I Ev) as [I0 Rd]. split; [assumption|].
            pose proof (validate_grows _ _ _ _ Ev) as G. split; [assumption|]. intros n' En'. subst cn. cbn in Hc. destruct Hc as [x [Hx Hxn]].
            intros y Hy Hyn Hyv. pose proof G as [_ G']. destruct (G' i x Hx) as [x' [Hx' [I1 [I2 [I3 I4]]]]].
            assert (y = x') by (apply (In_name_eq (secs c0)); [apply (i_names _ _ I0)|assumption|eapply nth_error_In; eassumption|congruence]). subst y.
            destruct (Rd x Hx ltac:(congruence)) as [g [Hg [Hgn [Hgc Hd]]]]. exists g. repeat (split; [assumption|]). destruct Hd as [Hd|[z [Hz Hz']]].
            + left. rewrite <- Hgc. apply (i_decl _ _ I0 g Hg). assumption.
            + right. apply In_nth_error in Hz as [j Hj]. exists j, z. split; assumption.
          - exists c. split; [reflexivity|]. split; [assumption|]. split; [apply grows_refl|]. intros n' En'. subst cn. destruct Hc. }
        destruct V as [c0 [Ev [I0 [G0 Cl]]]]. rewrite Ev in E1. cbn [bind negb Z.eqb] in E1.
        destruct (cfg_find S c0 n) as [i|] eqn:Ef; [|discriminate]. inversion E1; subst c1 cur1; clear E1.
        destruct (cfg_find_some _ _ _ Ef) as [x [Hx Hxn]].
        destruct (IH c0 (Some i) sts (Some n) c' cur' I0 ltac:(exists x; split; assumption) H) as [es [A [B [C [D [F [G K]]]]]]].
        exists (Section n :: es). split; [constructor; assumption|]. split; [assumption|]. split; [assumption|].
        split; [eapply grows_trans; eassumption|]. split; [assumption|].
        assert (Nin : In n (map s_name (secs c0))) by (apply in_map_iff; exists x; split; [assumption|eapply nth_error_In; eassumption]).
        split.
        -- intros m [Hm|Hm]; [inversion Hm; subst; apply (grows_names _ _ D); assumption|apply G; assumption].
        -- intros m [[Hm|Hm]|Hm].
           ++ inversion Hm; subst. apply K. right. reflexivity.
           ++ apply K. left. assumption.
           ++ right. specialize (Cl m Hm). eapply closed_grows; [exact I0|apply (i_names _ _ B)| |exact D|exact Cl].
              subst cn. destruct cur as [i'|]; [|destruct Hc]. destruct Hc as [y [Hy Hyn]]. apply (grows_names _ _ G0).
              apply in_map_iff. exists y. split; [assumption|eapply nth_error_In; eassumption].
      * rewrite Okw, En in E1. destruct cur as [i|]; [|discriminate]. destruct cn as [n|]; [|destruct Hc]. destruct Hc as [x [Hx Hxn]].
        destruct (parse_option S table c i (underscored w) ps) as [[c0 rc]|] eqn:Eo; [|discriminate]. cbn [bind] in E1.
        injection E1 as E1 E2 E3. subst. 
        pose proof (step_option _ _ _ _ _ _ _ I Hx Eo) as I1. destruct (option_grows _ _ _ _ _ _ Eo) as [G1 _].
        destruct (IH c1 (Some i) _ (Some (s_name x)) c' cur' I1) as [es [A [B [C [D [F [G K]]]]]]]; [|exact H|].
        { apply (cur_ok_grows c c1 (Some i) (Some (s_name x)) G1). exists x. split; [assumption|reflexivity]. }
        exists (Stanza (underscored w) ps :: es). split; [constructor; assumption|]. cbn [stanzas]. rewrite <- app_assoc in B. split; [assumption|].
        split; [assumption|]. split; [eapply grows_trans; eassumption|]. split; [split; [reflexivity|assumption]|].
        split; [intros m [Hm|Hm]; [discriminate|apply G; assumption]|].
        intros m [[Hm|Hm]|Hm]; [discriminate|apply K; left; assumption|apply K; right; assumption].
Qed.

Lemma inv_boot : inv (mkCfg S boot []) [].
Proof.
  destruct HB as [N [C G]]. constructor; cbn [c_secs c_decl].
  - exists boot, []. rewrite app_nil_r. split; [reflexivity|]. split; [apply F2_refl; intros; apply same_id_refl|constructor].
  - assumption.
  - intros st [].
  - intros x Hx _. exists x. repeat split; try assumption.
  - intros x Hx Hg. rewrite Forall_forall in G. rewrite (G x Hx) in Hg. discriminate.
  - intros g Hg. split; [intros []|]. intros [ns [st [k [[] _]]]].
  - intros g ns n Hg [st [k [[] _]]].
Qed.

Theorem tokens_ok : forall ls c', parse_tokens S table valid implicit boot ls = Some (c', 0) ->
  exists es, Forall2 reads ls es /\ inside false es /\ inv c' (stanzas None es) /\
    (forall n, In (Section n) es -> In n (map s_name (secs c'))) /\
    (forall n x, In (Section n) es -> In x (secs c') -> s_name x = n -> valid (s_cat x) = VGeneral S -> ready c').
Proof.
  intros ls c' H. unfold parse_tokens in H.
  destruct (parse_lines S table valid implicit (mkCfg S boot []) None ls) as [[[c cur] rc]|] eqn:E; [|discriminate]. cbn [bind] in H.
  destruct (rc =? 0) eqn:Erc; cbn [negb] in H; [|injection H as H1 H2; subst; discriminate]. apply Z.eqb_eq in Erc. subst rc.
  destruct (lines_ok ls (mkCfg S boot []) None [] None _ _ inv_boot I E) as [es [A [B [C [D [F [G K]]]]]]]. cbn [app] in B.
  destruct cur as [i|]; [|discriminate]. cbn [bind] in H.
  destruct (last_section None es) as [n|] eqn:El; [|destruct C]. destruct C as [x [Hx Hxn]].
  destruct (step_validate _ _ _ _ B H) as [I' Rd]. pose proof (validate_grows _ _ _ _ H) as Gv.
  exists es. split; [assumption|]. split; [assumption|]. split; [assumption|].
  split; [intros m Hm; apply (grows_names _ _ Gv), G; assumption|].
  intros m y Hm Hy Hyn Hyv. destruct (K m (or_introl Hm)) as [Eq|Cl].
  - inversion Eq; subst m. pose proof Gv as [_ G']. destruct (G' i x Hx) as [x' [Hx' [I1 [I2 [I3 I4]]]]].
    assert (y = x') by (apply (In_name_eq (secs c')); [apply (i_names _ _ I')|assumption|eapply nth_error_In; eassumption|congruence]). subst x'.
    destruct (Rd x Hx ltac:(congruence)) as [g [Hg [Hgn [Hgc Hd]]]]. exists g. repeat (split; [assumption|]). destruct Hd as [Hd|[z [Hz Hz']]].
    + left. rewrite <- Hgc. apply (i_decl _ _ I' g Hg). assumption.
    + right. apply In_nth_error in Hz as [j Hj]. exists j, z. split; assumption.
  - eapply (closed_grows c c' _ m B (i_names _ _ I') (G m Hm) Gv Cl y); assumption.
Qed.

(** *** No abort *)
Hypothesis Hind : forall k t o f, table k = Some t -> lookup t (o_name o) = Some o -> o_parse o = Some f ->
  forall s s' ps, snd (f s ps) = snd (f s' ps).
Hypothesis Htab : forall b, In b boot -> table (s_cat b) <> None.
Hypothesis Hdecl : forall k t o, table k = Some t -> lookup t (o_name o) = Some o -> o_parse o = None -> ~ arity_ok (o_arity o) 0.
Variables gen crny : section S.
Hypothesis Hgen : In gen boot /\ s_allows gen = false /\ s_cat gen <> CRNY /\ (forall k, valid k = VGeneral S -> k = s_cat gen).
Hypothesis Hcrny : In crny boot /\ s_name crny = crny_name /\ s_cat crny = CRNY.
Hypothesis Hc0 : ~ In crny0_name (map s_name boot).

Lemma lookup_self : forall t n (o : opt S), lookup t n = Some o -> lookup t (o_name o) = Some o.
Proof.
  intros t n o H. assert (E : o_name o = n).
  { unfold lookup in H. apply List.find_some in H as [_ H]. destruct (word_dec n (o_name o)); [congruence|discriminate]. }
  rewrite E. assumption.
Qed.

Lemma ti_total : forall cat f ps seen l, (forall s, snd (f s ps) = 0) -> to_instances S seen cat f ps l <> None.
Proof.
  intros cat f ps seen l H. revert seen. induction l as [|x l IH]; intros seen; cbn; [discriminate|].
  destruct (s_cat x =? cat)%nat; cbn [negb].
  - destruct seen; cbn [negb].
    + specialize (H (s_set x)). destruct (f (s_set x) ps) as [v rc]. cbn in H. subst rc. cbn. specialize (IH true). destruct (to_instances S true cat f ps l); [discriminate|contradiction].
    + specialize (IH true). destruct (to_instances S true cat f ps l); [discriminate|contradiction].
  - specialize (IH seen). destruct (to_instances S seen cat f ps l); [discriminate|contradiction].
Qed.

Lemma create_total : forall ns c p, (p < length (secs c))%nat -> create_instances S c p ns <> None.
Proof.
  induction ns as [|n ns IH]; intros c p Hp; cbn [create_instances]; [discriminate|].
  destruct (NAME_MAX <=? length n)%nat; [discriminate|]. destruct (cfg_find S c n) eqn:Ef; [discriminate|].
  destruct (nth_error (secs c) p) as [P|] eqn:E; [|apply nth_error_None in E; lia]. cbn [bind]. unfold sec_add. cbn [s_name]. rewrite Ef. cbn [bind].
  apply IH. cbn [c_secs]. rewrite app_length. lia.
Qed.

Lemma option_total : forall c cur name ps, (cur < length (secs c))%nat -> parse_option S table c cur name ps <> None.
Proof.
  intros c cur name ps Hcur. unfold parse_option. destruct (nth_error (secs c) cur) as [sec|] eqn:En; [|apply nth_error_None in En; lia].
  cbn [bind]. destruct (table (s_cat sec)) as [t|] eqn:Et; [|discriminate]. rewrite opt_find_lookup.
  destruct (lookup t name) as [o|] eqn:El; [|discriminate]. destruct (o_global_only o && negb (s_global sec)); [discriminate|].
  destruct (bad_arity (o_arity o) (length ps)) eqn:Ea; [discriminate|]. apply lookup_self in El.
  destruct (o_parse o) as [f|] eqn:Ep.
  - destruct (f (s_set sec) ps) as [v rc] eqn:Ef. destruct (rc =? 0) eqn:Erc; cbn [negb]; [|discriminate]. apply Z.eqb_eq in Erc. subst rc.
    destruct (s_global sec); [|discriminate]. cbn [c_secs].
    assert (T : forall s, snd (f s ps) = 0). { intros s. rewrite (Hind _ _ _ _ Et El Ep s (s_set sec) ps), Ef. reflexivity. }
    pose proof (ti_total (s_cat sec) f ps false (set_nth cur (with_set S sec v) (secs c)) T).
    destruct (to_instances _ _ _ _ _ _); [discriminate|contradiction].
  - unfold parse_sync_module. destruct ps as [|m ns].
    + exfalso. apply (Hdecl _ _ _ Et El Ep). apply bad_arity_false. assumption.
    + destruct (cfg_find S c m) as [i|] eqn:Ef; [|discriminate]. destruct (cfg_find_some _ _ _ Ef) as [P [Hi _]]. rewrite Hi. cbn [bind].
      destruct (negb (s_global P)); [discriminate|]. destruct (negb (s_allows P)); [discriminate|].
      apply create_total. cbn [c_secs]. apply nth_error_Some. congruence.
Qed.

(** The only section with the general validator is the general one. *)
Lemma only_general : forall c sts x, inv c sts -> In x (secs c) -> valid (s_cat x) = VGeneral S -> s_name x = s_name gen.
Proof.
  intros c sts x I Hx Hv. destruct Hgen as [G1 [G2 [G3 G4]]]. apply G4 in Hv.
  destruct (s_global x) eqn:Gx.
  - destruct (global_boot c sts x I Hx Gx) as [g [Hg [A [_ [_ D]]]]]. assert (g = gen) by (apply cat_In_eq; [assumption|assumption|congruence]). congruence.
  - exfalso. destruct (i_inst _ _ I x Hx Gx) as [[_ [g [ns [Q1 [Q2 [Q3 _]]]]]]|[P1 _]]; [|congruence].
    assert (g = gen) by (apply cat_In_eq; [assumption|assumption|congruence]). congruence.
Qed.

Lemma validate_total : forall c sts cur x, inv c sts -> nth_error (secs c) cur = Some x ->
  (s_name x = s_name gen -> ~ In crny0_name (map s_name (secs c))) -> validate S table valid implicit c cur <> None.
Proof.
  intros c sts cur x I Hx Hg. unfold validate. rewrite Hx. cbn [bind].
  assert (Hin : In x (secs c)) by (eapply nth_error_In; eassumption).
  assert (Tx : table (s_cat x) <> None).
  { destruct (s_global x) eqn:Gx.
    - destruct (global_boot c sts x I Hin Gx) as [g [A [B _]]]. rewrite <- B. apply Htab. assumption.
    - destruct (i_parts _ _ I) as [bs [is [E [F G]]]]. rewrite E in Hin. apply in_app_or in Hin as [Hin|Hin].
      + destruct (F2_in_r _ _ _ F Hin) as [g [A [B _]]]. rewrite <- B. apply Htab. assumption.
      + rewrite Forall_forall in G. destruct (G x Hin) as [_ [_ C]]. apply in_map_iff in C as [b [C1 C2]]. rewrite <- C1. apply Htab. assumption. }
  destruct (table (s_cat x)) as [t|]; [|contradiction]. cbn [bind].
  destruct (valid (s_cat x)) eqn:Ev; [discriminate| |discriminate].
  destruct Hcrny as [K1 [K2 K3]]. destruct (boot_global c sts crny I K1) as [y [Hy [[I1 [I2 [I3 I4]]] Gy]]].
  destruct (cfg_find S c crny_name) as [i|] eqn:Ef.
  2:{ apply find_none in Ef. exfalso. apply Ef. rewrite <- K2, I4. apply in_map. assumption. }
  destruct (cfg_find_some _ _ _ Ef) as [P [Hi Hm]]. cbn [bind]. rewrite Hi. cbn [bind].
  assert (P = y) by (apply (In_name_eq (secs c)); [apply (i_names _ _ I)|eapply nth_error_In; eassumption|assumption|congruence]). subst P.
  rewrite Gy. cbn [negb]. rewrite <- I1, K3, Nat.eqb_refl. cbn [negb]. destruct (existsb (Nat.eqb CRNY) (decl c)); [discriminate|].
  unfold sec_add. cbn [s_name]. destruct (cfg_find S c crny0_name) eqn:E0; [|discriminate].
  exfalso. apply Hg; [eapply only_general; eassumption|]. destruct (cfg_find_some _ _ _ E0) as [z [Hz Hzn]]. apply in_map_iff. exists z. split; [assumption|eapply nth_error_In; eassumption].
Qed.

(** Names are only added by parameters and by validating the general section. *)
Lemma validate_names : forall c sts cur x c' rc, inv c sts -> nth_error (secs c) cur = Some x -> validate S table valid implicit c cur = Some (c', rc) ->
  s_name x <> s_name gen -> map s_name (secs c') = map s_name (secs c).
Proof.
  intros c sts cur x c' rc I Hx H Hne. unfold validate in H. rewrite Hx in H. cbn [bind] in H.
  destruct (table (s_cat x)); [|discriminate]. cbn [bind] in H. destruct (valid (s_cat x)) eqn:Ev; [inversion H; subst; reflexivity| |inversion H; subst; reflexivity].
  exfalso. apply Hne. eapply only_general; [exact I|eapply nth_error_In; eassumption|assumption].
Qed.

Definition headers (ls : list (list word)) : nat := length (filter (is_header (s_name gen)) ls).
Definition is_gen (cn : option word) : nat := match cn with Some n => if word_dec n (s_name gen) then 1 else 0 | None => 0 end.

Lemma is_header_new : forall w ps n, new_section (underscored w) = Some n -> (is_header (s_name gen) (w :: ps) = true <-> n = s_name gen).
Proof.
  intros w ps n H. apply new_section_some in H. unfold is_header. rewrite H. destruct (word_dec _ _) as [E|E].
  - inversion E as [E2]. apply app_inj_tail in E2 as [-> _]. split; reflexivity.
  - split; [discriminate|]. intros ->. congruence.
Qed.

Theorem lines_total : forall ls c cur sts cn, inv c sts -> cur_ok c cur cn ->
  (headers ls + is_gen cn <= 1)%nat -> (In crny0_name (map s_name (secs c)) -> headers ls + is_gen cn = 0)%nat ->
  (forall l, In l ls -> ~ In crny0_name (tl l)) ->
  exists c' cur' rc, parse_lines S table valid implicit c cur ls = Some ((c', cur'), rc) /\
    (rc = 0 -> exists sts' cn', inv c' sts' /\ cur_ok c' cur' cn' /\ (In crny0_name (map s_name (secs c')) -> is_gen cn' = 0%nat) /\
       (cn <> None \/ (exists l, In l ls /\ l <> []) -> cn' <> None)).
Proof.
  induction ls as [|l ls IH]; intros c cur sts cn I Hc H1 H2 H3; cbn [parse_lines].
  - exists c, cur, 0. split; [reflexivity|]. intros _. exists sts, cn. split; [assumption|]. split; [assumption|].
    split; [intros Hin; specialize (H2 Hin); unfold headers in H2; cbn in H2; assumption|]. intros [H|[l [[] _]]]. assumption.
  - assert (Hls : forall l0, In l0 ls -> ~ In crny0_name (tl l0)) by (intros; apply H3; right; assumption).
    unfold parse_line. destruct l as [|w ps].
    + cbn [bind negb Z.eqb]. destruct (IH c cur sts cn I Hc H1 H2 Hls) as [c' [cur' [rc [A B]]]]. exists c', cur', rc. split; [assumption|].
      intros R. destruct (B R) as [sts' [cn' [B1 [B2 [B3 B4]]]]]. exists sts', cn'. repeat (split; [assumption|]).
      intros [H|[l [[<-|Hl] Hne]]]; [apply B4; left; assumption|congruence|apply B4; right; exists l; split; assumption].
    + rewrite convert_dashes_eq. cbv zeta. destruct (line_cases w ps) as [[Bad _]|[Okw [[n [En Hr]]|[En Hr]]]].
      * rewrite Bad. cbn [bind negb Z.eqb EINVAL]. exists c, cur, EINVAL. split; [reflexivity|]. discriminate.
      * rewrite Okw, En.
        (* close the current section *)
        assert (V : exists c0 rc0, (match cur with Some i => validate S table valid implicit c i | None => Some (c, 0) end) = Some (c0, rc0) /\
           (rc0 = 0 -> inv c0 sts /\ (is_gen cn = 0%nat -> map s_name (secs c0) = map s_name (secs c)))).
        { destruct cur as [i|].
          - destruct cn as [cn|]; [|destruct Hc]. destruct Hc as [x [Hx Hxn]].
            assert (T : validate S table valid implicit c i <> None).
            { eapply validate_total; [exact I|exact Hx|]. intros E Hin. specialize (H2 Hin). unfold is_gen in H2. rewrite <- Hxn, E in H2.
              destruct (word_dec (s_name gen) (s_name gen)); [lia|congruence]. }
            destruct (validate S table valid implicit c i) as [[c0 rc0]|] eqn:Ev; [|contradiction]. exists c0, rc0. split; [reflexivity|]. intros ->.
            split; [apply (step_validate _ _ _ _ I Ev)|]. intros Eg. eapply validate_names; [exact I|exact Hx|exact Ev|].
            intros E. unfold is_gen in Eg. rewrite <- Hxn, E in Eg. destruct (word_dec (s_name gen) (s_name gen)); [discriminate|congruence].
          - exists c, 0. split; [reflexivity|]. intros _. split; [assumption|]. reflexivity. }
        destruct V as [c0 [rc0 [Ev V]]]. rewrite Ev. cbn [bind].
        destruct (rc0 =? 0) eqn:Erc; cbn [negb].
        2:{ cbn [bind]. rewrite Erc. cbn [negb]. exists c0, cur, rc0. split; [reflexivity|]. intros R. subst. discriminate. }
        apply Z.eqb_eq in Erc. subst rc0. destruct (V eq_refl) as [I0 N0].
        destruct (cfg_find S c0 n) as [i|] eqn:Ef.
        2:{ cbn [bind negb Z.eqb ENOENT]. exists c0, None, ENOENT. split; [reflexivity|]. discriminate. }
        cbn [bind negb Z.eqb]. destruct (cfg_find_some _ _ _ Ef) as [x [Hx Hxn]].
        assert (Cnt : (headers ((w :: ps) :: ls) = headers ls + is_gen (Some n))%nat).
        { unfold headers. cbn [filter]. pose proof (is_header_new w ps n En) as Hh. cbn [is_gen].
          destruct (is_header (s_name gen) (w :: ps)); destruct (word_dec n (s_name gen)) as [E|E]; cbn [length].
          - lia. - exfalso. apply E. apply Hh. reflexivity. - exfalso. assert (false = true) by (apply Hh; assumption). discriminate. - lia. }
        rewrite Cnt in H1, H2.
        destruct (IH c0 (Some i) sts (Some n) I0 ltac:(exists x; split; assumption)) as [c' [cur' [rc [A B]]]].
        -- lia.
        -- intros Hin. destruct (Nat.eq_dec (is_gen cn) 0) as [Ez|Ez].
           ++ rewrite (N0 Ez) in Hin. specialize (H2 Hin). lia.
           ++ lia.
        -- assumption.
        -- exists c', cur', rc. split; [assumption|]. intros R. destruct (B R) as [sts' [cn' [B1 [B2 [B3 B4]]]]]. exists sts', cn'. repeat (split; [assumption|]).
           intros _. apply B4. left. discriminate.
      * rewrite Okw, En. destruct cur as [i|].
        2:{ cbn [bind negb Z.eqb EINVAL]. exists c, None, EINVAL. split; [reflexivity|]. discriminate. }
        destruct cn as [cn|]; [|destruct Hc]. destruct Hc as [x [Hx Hxn]].
        assert (T : parse_option S table c i (underscored w) ps <> None) by (apply option_total; apply nth_error_Some; congruence).
        destruct (parse_option S table c i (underscored w) ps) as [[c0 rc0]|] eqn:Eo; [|contradiction]. cbn [bind].
        destruct (rc0 =? 0) eqn:Erc; cbn [negb].
        2:{ exists c0, (Some i), rc0. split; [reflexivity|]. intros R. subst. discriminate. }
        apply Z.eqb_eq in Erc. subst rc0.
        pose proof (step_option _ _ _ _ _ _ _ I Hx Eo) as I0. destruct (option_grows _ _ _ _ _ _ Eo) as [G0 N0].
        assert (Cnt : headers ((w :: ps) :: ls) = headers ls).
        { unfold headers. cbn [filter]. replace (is_header (s_name gen) (w :: ps)) with false; [reflexivity|]. symmetry. unfold is_header.
          destruct (word_dec _ _) as [E|E]; [|reflexivity]. apply new_section_some in E. congruence. }
        rewrite Cnt in H1, H2.
        destruct (IH c0 (Some i) _ (Some cn) I0) as [c' [cur' [rc [A B]]]].
        -- apply (cur_ok_grows c c0 (Some i) (Some cn) G0). exists x. split; assumption.
        -- assumption.
        -- intros Hin. apply N0 in Hin. apply in_app_or in Hin as [Hin|Hin]; [apply H2; assumption|].
           exfalso. apply (H3 (w :: ps)); [left; reflexivity|assumption].
        -- assumption.
        -- exists c', cur', rc. split; [assumption|]. intros R. destruct (B R) as [sts' [cn' [B1 [B2 [B3 B4]]]]]. exists sts', cn'. repeat (split; [assumption|]).
           intros _. apply B4. left. discriminate.
Qed.

Theorem tokens_total : forall ls, (headers ls <= 1)%nat -> (forall l, In l ls -> ~ In crny0_name (tl l)) -> (exists l, In l ls /\ l <> []) ->
  parse_tokens S table valid implicit boot ls <> None.
Proof.
  intros ls H1 H2 H3. unfold parse_tokens.
  destruct (lines_total ls (mkCfg S boot []) None [] None inv_boot I) as [c [cur [rc [A B]]]].
  - cbn. lia.
  - intros Hin. exfalso. apply Hc0. assumption.
  - assumption.
  - rewrite A. cbn [bind]. destruct (rc =? 0) eqn:E; cbn [negb]; [|discriminate]. apply Z.eqb_eq in E.
    destruct (B E) as [sts' [cn' [B1 [B2 [B3 B4]]]]]. specialize (B4 (or_intror H3)).
    destruct cn' as [n|]; [|contradiction]. destruct cur as [i|]; [|destruct B2]. destruct B2 as [x [Hx Hxn]]. cbn [bind].
    eapply validate_total; [exact B1|exact Hx|]. intros En Hin. specialize (B3 Hin). cbn in B3. rewrite <- Hxn, En in B3.
    destruct (word_dec (s_name gen) (s_name gen)); [discriminate|congruence].
Qed.
End P.

(** *** From text to tokens *)
Lemma fgets_line : forall b acc room f, ~ In 10 b -> (length b <= room)%nat ->
  fgets_lines room 1024 acc (b ++ 10 :: f) = (acc ++ b ++ [10]) :: fgets_lines 1022 1024 [] f.
Proof.
  induction b as [|c b IH]; intros acc room f Hn Hl.
  - cbn [app fgets_lines]. destruct room; reflexivity.
  - cbn [app fgets_lines]. destruct room as [|room]; [cbn in Hl; lia|].
    destruct (c =? 10) eqn:E; [apply Z.eqb_eq in E; subst; exfalso; apply Hn; left; reflexivity|].
    rewrite IH; [rewrite <- app_assoc; reflexivity|intros H; apply Hn; right; assumption|cbn in Hl; lia].
Qed.

Definition text_line (l : list Z) : Prop := exists b, l = b ++ [10] /\ ~ In 10 b /\ (length l < 1024)%nat.

Lemma fgets_all : forall ls, Forall text_line ls -> fgets_lines 1022 1024 [] (concat ls) = ls.
Proof.
  induction 1 as [|l ls [b [-> [Hn Hl]]] H IH]; [reflexivity|]. cbn [concat]. rewrite <- app_assoc. cbn [app].
  rewrite fgets_line; [|assumption|rewrite app_length in Hl; cbn in Hl; lia]. rewrite IH. reflexivity.
Qed.

Lemma fold_words : forall ws, fold_right (fun t acc => do w <- t; do r <- acc; Some (w :: r)) (Some []) (map (@Some word) ws) = Some ws.
Proof. induction ws as [|w ws IH]; [reflexivity|]. cbn [map fold_right bind]. rewrite IH. reflexivity. Qed.

Lemma line_tokens_line : forall l ws, is_string l -> line l ws -> (length ws <= 64)%nat -> line_tokens l = Some ws.
Proof.
  intros l ws Hs Hl Hw. unfold line_tokens. destruct (tokenize_refines l [] 64 Hs ltac:(lia)) as [b [ts [A [_ [_ [_ [_ F]]]]]]].
  rewrite A. cbn [bind]. rewrite F, (line_lex l ws Hl [] 64 [] Hs ltac:(cbn; lia)). cbn [app]. rewrite firstn_all2 by assumption. apply fold_words.
Qed.

Lemma string_prefix : forall l : list Z, exists a r, l ++ [0] = a ++ 0 :: r /\ is_string a.
Proof.
  induction l as [|c l [a [r [E H]]]]; [exists [], []; split; [reflexivity|constructor]|].
  destruct (Z.eq_dec c 0) as [->|N].
  - exists [], (l ++ [0]). split; [reflexivity|constructor].
  - exists (c :: a), r. cbn. rewrite E. split; [reflexivity|]. constructor; assumption.
Qed.

Lemma line_tokens_total : forall l, line_tokens l <> None.
Proof.
  intros l. unfold line_tokens. destruct (string_prefix l) as [a [r [E H]]]. rewrite E.
  destruct (tokenize_refines a r 64 H ltac:(lia)) as [b [ts [A [_ [_ [_ [_ F]]]]]]]. rewrite A. cbn [bind]. rewrite F, fold_words. discriminate.
Qed.
Lemma all_tokens_total : forall ls, exists tss, all_tokens ls = Some tss /\ length tss = length ls.
Proof.
  induction ls as [|l ls [tss [E L]]]; [exists []; split; reflexivity|]. cbn [all_tokens].
  pose proof (line_tokens_total l). destruct (line_tokens l) as [t|]; [|contradiction]. cbn [bind]. rewrite E. exists (t :: tss). split; [reflexivity|cbn; congruence].
Qed.
