(** Proofs for C75: contexts and ports. *)
Require Import ZArith List Bool Arith Lia Permutation.
From Verif Require Import Base PmcSpec PmcModel PmcProof PmcProof2 PmcProof3 PmcProof4.
Import ListNotations.
Open Scope Z_scope.

Lemma wf_conf w x : wf w -> wf (set_conf w x).
Proof. intros []. constructor; assumption. Qed.
Lemma apart a n b m i : NoDup (all (a ++ n :: b)) -> In m (a ++ b) -> In i (n_insts n) -> In i (n_insts m) -> False.
Proof.
  unfold all. rewrite flat_map_app. cbn [flat_map]. intros ND Hm Hi Hj.
  assert (P : Permutation (flat_map n_insts a ++ n_insts n ++ flat_map n_insts b) (n_insts n ++ flat_map n_insts (a ++ b))).
  { rewrite flat_map_app. rewrite !app_assoc. apply Permutation_app_tail, Permutation_app_comm. }
  apply (Permutation_NoDup P) in ND. assert (Q : In i (flat_map n_insts (a ++ b))) by (apply in_flat_map; eauto).
  revert ND Hi. generalize (n_insts n). induction l as [|x l IH]; [intros _ []|]. cbn. intros ND [->|Hi]; inversion_clear ND; [|auto]. apply H. apply in_or_app. right. exact Q.
Qed.
Lemma in_mid {A} (a : list A) n b m : In m (a ++ n :: b) <-> m = n \/ In m (a ++ b).
Proof. rewrite !in_app_iff. cbn [In]. intuition congruence. Qed.
Lemma map_mid (a b : list intf) n m : n_rep m = n_rep n -> map n_rep (a ++ m :: b) = map n_rep (a ++ n :: b).
Proof. intro E. rewrite !map_app. cbn. rewrite E. reflexivity. Qed.
Lemma all_mid a b n m : n_insts m = n_insts n -> all (a ++ m :: b) = all (a ++ n :: b).
Proof. intro E. unfold all. rewrite !flat_map_app. cbn. rewrite E. reflexivity. Qed.

Lemma wf_ctx w w' a n b : wf w -> exact w -> In OGlob (w_live w) -> w_intfs w = a ++ n :: b -> n_ctx n = None -> n_ok n = true ->
  w_intfs w' = a ++ with_ctx n (Some []) :: b -> w_ports w' = w_ports w -> w_ctxs w' = n_rep n :: w_ctxs w -> w_live w' = OCtx (n_rep n) :: w_live w ->
  wf w' /\ exact w'.
Proof.
  intros [W1 W2 W3 W4 W5 W6 W7 W8 W9] X G E Cn Ok E' Ep Ec El.
  assert (Hn : In n (w_intfs w)) by (rewrite E; apply in_mid; auto).
  assert (Ot : forall m, In m (a ++ b) -> In m (w_intfs w)) by (intros; rewrite E; apply in_mid; auto).
  assert (Ot' : forall m, In m (a ++ b) -> In m (w_intfs w')) by (intros; rewrite E'; apply in_mid; auto).
  assert (Hn' : In (with_ctx n (Some [])) (w_intfs w')) by (rewrite E'; apply in_mid; auto).
  assert (Fresh : ~ In (n_rep n) (w_ctxs w)).
  { intro H. destruct (X _ H) as (m & Hm & Rm & Cm). rewrite E in Hm. apply in_mid in Hm as [->|Hm]; [contradiction|]. rewrite E, map_app in W1. cbn in W1. apply NoDup_remove_2 in W1. apply W1. rewrite <- map_app, <- Rm. apply in_map, Hm. }
  assert (Old : forall m, In m (w_intfs w) -> n_ctx m <> None -> In m (w_intfs w')).
  { intros m Hm Cm. rewrite E in Hm. apply in_mid in Hm as [->|Hm]; [contradiction|auto]. }
  split; [constructor|].
  - rewrite E', (map_mid a b n) by reflexivity. rewrite <- E. exact W1.
  - rewrite E', (all_mid a b n) by reflexivity. rewrite <- E. exact W2.
  - intros m Hm. rewrite E' in Hm. apply in_mid in Hm as [->|Hm]; [exact (W3 n Hn)|auto].
  - intros m Hm. rewrite E' in Hm. apply in_mid in Hm as [->|Hm].
    + specialize (W4 n Hn). unfold ok_ctx in *. rewrite Cn in W4. cbn [with_ctx n_ctx n_ok n_rep n_insts]. rewrite El, Ec, Ep. split; [exact Ok|]. split; [left; reflexivity|]. split; [left; reflexivity|]. split; [right; exact G|]. split; [constructor|].
      split; [|intros i []]. intro i. split; [intros []|intros [A B]; exact (W4 i A B)].
    + specialize (W4 m (Ot m Hm)). unfold ok_ctx in *. rewrite El, Ec, Ep. destruct (n_ctx m) as [q|]; [|exact W4]. destruct W4 as (A & B & C & D & F & H & K). cbn [In]. split; [exact A|]. split; [auto|]. split; [auto|]. split; [auto|]. split; [exact F|]. split; [exact H|]. auto.
  - rewrite Ec. constructor; assumption.
  - rewrite El. intros o [<-|Ho]; [exists (with_ctx n (Some [])); split; [exact Hn'|split; [reflexivity|discriminate]]|]. specialize (W6 o Ho). destruct o; cbn [owned] in *.
    + rewrite E', (all_mid a b n) by reflexivity. rewrite <- E. exact W6.
    + rewrite E', (map_mid a b n) by reflexivity. rewrite <- E. exact W6.
    + destruct W6 as (m & A & B & C). exists m. auto.
    + destruct W6 as (m & q & A & B & C). exists m, q. split; [apply Old; [exact A|congruence]|auto].
    + trivial.
  - rewrite E', (all_mid a b n), <- E by reflexivity. rewrite El. intros i Hi. right. auto.
  - intros m Hm. rewrite El. rewrite E' in Hm. apply in_mid in Hm as [->|Hm]; [right; exact (W8 n Hn)|right; auto].
  - rewrite Ec, El. intros _ j [<-|Hj]; [left; reflexivity|]. right. apply W9; [|exact Hj]. destruct (X j Hj) as (m & A & _ & B). eauto.
  - intros j Hj. rewrite Ec in Hj. destruct Hj as [<-|Hj].
    + exists (with_ctx n (Some [])). split; [exact Hn'|]. split; [reflexivity|discriminate].
    + destruct (X j Hj) as (m & A & B & C). exists m. auto.
Qed.
Lemma wf_port w w' a n b p i : wf w -> exact w -> w_intfs w = a ++ n :: b -> n_ctx n = Some p -> In i (n_insts n) -> ~ In i (w_ports w) ->
  w_intfs w' = a ++ with_ctx n (Some (i :: p)) :: b -> w_ports w' = i :: w_ports w -> w_ctxs w' = w_ctxs w -> w_live w' = OPort i :: w_live w ->
  wf w' /\ exact w'.
Proof.
  intros [W1 W2 W3 W4 W5 W6 W7 W8 W9] X E Cn Ii Np E' Ep Ec El.
  assert (Hn : In n (w_intfs w)) by (rewrite E; apply in_mid; auto).
  assert (Ot : forall m, In m (a ++ b) -> In m (w_intfs w)) by (intros; rewrite E; apply in_mid; auto).
  assert (Ot' : forall m, In m (a ++ b) -> In m (w_intfs w')) by (intros; rewrite E'; apply in_mid; auto).
  assert (Hn' : In (with_ctx n (Some (i :: p))) (w_intfs w')) by (rewrite E'; apply in_mid; auto).
  split; [constructor|].
  - rewrite E', (map_mid a b n) by reflexivity. rewrite <- E. exact W1.
  - rewrite E', (all_mid a b n) by reflexivity. rewrite <- E. exact W2.
  - intros m Hm. rewrite E' in Hm. apply in_mid in Hm as [->|Hm]; [exact (W3 n Hn)|auto].
  - intros m Hm. rewrite E' in Hm. apply in_mid in Hm as [->|Hm].
    + specialize (W4 n Hn). unfold ok_ctx in *. rewrite Cn in W4. cbn [with_ctx n_ctx n_ok n_rep n_insts]. rewrite El, Ec, Ep. destruct W4 as (A & B & C & D & F & H & K). cbn [In]. split; [exact A|]. split; [auto|]. split; [exact C|]. split; [auto|].
      split; [constructor; [intro Q; apply H in Q as [_ Q]; contradiction|exact F]|]. split; [|intros x [<-|Hx]; [left; reflexivity|right; auto]].
      intro x. rewrite H. split; [intros [<-|[P Q]]; auto|intros [P [Q|Q]]; auto].
    + specialize (W4 m (Ot m Hm)). assert (Ni : ~ In i (n_insts m)) by (intro Q; rewrite E in W2; eapply apart; eauto). unfold ok_ctx in *. rewrite El, Ec, Ep. destruct (n_ctx m) as [q|].
      * destruct W4 as (A & B & C & D & F & H & K). cbn [In]. split; [exact A|]. split; [auto|]. split; [auto|]. split; [auto|]. split; [exact F|]. split; [|auto]. intro x. rewrite H. split; [tauto|]. intros [P [<-|Q]]; [contradiction|auto].
      * intros x Hx [<-|Q]; [contradiction|exact (W4 x Hx Q)].
  - rewrite Ec. exact W5.
  - rewrite El. intros o [<-|Ho]; [exists (with_ctx n (Some (i :: p))), (i :: p); split; [exact Hn'|split; [reflexivity|left; reflexivity]]|]. specialize (W6 o Ho). destruct o; cbn [owned] in *.
    + rewrite E', (all_mid a b n) by reflexivity. rewrite <- E. exact W6.
    + rewrite E', (map_mid a b n) by reflexivity. rewrite <- E. exact W6.
    + destruct W6 as (m & A & B & C). rewrite E in A. apply in_mid in A as [->|A]; [exists (with_ctx n (Some (i :: p))); split; [exact Hn'|split; [exact B|discriminate]]|]. exists m. auto.
    + destruct W6 as (m & q & A & B & C). rewrite E in A. apply in_mid in A as [->|A]; [|exists m, q; auto]. assert (q = p) as -> by congruence. exists (with_ctx n (Some (i :: p))), (i :: p). split; [exact Hn'|]. split; [reflexivity|right; exact C].
    + trivial.
  - rewrite E', (all_mid a b n), <- E by reflexivity. rewrite El. intros x Hx. right. auto.
  - intros m Hm. rewrite El. rewrite E' in Hm. apply in_mid in Hm as [->|Hm]; [right; exact (W8 n Hn)|right; auto].
  - rewrite Ec, El. intros _ j Hj. right. apply W9; [|exact Hj]. exists n. split; [exact Hn|congruence].
  - intros j Hj. rewrite Ec in Hj. destruct (X j Hj) as (m & A & B & C). rewrite E in A. apply in_mid in A as [->|A]; [|exists m; auto]. exists (with_ctx n (Some (i :: p))). split; [exact Hn'|]. split; [exact B|discriminate].
Qed.

Definition good (w : world) : Prop := wf w /\ exact w /\ In OGlob (w_live w).
Fixpoint number (c : Z) (l : list nat) : list ev := match l with [] => [] | i :: r => Port i (c + 1) :: number (c + 1) r end.
Definition port_ok (e : env) (i : nat) : Prop := e_port e i = 0 /\ e_clock e i = 0 /\ e_snap e i = 0.

Lemma ports_spec e a b r : forall n w p, good w -> w_intfs w = a ++ n :: b -> n_ctx n = Some p -> NoDup r ->
  (forall i, In i r -> In i (n_insts n) /\ ~ In i (w_ports w)) ->
  exists rc now evs w', ports_loop e r (n_rep n) w = Some (rc, now, evs, w') /\
    (rc = 0 <-> forall i, In i r -> port_ok e i) /\ ((forall i, In i r -> e_port e i = 0) -> good w') /\
    (rc = 0 -> now = false /\ evs = number (w_count w) r /\ w_count w' = w_count w + Z.of_nat (List.length r) /\ w_conf w' = w_conf w /\ w_alarm w' = w_alarm w /\
       (exists q, w_intfs w' = a ++ with_ctx n (Some q) :: b) /\ forall x, In x (w_ports w') <-> In x r \/ In x (w_ports w)).
Proof.
  induction r as [|i r IH]; intros n w p (W & X & G) E Cn ND H; cbn [ports_loop].
  - exists 0, false, [], w. split; [reflexivity|]. split; [split; [intros _ i []|reflexivity]|]. split; [intros _; split; auto|]. intros _. split; [reflexivity|]. split; [reflexivity|]. cbn. split; [lia|]. split; [reflexivity|]. split; [reflexivity|].
    split; [exists p; rewrite E; rewrite <- Cn; destruct n; reflexivity|]. tauto.
  - assert (Hn : In n (w_intfs w)) by (rewrite E; apply in_mid; auto). destruct (H i (or_introl eq_refl)) as [Ii Np]. inversion_clear ND as [|? ? U V].
    pose proof (wf_ok w W n Hn) as On. unfold ok_ctx in On. rewrite Cn in On. destruct On as (O1 & O2 & O3 & O4 & O5 & O6 & O7).
    unfold create_port. rewrite (get_spec n w (wf_reps w W) Hn (wf_intf w W n Hn)). cbn [bind]. rewrite Cn. rewrite (proj2 (live_In OGlob w) G), (proj2 (live_In _ w) O2). cbn [negb andb].
    pose proof (put_spec w a n b (with_ctx n (Some (i :: p))) (wf_reps w W) E eq_refl) as Pt.
    destruct (Z.eqb_spec (e_port e i) 0) as [Z1|Z1].
    + cbn [bind negb Z.eqb]. set (w1 := set_ports _ _).
      destruct (wf_port w w1 a n b p i W X E Cn Ii Np Pt eq_refl eq_refl eq_refl) as [W1 X1]. assert (G1 : good w1) by (split; [exact W1|]; split; [exact X1|]; right; exact G).
      destruct (Z.eqb_spec (e_clock e i) 0) as [Z2|Z2]; cbn [negb].
      2:{ do 4 eexists. split; [reflexivity|]. split; [split; [discriminate|intro Q; destruct (Q i (or_introl eq_refl)) as (_ & Q1 & _); contradiction]|]. split; [auto|discriminate]. }
      destruct (Z.eqb_spec (e_snap e i) 0) as [Z3|Z3]; cbn [negb].
      2:{ do 4 eexists. split; [reflexivity|]. split; [split; [intro; contradiction|intro Q; destruct (Q i (or_introl eq_refl)) as (_ & _ & Q1); contradiction]|]. split; [auto|intro; contradiction]. }
      destruct (IH (with_ctx n (Some (i :: p))) w1 (i :: p) G1 Pt eq_refl V) as (rc & now & evs & w2 & A & R & B & D).
      { intros x Hx. destruct (H x (or_intror Hx)) as [P Q]. split; [exact P|]. intros [<-|Q']; contradiction. }
      cbn [n_rep with_ctx] in A. rewrite A. cbn [bind]. do 4 eexists. split; [reflexivity|]. split; [|split].
      * rewrite R. split; [intros Q x [<-|Hx]; [split; auto|auto]|intros Q x Hx; apply Q; right; exact Hx].
      * intro Q. apply B. intros x Hx. apply Q. right. exact Hx.
      * intro Q. destruct (D Q) as (D1 & D2 & D3 & D4 & D5 & (q & D6) & D7). split; [exact D1|]. split; [rewrite D2; reflexivity|]. change (w_count w1) with (w_count w + 1) in D3. cbn [List.length]. split; [lia|]. split; [exact D4|]. split; [exact D5|]. split; [exists q; exact D6|].
        intro x. rewrite D7. change (w_ports w1) with (i :: w_ports w). cbn [In]. tauto.
    + cbn [bind]. destruct (Z.eqb_spec (e_port e i) 0) as [Z2|_]; [contradiction|]. cbn [negb]. do 4 eexists. split; [reflexivity|]. split; [split; [intro; contradiction|intro Q; destruct (Q i (or_introl eq_refl)) as (Q1 & _); contradiction]|].
      split; [intro Q; destruct Z1; apply Q; left; reflexivity|intro; contradiction].
Qed.

(** Whether the context of an interface joins the multicast groups: with one instance, if that
    takes multicast messages. *)
Definition joins (l : list conf) (j : nat) : bool :=
  match nth_error l j with
  | None => false
  | Some c => match members l j (List.length l) with [_] => wants_multicast c | _ => f_needed c end
  end.
Fixpoint ups (l : list conf) (c : Z) (ns : list intf) : list ev :=
  match ns with
  | [] => []
  | n :: r => Up (n_rep n) (n_rep n) (joins l (n_rep n)) :: number c (n_insts n) ++ ups l (c + Z.of_nat (List.length (n_insts n))) r
  end.
Lemma ups_shape l : forall ns ms c, map (fun n => (n_rep n, n_insts n)) ns = map (fun n => (n_rep n, n_insts n)) ms -> ups l c ns = ups l c ms.
Proof. induction ns as [|n ns IH]; intros [|m ms] c H; try discriminate; [reflexivity|]. cbn in H. injection H as H1 H2 H3. cbn. rewrite H1, H2, (IH ms) by exact H3. reflexivity. Qed.
Definition soft_of (e : env) (ns : list intf) : Z := fold_right (fun n s => s + (if e_soft e (n_rep n) then Z.of_nat (List.length (n_insts n)) else 0)) 0 ns.
Definition up_ok (e : env) (n : intf) : Prop := e_ctx e (n_rep n) = 0 /\ forall i, In i (n_insts n) -> port_ok e i.
Definition conf_kept (l : list conf) (w : world) (ns : list intf) : Prop :=
  forall n i, In n ns -> In i (n_insts n) -> nth_error (w_conf w) i = nth_error (conf_at l (List.length l)) i.

Lemma agg_spec l w a n b : good w -> shape l (List.length l) (w_intfs w) -> w_intfs w = a ++ n :: b -> conf_kept l w (n :: b) ->
  exists x c, aggregate n w = Some (set_conf w x) /\ nth_error x (n_rep n) = Some c /\ f_needed c = joins l (n_rep n) /\ conf_kept l (set_conf w x) b.
Proof.
  intros (W & X & G) S E K. assert (Hn : In n (w_intfs w)) by (rewrite E; apply in_mid; auto). destruct (shape_in _ _ _ _ S Hn) as [F M].
  pose proof (shape_some _ _ _ _ S (Nat.le_refl _) Hn) as Hr. set (j := n_rep n) in *.
  assert (Lj : (j < List.length l)%nat) by (apply in_firsts in F; tauto).
  destruct (nth_error l j) as [d|] eqn:Ed; [|apply nth_error_None in Ed; lia].
  assert (At : forall i, In i (n_insts n) -> exists c, nth_error l i = Some c /\ nth_error (w_conf w) i = Some (defaults c)).
  { intros i Hi. rewrite (K n i (or_introl eq_refl) Hi), nth_conf_at. rewrite M in Hi. apply in_members in Hi as [Hi _]. destruct (nth_error l i) as [c|] eqn:Ec; [|apply nth_error_None in Ec; lia].
    exists c. split; [reflexivity|]. destruct (Nat.ltb_spec i (List.length l)); [reflexivity|lia]. }
  unfold aggregate. destruct (n_insts n) as [|h t] eqn:Ei; [destruct Hr|]. destruct (At h (or_introl eq_refl)) as (ch & A1 & A2). rewrite A2. cbn [bind]. set (v := existsb _ _).
  assert (Lh : (h < List.length (w_conf w))%nat) by (apply nth_error_Some; congruence).
  eexists. exists (if (j =? h)%nat then with_needed (defaults ch) v else defaults d). split; [reflexivity|]. split; [|split].
  - rewrite set_nth_nth. destruct (Nat.eqb_spec j h) as [Q|Q]; [destruct (Nat.ltb_spec h (List.length (w_conf w))); [reflexivity|lia]|]. destruct (At j Hr) as (c & B1 & B2). congruence.
  - unfold joins. rewrite Ed, <- M. destruct (Nat.eqb_spec j h) as [Q|Q].
    + subst h. destruct t as [|y t].
      * cbn. unfold v. cbn. rewrite A2. rewrite orb_false_r. replace ch with d by congruence. unfold wants_multicast. destruct (defaults_key d) as (_ & _ & _ & D). destruct d; reflexivity.
      * exfalso. assert (Hy : (y < j)%nat).
        { assert (Q : forall k, members l j k = j :: y :: t -> (y < j)%nat).
          { induction k as [|k IH]; intro Q; [discriminate|]. rewrite members_S in Q. destruct (same l j k); [|exact (IH Q)]. cbn in Q. injection Q as -> Q. assert (Hy : In y (members l j j)) by (rewrite Q; left; reflexivity). apply in_members in Hy. tauto. }
          apply (Q (List.length l)). congruence. }
        assert (Sy : same l j y = true) by (assert (In y (members l j (List.length l))) as Q by (rewrite <- M; right; left; reflexivity); apply in_members in Q; tauto).
        apply in_firsts in F as [_ F]. rewrite is_first_spec in F. specialize (F y Hy). rewrite (same_sym _ _ _ Sy) in F. discriminate.
    + destruct t as [|y t]; [destruct Hr as [Hr|[]]; congruence|]. destruct d; reflexivity.
  - intros m i Hm Hi. cbn [w_conf set_conf]. rewrite set_nth_nth. destruct (Nat.eqb_spec i h) as [->|Q].
    + exfalso. pose proof (wf_all w W) as ND. rewrite E in ND. apply (apart a n b m h ND); [apply in_or_app; right; exact Hm|rewrite Ei; left; reflexivity|exact Hi].
    + apply (K m i); [right; exact Hm|exact Hi].
Qed.

Lemma ctx_spec l e b : forall a w, good w -> shape l (List.length l) (w_intfs w) -> w_intfs w = a ++ b -> conf_kept l w b ->
  (forall n, In n (a ++ b) -> n_ok n = true) -> (forall n, In n a -> n_ctx n <> None) -> (forall n, In n b -> n_ctx n = None) -> (forall x, In x (w_ports w) <-> In x (all a)) ->
  exists rc now soft evs w', ctx_loop e (map n_rep b) w = Some (rc, now, soft, evs, w') /\
    (rc = 0 <-> forall n, In n b -> up_ok e n) /\
    ((forall n, In n b -> e_ctx e (n_rep n) = 0 /\ forall i, In i (n_insts n) -> e_port e i = 0) -> good w') /\
    (rc = 0 -> now = false /\ soft = soft_of e b /\ evs = ups l (w_count w) b /\ w_alarm w' = w_alarm w /\ shape l (List.length l) (w_intfs w') /\
       (forall n, In n (w_intfs w') -> n_ok n = true /\ n_ctx n <> None) /\ forall x, In x (w_ports w') <-> In x (all (w_intfs w'))).
Proof.
  induction b as [|n b IH]; intros a w Gd S E K Ok Ca Cb P; cbn [map ctx_loop].
  - exists 0, false, 0, [], w. split; [reflexivity|]. split; [split; [intros _ n []|reflexivity]|]. split; [auto|]. intros _. split; [reflexivity|]. split; [reflexivity|]. split; [reflexivity|]. split; [reflexivity|]. split; [exact S|].
    rewrite E, app_nil_r in *. auto.
  - pose proof Gd as (W & X & G). assert (Hn : In n (w_intfs w)) by (rewrite E; apply in_mid; auto).
    rewrite (get_spec n w (wf_reps w W) Hn (wf_intf w W n Hn)). cbn [bind]. assert (On : n_ok n = true) by (apply Ok, in_mid; auto). rewrite On. cbn [negb].
    destruct (agg_spec l w a n b Gd S E K) as (x & c & A1 & A2 & A3 & A4). rewrite A1. cbn [bind]. unfold create_ctx. cbn [w_conf set_conf]. rewrite A2. cbn [bind].
    assert (Lg : live OGlob (set_conf w x) = true) by (apply live_In; exact G). rewrite Lg. cbn [negb]. rewrite A3.
    assert (Cn : n_ctx n = None) by (apply Cb; left; reflexivity).
    destruct (Z.eqb_spec (e_ctx e (n_rep n)) 0) as [Z1|Z1].
    + cbn [bind negb Z.eqb]. set (w1 := put _ _).
      pose proof (put_spec (alloc (OCtx (n_rep n)) (set_ctxs (set_conf w x) (n_rep n :: w_ctxs (set_conf w x)))) a n b (with_ctx n (Some [])) (wf_reps w W) E eq_refl) as Pt. fold w1 in Pt.
      destruct (wf_ctx w w1 a n b W X G E Cn On Pt eq_refl eq_refl eq_refl) as [W1 X1]. assert (G1 : good w1) by (split; [exact W1|]; split; [exact X1|]; right; exact G).
      pose proof (wf_all w W) as ND. rewrite E in ND.
      assert (NDn : NoDup (n_insts n)). { destruct (shape_in _ _ _ _ S Hn) as [_ ->]. apply nodup_members. }
      destruct (ports_spec e a b (n_insts n) (with_ctx n (Some [])) w1 [] G1 Pt eq_refl NDn) as (rc & now & evs & w2 & B & R & Gp & D).
      { intros i Hi. split; [exact Hi|]. change (w_ports w1) with (w_ports w). rewrite P. intro Q. unfold all in Q. apply in_flat_map in Q as (m & Hm & Im). apply (apart a n b m i ND); [apply in_or_app; left; exact Hm|exact Hi|exact Im]. }
      cbn [n_rep with_ctx] in B. rewrite B. cbn [bind]. destruct (Z.eqb_spec rc 0) as [->|N].
      * cbn [negb]. destruct (D eq_refl) as (D1 & D2 & D3 & D4 & D5 & (q & D6) & D7). set (n' := with_ctx (with_ctx n (Some [])) (Some q)) in *.
        assert (G2 : good w2) by (apply Gp; intros i Hi; apply (proj1 R eq_refl i Hi)).
        destruct (IH (a ++ [n']) w2) as (rc & now2 & soft & evs2 & w3 & C1 & C2 & C3 & C4); auto.
        -- rewrite D6. unfold shape in *. rewrite <- S, E, !map_app. reflexivity.
        -- rewrite D6, <- app_assoc. reflexivity.
        -- intros m i Hm Hi. rewrite D4. exact (A4 m i Hm Hi).
        -- intros m Hm. rewrite <- app_assoc in Hm. cbn [app] in Hm. apply in_mid in Hm as [->|Hm]; [exact On|]. apply Ok, in_mid. auto.
        -- intros m Hm. apply in_app_or in Hm as [Hm|[<-|[]]]; [auto|discriminate].
        -- intros m Hm. apply Cb. right. exact Hm.
        -- intro y. rewrite D7. change (w_ports w1) with (w_ports w). rewrite P. unfold all. rewrite flat_map_app, in_app_iff. cbn [flat_map n' with_ctx n_insts]. rewrite app_nil_r. tauto.
        -- rewrite C1. cbn [bind]. do 5 eexists. split; [reflexivity|]. split; [|split].
           ++ rewrite C2. split; [intros Q m [<-|Hm]; [split; [exact Z1|apply R; reflexivity]|auto]|intros Q m Hm; apply Q; right; exact Hm].
           ++ intro Q. apply C3. intros m Hm. apply Q. right. exact Hm.
           ++ intro Q. destruct (C4 Q) as (Q1 & Q2 & Q3 & Q4 & Q5 & Q6 & Q7). split; [exact Q1|]. split; [rewrite Q2; reflexivity|]. split; [|split; [rewrite Q4, D5; reflexivity|]; auto].
              rewrite Q3, D2, D3. cbn [ups app]. reflexivity.
      * cbn [negb]. do 5 eexists. split; [reflexivity|]. split; [split; [intro; contradiction|intro Q; apply R; apply (Q n (or_introl eq_refl))]|]. split; [|intro; contradiction].
        intro Q. apply Gp. apply (Q n (or_introl eq_refl)).
    + cbn [bind]. destruct (Z.eqb_spec (e_ctx e (n_rep n)) 0) as [Z2|_]; [contradiction|]. cbn [negb]. do 5 eexists. split; [reflexivity|]. split; [split; [intro; contradiction|intro Q; destruct (Q n (or_introl eq_refl)) as (Q1 & _); contradiction]|].
      split; [intro Q; destruct Z1; apply (Q n (or_introl eq_refl))|intro; contradiction].
Qed.
