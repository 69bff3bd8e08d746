(** Proofs about the search of the freerun module for the NIC behind a link. *)
Require Import ZArith QArith Lqa List Bool Lia Arith.
Require Import Verif.Base Verif.TimeSpec Verif.TimeModel Verif.ListLib Verif.FrnSpec Verif.FrnModel.
Import ListNotations.
Open Scope Z_scope.

(** ** Tables *)
Section Last.
Variable A : Type.
Variable p : A -> bool.
Lemma fold_last : forall t a,
  match fold_left (fun acc l => if p l then Some l else acc) t a with
  | Some l => (exists x y, t = x ++ l :: y /\ p l = true /\ forall z, In z y -> p z = false) \/ (a = Some l /\ forall z, In z t -> p z = false)
  | None => a = None /\ forall z, In z t -> p z = false
  end.
Proof.
  induction t as [|z t IH]; intros a.
  - cbn [fold_left]. destruct a as [l|]; [right|]; split; try reflexivity; intros z [].
  - cbn [fold_left]. specialize (IH (if p z then Some z else a)). destruct (fold_left _ t _) as [l|].
    + destruct IH as [(x & y & E & P & N)|(E & N)].
      * left. exists (z :: x), y. rewrite E. split; [reflexivity|]. split; assumption.
      * destruct (p z) eqn:Z1.
        -- injection E as ->. left. exists [], t. split; [reflexivity|]. split; assumption.
        -- right. split; [exact E|]. intros y [<-|I]; [exact Z1|apply N, I].
    + destruct IH as (E & N). destruct (p z) eqn:Z1; [discriminate|]. split; [exact E|]. intros y [<-|I]; [exact Z1|apply N, I].
Qed.
End Last.

Lemma by_index_num : forall t i l, by_index t i = Some l -> numbered t i l.
Proof.
  intros t i l H. pose proof (fold_last link (fun x => l_index x =? i) t None) as F. cbv beta in F. unfold by_index in H. rewrite H in F.
  destruct F as [(x & y & E & P & N)|(E & _)]; [|discriminate]. split; [apply Z.eqb_eq, P|]. exists x, y. split; [exact E|].
  intros z I. apply Z.eqb_neq, N, I.
Qed.
Lemma num_by_index : forall t i l, numbered t i l -> by_index t i = Some l.
Proof.
  intros t i l (I & a & b & -> & N). unfold by_index. rewrite fold_left_app. cbn [fold_left]. rewrite (proj2 (Z.eqb_eq _ _) I).
  clear I. induction b as [|z b IH]; [reflexivity|]. cbn [fold_left]. rewrite (proj2 (Z.eqb_neq _ _) (N z (or_introl eq_refl))). apply IH. intros x J. apply N. right. exact J.
Qed.
Lemma by_index_none : forall t i, by_index t i = None <-> forall x, In x t -> l_index x <> i.
Proof.
  intros t i. pose proof (fold_last link (fun x => l_index x =? i) t None) as F. cbv beta in F. unfold by_index. split.
  - intros H. rewrite H in F. intros x J. apply Z.eqb_neq, (proj2 F), J.
  - intros H. destruct (fold_left _ t None) as [l|]; [|reflexivity]. destruct F as [(x & y & E & P & _)|(E & _)]; [|discriminate].
    exfalso. apply (H l); [rewrite E; apply in_elt|apply Z.eqb_eq, P].
Qed.

(** ** Comparison *)
Lemma beats_better : forall c b, beats c b = true <-> better c b.
Proof.
  intros c b. unfold beats, better. rewrite !orb_true_iff, !andb_true_iff, !negb_true_iff, !Qeq_bool_iff, Z.ltb_lt.
  assert (Q : forall x y, Qle_bool x y = false <-> (y < x)%Q).
  { intros x y. split.
    - intros H. apply Qnot_le_lt. intros L. apply Qle_bool_iff in L. congruence.
    - intros H. destruct (Qle_bool x y) eqn:E; [|reflexivity]. apply Qle_bool_iff in E. exfalso. apply (Qlt_not_le _ _ H E). }
  rewrite !Q. tauto.
Qed.
Lemma better_trans : forall a b c, better a b -> better b c -> better a c.
Proof. unfold better. intros a b c [H|(H & [K|(K & L)])] [H'|(H' & [K'|(K' & L')])]; try (left; lra); right; (split; [lra|]); try (left; lra); right; split; [lra|lia]. Qed.
Lemma better_neg : forall a b c, better a c -> better a b \/ better b c.
Proof.
  unfold better. intros a b c H.
  destruct (Q_dec (s_hold a) (s_hold b)) as [[?|?]|?]; [tauto| |].
  - right. left. destruct H as [H|(H & _)]; lra.
  - destruct H as [H|(H & H2)]; [right; left; lra|].
    destruct (Q_dec (s_acc a) (s_acc b)) as [[?|?]|?]; [tauto| |].
    + right. right. split; [lra|]. left. destruct H2 as [H2|(H2 & _)]; lra.
    + destruct H2 as [H2|(H2 & H3)]; [right; right; split; [lra|]; left; lra|].
      destruct (Z_lt_dec (s_strat a) (s_strat b)) as [?|?]; [tauto|]. right. right. split; [lra|]. right. split; [lra|lia].
Qed.

Section World.
Variable iface : Z -> option (option clk).
Variable specs : clk -> spec.
Notation fb := (first_best specs).

Lemma keep_first : forall A B a b, fb A a -> fb B b -> fb (A ++ B) (keep specs a b).
Proof.
  intros A B a b HA HB. unfold keep. destruct b as [y|].
  - destruct a as [x|].
    + destruct HA as (a1 & a2 & -> & P1 & P2). destruct HB as (b1 & b2 & -> & R1 & R2). destruct (beats (specs (snd y)) (specs (snd x))) eqn:E.
      * apply beats_better in E. exists ((a1 ++ x :: a2) ++ b1), b2. split; [rewrite <- !app_assoc; reflexivity|]. split; [|exact R2].
        intros z I. apply in_app_or in I. destruct I as [I|I]; [|apply R1, I]. apply in_app_or in I. destruct I as [I|[<-|I]].
        -- apply (better_trans _ _ _ E), P1, I.
        -- exact E.
        -- destruct (better_neg (specs (snd y)) (specs (snd z)) (specs (snd x)) E) as [H|H]; [exact H|destruct (P2 z I H)].
      * assert (N : ~ better (specs (snd y)) (specs (snd x))) by (intros H; apply beats_better in H; congruence).
        exists a1, (a2 ++ b1 ++ y :: b2). split; [rewrite <- !app_assoc; reflexivity|]. split; [exact P1|].
        intros z I. apply in_app_or in I. destruct I as [I|I]; [apply P2, I|]. apply in_app_or in I. destruct I as [I|[<-|I]].
        -- intros H. apply N, (better_trans _ _ _ (R1 z I) H).
        -- exact N.
        -- intros H. destruct (better_neg _ (specs (snd y)) _ H) as [K|K]; [apply (R2 z I K)|apply N, K].
    + cbn in HA. subst A. exact HB.
  - cbn in HB. subst B. rewrite app_nil_r. exact HA.
Qed.
Lemma first_unique : forall L r r', fb L r -> fb L r' -> r = r'.
Proof.
  intros L r r' H H'. destruct r as [x|], r' as [y|]; cbn in H, H'.
  - destruct H as (a & b & E & P1 & P2). destruct H' as (c & d & E' & R1 & R2). rewrite E in E'.
    assert (W : forall (a b c d : list (link * clk)) x y, a ++ x :: b = c ++ y :: d -> (In x c /\ In y b) \/ (In y a /\ In x d) \/ x = y).
    { clear. induction a as [|z a IH]; intros b c d x y E; destruct c as [|z' c]; cbn [app] in E; injection E as E1 E2.
      - right. right. exact E1.
      - left. subst. split; [left; reflexivity|apply in_elt].
      - right. left. subst. split; [left; reflexivity|apply in_elt].
      - destruct (IH _ _ _ _ _ E2) as [(I & J)|[(I & J)|I]]; [left|right; left|right; right; exact I]; (split; [right; exact I|exact J]). }
    destruct (W _ _ _ _ _ _ E') as [(I & J)|[(I & J)|I]].
    + destruct (P2 y J (R1 x I)).
    + destruct (R2 x J (P1 y I)).
    + f_equal. exact I.
  - destruct H as (a & b & E & _). rewrite E in H'. destruct a; discriminate.
  - destruct H' as (a & b & E & _). rewrite E in H. destruct a; discriminate.
  - reflexivity.
Qed.

(** ** Soundness *)
Lemma resolve_sound : forall n t l l1, resolve n t l = Some l1 -> l_vlan l1 = false /\ forall L, nics iface t l1 L -> nics iface t l L.
Proof.
  induction n as [|n IH]; intros t l l1 H; [discriminate|]. cbn [resolve] in H. destruct (l_vlan l) eqn:V.
  - destruct (by_index t (l_inner l)) as [o|] eqn:B.
    + destruct (IH t o l1 H) as (P & Q). split; [exact P|]. intros L K. apply (Nvlan _ _ _ o); [exact V|apply by_index_num, B|apply Q, K].
    + destruct (IH t l l1 H) as (P & Q). split; [exact P|exact Q].
  - injection H as <-. split; [exact V|]. intros L K. exact K.
Qed.
Lemma rows_sound : forall t s i rs best r, (forall l r, s l = Some r -> exists L, nics iface t l L /\ fb L r) ->
  rows specs s i rs best = Some r -> exists L, nics_of iface t (filter (fun x => l_master x =? i) rs) L /\ forall B, fb B best -> fb (B ++ L) r.
Proof.
  intros t s i rs best r HS. revert best. induction rs as [|o rs IH]; intros best H; cbn [rows filter] in *.
  - injection H as <-. exists []. split; [constructor|]. intros B HB. rewrite app_nil_r. exact HB.
  - destruct (l_master o =? i).
    + destruct (s o) as [c|] eqn:S; [|discriminate]. cbn [bind] in H. destruct (HS o c S) as (L1 & N1 & F1). destruct (IH _ H) as (L2 & N2 & F2).
      exists (L1 ++ L2). split; [constructor; assumption|]. intros B HB. rewrite app_assoc. apply F2, keep_first; assumption.
    + apply IH, H.
Qed.
Lemma find_sound : forall n t l r, find iface specs n t l = Some r -> exists L, nics iface t l L /\ fb L r.
Proof.
  induction n as [|n IH]; intros t l r H; [discriminate|]. cbn [find] in H. destruct (resolve n t l) as [l1|] eqn:R; [|discriminate]. cbn [bind] in H.
  destruct (resolve_sound _ _ _ _ R) as (V & K).
  assert (G : hw iface (l_index l1) = None -> rows specs (find iface specs n t) (l_index l1) t None = Some r -> exists L, nics iface t l L /\ fb L r).
  { intros HN HR. destruct (rows_sound t _ _ _ _ _ (IH t) HR) as (L & N & F). exists L. split; [apply K; apply Ngroup; assumption|]. apply (F []). reflexivity. }
  unfold hw in G. destruct (iface (l_index l1)) as [[c|]|] eqn:I; [|apply G; [reflexivity|exact H]|apply G; [reflexivity|exact H]].
  destruct c as [|c]; [apply G; [reflexivity|exact H]|]. cbn in H. injection H as <-. exists [(l1, S c)]. split.
  - apply K, Nnic; [exact V|]. unfold hw. rewrite I. reflexivity.
  - exists [], []. split; [reflexivity|]. split; intros y [].
Qed.

(** ** Fuel *)
Lemma resolve_mono : forall n m t l l1, resolve n t l = Some l1 -> (n <= m)%nat -> resolve m t l = Some l1.
Proof.
  induction n as [|n IH]; intros m t l l1 H L; [discriminate|]. destruct m as [|m]; [lia|]. cbn [resolve] in *. destruct (l_vlan l); [|exact H].
  destruct (by_index t (l_inner l)); apply IH; try exact H; lia.
Qed.
Lemma rows_mono : forall s s' i rs best r, (forall l r, s l = Some r -> s' l = Some r) -> rows specs s i rs best = Some r -> rows specs s' i rs best = Some r.
Proof.
  intros s s' i rs best r HS. revert best. induction rs as [|o rs IH]; intros best H; cbn [rows] in *; [exact H|].
  destruct (l_master o =? i); [|apply IH, H]. destruct (s o) as [c|] eqn:S; [|discriminate]. rewrite (HS o c S). cbn [bind] in *. apply IH, H.
Qed.
Lemma find_mono : forall n m t l r, find iface specs n t l = Some r -> (n <= m)%nat -> find iface specs m t l = Some r.
Proof.
  induction n as [|n IH]; intros m t l r H L; [discriminate|]. destruct m as [|m]; [lia|]. cbn [find] in *.
  destruct (resolve n t l) as [l1|] eqn:R; [|discriminate]. rewrite (resolve_mono n m t l l1 R) by lia. cbn [bind] in *.
  assert (G : rows specs (find iface specs n t) (l_index l1) t None = Some r -> rows specs (find iface specs m t) (l_index l1) t None = Some r).
  { apply rows_mono. intros x y H'. apply (IH m); [exact H'|lia]. }
  destruct (iface (l_index l1)) as [[c|]|]; [|apply G, H|apply G, H]. destruct (c =? SYSTEM)%nat; [apply G, H|exact H].
Qed.

(** ** Completeness *)
Scheme nics_ind2 := Induction for nics Sort Prop with nics_of_ind2 := Induction for nics_of Sort Prop.
Lemma find_complete : forall t l L, nics iface t l L -> exists n r, find iface specs n t l = Some r.
Proof.
  intros t. apply (nics_ind2 iface t (fun l L _ => exists n r, find iface specs n t l = Some r)
    (fun rs L _ => exists n, forall l, In l rs -> exists r, find iface specs n t l = Some r)).
  - intros l i L V N _ (n & r & H). destruct n as [|n]; [discriminate|]. exists (S (S n)), r. cbn [find] in H.
    destruct (resolve n t i) as [l1|] eqn:R; [|discriminate].
    assert (R' : resolve (S n) t l = Some l1) by (cbn [resolve]; rewrite V, (num_by_index _ _ _ N); exact R).
    change (find iface specs (S (S n)) t l) with (do l1 <- resolve (S n) t l;
      match iface (l_index l1) with
      | Some (Some c) => if (c =? SYSTEM)%nat then rows specs (find iface specs (S n) t) (l_index l1) t None else Some (Some (l1, c))
      | _ => rows specs (find iface specs (S n) t) (l_index l1) t None
      end). rewrite R'. cbn [bind] in *.
    assert (G : rows specs (find iface specs n t) (l_index l1) t None = Some r -> rows specs (find iface specs (S n) t) (l_index l1) t None = Some r).
    { apply rows_mono. intros x y H'. apply (find_mono n); [exact H'|lia]. }
    destruct (iface (l_index l1)) as [[c|]|]; [|apply G, H|apply G, H]. destruct (c =? SYSTEM)%nat; [apply G, H|exact H].
  - intros l c V H. unfold hw in H. destruct (iface (l_index l)) as [[[|k]|]|] eqn:I; try discriminate. exists 2%nat, (Some (l, S k)). cbn [find resolve]. rewrite V. cbn [bind]. rewrite I. reflexivity.
  - intros l L V H _ (n & F). exists (S (S n)).
    assert (G : forall rs best, (forall l', In l' rs -> l_master l' = l_index l -> In l' (filter (fun x => l_master x =? l_index l) t)) -> exists r, rows specs (find iface specs (S n) t) (l_index l) rs best = Some r).
    { induction rs as [|o rs IH]; intros best SS; cbn [rows]; [eexists; reflexivity|]. destruct (l_master o =? l_index l) eqn:M.
      - destruct (F o) as (r & Hr); [apply SS; [left; reflexivity|apply Z.eqb_eq, M]|]. rewrite (find_mono n (S n) t o r Hr) by lia. cbn [bind]. apply IH. intros l' J. apply SS. right. exact J.
      - apply IH. intros l' J. apply SS. right. exact J. }
    destruct (G t None) as (r & HR); [intros l' J M; apply filter_In; split; [exact J|apply Z.eqb_eq, M]|]. exists r.
    change (find iface specs (S (S n)) t l) with (do l1 <- resolve (S n) t l;
      match iface (l_index l1) with
      | Some (Some c) => if (c =? SYSTEM)%nat then rows specs (find iface specs (S n) t) (l_index l1) t None else Some (Some (l1, c))
      | _ => rows specs (find iface specs (S n) t) (l_index l1) t None
      end). cbn [resolve]. rewrite V. cbn [bind]. unfold hw in H. destruct (iface (l_index l)) as [[[|k]|]|]; try discriminate; exact HR.
  - exists 0%nat. intros l [].
  - intros l r L1 L2 _ (n1 & r1 & H1) _ (n2 & H2). exists (n1 + n2)%nat. intros x [<-|I].
    + exists r1. apply (find_mono n1); [exact H1|lia].
    + destruct (H2 x I) as (r2 & K). exists r2. apply (find_mono n2); [exact K|lia].
Qed.
(** The list of NICs is unique. *)
Lemma nics_unique : forall t l L, nics iface t l L -> forall L', nics iface t l L' -> L = L'.
Proof.
  intros t. apply (nics_ind2 iface t (fun l L _ => forall L', nics iface t l L' -> L = L') (fun rs L _ => forall L', nics_of iface t rs L' -> L = L')).
  - intros l i L V N _ IH L' H. inversion H as [? i' ? V' N' H'|? ? V' ?|? ? V' ? ?]; subst; try congruence. apply num_by_index in N, N'. rewrite N in N'. injection N' as <-. apply IH, H'.
  - intros l c V H L' H'. inversion H' as [? ? ? V' ? ?|? c' ? H2|? ? ? H2 ?]; subst; try congruence.
  - intros l L V H _ IH L' H'. inversion H' as [? ? ? V' ? ?|? c' ? H2|? ? ? H2 H3]; subst; try congruence. apply IH, H3.
  - intros L' H. inversion H. reflexivity.
  - intros l r L1 L2 _ IH1 _ IH2 L' H. inversion H; subst. f_equal; [apply IH1; assumption|apply IH2; assumption].
Qed.
Theorem find_spec : forall t l r, (exists n, find iface specs n t l = Some r) <-> exists L, nics iface t l L /\ fb L r.
Proof.
  intros t l r. split.
  - intros (n & H). apply (find_sound n), H.
  - intros (L & N & F). destruct (find_complete t l L N) as (n & r' & H). exists n. rewrite H. f_equal.
    destruct (find_sound _ _ _ _ H) as (L' & N' & F'). rewrite <- (nics_unique _ _ _ N _ N') in F'. apply (first_unique L); assumption.
Qed.
(** A VLAN on a link that is not in the table. *)
Lemma find_stuck : forall t l n, l_vlan l = true -> (forall x, In x t -> l_index x <> l_inner l) -> find iface specs n t l = None.
Proof.
  intros t l n V N. destruct (find iface specs n t l) as [r|] eqn:H; [|reflexivity]. destruct (find_sound _ _ _ _ H) as (L & K & _).
  inversion K as [? i ? V' N' ?|? ? V' ?|? ? V' ? ?]; subst; try congruence. destruct N' as (I & a & b & E & _). exfalso. apply (N i); [rewrite E; apply in_elt|exact I].
Qed.
(** Links in layers. *)
Lemma layered_nics : forall t (rank : link -> nat),
  (forall l, In l t -> l_vlan l = true -> exists i, numbered t (l_inner l) i /\ (rank i < rank l)%nat) ->
  (forall l m, In l t -> In m t -> l_vlan l = false -> l_master m = l_index l -> (rank m < rank l)%nat) ->
  forall l, In l t -> exists L, nics iface t l L.
Proof.
  intros t rank HV HM. assert (G : forall k l, (rank l < k)%nat -> In l t -> exists L, nics iface t l L).
  { induction k as [|k IH]; intros l R I; [lia|]. destruct (l_vlan l) eqn:V.
    - destruct (HV l I V) as (i & N & R'). destruct (IH i) as (L & H); [lia|destruct N as (_ & a & b & -> & _); apply in_elt|]. exists L. apply (Nvlan _ _ _ i); assumption.
    - destruct (hw iface (l_index l)) as [c|] eqn:H; [exists [(l, c)]; apply Nnic; assumption|].
      assert (J : forall rs, (forall m, In m rs -> In m t /\ l_master m = l_index l) -> exists L, nics_of iface t rs L).
      { induction rs as [|m rs IHr]; intros S; [exists []; constructor|]. destruct (S m (or_introl eq_refl)) as (M1 & M2).
        destruct (IH m) as (L1 & H1); [specialize (HM l m I M1 V M2); lia|exact M1|]. destruct IHr as (L2 & H2); [intros x X; apply S; right; exact X|]. exists (L1 ++ L2). constructor; assumption. }
      destruct (J (filter (fun x => l_master x =? l_index l) t)) as (L & HL); [intros m X; apply filter_In in X; destruct X as (X & Y); split; [exact X|apply Z.eqb_eq, Y]|].
      exists L. apply Ngroup; assumption. }
  intros l I. apply (G (S (rank l))); [lia|exact I].
Qed.
End World.
