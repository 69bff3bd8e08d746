(** Proofs about the interface topology. *)
Require Import ZArith List Bool Lia Permutation Sorted Arith.
Require Import Verif.Base Verif.ListLib Verif.PtiSpec Verif.PtiModel.
Import ListNotations.
Open Scope Z_scope.

(** ** Looking up links *)
Lemma fold_last : forall (f : link -> bool) t a, fold_left (fun acc l => if f l then Some l else acc) t a =
  match fold_left (fun acc l => if f l then Some l else acc) t None with Some x => Some x | None => a end.
Proof.
  intros f t. induction t as [|l t IH]; intros a; [reflexivity|]. cbn [fold_left]. rewrite IH, (IH (if f l then Some l else None)).
  destruct (fold_left _ t None); [reflexivity|]. destruct (f l); reflexivity.
Qed.
Lemma last_match : forall (f : link -> bool) (P : link -> Prop) t, (forall x, f x = true <-> P x) ->
  match fold_left (fun acc l => if f l then Some l else acc) t None with Some l => last_such P t l | None => forall x, In x t -> ~ P x end.
Proof.
  intros f P t H. induction t as [|l t IH]; [intros x []|]. cbn [fold_left]. rewrite fold_last. destruct (fold_left _ t None) as [x|].
  - destruct IH as (a & b & -> & Px & N). exists (l :: a), b. auto.
  - destruct (f l) eqn:E.
    + exists [], t. split; [reflexivity|]. split; [apply H, E|exact IH].
    + intros x [<-|I]; [rewrite <- H; congruence|apply IH, I].
Qed.
Lemma last_such_uniq : forall A (P : A -> Prop) t x y, last_such P t x -> last_such P t y -> x = y.
Proof.
  intros A P t. induction t as [|z t IH]; intros x y (a & b & E & Px & N) (a' & b' & E' & Py & N').
  - destruct a; discriminate.
  - destruct a as [|u a], a' as [|u' a']; cbn [app] in E, E'; injection E as -> ->; injection E'; intros; subst.
    + reflexivity.
    + exfalso. apply (N y); [apply in_or_app; right; left; reflexivity|exact Py].
    + exfalso. apply (N' x); [apply in_or_app; right; left; reflexivity|exact Px].
    + eapply IH; [exists a, b; eauto|exists a', b'; eauto].
Qed.
Lemma last_such_in : forall A (P : A -> Prop) t x, last_such P t x -> In x t /\ P x.
Proof. intros A P t x (a & b & -> & H & _). split; [apply in_or_app; right; left; reflexivity|exact H]. Qed.
Lemma by_index_spec : forall t i, match by_index t i with Some l => numbered t i l | None => forall x, In x t -> l_index x <> i end.
Proof. intros t i. apply (last_match (fun l => l_index l =? i) (fun x => l_index x = i)). intros x. apply Z.eqb_eq. Qed.
Lemma by_index_of : forall t i l, numbered t i l -> by_index t i = Some l.
Proof.
  intros t i l H. pose proof (by_index_spec t i) as S. destruct (by_index t i) as [x|]; [f_equal; exact (last_such_uniq _ _ _ _ _ S H)|].
  destruct (last_such_in _ _ _ _ H) as [I E]. exfalso. exact (S l I E).
Qed.
Lemma same_name_iff : forall a n, short n -> same_name a n = true <-> a = n.
Proof.
  intros a n S. unfold same_name, short in *. destruct (list_eq_dec Z.eq_dec (firstn 16 a) (firstn 16 n)) as [E|E].
  - split; [intros _|reflexivity]. rewrite (firstn_all2 n) in E by lia.
    destruct (Nat.le_gt_cases (List.length a) 16) as [L|L]; [rewrite firstn_all2 in E by lia; exact E|].
    apply (f_equal (@List.length Z)) in E. rewrite firstn_length in E. lia.
  - split; [discriminate|]. intros ->. congruence.
Qed.
Lemma link_by_name_spec : forall t n, short n -> match link_by_name t n with Some l => named t n l | None => forall x, In x t -> l_name x <> n end.
Proof. intros t n S. apply (last_match (fun l => same_name (l_name l) n) (fun x => l_name x = n)). intros x. apply same_name_iff, S. Qed.
Lemma link_by_name_of : forall t n l, short n -> named t n l -> link_by_name t n = Some l.
Proof.
  intros t n l S H. pose proof (link_by_name_spec t n S) as B. destruct (link_by_name t n) as [x|]; [f_equal; exact (last_such_uniq _ _ _ _ _ B H)|].
  destruct (last_such_in _ _ _ _ H) as [I E]. exfalso. exact (B l I E).
Qed.

(** ** VLANs *)
Lemma resolve_S : forall n t l x, resolve n t l = Some x -> resolve (S n) t l = Some x.
Proof.
  induction n as [|n IH]; intros t l x H; [discriminate|]. cbn [resolve] in H. cbn [resolve].
  destruct (l_kind l); try exact H. destruct (0 <? l_under l); [|exact H]. destruct (by_index t (l_under l)) as [i|]; [|exact H].
  apply IH in H. exact H.
Qed.
Lemma resolve_mono : forall m n t l x, (n <= m)%nat -> resolve n t l = Some x -> resolve m t l = Some x.
Proof. intros m n t l x L H. induction L as [|m L IH]; [exact H|apply resolve_S, IH]. Qed.
Lemma resolve_base : forall t l b, base t l b -> exists n, resolve n t l = Some (inr b).
Proof.
  induction 1 as [l K|l i b K U N B (n & IH)].
  - exists 1%nat. cbn [resolve]. destruct (l_kind l); congruence.
  - exists (S n). cbn [resolve]. rewrite K. replace (0 <? l_under l) with true by (symmetry; apply Z.ltb_lt, U). rewrite (by_index_of _ _ _ N). exact IH.
Qed.
Lemma resolve_broken : forall t l, broken t l -> exists n, resolve n t l = Some (inl EINVAL).
Proof.
  induction 1 as [l K N|l i K U N B (n & IH)].
  - exists 1%nat. cbn [resolve]. rewrite K. destruct (0 <? l_under l) eqn:U; [|reflexivity]. apply Z.ltb_lt in U.
    destruct N as [N|N]; [lia|]. pose proof (by_index_spec t (l_under l)) as S. destruct (by_index t (l_under l)) as [x|]; [|reflexivity].
    destruct (last_such_in _ _ _ _ S) as [I E]. exfalso. exact (N x I E).
  - exists (S n). cbn [resolve]. rewrite K. replace (0 <? l_under l) with true by (symmetry; apply Z.ltb_lt, U). rewrite (by_index_of _ _ _ N). exact IH.
Qed.
Lemma resolve_inv : forall n t l x, resolve n t l = Some x -> match x with inl e => e = EINVAL /\ broken t l | inr b => base t l b end.
Proof.
  induction n as [|n IH]; intros t l x H; [discriminate|]. cbn [resolve] in H.
  destruct (l_kind l) eqn:K; try (injection H as <-; apply Bself; congruence).
  destruct (0 <? l_under l) eqn:U; [apply Z.ltb_lt in U|apply Z.ltb_ge in U; injection H as <-; split; [reflexivity|apply Xhere; auto]].
  pose proof (by_index_spec t (l_under l)) as S. destruct (by_index t (l_under l)) as [i|]; [|injection H as <-; split; [reflexivity|apply Xhere; auto]].
  apply IH in H. destruct x as [e|b]; [destruct H as [-> H]; split; [reflexivity|eapply Xbelow; eauto]|eapply Bvlan; eauto].
Qed.

(** ** Order of names *)
Lemma leb_le : forall a b, leb a b = true -> name_le a b.
Proof.
  induction a as [|x a IH]; intros b H; [constructor|]. destruct b as [|y b]; [discriminate|]. cbn [leb] in H.
  destruct (x <? y) eqn:E; [apply Z.ltb_lt in E; constructor; exact E|]. destruct (y <? x) eqn:F; [discriminate|].
  apply Z.ltb_ge in E, F. replace y with x by lia. apply NLeq, IH, H.
Qed.
Lemma leb_total : forall a b, leb a b = false -> name_le b a.
Proof.
  induction a as [|x a IH]; intros b H; [discriminate|]. destruct b as [|y b]; [constructor|]. cbn [leb] in H.
  destruct (x <? y) eqn:E; [discriminate|]. destruct (y <? x) eqn:F; [apply Z.ltb_lt in F; constructor; exact F|].
  apply Z.ltb_ge in E, F. replace y with x by lia. apply NLeq, IH, H.
Qed.
Lemma insert_perm : forall w p l, Permutation (p :: l) (insert w p l).
Proof.
  intros w p l. induction l as [|q l IH]; [reflexivity|]. cbn [insert]. destruct (leb _ _); [reflexivity|].
  rewrite perm_swap. apply perm_skip, IH.
Qed.
Lemma isort_perm : forall w l, Permutation l (isort w l).
Proof. intros w l. induction l as [|p l IH]; [reflexivity|]. cbn [isort fold_right]. rewrite <- insert_perm. apply perm_skip, IH. Qed.
Lemma insert_hd : forall w p q l, by_name w q p -> HdRel (by_name w) q l -> HdRel (by_name w) q (insert w p l).
Proof. intros w p q l B H. destruct l as [|r l]; cbn [insert]; [constructor; exact B|]. destruct (leb _ _); constructor; [exact B|inversion H; assumption]. Qed.
Lemma insert_sorted : forall w p l, sorted w l -> sorted w (insert w p l).
Proof.
  intros w p l H. induction H as [|q l H IH R]; [repeat constructor|]. cbn [insert]. destruct (leb (text_of w p) (text_of w q)) eqn:E.
  - constructor; [constructor; assumption|]. constructor. apply leb_le, E.
  - constructor; [exact IH|]. apply insert_hd; [apply leb_total, E|exact R].
Qed.
Lemma isort_sorted : forall w l, sorted w (isort w l).
Proof. intros w l. induction l as [|p l IH]; [constructor|]. cbn [isort fold_right]. apply insert_sorted, IH. Qed.

(** ** Members *)
Definition ok (a : acc) (L : list phys) : Prop := List.length (a_arr a) = MAX_IFS /\ a_num a = List.length L /\ firstn (a_num a) (a_arr a) = L.
Lemma ok_le : forall a L, ok a L -> (List.length L <= MAX_IFS)%nat.
Proof. intros a L (A & B & C). rewrite <- C, firstn_length. lia. Qed.
Lemma put_ok : forall a L p, ok a L -> (List.length L < MAX_IFS)%nat -> exists a', put a p = Some a' /\ ok a' (L ++ [p]) /\ a_active a' = a_active a.
Proof.
  intros a L p (A & B & C) H. unfold put. replace (a_num a <? List.length (a_arr a))%nat with true by (symmetry; apply Nat.ltb_lt; lia).
  eexists. split; [reflexivity|]. split; [|reflexivity]. unfold ok. cbn [a_arr a_num]. rewrite set_nth_length. split; [exact A|].
  split; [rewrite app_length; cbn [List.length]; lia|]. rewrite set_nth_split by lia.
  rewrite firstn_app, firstn_firstn, firstn_length. replace (Nat.min (S (a_num a)) (a_num a)) with (a_num a) by lia.
  replace (S (a_num a) - Nat.min (a_num a) (List.length (a_arr a)))%nat with 1%nat by lia. rewrite C. reflexivity.
Qed.
Lemma is_member_true : forall b m, is_member b m = true <-> member b m.
Proof. intros b m. unfold is_member, member. rewrite andb_true_iff, Z.eqb_eq. reflexivity. Qed.
Lemma nested_rows_ok : forall w b rows a L, ok a L -> exists a', nested_rows w b rows a = Some a' /\ a_active a' = a_active a /\
  exists M, ok a' (L ++ M) /\ M = firstn (MAX_IFS - List.length L) (direct w (filter (is_member b) rows)).
Proof.
  intros w b rows. induction rows as [|m rows IH]; intros a L H.
  - exists a. split; [reflexivity|]. split; [reflexivity|]. exists []. split; [rewrite app_nil_r; exact H|rewrite firstn_nil; reflexivity].
  - cbn [nested_rows filter]. pose proof H as (A & B & C). destruct (a_num a <? MAX_IFS)%nat eqn:E.
    + apply Nat.ltb_lt in E. destruct (is_member b m); [|apply IH, H]. cbn [direct]. destruct (w_index w (l_index m)) as [i|]; [|apply IH, H].
      destruct (put_ok a L (note w m i) H) as (a1 & P & O & Ac); [lia|]. rewrite P. cbn [bind].
      destruct (IH a1 _ O) as (a2 & R & Ac2 & M & O2 & EM). exists a2. split; [exact R|]. split; [congruence|].
      exists (note w m i :: M). rewrite <- app_assoc in O2. split; [exact O2|].
      rewrite EM, app_length. cbn [List.length]. replace (MAX_IFS - List.length L)%nat with (S (MAX_IFS - (List.length L + 1)))%nat by lia. reflexivity.
    + apply Nat.ltb_ge in E. exists a. split; [reflexivity|]. split; [reflexivity|]. exists []. rewrite app_nil_r. split; [exact H|].
      replace (MAX_IFS - List.length L)%nat with 0%nat by lia. reflexivity.
Qed.
Lemma sort_from_ok : forall w a L M, ok a (L ++ M) -> ok (mkA (sort_from w (List.length L) (a_num a) (a_arr a)) (a_num a) (a_active a)) (L ++ isort w M).
Proof.
  intros w a L M (A & B & C). unfold sort_from, ok. cbn [a_arr a_num].
  rewrite app_length in B. set (n := List.length L) in *.
  assert (EL : firstn n (a_arr a) = L).
  { apply (f_equal (firstn n)) in C. rewrite firstn_firstn in C. replace (Nat.min n (a_num a)) with n in C by lia.
    rewrite C, firstn_app, Nat.sub_diag. unfold n. rewrite firstn_all. cbn [firstn]. apply app_nil_r. }
  assert (EM : firstn (a_num a - n) (skipn n (a_arr a)) = M).
  { rewrite <- (firstn_skipn n (a_arr a)) in C at 1. rewrite EL in C. rewrite firstn_app in C.
    replace (List.length L) with n in C by reflexivity. rewrite (firstn_all2 L) in C by (fold n; lia). apply app_inv_head in C. exact C. }
  rewrite EL, EM.
  assert (LM : List.length (isort w M) = List.length M) by (symmetry; apply Permutation_length, isort_perm).
  assert (LA : (a_num a <= MAX_IFS)%nat). { apply (f_equal (@List.length phys)) in C. rewrite firstn_length, app_length in C. lia. }
  split; [rewrite !app_length, LM, skipn_length; fold n; lia|].
  split; [rewrite app_length, LM; fold n; lia|].
  rewrite app_assoc, firstn_app, app_length, LM. fold n. replace (a_num a - (n + List.length M))%nat with 0%nat by lia. cbn [firstn].
  rewrite app_nil_r. apply firstn_all2. rewrite app_length, LM. fold n. lia.
Qed.
Lemma direct_source : forall w l p, In p (direct w l) -> exists m i, In m l /\ w_index w (l_index m) = Some i /\ p = noted w m i.
Proof.
  intros w l p. induction l as [|m l IH]; [intros []|]. cbn [direct]. destruct (w_index w (l_index m)) as [i|] eqn:E.
  - intros [<-|I]; [exists m, i; cbn [In]; auto|]. destruct (IH I) as (m' & i' & J & X). exists m', i'. cbn [In]. auto.
  - intros I. destruct (IH I) as (m' & i' & J & X). exists m', i'. cbn [In]. auto.
Qed.
Lemma firstn_in : forall A n (l : list A) x, In x (firstn n l) -> In x l.
Proof. intros A n l x H. rewrite <- (firstn_skipn n l). apply in_or_app. left. exact H. Qed.


Lemma parse_nested_ok : forall w t g a L, ok a L -> exists a' M, parse_nested w t g a = Some a' /\ ok a' (L ++ M) /\
  (exists T, (l_kind g = Team -> Permutation (direct w (members t g)) T /\ sorted w T) /\ (l_kind g <> Team -> T = direct w (members t g)) /\
     ((List.length L + List.length T <= MAX_IFS)%nat -> M = T)) /\
  (forall p, In p M -> In p (direct w (members t g))) /\
  (forall i, a_active a = Some i -> a_active a' = Some i).
Proof.
  intros w t g a L H. unfold parse_nested. set (a1 := if _ && _ && _ then _ else a).
  assert (O1 : ok a1 L) by (unfold a1; destruct (_ && _ && _); exact H).
  assert (A1 : forall i, a_active a = Some i -> a_active a1 = Some i).
  { intros i E. unfold a1. rewrite E, andb_false_r. exact E. }
  destruct (nested_rows_ok w g t a1 L O1) as (a2 & R & Ac & M & O2 & EM). rewrite R. cbn [bind].
  set (D := direct w (members t g)). change (direct w (filter (is_member g) t)) with D in EM.
  assert (N : (List.length L + List.length D <= MAX_IFS)%nat -> M = D) by (intros LE; rewrite EM; apply firstn_all2; lia).
  assert (OD : forall p, In p M -> In p D) by (intros p I; rewrite EM in I; apply firstn_in in I; exact I).
  assert (An : a_num a = List.length L) by (destruct H as (_ & B & _); exact B).
  destruct (l_kind g) eqn:K;
    try (exists a2, M; split; [reflexivity|]; split; [exact O2|]; split; [exists D; split; [congruence|]; split; [reflexivity|exact N]|];
         split; [exact OD|intros i E; rewrite Ac; apply A1, E]).
  exists (mkA (sort_from w (a_num a) (a_num a2) (a_arr a2)) (a_num a2) (a_active a2)), (isort w M).
  split; [reflexivity|]. split; [rewrite An; apply sort_from_ok, O2|]. split.
  - exists (isort w D). split; [intros _; split; [apply isort_perm|apply isort_sorted]|]. split; [congruence|].
    intros LE. rewrite N; [reflexivity|]. rewrite (Permutation_length (isort_perm w D)). exact LE.
  - split; [intros p I; apply OD; apply (Permutation_in _ (Permutation_sym (isort_perm w M)) I)|].
    intros i E. cbn [a_active]. rewrite Ac. apply A1, E.
Qed.

Lemma bond_rows_ok : forall w t b rows a L, ok a L -> (forall x, In x rows -> In x t) ->
  exists a' M, bond_rows w t b rows a = Some a' /\ ok a' (L ++ M) /\
    (exists T, behind w t (filter (is_member b) rows) T /\ ((List.length L + List.length T <= MAX_IFS)%nat -> M = T)) /\
    (forall p, In p M -> source w t b p) /\
    (forall i, a_active a = Some i -> a_active a' = Some i) /\
    ((forall g, In g rows -> member b g -> is_group (l_kind g) -> w_index w (l_index g) <> None) -> a_active a' = a_active a).
Proof.
  intros w t b rows. induction rows as [|m rows IH]; intros a L H I.
  - exists a, []. split; [reflexivity|]. rewrite app_nil_r. split; [exact H|]. split; [exists []; split; [constructor|reflexivity]|].
    split; [intros p []|]. auto.
  - assert (I' : forall x, In x rows -> In x t) by (intros x J; apply I; right; exact J).
    cbn [bond_rows filter]. destruct (a_num a <? MAX_IFS)%nat eqn:E.
    + apply Nat.ltb_lt in E. pose proof H as (A & B & C). destruct (is_member b m) eqn:Mb.
      2:{ destruct (IH a L H I') as (a' & M & R & O & T & SO & Ac & An). exists a', M. split; [exact R|]. split; [exact O|]. split; [exact T|].
          split; [exact SO|]. split; [exact Ac|]. intros G. apply An. intros g J. apply G. right. exact J. }
      apply is_member_true in Mb. destruct (w_index w (l_index m)) as [i|] eqn:W.
      * destruct (put_ok a L (note w m i) H) as (a1 & P & O & Ac1); [lia|]. rewrite P. cbn [bind].
        destruct (IH a1 _ O I') as (a' & M & R & O2 & (T & BT & ET) & SO & Ac & An). exists a', (note w m i :: M).
        split; [exact R|]. split; [rewrite <- app_assoc in O2; exact O2|]. split.
        { exists (note w m i :: T). split; [apply Hintf; assumption|]. cbn [List.length]. intros LE. f_equal. apply ET. rewrite app_length. cbn [List.length]. lia. }
        split. { intros p [<-|J]; [|apply SO, J]. exists m, i. split; [apply I; left; reflexivity|]. split; [exact W|]. split; [reflexivity|]. left. exact Mb. }
        split; [intros j E1; apply Ac; congruence|]. intros G. rewrite <- Ac1. apply An. intros g J. apply G. right. exact J.
      * assert (Gr : is_group (l_kind m) -> exists a' M, (do a1 <- parse_nested w t m a; bond_rows w t b rows a1) = Some a' /\ ok a' (L ++ M) /\
            (exists T, behind w t (m :: filter (is_member b) rows) T /\ ((List.length L + List.length T <= MAX_IFS)%nat -> M = T)) /\
            (forall p, In p M -> source w t b p) /\ (forall i, a_active a = Some i -> a_active a' = Some i)).
        { intros Kg. destruct (parse_nested_ok w t m a L H) as (a1 & M1 & R1 & O1 & (T1 & Tt & Tn & ET1) & D1 & Ac1). rewrite R1. cbn [bind].
          destruct (IH a1 _ O1 I') as (a' & M & R & O2 & (T & BT & ET) & SO & Ac & An). exists a', (M1 ++ M).
          split; [exact R|]. split; [rewrite <- app_assoc in O2; exact O2|]. split.
          { exists (T1 ++ T). split.
            - destruct Kg as [Kg|Kg]; [rewrite Tn by congruence; apply Hbond; assumption|]. destruct (Tt Kg) as [Pm So]. eapply Hteam; eauto.
            - rewrite app_length. intros LE. assert (E1 : M1 = T1) by (apply ET1; lia). rewrite E1. f_equal. apply ET. rewrite E1, app_length. lia. }
          split; [|intros j Ej; apply Ac, Ac1, Ej].
          intros p J. apply in_app_or in J. destruct J as [J|J]; [|apply SO, J].
          apply D1, direct_source in J. destruct J as (x & i & J & Wx & ->). unfold members in J. apply filter_In in J. destruct J as [Jt Jm]. apply (proj1 (is_member_true m x)) in Jm.
          exists x, i. split; [exact Jt|]. split; [exact Wx|]. split; [reflexivity|]. right. exists m. split; [apply I; left; reflexivity|]. auto. }
        destruct (l_kind m) eqn:K;
          try (destruct (IH a L H I') as (a' & M & R & O2 & (T & BT & ET) & SO & Ac & An); exists a', M; split; [exact R|]; split; [exact O2|];
               split; [exists T; split; [apply Hskip; [exact W|rewrite K; intros [?|?]; discriminate|exact BT]|exact ET]|];
               split; [exact SO|]; split; [exact Ac|]; intros G; apply An; intros g J; apply G; right; exact J).
        { destruct Gr as (a' & M & R & X); [left; reflexivity|]. exists a', M. split; [exact R|]. destruct X as (X1 & X2 & X3 & X4). repeat (split; [assumption|]).
          intros G. exfalso. apply (G m); [left; reflexivity|exact Mb|rewrite K; left; reflexivity|exact W]. }
        { destruct Gr as (a' & M & R & X); [right; reflexivity|]. exists a', M. split; [exact R|]. destruct X as (X1 & X2 & X3 & X4). repeat (split; [assumption|]).
          intros G. exfalso. apply (G m); [left; reflexivity|exact Mb|rewrite K; right; reflexivity|exact W]. }
    + apply Nat.ltb_ge in E. pose proof H as (A & B & C). exists a, []. split; [reflexivity|]. rewrite app_nil_r. split; [exact H|]. split.
      { assert (X : exists T, behind w t (if is_member b m then m :: filter (is_member b) rows else filter (is_member b) rows) T).
        { clear. assert (Y : forall l, exists T, behind w t l T).
          { induction l as [|x l (T & IT)]; [exists []; constructor|]. destruct (w_index w (l_index x)) as [i|] eqn:W; [eexists; eapply Hintf; eauto|].
            destruct (l_kind x) eqn:K; try (eexists; apply Hskip; [exact W|rewrite K; intros [?|?]; discriminate|exact IT]).
            - eexists. apply Hbond; eauto.
            - eexists. apply (Hteam w t x l (isort w (direct w (members t x))) T W K); [apply isort_perm|apply isort_sorted|exact IT]. }
          apply Y. }
        destruct X as (T & X). exists T. split; [exact X|]. intros LE. destruct T; [reflexivity|]. cbn [List.length] in LE. lia. }
      split; [intros p []|]. auto.
Qed.
