(** Proofs about probing a link, the interface used, and timestamps. *)
Require Import ZArith List Bool Lia Permutation Sorted Arith.
Require Import Verif.Base Verif.ListLib Verif.PtiSpec Verif.PtiModel Verif.PtiProof.
Import ListNotations.
Open Scope Z_scope.

Definition fit (x : binfo) : Prop := List.length (b_arr x) = MAX_IFS.
Definition mode_rc (m : mode) (bridge : bool) : Z := match m with ActiveBackup | Lacp => 0 | _ => if bridge then 0 else EINVAL end.
Definition first_active (w : world) (b : link) : option nat := if is_ab (l_mode b) && (0 <? l_active b) then w_index w (l_active b) else None.

Lemma parse_bond_ok : forall w t b x, fit x -> b_num x = 0%nat -> exists y, parse_bond w t b x = Some (mode_rc (l_mode b) (b_bridge x), y) /\
  fit y /\ b_num y = List.length (set_of y) /\ b_mode y = l_mode b /\ b_bridge y = b_bridge x /\ b_bond y = b_bond x /\ b_logical y = b_logical x /\
  (forall p, In p (set_of y) -> source w t b p) /\
  (exists T, behind w t (members t b) T /\ ((List.length T <= MAX_IFS)%nat -> set_of y = T)) /\
  (forall i, first_active w b = Some i -> b_active y = Some i) /\
  (~ hidden w t b -> b_active y = first_active w b).
Proof.
  intros w t b x F N. unfold parse_bond.
  assert (O : ok (mkA (b_arr x) (b_num x) (first_active w b)) []) by (unfold ok; cbn [a_arr a_num]; rewrite N; split; [exact F|split; reflexivity]).
  destruct (bond_rows_ok w t b t _ [] O (fun x H => H)) as (a & M & R & (A1 & A2 & A3) & (T & BT & ET) & SO & Ac & An).
  change (if is_ab (l_mode b) && (0 <? l_active b) then w_index w (l_active b) else None) with (first_active w b). rewrite R. cbn [bind].
  eexists. split; [reflexivity|]. unfold fit, set_of. cbn [b_arr b_num b_mode b_bridge b_bond b_logical b_active app] in *.
  rewrite A3. cbn [List.length plus] in ET. split; [exact A1|]. split; [exact A2|]. repeat (split; [reflexivity|]). split; [exact SO|].
  split; [exists T; split; [exact BT|exact ET]|]. split; [exact Ac|]. intros NH. apply An. intros g I Mg Kg W. apply NH. exists g. auto.
Qed.
Lemma sort_all : forall w y, fit y -> b_num y = List.length (set_of y) ->
  let z := mkB (b_logical y) (b_bond y) (b_mode y) (b_bridge y) (b_num y) (sort_from w 0 (b_num y) (b_arr y)) (b_active y) in
  fit z /\ set_of z = isort w (set_of y).
Proof.
  intros w y F N. cbv zeta. assert (O : ok (mkA (b_arr y) (b_num y) None) ([] ++ set_of y)) by (split; [exact F|]; split; [exact N|reflexivity]).
  apply (sort_from_ok w _ [] (set_of y)) in O. destruct O as (A & B & C). cbn [a_arr a_num List.length app] in *. unfold fit, set_of. cbn [b_arr b_num]. auto.
Qed.

(** The group found by probing, before an interface is chosen. *)
Definition start_info (l : link) (x : binfo) : binfo :=
  mkB (b_logical x) (firstn 15 (l_name l)) NoMode (match l_kind l with Bridge => true | _ => false end) 0 (b_arr x) None.
Definition parse_group (w : world) (t : list link) (l : link) (x : binfo) : option (Z * binfo) :=
  match l_kind l with Bond | Bridge => parse_bond w t l (start_info l x) | Team => parse_team w t l (start_info l x) | _ => Some (0, start_info l x) end.
Definition group_kind (k : kind) : Prop := k = Bond \/ k = Team \/ k = Bridge.
Lemma parse_group_ok : forall w t l x, fit x -> group_kind (l_kind l) -> exists y, parse_group w t l x = Some (mode_rc (l_mode l) (match l_kind l with Bridge => true | _ => false end), y) /\
  fit y /\ b_num y = List.length (set_of y) /\ b_mode y = l_mode l /\ b_bridge y = (match l_kind l with Bridge => true | _ => false end) /\
  b_bond y = firstn 15 (l_name l) /\ b_logical y = b_logical x /\
  (mode_rc (l_mode l) (match l_kind l with Bridge => true | _ => false end) = 0 -> found w t l (set_of y)) /\
  (exists T, behind w t (members t l) T /\ ((List.length T <= MAX_IFS)%nat -> List.length (set_of y) = List.length T)) /\
  (forall i, first_active w l = Some i -> b_active y = Some i) /\ (~ hidden w t l -> b_active y = first_active w l).
Proof.
  intros w t l x F K. assert (F0 : fit (start_info l x)) by exact F.
  destruct (parse_bond_ok w t l _ F0 eq_refl) as (y & R & Fy & Ny & My & Br & Bn & Lg & SO & (T & BT & ET) & Ac & An).
  change (b_bridge (start_info l x)) with (match l_kind l with Bridge => true | _ => false end) in *. cbn [start_info b_bond b_logical] in Bn, Lg.
  assert (LE : (List.length (set_of y) <= MAX_IFS)%nat). { unfold set_of. rewrite firstn_length. unfold fit in Fy. lia. }
  assert (EX : exists T, behind w t (members t l) T /\ ((List.length T <= MAX_IFS)%nat -> List.length (set_of y) = List.length T)).
  { exists T. split; [exact BT|]. intros H. rewrite ET by exact H. reflexivity. }
  unfold parse_group. destruct K as [K|[K|K]]; rewrite K in *; cbv iota in R.
  - exists y. split; [exact R|]. repeat (split; [assumption|]). split; [intros _; split; [exact LE|]; split; [exact SO|]; exists T; rewrite K; auto|]. auto.
  - unfold parse_team. rewrite R. cbn [bind]. destruct (mode_rc (l_mode l) false =? 0) eqn:E.
    + destruct (sort_all w y Fy Ny) as [Fz Sz]. eexists. split; [reflexivity|]. split; [exact Fz|].
      assert (PL : List.length (isort w (set_of y)) = List.length (set_of y)) by (symmetry; apply Permutation_length, isort_perm).
      split; [rewrite Sz, PL; exact Ny|]. repeat (split; [assumption|]).
      split; [intros _; rewrite Sz|rewrite Sz, PL; auto]. split; [rewrite PL; exact LE|].
      split; [intros p I; apply SO; exact (Permutation_in _ (Permutation_sym (isort_perm w _)) I)|].
      exists T. rewrite K. split; [exact BT|]. intros H. rewrite <- (ET H). split; [apply isort_perm|apply isort_sorted].
    + eexists. split; [reflexivity|]. repeat (split; [assumption|]). split; [intros E0; rewrite E0 in E; discriminate|]. auto.
  - exists y. split; [exact R|]. repeat (split; [assumption|]). split; [intros _; split; [exact LE|]; split; [exact SO|]; exists T; rewrite K; auto|]. auto.
Qed.
Lemma probe_eq : forall w t l x, probe w t l x =
  (do r <- parse_group w t l x;
   let (rc1, y) := r in
   let rc := if (match l_kind l with Bond | Team | Bridge => true | _ => false end) && (b_num y =? 0)%nat then ENOENT else rc1 in
   if negb (rc =? 0) && negb (rc =? ENOENT) then Some (rc, y) else
   if is_ab (b_mode y) then
     match b_active y with
     | None => Some (ENOENT, y)
     | Some i => if existsb (fun p => eqo (Some i) (p_intf p)) (set_of y) then Some (rc, y) else Some (ENOENT, with_active y None)
     end
   else if (match b_mode y with Lacp => true | _ => false end) || b_bridge y then
     let (o, rc') := first_up w (set_of y) rc in
     Some (rc', with_active y (match o with Some i => i | None => intf0 y end))
   else match l_kind l with
   | Macvlan =>
       match (match live w (w_index w (l_under l)) with Some i => Some i | None => live w (w_index w (l_index l)) end) with
       | None => Some (ENODEV, no_intf y)
       | Some i => Some (rc, one_intf y i)
       end
   | _ =>
       match b_mode y with
       | NoMode => match live w (w_name w (l_name l)) with
                   | None => Some (ENODEV, no_intf y)
                   | Some i => Some (rc, one_intf y i)
                   end
       | _ => None
       end
   end).
Proof. reflexivity. Qed.
Lemma in_intf : forall i S, existsb (fun p => eqo (Some i) (p_intf p)) S = true <-> exists p, In p S /\ p_intf p = Some i.
Proof.
  intros i S. rewrite existsb_exists. split; intros (p & I & E); exists p; (split; [exact I|]).
  - unfold eqo in E. destruct (p_intf p) as [j|]; [|discriminate]. apply Nat.eqb_eq in E. congruence.
  - rewrite E. unfold eqo. apply Nat.eqb_refl.
Qed.

(** Active-backup. *)
Lemma probe_ab : forall w t l x, fit x -> l_kind l = Bond \/ l_kind l = Team -> l_mode l = ActiveBackup ->
  exists rc y, probe w t l x = Some (rc, y) /\ fit y /\ found w t l (set_of y) /\ b_mode y = ActiveBackup /\
    (forall i, 0 < l_active l -> w_index w (l_active l) = Some i -> (exists p, In p (set_of y) /\ p_intf p = Some i) -> rc = 0 /\ b_active y = Some i) /\
    (~ hidden w t l -> (forall i, 0 < l_active l -> w_index w (l_active l) = Some i -> ~ exists p, In p (set_of y) /\ p_intf p = Some i) -> rc = ENOENT /\ b_active y = None) /\
    (forall i, b_active y = Some i -> rc = 0 /\ exists p, In p (set_of y) /\ p_intf p = Some i).
Proof.
  intros w t l x F K M. assert (GK : group_kind (l_kind l)) by (unfold group_kind; tauto).
  assert (NB : (match l_kind l with Bridge => true | _ => false end) = false) by (destruct K as [K|K]; rewrite K; reflexivity).
  destruct (parse_group_ok w t l x F GK) as (y & R & Fy & Ny & My & Br & Bn & Lg & Fo & _ & Ac & An). rewrite NB in *. rewrite M in *. cbn [mode_rc] in *. specialize (Fo eq_refl).
  rewrite probe_eq, R. cbn [bind].
  replace (match l_kind l with Bond | Team | Bridge => true | _ => false end) with true by (destruct K as [K|K]; rewrite K; reflexivity). cbn [andb].
  set (rc := if (b_num y =? 0)%nat then ENOENT else 0). cbv zeta.
  assert (RC : negb (rc =? 0) && negb (rc =? ENOENT) = false) by (unfold rc; destruct (b_num y =? 0)%nat; reflexivity). rewrite RC, My. cbn [is_ab].
  assert (FA : first_active w l = if 0 <? l_active l then w_index w (l_active l) else None) by (unfold first_active; rewrite M; reflexivity). rewrite FA in *.
  destruct (b_active y) as [j|] eqn:A.
  - destruct (existsb _ (set_of y)) eqn:E.
    + pose proof (proj1 (in_intf j (set_of y)) E) as X. assert (RC0 : rc = 0). { unfold rc. destruct (b_num y) eqn:Z; [|reflexivity]. rewrite Ny in Z. destruct X as (p & I & _). destruct (set_of y); [destruct I|discriminate]. }
      exists rc, y. split; [reflexivity|]. split; [exact Fy|]. split; [exact Fo|]. split; [exact My|]. split.
      { intros i P W _. split; [exact RC0|]. rewrite A. apply Z.ltb_lt in P. rewrite P in Ac. pose proof (Ac i W) as Z1. congruence. }
      split.
      { intros NH No. exfalso. specialize (An NH). destruct (0 <? l_active l) eqn:P; [|discriminate]. apply Z.ltb_lt in P. apply (No j P); [congruence|exact X]. }
      intros i E1. rewrite A in E1. injection E1 as <-. auto.
    + exists ENOENT, (with_active y None). split; [reflexivity|]. split; [exact Fy|]. split; [exact Fo|]. split; [exact My|]. split.
      { intros i P W (p & I & E1). exfalso. apply Z.ltb_lt in P. rewrite P in Ac. pose proof (Ac i W) as Z1. assert (i = j) by congruence. subst j.
        assert (existsb (fun p => eqo (Some i) (p_intf p)) (set_of y) = true) by (apply in_intf; exists p; auto). congruence. }
      split; [auto|]. intros i E1. discriminate.
  - exists ENOENT, y. split; [reflexivity|]. split; [exact Fy|]. split; [exact Fo|]. split; [exact My|]. split.
    { intros i P W _. exfalso. apply Z.ltb_lt in P. rewrite P in Ac. pose proof (Ac i W) as Z1. congruence. }
    split; [auto|]. intros i E1. congruence.
Qed.

(** All members active. *)
Lemma first_up_some : forall w S p rc, first_such (linked w) S p -> first_up w S rc = (Some (p_intf p), 0).
Proof.
  intros w S p rc (a & b & -> & (i & Ei & Ui) & N). revert rc. induction a as [|q a IH]; intros rc; cbn [app first_up].
  - rewrite Ei, Ui. reflexivity.
  - assert (Nq : ~ linked w q) by (apply N; left; reflexivity). assert (N' : forall y, In y a -> ~ linked w y) by (intros y I; apply N; right; exact I).
    destruct (p_intf q) as [j|] eqn:Ej; [|apply IH, N']. destruct (w_link w j) as [[|]|] eqn:Uj; [exfalso; apply Nq; exists j; auto|apply IH, N'|apply IH, N'].
Qed.
Lemma first_up_none : forall w S rc, none_of (linked w) S -> exists rc', first_up w S rc = (None, rc') /\ (S = [] -> rc' = rc) /\ (S <> [] -> Forall (told w) S -> rc' = 0).
Proof.
  intros w S. induction S as [|q S IH]; intros rc N; [exists rc; split; [reflexivity|]; split; [reflexivity|congruence]|].
  assert (Nq : ~ linked w q) by (apply N; left; reflexivity). assert (N' : none_of (linked w) S) by (intros y I; apply N; right; exact I).
  cbn [first_up]. destruct (p_intf q) as [j|] eqn:Ej.
  - destruct (w_link w j) as [[|]|] eqn:Uj; [exfalso; apply Nq; exists j; auto| |].
    + destruct (IH 0 N') as (rc' & E & E1 & E2). exists rc'. split; [exact E|]. split; [discriminate|]. intros _ T. inversion T; subst. destruct S; [auto|apply E2; [discriminate|assumption]].
    + destruct (IH EINVAL N') as (rc' & E & E1 & E2). exists rc'. split; [exact E|]. split; [discriminate|]. intros _ T. inversion T as [|? ? T1 T2]; subst. destruct T1 as (i & b & X & Y). congruence.
  - destruct (IH EINVAL N') as (rc' & E & E1 & E2). exists rc'. split; [exact E|]. split; [discriminate|]. intros _ T. inversion T as [|? ? T1 T2]; subst. destruct T1 as (i & b & X & Y). congruence.
Qed.
Lemma first_such_dec : forall A (P : A -> Prop) (D : forall x, {P x} + {~ P x}) l, (exists x, first_such P l x) \/ none_of P l.
Proof.
  intros A P D l. induction l as [|x l IH]; [right; intros y []|]. destruct (D x) as [H|H].
  - left. exists x, [], l. split; [reflexivity|]. split; [exact H|]. intros y [].
  - destruct IH as [(y & a & b & -> & Py & N)|N].
    + left. exists y, (x :: a), b. split; [reflexivity|]. split; [exact Py|]. intros z [<-|I]; [exact H|apply N, I].
    + right. intros y [<-|I]; [exact H|apply N, I].
Qed.
Lemma linked_dec : forall w p, {linked w p} + {~ linked w p}.
Proof.
  intros w p. unfold linked. destruct (p_intf p) as [i|] eqn:E; [|right; intros (j & H & _); discriminate].
  destruct (w_link w i) as [[|]|] eqn:U; [left; exists i; auto| |]; right; intros (j & H & V); injection H as <-; congruence.
Qed.
Lemma probe_all : forall w t l x, fit x -> (l_kind l = Bond \/ l_kind l = Team) /\ l_mode l = Lacp \/ l_kind l = Bridge /\ l_mode l <> ActiveBackup ->
  exists rc y, probe w t l x = Some (rc, y) /\ fit y /\ found w t l (set_of y) /\
    (forall p, first_such (linked w) (set_of y) p -> rc = 0 /\ b_active y = p_intf p) /\
    (forall p r, set_of y = p :: r -> none_of (linked w) (set_of y) -> b_active y = p_intf p /\ (Forall (told w) (set_of y) -> rc = 0)) /\
    (set_of y = [] -> rc = ENOENT).
Proof.
  intros w t l x F K. assert (GK : group_kind (l_kind l)) by (unfold group_kind; tauto).
  destruct (parse_group_ok w t l x F GK) as (y & R & Fy & Ny & My & Br & Bn & Lg & Fo & EX & Ac & An).
  assert (RC1 : mode_rc (l_mode l) (match l_kind l with Bridge => true | _ => false end) = 0).
  { destruct K as [(_ & ->)|(-> & M)]; [reflexivity|]. destruct (l_mode l); reflexivity. }
  rewrite RC1 in *. specialize (Fo eq_refl). rewrite probe_eq, R. cbn [bind].
  replace (match l_kind l with Bond | Team | Bridge => true | _ => false end) with true by (destruct GK as [Q|[Q|Q]]; rewrite Q; reflexivity). cbn [andb].
  set (rc := if (b_num y =? 0)%nat then ENOENT else 0). cbv zeta.
  assert (RC : negb (rc =? 0) && negb (rc =? ENOENT) = false) by (unfold rc; destruct (b_num y =? 0)%nat; reflexivity). rewrite RC, My, Br.
  assert (AB : is_ab (l_mode l) = false) by (destruct K as [(_ & ->)|(_ & M)]; [reflexivity|destruct (l_mode l); [reflexivity|congruence|reflexivity|reflexivity]]). rewrite AB.
  assert (LB : (match l_mode l with Lacp => true | _ => false end) || (match l_kind l with Bridge => true | _ => false end) = true).
  { destruct K as [(_ & ->)|(-> & M)]; [reflexivity|apply orb_true_r]. } rewrite LB.
  destruct (first_such_dec _ _ (linked_dec w) (set_of y)) as [(p & X)|N].
  - rewrite (first_up_some w (set_of y) p rc X). eexists 0, _. split; [reflexivity|]. split; [exact Fy|]. split; [exact Fo|]. change (set_of (with_active y (p_intf p))) with (set_of y).
    split.
    { intros q Q. split; [reflexivity|]. cbn [with_active b_active]. pose proof (first_up_some w (set_of y) p 0 X) as E1. rewrite (first_up_some w (set_of y) q 0 Q) in E1. congruence. }
    split; [intros q r E NN; exfalso; destruct X as (a & b & E2 & P & _); apply (NN p); [rewrite E2; apply in_or_app; right; left; reflexivity|exact P]|].
    intros E. destruct X as (a & b & E2 & _). rewrite E in E2. destruct a; discriminate.
  - destruct (first_up_none w (set_of y) rc N) as (rc' & E & E1 & E2). rewrite E. eexists rc', _. split; [reflexivity|]. split; [exact Fy|]. split; [exact Fo|].
    change (set_of (with_active y (intf0 y))) with (set_of y). split; [intros p (a & b & E3 & P & _); exfalso; apply (N p); [rewrite E3; apply in_or_app; right; left; reflexivity|exact P]|].
    split.
    { intros p r E3 _. split; [|intros T; apply E2; [rewrite E3; discriminate|exact T]]. cbn [with_active b_active]. unfold intf0. unfold set_of in E3.
      destruct (b_arr y) as [|p' arr]; [rewrite firstn_nil in E3; discriminate|]. destruct (b_num y); [discriminate|]. cbn [firstn] in E3. congruence. }
    intros E3. rewrite (E1 E3). unfold rc. rewrite Ny, E3. reflexivity.
Qed.
