(** Proofs about the mode 6 client: variables, addresses, peers (C66). *)
Require Import ZArith List Bool String QArith Lia.
Require Import Verif.Base Verif.ListLib Verif.CevSpec Verif.Nm6Spec Verif.Nm6Model Verif.Nm6Proof.
Import ListNotations.
Open Scope Z_scope.

Lemma isspace_iff : forall c, isspace c = true <-> blank c.
Proof. intros c. unfold isspace, blank. rewrite orb_true_iff, !Z.eqb_eq. reflexivity. Qed.
Lemma not_blank : forall c, ~ blank c -> isspace c = false.
Proof. intros c N. destruct (isspace c) eqn:E; [exfalso; apply N, isspace_iff, E|reflexivity]. Qed.

Lemma rtrim_clean : forall t, ends_clean t -> rtrim t = t.
Proof.
  intros t [->|(h & c & -> & N)]; [reflexivity|]. unfold rtrim. rewrite rev_app_distr. cbn [rev app dropw].
  rewrite (not_blank c N). change (c :: rev h) with ([c] ++ rev h). rewrite rev_app_distr, rev_involutive. reflexivity.
Qed.
Lemma takew_app : forall f a b, Forall (fun c => f c = true) a -> (match b with [] => True | c :: _ => f c = false end) -> takew f (a ++ b) = a.
Proof.
  intros f a b F H. induction F as [|c a E F IH]; cbn [app takew].
  - destruct b as [|c b]; [reflexivity|]. cbn [takew]. rewrite H. reflexivity.
  - rewrite E, IH. reflexivity.
Qed.
Lemma skipn_app_len : forall (a b : list Z), skipn (List.length a) (a ++ b) = b.
Proof. intros. rewrite skipn_app, skipn_all, Nat.sub_diag. reflexivity. Qed.

Definition tail_ok (t : list Z) : Prop := match t with [] => True | c :: _ => c = 44 \/ c = 13 end.
Definition after_value (t : list Z) : list Z := match t with 44 :: r => r | _ => t end.

(** The comma and blanks before, one pair, and what comes after. *)
Lemma next_var_item : forall pre i t r, Forall (fun c => (c =? 44) || isspace c = true) pre -> good_item i -> tail_ok t ->
  next_var (pre ++ i_name i ++ 61 :: show_value i ++ t) r = Some (Some (i_name i, Some (i_value i), match t with c :: t' => if c =? 44 then t' else t | [] => [] end)).
Proof.
  intros pre i t r FP (GN & GV & _) T. destruct GN as (NE & LN & SC & EC & FN). unfold next_var.
  destruct (i_name i) as [|n0 n] eqn:N; [congruence|].
  assert (DP : dropw (fun c => (c =? 44) || isspace c) (pre ++ (n0 :: n) ++ 61 :: show_value i ++ t) = (n0 :: n) ++ 61 :: show_value i ++ t).
  { induction FP as [|c pre E FP IH]; cbn [app dropw].
    - cbn [starts_clean] in SC. rewrite (not_blank _ SC), orb_false_r.
      inversion FN as [|? ? [X _] _]; subst. replace (n0 =? 44) with false by (symmetry; apply Z.eqb_neq; exact X). reflexivity.
    - rewrite E. exact IH. }
  rewrite DP. cbv zeta. rewrite <- N in *. clear DP.
  replace (i_name i ++ 61 :: show_value i ++ t) with (n0 :: n ++ 61 :: show_value i ++ t) by (rewrite N; reflexivity). cbn iota.
  replace (n0 :: n ++ 61 :: show_value i ++ t) with (i_name i ++ 61 :: show_value i ++ t) by (rewrite N; reflexivity).
  replace (existsb stops ((i_name i ++ 61 :: show_value i ++ t) ++ r)) with true.
  2:{ symmetry. apply existsb_exists. exists 61. split; [|reflexivity]. apply in_or_app. left. apply in_or_app. right. left. reflexivity. }
  cbn [negb].
  assert (TK : takew (fun c => negb (stops c)) (i_name i ++ 61 :: show_value i ++ t) = i_name i).
  { apply takew_app; [|reflexivity]. eapply Forall_impl; [|exact FN]. intros c (C1 & C2 & C3 & C4 & C5). unfold stops.
    apply negb_true_iff. repeat (apply orb_false_intro); apply Z.eqb_neq; assumption. }
  rewrite TK, (rtrim_clean _ EC). replace (MAXVARLEN <=? List.length (i_name i))%nat with false by (symmetry; apply Nat.leb_gt; exact LN).
  rewrite skipn_app_len. cbn [Z.eqb Pos.eqb orb].
  destruct GV as (LV & NZ & EV & GV). unfold show_value. destruct (i_quoted i) eqn:Q.
  - cbn [app dropw isspace Z.eqb Pos.eqb orb]. cbn [peek app bind]. rewrite Z.eqb_refl.
    assert (TV : takew (fun c => negb (c =? 34)) ((i_value i ++ [34]) ++ t) = i_value i).
    { rewrite <- app_assoc. apply takew_app; [|reflexivity]. apply Forall_forall. intros c C. apply negb_true_iff, Z.eqb_neq. intros ->. apply GV, C. }
    rewrite TV. replace (skipn (S (List.length (i_value i))) ((i_value i ++ [34]) ++ t)) with t.
    2:{ rewrite <- app_assoc. replace (S (List.length (i_value i))) with (1 + List.length (i_value i))%nat by lia. rewrite <- skipn_add, skipn_app_len. reflexivity. }
    replace (MAXVALLEN <=? List.length (i_value i))%nat with false by (symmetry; apply Nat.leb_gt; exact LV).
    rewrite (rtrim_clean _ EV). destruct t as [|c t]; [reflexivity|]. destruct T as [-> | ->]; reflexivity.
  - destruct GV as (VN & VS & VQ & VF). destruct (i_value i) as [|v0 v] eqn:V; [congruence|]. cbn [app].
    assert (DV : dropw isspace (v0 :: v ++ t) = v0 :: v ++ t) by (cbn [dropw]; cbn [starts_clean] in VS; rewrite (not_blank _ VS); reflexivity).
    rewrite DV. cbn [peek app bind]. cbn [hd] in VQ. replace (v0 =? 34) with false by (symmetry; apply Z.eqb_neq; exact VQ).
    change (v0 :: v ++ t) with ((v0 :: v) ++ t).
    assert (TV : takew (fun c => negb ((c =? 44) || (c =? 13))) ((v0 :: v) ++ t) = v0 :: v).
    { apply takew_app; [|destruct t as [|c t]; [exact I|destruct T as [-> | ->]; reflexivity]].
      eapply Forall_impl; [|exact VF]. intros c [C1 C2]. apply negb_true_iff, orb_false_intro; apply Z.eqb_neq; assumption. }
    rewrite TV, skipn_app_len. replace (MAXVALLEN <=? List.length (v0 :: v))%nat with false by (symmetry; apply Nat.leb_gt; exact LV).
    rewrite (rtrim_clean _ EV). destruct t as [|c t]; [reflexivity|]. destruct T as [-> | ->]; reflexivity.
Qed.

(** Characters between the pairs. *)
Definition junk (c : Z) : Prop := c = 44 \/ c = 32 \/ c = 9 \/ c = 13 \/ c = 10.
Lemma junk_split : forall j, Forall junk j ->
  Forall (fun c => (c =? 44) || isspace c = true) j \/ exists a c j', j = a ++ c :: j' /\ Forall (fun c => (c =? 44) || isspace c = true) a /\ (c = 13 \/ c = 10) /\ Forall junk j'.
Proof.
  intros j F. induction F as [|c j H F IH]; [left; constructor|].
  assert (K : ((c =? 44) || isspace c = true) \/ (c = 13 \/ c = 10)).
  { destruct H as [-> |[-> |[-> |[-> | ->]]]]; auto. }
  destruct K as [K|K].
  - destruct IH as [IH|(a & x & j' & -> & A & C & J)]; [left; constructor; assumption|].
    right. exists (c :: a), x, j'. split; [reflexivity|]. split; [constructor; assumption|]. auto.
  - right. exists [], c, j. split; [reflexivity|]. split; [constructor|]. auto.
Qed.
Lemma next_var_line : forall a c t r, Forall (fun c => (c =? 44) || isspace c = true) a -> c = 13 \/ c = 10 ->
  next_var (a ++ c :: t) r = Some (Some ([], None, t)).
Proof.
  intros a c t r F C. unfold next_var.
  assert (D : dropw (fun c => (c =? 44) || isspace c) (a ++ c :: t) = c :: t).
  { induction F as [|x a E F IH]; cbn [app dropw]; [destruct C as [-> | ->]; reflexivity|rewrite E; exact IH]. }
  rewrite D. destruct C as [-> | ->]; reflexivity.
Qed.
Lemma next_var_end : forall a r, Forall (fun c => (c =? 44) || isspace c = true) a -> next_var a r = Some None.
Proof.
  intros a r F. unfold next_var. assert (D : dropw (fun c => (c =? 44) || isspace c) a = []) by (induction F as [|x a E F IH]; cbn [dropw]; [reflexivity|rewrite E; exact IH]).
  rewrite D. reflexivity.
Qed.

Definition named (x : list Z * option (list Z)) : bool := match fst x with [] => false | _ => true end.
Definition pairs (l : list item) : list (list Z * option (list Z)) := map (fun i => (i_name i, Some (i_value i))) l.
Definition rest_of (l : list item) (e : list Z) : list Z := match l with [] => [] | _ => show l ++ e end.

Lemma vars_loop_show : forall fuel j l e r, Forall junk j -> Forall good_item l -> line_end e -> (List.length (j ++ rest_of l e) < fuel)%nat ->
  exists out left, vars_loop fuel (j ++ rest_of l e) r = Some (out, left) /\ filter named out = pairs l.
Proof.
  induction fuel as [|fuel IH]; intros j l e r FJ FG LE LT; [lia|]. cbn [vars_loop].
  destruct (junk_split j FJ) as [SEP|(a & c & j' & -> & A & C & J)].
  - destruct l as [|i l].
    + cbn [rest_of]. rewrite app_nil_r, next_var_end by exact SEP. cbn [bind]. exists [], j. split; reflexivity.
    + inversion FG as [|? ? GI GL]; subst. cbn [rest_of].
      assert (EX : exists t, show (i :: l) ++ e = i_name i ++ 61 :: show_value i ++ t /\ tail_ok t /\
                    exists j2, (match t with c :: t' => if c =? 44 then t' else t | [] => [] end) = j2 ++ rest_of l e /\ Forall junk j2).
      { destruct l as [|i2 l].
        - exists e. cbn [show]. rewrite <- app_assoc. split; [reflexivity|]. destruct LE as [-> | ->].
          + split; [exact I|]. exists []. split; [reflexivity|constructor].
          + split; [right; reflexivity|]. exists [13; 10]. split; [reflexivity|]. apply Forall_forall. intros x X. cbn in X. unfold junk. intuition lia.
        - destruct GI as (_ & _ & s' & ES & FS). exists (i_sep i ++ show (i2 :: l) ++ e). split.
          { change (show (i :: i2 :: l)) with (i_name i ++ 61 :: show_value i ++ i_sep i ++ show (i2 :: l)). rewrite <- !app_assoc. cbn [app]. rewrite <- !app_assoc. reflexivity. }
          rewrite ES. split; [left; reflexivity|]. exists s'. split; [reflexivity|exact FS]. }
      destruct EX as (t & ET & TK & j2 & EJ & FJ2). rewrite ET. rewrite next_var_item by assumption. cbn [bind]. rewrite EJ.
      destruct (IH j2 l e r FJ2 GL LE) as (out & left & V & F).
      { cbn [rest_of] in LT. rewrite ET in LT.
        assert (LL : (List.length (j2 ++ rest_of l e) <= List.length t)%nat) by (rewrite <- EJ; destruct t as [|c t]; [apply le_n|]; destruct (c =? 44); cbn [List.length]; lia).
        rewrite !app_length in LT. cbn [List.length] in LT. rewrite app_length in LT. lia. }
      rewrite V. cbn [bind]. exists ((i_name i, Some (i_value i)) :: out), left. split; [reflexivity|].
      cbn [filter]. replace (named (i_name i, Some (i_value i))) with true.
      2:{ destruct GI as ((NE & _) & _). unfold named. cbn [fst]. destruct (i_name i); [congruence|reflexivity]. }
      rewrite F. reflexivity.
  - rewrite <- app_assoc. cbn [app]. rewrite next_var_line by assumption. cbn [bind].
    destruct (IH j' l e r J FG LE) as (out & left & V & F).
    { rewrite !app_length in LT. cbn [List.length] in LT. rewrite app_length. lia. }
    rewrite V. cbn [bind]. exists (([], None) :: out), left. split; [reflexivity|exact F].
Qed.

Theorem vars_show : forall l e r, Forall good_item l -> line_end e ->
  exists out left, vars (show l ++ e) r = Some (out, left) /\ filter named out = pairs l.
Proof.
  intros l e r FG LE. unfold vars. destruct l as [|i l].
  - cbn [show app]. destruct (vars_loop_show (S (List.length e)) e [] e r) as (out & left & V & F); auto.
    + destruct LE as [-> | ->]; apply Forall_forall; intros x X; cbn in X; unfold junk; intuition lia.
    + cbn [rest_of]. rewrite app_nil_r. lia.
    + cbn [rest_of] in V. rewrite app_nil_r in V. exists out, left. auto.
  - apply (vars_loop_show _ [] (i :: l) e r); auto. 
Qed.

(** ** Where reading stays inside the buffer *)
Lemma next_var_defined : forall d r, In 0 r -> next_var d r <> None.
Proof.
  intros d r Z. unfold next_var. destruct (dropw (fun c => (c =? 44) || isspace c) d) as [|c0 d0]; [discriminate|].
  cbv zeta. replace (existsb stops ((c0 :: d0) ++ r)) with true by (symmetry; apply existsb_exists; exists 0; split; [apply in_or_app; auto|reflexivity]).
  cbn [negb]. destruct (MAXVARLEN <=? _)%nat; [discriminate|]. destruct (skipn _ _) as [|c d3]; [discriminate|].
  destruct ((c =? 44) || (c =? 13) || (c =? 10)); [discriminate|].
  unfold peek. destruct (dropw isspace d3 ++ r) as [|q l] eqn:E.
  { apply app_eq_nil in E. destruct E as [_ ->]. destruct Z. }
  cbn [bind]. destruct (q =? 34).
  - destruct (dropw isspace d3) as [|x d5]; [discriminate|]. destruct (MAXVALLEN <=? _)%nat; [discriminate|].
    destruct (skipn _ _) as [|y z]; [discriminate|]. destruct (y =? 44); [discriminate|]. destruct (y =? 13); discriminate.
  - destruct (MAXVALLEN <=? _)%nat; [discriminate|]. destruct (skipn _ _); discriminate.
Qed.
Theorem vars_defined : forall d r, In 0 r -> vars d r <> None.
Proof.
  intros d r Z. unfold vars. generalize (S (List.length d)) as k. intros k; revert d. induction k as [|k IH]; intros d; cbn [vars_loop]; [discriminate|].
  destruct (next_var d r) as [o|] eqn:E; [|exfalso; exact (next_var_defined d r Z E)]. cbn [bind].
  destruct o as [[[n v] d']|]; [|discriminate]. specialize (IH d'). destruct (vars_loop k d' r) as [[l left]|]; [discriminate|congruence].
Qed.

(** ** Addresses *)
Lemma cstr_no0 : forall v, ~ In 0 v -> cstr v = v.
Proof.
  induction v as [|c v IH]; intros N; [reflexivity|]. cbn [cstr]. destruct (c =? 0) eqn:E; [apply Z.eqb_eq in E; subst; exfalso; apply N; left; reflexivity|].
  f_equal. apply IH. intros X. apply N. right. exact X.
Qed.
Lemma filter_none : forall x v, ~ In x v -> filter (Z.eqb x) v = [].
Proof.
  induction v as [|c v IH]; intros N; [reflexivity|]. cbn [filter]. destruct (x =? c) eqn:E; [apply Z.eqb_eq in E; subst; exfalso; apply N; left; reflexivity|].
  apply IH. intros X. apply N. right. exact X.
Qed.
Lemma host_of_spec : forall behind v h, host v h -> host_of behind v = Some h.
Proof.
  intros behind v h H. destruct H as [h N C Z|h port N NE C1 C2 Z1 Z2|h r B Z1 Z2 L].
  - unfold host_of. rewrite cstr_no0 by exact Z. unfold colons in C. cbv zeta. replace (hd 0 h =? 91) with false by (symmetry; apply Z.eqb_neq; exact N).
    assert (E : (List.length (filter (Z.eqb 58) h) =? 1)%nat = false) by (apply Nat.eqb_neq; exact C).
    rewrite E. reflexivity.
  - assert (ZA : ~ In 0 (h ++ 58 :: port)) by (intros X; apply in_app_or in X; destruct X as [X|[X|X]]; [auto|discriminate|auto]).
    unfold host_of. rewrite (cstr_no0 _ ZA).
    assert (E : (List.length (filter (Z.eqb 58) (h ++ 58%Z :: port)) =? 1)%nat = true).
    { rewrite filter_app. cbn [filter]. rewrite Z.eqb_refl, (filter_none 58 h C1), (filter_none 58 port C2). reflexivity. }
    assert (T : takew (fun c => negb (c =? 58)) (h ++ 58 :: port) = h).
    { apply takew_app; [|reflexivity]. apply Forall_forall. intros c X. apply negb_true_iff, Z.eqb_neq. intros ->. apply C1, X. }
    cbv zeta. rewrite E, T. replace (hd 0 (h ++ 58 :: port) =? 91) with false; [reflexivity|].
    symmetry. apply Z.eqb_neq. destruct h as [|c h]; [congruence|exact N].
  - unfold host_of. assert (ZA : ~ In 0 (91 :: h ++ 93 :: r)).
    { intros [X|X]; [discriminate|]. apply in_app_or in X. destruct X as [X|[X|X]]; [auto|discriminate|auto]. }
    rewrite (cstr_no0 _ ZA). cbv zeta. cbn [hd tl]. rewrite Z.eqb_refl.
    replace (existsb (Z.eqb 93) (firstn (MAXVALLEN - 1) ((h ++ 93 :: r) ++ 0 :: behind (91 :: h ++ 93 :: r)))) with true.
    2:{ symmetry. apply existsb_exists. exists 93. split; [|reflexivity]. rewrite <- app_assoc. cbn [app].
        rewrite firstn_app. apply in_or_app. right. unfold MAXVALLEN. replace (2048 - 1 - List.length h)%nat with (S (2046 - List.length h)) by lia. left. reflexivity. }
    replace (takew (fun c => negb (c =? 93)) ((h ++ 93 :: r) ++ 0 :: behind (91 :: h ++ 93 :: r))) with h.
    2:{ symmetry. rewrite <- app_assoc. cbn [app]. apply takew_app; [|reflexivity]. apply Forall_forall. intros c X. apply negb_true_iff, Z.eqb_neq. intros ->. apply B, X. }
    rewrite cstr_no0 by exact Z1. reflexivity.
Qed.

(** Behind a closing quote only a comma, a line end or nothing is accepted. *)
Lemma next_var_junk : forall name v c rest r, good_name name -> good_value v true -> c <> 44 -> c <> 13 ->
  next_var (name ++ 61 :: 34 :: v ++ 34 :: c :: rest) r = Some None.
Proof.
  intros name v c rest r (NE & LN & SC & EC & FN) (LV & NZ & EV & GV) C1 C2. unfold next_var. destruct name as [|n0 n] eqn:N; [congruence|].
  assert (DP : dropw (fun c => (c =? 44) || isspace c) ((n0 :: n) ++ 61 :: 34 :: v ++ 34 :: c :: rest) = (n0 :: n) ++ 61 :: 34 :: v ++ 34 :: c :: rest).
  { cbn [app dropw]. cbn [starts_clean] in SC. rewrite (not_blank _ SC), orb_false_r.
    inversion FN as [|? ? [X _] _]; subst. replace (n0 =? 44) with false by (symmetry; apply Z.eqb_neq; exact X). reflexivity. }
  rewrite DP. cbv zeta. clear DP. rewrite <- N in *.
  replace (name ++ 61 :: 34 :: v ++ 34 :: c :: rest) with (n0 :: n ++ 61 :: 34 :: v ++ 34 :: c :: rest) by (rewrite N; reflexivity). cbn iota.
  replace (n0 :: n ++ 61 :: 34 :: v ++ 34 :: c :: rest) with (name ++ 61 :: 34 :: v ++ 34 :: c :: rest) by (rewrite N; reflexivity).
  replace (existsb stops ((name ++ 61 :: 34 :: v ++ 34 :: c :: rest) ++ r)) with true.
  2:{ symmetry. apply existsb_exists. exists 61. split; [|reflexivity]. apply in_or_app. left. apply in_or_app. right. left. reflexivity. }
  cbn [negb].
  assert (TK : takew (fun c => negb (stops c)) (name ++ 61 :: 34 :: v ++ 34 :: c :: rest) = name).
  { apply takew_app; [|reflexivity]. eapply Forall_impl; [|exact FN]. intros x (D1 & D2 & D3 & D4 & D5). unfold stops.
    apply negb_true_iff. repeat (apply orb_false_intro); apply Z.eqb_neq; assumption. }
  rewrite TK, (rtrim_clean _ EC). replace (MAXVARLEN <=? List.length name)%nat with false by (symmetry; apply Nat.leb_gt; exact LN).
  rewrite skipn_app_len. cbn [Z.eqb Pos.eqb orb]. cbn [app dropw isspace Z.eqb Pos.eqb orb]. cbn [peek app bind]. rewrite Z.eqb_refl.
  assert (TV : takew (fun c => negb (c =? 34)) (v ++ 34 :: c :: rest) = v).
  { apply takew_app; [|reflexivity]. apply Forall_forall. intros x X. apply negb_true_iff, Z.eqb_neq. intros ->. apply GV, X. }
  rewrite TV. replace (skipn (S (List.length v)) (v ++ 34 :: c :: rest)) with (c :: rest).
  2:{ replace (S (List.length v)) with (1 + List.length v)%nat by lia. rewrite <- skipn_add, skipn_app_len. reflexivity. }
  replace (MAXVALLEN <=? List.length v)%nat with false by (symmetry; apply Nat.leb_gt; exact LV).
  replace (c =? 44) with false by (symmetry; apply Z.eqb_neq; exact C1). replace (c =? 13) with false by (symmetry; apply Z.eqb_neq; exact C2). reflexivity.
Qed.
Lemma cstr_cut : forall a b, ~ In 0 a -> cstr (a ++ 0 :: b) = a.
Proof.
  induction a as [|c a IH]; intros b H; [reflexivity|]. cbn [app cstr]. replace (c =? 0) with false by (symmetry; apply Z.eqb_neq; intros ->; apply H; left; reflexivity).
  rewrite IH; [reflexivity|]. intro X. apply H. right. exact X.
Qed.
