(** Link tables: rows, order and comparison. *)
Require Import ZArith List Bool Lia ZifyBool Permutation.
Import ListNotations.
From Verif Require Import Base NlkSpec NlkModel.
Open Scope Z_scope.

Definition idx (x : row * event) : Z := r_index (fst x).
Definition look (t : table) (i : Z) : option row := option_map fst (find_row t i).
Definition uniq (t : table) : Prop := NoDup (map idx t).
Definition positive (t : table) : Prop := Forall (fun x => 0 < idx x) t.

Lemma look_nil : forall i, look [] i = None. Proof. reflexivity. Qed.
Lemma look_cons : forall x t i, look (x :: t) i = if idx x =? i then Some (fst x) else look t i.
Proof. intros x t i. unfold look, find_row, idx. cbn [find]. destruct (r_index (fst x) =? i); reflexivity. Qed.
Lemma look_none : forall t i, look t i = None <-> ~ In i (map idx t).
Proof.
  intros t i. induction t as [|x t IH]; [split; [intros _ []|reflexivity]|]. rewrite look_cons. cbn [map In]. destruct (Z.eqb_spec (idx x) i) as [E|E].
  - split; [discriminate|]. intros H. exfalso. auto.
  - rewrite IH. split; [intros H [X|X]; auto|auto].
Qed.
Lemma look_index : forall t i r, look t i = Some r -> r_index r = i.
Proof. intros t i r H. induction t as [|x t IH]; [discriminate H|]. rewrite look_cons in H. destruct (Z.eqb_spec (idx x) i) as [E|E]; [injection H as <-; exact E|auto]. Qed.

(** ** Messages. *)
Definition learn1 (i : Z) (o : option row) (m : msg) : option row := learn (fun _ => o) m i.
Lemma learn_learn1 : forall k m i, learn k m i = learn1 i (k i) m.
Proof. intros k m i. unfold learn1. destruct m; reflexivity. Qed.
Lemma fold_learn : forall ms k i, fold_left learn ms k i = fold_left (learn1 i) ms (k i).
Proof. intros ms. induction ms as [|m ms IH]; intros k i; [reflexivity|]. cbn [fold_left]. rewrite IH, learn_learn1. reflexivity. Qed.
Lemma fold_learn_ext : forall ms k k' i, k i = k' i -> fold_left learn ms k i = fold_left learn ms k' i.
Proof. intros ms k k' i E. rewrite !fold_learn, E. reflexivity. Qed.

Lemma upsert_look : forall t r i, look (upsert t r) i = learn (look t) (New r) i.
Proof.
  intros t r i. cbn [learn]. induction t as [|x t IH]; [cbn [upsert]; rewrite look_cons; unfold idx; cbn [fst]; rewrite (Z.eqb_sym i), look_nil; reflexivity|]. cbn [upsert].
  destruct (Z.eqb_spec (r_index (fst x)) (r_index r)) as [E|E].
  - rewrite !look_cons. unfold idx. cbn [fst]. change (r_index (merge (fst x) r)) with (r_index r). rewrite E, (Z.eqb_sym i). destruct (r_index r =? i); reflexivity.
  - rewrite !look_cons, IH. unfold idx. destruct (Z.eqb_spec i (r_index r)) as [EI|EI].
    + subst i. apply Z.eqb_neq in E. rewrite E. reflexivity.
    + reflexivity.
Qed.
Lemma upsert_idx : forall t r, map idx (upsert t r) = map idx t \/ (map idx (upsert t r) = map idx t ++ [r_index r] /\ ~ In (r_index r) (map idx t)).
Proof.
  intros t r. induction t as [|x t IH]; [right; split; [reflexivity|intros []]|]. cbn [upsert]. destruct (Z.eqb_spec (r_index (fst x)) (r_index r)) as [E|E].
  - left. cbn [map]. unfold idx at 1 3. cbn [fst]. change (r_index (merge (fst x) r)) with (r_index r). rewrite E. reflexivity.
  - cbn [map app In]. destruct IH as [IH|[IH NI]]; rewrite IH; [left; reflexivity|right; split; [reflexivity|]]. intros [X|X]; auto.
Qed.
Lemma delete_look : forall t j i, uniq t -> look (delete t j) i = learn (look t) (Del j) i.
Proof.
  intros t j i. cbn [learn]. induction t as [|x t IH]; intros U; [rewrite look_nil; destruct (i =? j); reflexivity|]. unfold uniq in U. cbn [map] in U. inversion U as [|? ? NI ND]; subst. cbn [delete].
  destruct (Z.eqb_spec (r_index (fst x)) j) as [E|E].
  - rewrite look_cons. unfold idx at 1. rewrite E. destruct (Z.eqb_spec i j) as [EQ|N].
    + apply look_none. rewrite EQ, <- E. exact NI.
    + destruct (Z.eqb_spec j i); [congruence|reflexivity].
  - rewrite !look_cons, (IH ND). unfold idx. destruct (Z.eqb_spec i j) as [EQ|N]; [rewrite EQ; apply Z.eqb_neq in E; rewrite E; reflexivity|reflexivity].
Qed.
Lemma delete_idx : forall t j, exists a b, map idx t = a ++ b /\ (map idx (delete t j) = a ++ b \/ (exists c, b = j :: c /\ map idx (delete t j) = a ++ c)).
Proof.
  intros t j. induction t as [|x t [a [b [E H]]]]; [exists [], []; split; [reflexivity|left; reflexivity]|]. cbn [delete map]. destruct (Z.eqb_spec (r_index (fst x)) j) as [EX|EX].
  - exists [], (idx x :: map idx t). split; [reflexivity|]. right. exists (map idx t). split; [unfold idx at 1; rewrite EX; reflexivity|reflexivity].
  - exists (idx x :: a), b. split; [rewrite E; reflexivity|]. cbn [map app]. destruct H as [->|[c [-> ->]]]; [left; reflexivity|right; exists c; auto].
Qed.
Lemma amend_look : forall t r i, look (amend t r) i = learn (look t) (Amend r) i.
Proof.
  intros t r i. cbn [learn]. induction t as [|x t IH]; [rewrite look_nil; destruct (i =? r_index r); reflexivity|]. cbn [amend].
  destruct (Z.eqb_spec (r_index (fst x)) (r_index r)) as [E|E].
  - rewrite !look_cons. unfold idx. cbn [fst]. rewrite E, (Z.eqb_sym i). destruct (r_index r =? i); reflexivity.
  - rewrite !look_cons, IH. unfold idx. destruct (Z.eqb_spec i (r_index r)) as [EI|EI]; [|reflexivity]. subst i. apply Z.eqb_neq in E. rewrite E. reflexivity.
Qed.
Lemma amend_idx : forall t r, map idx (amend t r) = map idx t.
Proof.
  intros t r. induction t as [|x t IH]; [reflexivity|]. cbn [amend]. destruct (Z.eqb_spec (r_index (fst x)) (r_index r)) as [E|E]; cbn [map]; [|rewrite IH; reflexivity].
  unfold idx at 1 3. cbn [fst]. rewrite E. reflexivity.
Qed.
Lemma positive_idx : forall t, positive t <-> Forall (fun i => 0 < i) (map idx t).
Proof. intros t. unfold positive. rewrite Forall_map. reflexivity. Qed.
Lemma handle_ok : forall t m, uniq t -> positive t -> proper_msg m ->
  (forall i, look (handle t m) i = learn (look t) m i) /\ uniq (handle t m) /\ positive (handle t m).
Proof.
  intros t m U P PM. rewrite positive_idx in *. unfold uniq in *. destruct m as [r|j|r]; cbn [handle].
  - split; [intros; apply upsert_look|]. destruct (upsert_idx t r) as [E|[E NI]]; rewrite E; [auto|]. split; [|apply Forall_app; split; [exact P|constructor; [exact PM|constructor]]].
    apply NoDup_rev in U. rewrite <- (rev_involutive (map idx t ++ [r_index r])). apply NoDup_rev. rewrite rev_app_distr. cbn [rev app]. constructor; [rewrite <- in_rev; exact NI|exact U].
  - split; [intros; apply delete_look; exact U|]. destruct (delete_idx t j) as [a [b [E [H|[c [Eb H]]]]]]; rewrite H; rewrite E in U, P; [auto|]. subst b. split; [eapply NoDup_remove_1; exact U|].
    apply Forall_app in P. destruct P as [P1 P2]. apply Forall_app. split; [exact P1|]. inversion P2; assumption.
  - split; [intros; apply amend_look|]. rewrite amend_idx. auto.
Qed.
Lemma handles_ok : forall ms t, uniq t -> positive t -> Forall proper_msg ms ->
  (forall i, look (fold_left handle ms t) i = fold_left learn ms (look t) i) /\ uniq (fold_left handle ms t) /\ positive (fold_left handle ms t).
Proof.
  intros ms. induction ms as [|m ms IH]; intros t U P F; [auto|]. inversion F as [|? ? PM F']; subst. cbn [fold_left]. destruct (handle_ok t m U P PM) as [H1 [H2 H3]].
  destruct (IH _ H2 H3 F') as [A [B C]]. split; [|auto]. intros i. rewrite A. apply fold_learn_ext. apply H1.
Qed.

(** ** Order. *)
Lemma insert_perm : forall x t, Permutation (insert x t) (x :: t).
Proof.
  intros x t. induction t as [|y t IH]; [reflexivity|]. cbn [insert]. destruct (_ <=? _); [reflexivity|]. rewrite IH. apply perm_swap.
Qed.
Lemma sort_perm : forall t, Permutation (sort t) t.
Proof. intros t. induction t as [|x t IH]; [reflexivity|]. cbn [sort fold_right]. rewrite insert_perm. fold (sort t). rewrite IH. reflexivity. Qed.
Lemma ascending_weaken : forall t a b, ascending a t -> b <= a -> ascending b t.
Proof. intros [|x t] a b H L; [exact Logic.I|]. destruct H as [H1 H2]. split; [lia|exact H2]. Qed.
Lemma ascending_lo : forall t lo, ascending lo t -> Forall (fun x => lo < idx x) t.
Proof.
  intros t. induction t as [|x t IH]; intros lo H; constructor; destruct H as [H1 H2]; [exact H1|]. eapply Forall_impl; [|apply IH; exact H2]. cbn beta. intros y Y. unfold idx in *. lia.
Qed.
Lemma ascending_uniq : forall t lo, ascending lo t -> uniq t.
Proof.
  intros t. induction t as [|x t IH]; intros lo H; [constructor|]. destruct H as [H1 H2]. unfold uniq. cbn [map]. constructor; [|eapply IH; exact H2].
  intros X. apply in_map_iff in X. destruct X as [y [E Y]]. apply ascending_lo in H2. rewrite Forall_forall in H2. apply H2 in Y. unfold idx in *. lia.
Qed.
Lemma insert_asc : forall x t lo, ascending lo t -> lo < idx x -> ~ In (idx x) (map idx t) -> ascending lo (insert x t).
Proof.
  intros x t. induction t as [|y t IH]; intros lo H L N; [split; [exact L|exact Logic.I]|]. destruct H as [H1 H2]. cbn [insert]. destruct (r_index (fst x) <=? r_index (fst y)) eqn:E.
  - split; [exact L|]. split; [|exact H2]. apply Z.leb_le in E. cbn [map In] in N. unfold idx in *. lia.
  - split; [exact H1|]. apply IH; [exact H2|apply Z.leb_gt in E; exact E|]. intros X. apply N. right. exact X.
Qed.
Lemma sort_asc : forall t, uniq t -> positive t -> ascending 0 (sort t).
Proof.
  intros t U P. induction t as [|x t IH]; [exact Logic.I|]. unfold uniq in U. cbn [map] in U. inversion U as [|? ? NI ND]; subst. inversion P as [|? ? PX PT]; subst.
  cbn [sort fold_right]. fold (sort t). apply insert_asc; [apply IH; assumption|exact PX|]. intros X. apply NI. eapply Permutation_in; [|exact X]. apply Permutation_map. apply sort_perm.
Qed.
Lemma ordered_asc : forall t lo, uniq t -> ordered lo t = true -> ~ In lo (map idx t) -> ascending lo t.
Proof.
  intros t. induction t as [|x t IH]; intros lo U H N; [exact Logic.I|]. cbn [ordered] in H. apply andb_true_iff in H. destruct H as [H1 H2]. unfold uniq in U. cbn [map] in U. inversion U as [|? ? NI ND]; subst.
  split; [|apply IH; assumption]. cbn [map In] in N. unfold idx in *. apply negb_true_iff in H1. apply Z.ltb_ge in H1. lia.
Qed.
Lemma perm_look : forall t t' i, Permutation t t' -> uniq t -> look t i = look t' i.
Proof.
  intros t t' i P. induction P as [|x a b P IH|x y a|a b c P1 IH1 P2 IH2]; intros U.
  - reflexivity.
  - rewrite !look_cons, IH; [reflexivity|]. inversion U; assumption.
  - rewrite !look_cons. unfold uniq in U. cbn [map] in U. inversion U as [|? ? NI ND]; subst. destruct (Z.eqb_spec (idx y) i), (Z.eqb_spec (idx x) i); try reflexivity. exfalso. apply NI. left. congruence.
  - rewrite IH1 by exact U. apply IH2. unfold uniq in *. eapply Permutation_NoDup; [apply Permutation_map; exact P1|exact U].
Qed.

(** ** Comparison. *)
Lemma compare_same : forall a b, compare_rows a b = if same a b then NoEvent else Change.
Proof.
  intros a b. unfold compare_rows, same. cbv zeta. destruct (r_ts a =? r_ts b); cbn [negb]; [|rewrite andb_false_r; reflexivity]. rewrite andb_true_r.
  destruct (zlist_eqb (r_name a) (r_name b)); cbn [negb]; [|rewrite andb_false_r; reflexivity]. rewrite andb_true_r.
  destruct (r_vlan a =? r_vlan b); cbn [negb]; [|rewrite andb_false_r; reflexivity]. rewrite andb_true_r.
  destruct (Bool.eqb (r_slave a) (r_slave b)); cbn [negb]; [|rewrite andb_false_r; reflexivity]. rewrite andb_true_r.
  destruct (r_active a =? r_active b); cbn [negb]; [|rewrite andb_false_r; reflexivity]. rewrite andb_true_r.
  destruct (r_mode a =? r_mode b); cbn [negb]; [|rewrite andb_false_r; reflexivity]. rewrite andb_true_r.
  destruct (r_master a =? r_master b); cbn [negb]; [|rewrite andb_false_r; reflexivity]. rewrite andb_true_r.
  assert (F : flags_differ a b = negb (Z.land (r_flags a) significant_flags =? Z.land (r_flags b) significant_flags)).
  { unfold flags_differ. destruct (Z.eqb_spec (r_flags a) (r_flags b)) as [E|E]; cbn [negb]; [rewrite E, Z.eqb_refl; reflexivity|reflexivity]. }
  rewrite F. destruct (Z.land _ _ =? _); cbn [negb]; [|rewrite andb_false_r; reflexivity]. rewrite andb_true_r.
  destruct (r_family a =? r_family b); cbn [negb]; [|rewrite andb_false_r; reflexivity]. rewrite andb_true_r.
  destruct (r_iftype a =? r_iftype b); cbn [negb]; [|rewrite andb_false_r; reflexivity]. rewrite andb_true_r.
  destruct (r_type a =? r_type b); reflexivity.
Qed.
Lemma old_row_look : forall prev i n, option_map snd (old_row prev i n) = look prev i.
Proof.
  intros prev. induction prev as [|x t IH]; intros i n; [reflexivity|]. cbn [old_row]. rewrite look_cons. unfold idx. rewrite (Z.eqb_sym i). destruct (r_index (fst x) =? i); [reflexivity|apply IH].
Qed.
Lemma classify_event : forall prev x, classify prev x = (fst x, event_of (look prev (idx x)) (fst x)).
Proof.
  intros prev x. unfold classify. f_equal. rewrite <- (old_row_look prev (idx x) 0). unfold idx. destruct (old_row prev (r_index (fst x)) 0) as [[n a]|]; cbn [option_map snd event_of]; [apply compare_same|reflexivity].
Qed.
Lemma classify_idx : forall prev t, map idx (map (classify prev) t) = map idx t.
Proof. intros prev t. rewrite map_map. apply map_ext. reflexivity. Qed.
Lemma classify_find : forall prev t i, find_row (map (classify prev) t) i = option_map (fun r => (r, event_of (look prev i) r)) (look t i).
Proof.
  intros prev t i. induction t as [|x t IH]; [reflexivity|]. rewrite look_cons. unfold find_row in *. cbn [map find]. rewrite classify_event. cbn [fst]. unfold idx. destruct (Z.eqb_spec (r_index (fst x)) i) as [E|E]; [|exact IH].
  cbn [option_map]. rewrite E. reflexivity.
Qed.
Lemma classify_look : forall prev t i, look (map (classify prev) t) i = look t i.
Proof. intros prev t i. unfold look at 1. rewrite classify_find. destruct (look t i); reflexivity. Qed.
Lemma classify_asc : forall prev t lo, ascending lo (map (classify prev) t) <-> ascending lo t.
Proof.
  intros prev t. induction t as [|x t IH]; intros lo; [reflexivity|]. cbn [map ascending]. change (r_index (fst (classify prev x))) with (r_index (fst x)). rewrite IH. reflexivity.
Qed.

(** ** The walk. *)
Definition has (t : table) (i : Z) : bool := existsb (fun x => idx x =? i) t.
Lemma has_look : forall t i, has t i = match look t i with Some _ => true | None => false end.
Proof. intros t i. induction t as [|x t IH]; [reflexivity|]. unfold has in *. cbn [existsb]. rewrite look_cons, IH. destruct (idx x =? i); reflexivity. Qed.
Lemma old_row_app : forall pre t i n, ~ In i (map idx pre) -> old_row (pre ++ t) i n = old_row t i (n + length pre)%nat.
Proof.
  intros pre. induction pre as [|x pre IH]; intros t i n N; [cbn [app length]; rewrite Nat.add_0_r; reflexivity|]. cbn [app old_row]. cbn [map In] in N. unfold idx in N at 1.
  destruct (Z.eqb_spec i (r_index (fst x))) as [E|E]; [exfalso; auto|]. rewrite IH by tauto. cbn [length]. f_equal. lia.
Qed.

Lemma walk_ok : forall fuel pre cur prev C ifi pifi d,
  (length cur + length prev <= fuel)%nat -> ascending ifi cur -> ascending pifi prev ->
  (forall x z, In x cur -> In z pre -> idx z < idx x) ->
  (forall x, In x cur -> snd x = event_of (look (pre ++ prev) (idx x)) (fst x)) ->
  (forall y, In y prev -> has C (idx y) = has cur (idx y)) ->
  walk fuel (pre ++ prev) cur prev (length pre) ifi pifi d = Some (d || existsb (fun y => negb (has C (idx y))) prev).
Proof.
  intros fuel. induction fuel as [|fuel IH]; intros pre cur prev C ifi pifi d LE AC AP SEP EV HC.
  { destruct cur; [|cbn [length] in LE; lia]. destruct prev; [|cbn [length] in LE; lia]. cbn [walk existsb]. rewrite orb_false_r. reflexivity. }
  assert (NOTIN : forall x t, In x t -> Forall (fun y => idx x < idx y) prev -> (forall z, In z pre -> idx z < idx x) -> look (pre ++ prev) (idx x) = None).
  { intros x t _ F S0. apply look_none. rewrite map_app. intros X. apply in_app_iff in X. destruct X as [X|X]; apply in_map_iff in X; destruct X as [z [E Z0]].
    - apply S0 in Z0. lia.
    - rewrite Forall_forall in F. apply F in Z0. lia. }
  destruct cur as [|x cur], prev as [|y prev]; cbn [walk].
  - cbn [existsb]. rewrite orb_false_r. reflexivity.
  - destruct AP as [P1 P2]. assert (PB := P1). apply Z.ltb_lt in PB. rewrite PB. replace (pre ++ y :: prev) with ((pre ++ [y]) ++ prev) by (rewrite <- app_assoc; reflexivity).
    replace (Datatypes.S (length pre)) with (length (pre ++ [y])) by (rewrite app_length; cbn [length]; lia). cbn [length] in LE. rewrite (IH (pre ++ [y]) [] prev C).
    + cbn [existsb]. rewrite (HC y (or_introl eq_refl)). cbn [has existsb negb orb]. rewrite orb_true_r. reflexivity.
    + cbn [length]. lia.
    + exact Logic.I.
    + exact P2.
    + intros ? ? [].
    + intros ? [].
    + intros z Z0. apply HC. right. exact Z0.
  - destruct AC as [A1 A2]. assert (AB := A1). apply Z.ltb_lt in AB. rewrite AB. rewrite (EV x (or_introl eq_refl)), (NOTIN x [x] (or_introl eq_refl) (Forall_nil _)) by (intros z Z0; apply SEP; [left; reflexivity|exact Z0]).
    cbn [event_of event_eqb]. cbn [length] in LE. apply (IH pre cur [] C).
    + cbn [length]. lia.
    + exact A2.
    + exact Logic.I.
    + intros a z HA HZ. apply SEP; [right; exact HA|exact HZ].
    + intros a HA. apply EV. right. exact HA.
    + intros ? [].
  - assert (AC' := AC). assert (AP' := AP). destruct AC as [A1 A2]. destruct AP as [P1 P2]. assert (AB := A1). apply Z.ltb_lt in AB. assert (PB := P1). apply Z.ltb_lt in PB. rewrite AB, PB. cbn [andb]. cbn [length] in LE.
    assert (FP := ascending_lo prev _ P2). assert (FC := ascending_lo cur _ A2). rewrite Forall_forall in FC, FP.
    destruct (r_index (fst x) <? r_index (fst y)) eqn:LT1; [|destruct (r_index (fst y) <? r_index (fst x)) eqn:LT2].
    + apply Z.ltb_lt in LT1. rewrite (EV x (or_introl eq_refl)), (NOTIN x [x] (or_introl eq_refl)).
      2:{ constructor; [exact LT1|]. apply Forall_forall. intros z Z0. apply FP in Z0. unfold idx in *. lia. }
      2:{ intros z Z0. apply SEP; [left; reflexivity|exact Z0]. }
      cbn [event_of event_eqb]. apply (IH pre cur (y :: prev) C).
      * cbn [length]. lia.
      * exact A2.
      * exact AP'.
      * intros a z HA HZ. apply SEP; [right; exact HA|exact HZ].
      * intros a HA. apply EV. right. exact HA.
      * intros z HZ. rewrite (HC z HZ). unfold has. cbn [existsb]. assert (idx x < idx z) by (destruct HZ as [<-|HZ]; [exact LT1|apply FP in HZ; unfold idx in *; lia]). destruct (Z.eqb_spec (idx x) (idx z)); [lia|reflexivity].
    + apply Z.ltb_lt in LT2. replace (pre ++ y :: prev) with ((pre ++ [y]) ++ prev) by (rewrite <- app_assoc; reflexivity).
      replace (Datatypes.S (length pre)) with (length (pre ++ [y])) by (rewrite app_length; cbn [length]; lia). rewrite (IH (pre ++ [y]) (x :: cur) prev C).
      * cbn [existsb]. rewrite (HC y (or_introl eq_refl)). assert (NH : has (x :: cur) (idx y) = false).
        { rewrite has_look. destruct (look (x :: cur) (idx y)) eqn:L; [|reflexivity]. exfalso. assert (X : ~ In (idx y) (map idx (x :: cur))).
          { cbn [map In]. intros [X|X]; [unfold idx in *; lia|]. apply in_map_iff in X. destruct X as [z [E Z0]]. apply FC in Z0. unfold idx in *. lia. }
          apply look_none in X. congruence. }
        rewrite NH. cbn [negb orb]. rewrite orb_true_r. reflexivity.
      * cbn [length]. lia.
      * exact AC'.
      * exact P2.
      * intros a z HA HZ. apply in_app_iff in HZ. destruct HZ as [HZ|[<-|[]]]; [apply SEP; assumption|]. destruct HA as [<-|HA]; [exact LT2|apply FC in HA; unfold idx in *; lia].
      * intros a HA. rewrite <- app_assoc. apply EV. exact HA.
      * intros z HZ. apply HC. right. exact HZ.
    + apply Z.ltb_ge in LT1. apply Z.ltb_ge in LT2. assert (EQ : idx x = idx y) by (unfold idx; lia).
      assert (GO : walk fuel (pre ++ y :: prev) cur prev (Datatypes.S (length pre)) (r_index (fst x)) (r_index (fst y)) d = Some (d || existsb (fun y0 => negb (has C (idx y0))) (y :: prev))).
      { replace (pre ++ y :: prev) with ((pre ++ [y]) ++ prev) by (rewrite <- app_assoc; reflexivity). replace (Datatypes.S (length pre)) with (length (pre ++ [y])) by (rewrite app_length; cbn [length]; lia).
        rewrite (IH (pre ++ [y]) cur prev C).
        - cbn [existsb]. rewrite (HC y (or_introl eq_refl)). unfold has at 2. cbn [existsb]. rewrite EQ, Z.eqb_refl. reflexivity.
        - lia.
        - exact A2.
        - exact P2.
        - intros a z HA HZ. apply in_app_iff in HZ. destruct HZ as [HZ|[<-|[]]]; [apply SEP; [right; exact HA|exact HZ]|]. apply FC in HA. unfold idx in *. lia.
        - intros a HA. rewrite <- app_assoc. apply EV. right. exact HA.
        - intros z HZ. rewrite (HC z (or_intror HZ)). unfold has. cbn [existsb]. apply FP in HZ. destruct (Z.eqb_spec (idx x) (idx z)); [unfold idx in *; lia|reflexivity]. }
      destruct (event_eqb (snd x) Change); [|exact GO]. rewrite old_row_app.
      2:{ intros X. apply in_map_iff in X. destruct X as [z [E Z0]]. apply (SEP x z (or_introl eq_refl)) in Z0. unfold idx in *. lia. }
      cbn [old_row]. fold (idx x). fold (idx y). rewrite EQ, Z.eqb_refl. cbn [Nat.add]. rewrite Nat.eqb_refl. unfold idx. unfold idx in EQ. rewrite <- EQ in *. exact GO.
Qed.

Lemma walk_asc : forall fuel all cur prev n ifi pifi d b, (length cur + length prev <= fuel)%nat -> walk fuel all cur prev n ifi pifi d = Some b ->
  ascending ifi cur /\ ascending pifi prev.
Proof.
  intros fuel. induction fuel as [|fuel IH]; intros all cur prev n ifi pifi d b LE W.
  { destruct cur; [|cbn [length] in LE; lia]. destruct prev; [|cbn [length] in LE; lia]. split; exact Logic.I. }
  destruct cur as [|x cur], prev as [|y prev]; cbn [walk] in W; cbn [length] in LE.
  - split; exact Logic.I.
  - destruct (pifi <? r_index (fst y)) eqn:P; [|discriminate W]. apply IH in W; [|cbn [length]; lia]. split; [exact Logic.I|]. split; [apply Z.ltb_lt; exact P|apply W].
  - destruct (ifi <? r_index (fst x)) eqn:P; [|discriminate W]. destruct (event_eqb (snd x) Up); [|discriminate W]. apply IH in W; [|cbn [length]; lia]. split; [|exact Logic.I]. split; [apply Z.ltb_lt; exact P|apply W].
  - destruct (ifi <? r_index (fst x)) eqn:P1; [|discriminate W]. destruct (pifi <? r_index (fst y)) eqn:P2; [|discriminate W]. cbn [andb] in W. apply Z.ltb_lt in P1. apply Z.ltb_lt in P2.
    destruct (r_index (fst x) <? r_index (fst y)); [|destruct (r_index (fst y) <? r_index (fst x))].
    + destruct (event_eqb (snd x) Up); [|discriminate W]. apply IH in W; [|cbn [length]; lia]. destruct W as [W1 W2]. split; [split; assumption|exact W2].
    + apply IH in W; [|cbn [length]; lia]. destruct W as [W1 W2]. split; [exact W1|split; assumption].
    + destruct (event_eqb (snd x) Change).
      * destruct (old_row all (r_index (fst x)) 0) as [[p a]|]; [|discriminate W]. destruct (Nat.eqb p n); [|discriminate W]. apply IH in W; [|lia]. destruct W as [W1 W2]. split; split; assumption.
      * apply IH in W; [|lia]. destruct W as [W1 W2]. split; split; assumption.
Qed.

(** A version is made when something differs. *)
Lemma change_iff : forall prev rows, ascending (-1) prev -> ascending (-1) rows ->
  changes (map (classify prev) rows) || existsb (fun y => negb (has rows (idx y))) prev = true <->
  exists i, differs (look prev i) (look rows i) = true.
Proof.
  intros prev rows AP AR. rewrite orb_true_iff. split.
  - intros [H|H].
    + unfold changes in H. apply existsb_exists in H. destruct H as [x [X N]]. apply in_map_iff in X. destruct X as [z [<- Z0]]. rewrite classify_event in N. cbn [snd] in N. exists (idx z).
      assert (LZ : look rows (idx z) = Some (fst z)).
      { clear - Z0 AR. apply ascending_uniq in AR. induction rows as [|x t IH]; [destruct Z0|]. rewrite look_cons. unfold uniq in AR. cbn [map] in AR. inversion AR as [|? ? NI ND]; subst.
        destruct Z0 as [->|Z0]; [rewrite Z.eqb_refl; reflexivity|]. destruct (Z.eqb_spec (idx x) (idx z)) as [E|E]; [exfalso; apply NI; rewrite E; apply in_map; exact Z0|]. apply IH; assumption. }
      rewrite LZ. destruct (look prev (idx z)) as [a|]; cbn [event_of differs] in *; [|reflexivity]. destruct (same a (fst z)); [discriminate N|reflexivity].
    + apply existsb_exists in H. destruct H as [y [Y N]]. exists (idx y). rewrite has_look in N. destruct (look rows (idx y)); [discriminate N|]. destruct (look prev (idx y)) eqn:L; [reflexivity|].
      exfalso. apply look_none in L. apply L. apply in_map. exact Y.
  - intros [i D]. destruct (look rows i) as [b|] eqn:LR.
    + left. unfold changes. apply existsb_exists. assert (IN : exists x, In x rows /\ idx x = i /\ fst x = b).
      { clear - LR. induction rows as [|x t IH]; [discriminate LR|]. rewrite look_cons in LR. destruct (Z.eqb_spec (idx x) i) as [E|E]; [injection LR as <-; exists x; split; [left|]; auto|].
        destruct (IH LR) as [z [Z0 H]]. exists z. split; [right; exact Z0|exact H]. }
      destruct IN as [x [X [E F]]]. exists (classify prev x). split; [apply in_map; exact X|]. rewrite classify_event. cbn [snd]. rewrite E, F. destruct (look prev i) as [a|]; cbn [event_of differs] in *; [|reflexivity].
      destruct (same a b); [discriminate D|reflexivity].
    + right. apply existsb_exists. destruct (look prev i) as [a|] eqn:LP; [|discriminate D]. assert (IN : In i (map idx prev)). { destruct (in_dec Z.eq_dec i (map idx prev)) as [X|X]; [exact X|]. apply look_none in X. congruence. }
      apply in_map_iff in IN. destruct IN as [y [E Y]]. exists y. split; [exact Y|]. rewrite has_look, E, LR. reflexivity.
Qed.
