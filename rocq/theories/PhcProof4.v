(** Proofs about the configuration of methods and the external PPS input (C73). *)
Require Import ZArith QArith List Bool String Lia.
From Verif Require Import Base TimeSpec TimeModel PhcSpec PhcModel PhcProof PhcProof2 PhcProof3.
Import ListNotations.
Open Scope Z_scope.

Lemma usable_available e a b c m : names_fit (w_pps e) -> errnos (w_pps e) ->
  (usable e a b c m <-> available e a b c m).
Proof.
  intros F (N1 & N2 & N3). destruct m; cbn; try tauto. split; intros [P Q]; (split; [exact P|]).
  - unfold configure_rc in Q. unfold pps_ready, names_fit in *.
    destruct (v_open (w_pps e)) as [x|]. { injection Q as ->. exfalso. eapply N1; eauto. }
    destruct (v_read (w_pps e)) as [x|]. { injection Q as ->. exfalso. eapply N2; eauto. }
    destruct (v_list (w_pps e)) as [x|l]. { injection Q as ->. exfalso. eapply N3; eauto. }
    split; [reflexivity|]. split; [reflexivity|].
    destruct (find_pps_spec (w_name e) l F) as (r & E & R). rewrite E in Q. cbn [bind] in Q.
    destruct r as [dev|]; [|discriminate]. destruct R as (l1 & en & l2 & -> & A & B & C).
    exists (l1 ++ en :: l2), l1, en, l2. split; [reflexivity|]. split; [reflexivity|]. split; [exact B|]. split; [exact C|].
    rewrite A. destruct (Z.ltb_spec (v_dev (w_pps e) dev) 0); [injection Q; lia|].
    destruct (Z.eqb_spec (v_enable (w_pps e)) 0); cbn [negb] in Q; [auto|]. injection Q; contradiction.
  - destruct Q as (A1 & A2 & l & l1 & en & l2 & A3 & A4 & A5 & A6 & A7 & A8). unfold configure_rc, names_fit in *.
    rewrite A1, A2, A3 in *. destruct (find_pps_spec (w_name e) l F) as (r & E & R). rewrite E. cbn [bind].
    destruct r as [dev|].
    + destruct R as (r1 & x & r2 & R1 & R2 & R3 & R4). assert (X : x = en).
      { rewrite A4 in R1. clear -R1 A5 A6 R3 R4. revert r1 R1 R4. induction l1 as [|a l1 IH]; intros [|b r1] R1 R4; cbn in R1.
        - injection R1; auto.
        - injection R1 as <- _. exfalso. apply (R4 en); [left; reflexivity|exact A5].
        - injection R1 as -> _. exfalso. apply (A6 x); [left; reflexivity|exact R3].
        - injection R1 as -> R1. apply (IH (fun y Hy => A6 y (or_intror Hy)) r1 R1 (fun y Hy => R4 y (or_intror Hy))). }
      subst x. subst dev. destruct (Z.ltb_spec (v_dev (w_pps e) (en_dev en)) 0); [lia|]. rewrite A8. reflexivity.
    + exfalso. apply (R en); [rewrite A4; apply in_or_app; right; left; reflexivity|exact A5].
Qed.

Lemma first_of_ext {A} (P R : A -> Prop) l x : (forall y, P y <-> R y) -> first_of P l x -> first_of R l x.
Proof.
  intros H (l1 & l2 & E & Px & N). exists l1, l2. split; [exact E|]. split; [apply H; exact Px|].
  intros y Hy Ry. apply (N y Hy). apply H. exact Ry.
Qed.

(** Method names. *)
Lemma method_of_text m : m <> MMAX -> method_of (method_text m) = Some m.
Proof. destruct m; intros H; try reflexivity. contradiction. Qed.
Lemma method_of_some s m : method_of s = Some m -> s = method_text m /\ m <> MMAX.
Proof.
  unfold method_of. intros H. apply find_some in H as [H1 H2]. apply String.eqb_eq in H2. split; [exact H2|].
  intros ->. cbn in H1. intuition discriminate.
Qed.
Lemma text_inj a b : method_text a = method_text b -> a = b.
Proof. destruct a, b; cbn; intros H; try reflexivity; discriminate. Qed.
Lemma method_eqb_spec a b : method_eqb a b = true <-> a = b.
Proof. unfold method_eqb. rewrite String.eqb_eq. split; [apply text_inj|intros ->; reflexivity]. Qed.
Lemma seen_spec m done : existsb (method_eqb m) done = true <-> In m done.
Proof.
  rewrite existsb_exists. split.
  - intros (x & A & B). apply method_eqb_spec in B. subst. exact A.
  - intros H. exists m. split; [exact H|]. apply method_eqb_spec. reflexivity.
Qed.

Lemma parse_methods_sound params : forall done l, parse_methods done params = Some l -> NoDup done -> ~ In MMAX done ->
  exists ms, l = done ++ ms /\ params = map method_text ms /\ NoDup (done ++ ms) /\ ~ In MMAX (done ++ ms).
Proof.
  induction params as [|s r IH]; intros done l H N M; cbn [parse_methods] in H.
  - injection H as <-. exists []. rewrite app_nil_r. auto.
  - destruct (method_of s) as [m|] eqn:Em; [|discriminate]. destruct (existsb (method_eqb m) done) eqn:Ee; [discriminate|].
    apply method_of_some in Em as [-> Nm].
    assert (Nd : ~ In m done) by (intros X; apply seen_spec in X; congruence).
    destruct (IH (done ++ [m]) l H) as (ms & -> & -> & Q1 & Q2).
    + apply NoDup_Add with (a := m) (l := done); [|split; [exact N|exact Nd]]. rewrite <- (app_nil_r done) at 1. apply Add_app.
    + intros X. apply in_app_or in X as [X|[X|[]]]; [auto|]. congruence.
    + exists (m :: ms). rewrite <- app_assoc in *. cbn [app] in *. auto.
Qed.
Lemma parse_methods_complete ms : forall done, NoDup (done ++ ms) -> ~ In MMAX ms ->
  parse_methods done (map method_text ms) = Some (done ++ ms).
Proof.
  induction ms as [|m ms IH]; intros done N M; cbn [map parse_methods]; [rewrite app_nil_r; reflexivity|].
  rewrite method_of_text by (intros ->; apply M; left; reflexivity).
  assert (Nd : ~ In m done) by (apply NoDup_remove_2 in N; intros X; apply N; apply in_or_app; left; exact X).
  destruct (existsb (method_eqb m) done) eqn:Ee; [apply seen_spec in Ee; contradiction|].
  rewrite IH; [rewrite <- app_assoc; reflexivity|rewrite <- app_assoc; exact N|intros X; apply M; right; exact X].
Qed.

Lemma parse_diff_spec arr params : List.length arr = 7%nat ->
  ((exists o, parse_diff_methods arr params = inr o) <->
   (exists ms, params = map method_text ms /\ NoDup ms /\ ~ In MMAX ms)) /\
  (forall o, parse_diff_methods arr params = inr o ->
   exists ms, params = map method_text ms /\ NoDup ms /\ ~ In MMAX ms /\
     o = ms ++ MMAX :: skipn (S (List.length ms)) arr /\ (List.length ms <= 6)%nat).
Proof.
  intros La. assert (G : forall o, parse_diff_methods arr params = inr o ->
   exists ms, params = map method_text ms /\ NoDup ms /\ ~ In MMAX ms /\
     o = ms ++ MMAX :: skipn (S (List.length ms)) arr /\ (List.length ms <= 6)%nat).
  { intros o. unfold parse_diff_methods. destruct (6 <? List.length params)%nat; [discriminate|].
    destruct (parse_methods [] params) as [l|] eqn:E; [|discriminate]. intros X; injection X as <-.
    destruct (parse_methods_sound params [] l E) as (ms & -> & -> & Q1 & Q2); [constructor|intros []|].
    exists ms. cbn [app] in *. repeat split; auto. apply short; auto. }
  split; [|exact G]. split.
  - intros (o & E). destruct (G o E) as (ms & A & B & C & _). eauto.
  - intros (ms & -> & N & M). unfold parse_diff_methods. rewrite map_length.
    destruct (Nat.ltb_spec 6 (List.length ms)) as [X|X]; [pose proof (short ms N M); lia|].
    rewrite (parse_methods_complete ms [] N M). eauto.
Qed.

Lemma set_diff_spec ms : forall arr new n, ~ In MMAX ms -> (List.length ms < n)%nat -> List.length arr = n ->
  set_diff_methods arr (ms ++ MMAX :: new) n = Some (0, ms ++ MMAX :: skipn (S (List.length ms)) arr).
Proof.
  induction ms as [|m ms IH]; intros arr new n M L La; destruct n as [|n]; try (cbn in L; lia);
    destruct arr as [|a arr]; try discriminate.
  - reflexivity.
  - cbn [List.length] in *. assert (Nm : m <> MMAX) by (intros ->; apply M; left; reflexivity).
    cbn [set_diff_methods app]. rewrite (IH arr new n) by (try lia; intros X; apply M; right; exact X).
    destruct m; try contradiction; reflexivity.
Qed.

Lemma installed ms new : NoDup ms -> ~ In MMAX ms ->
  exists order, set_diff_methods methods0 (ms ++ MMAX :: new) 7 = Some (0, order) /\ is_order order ms.
Proof.
  intros N M. pose proof (short ms N M) as L. eexists. split; [apply set_diff_spec; [exact M|lia|reflexivity]|].
  split; [exact N|]. split; [exact M|]. exists (skipn (S (List.length ms)) methods0). split; [reflexivity|]. split.
  - intros X. assert (Y : In MPPS methods0) by (rewrite <- (firstn_skipn (S (List.length ms)) methods0); apply in_or_app; right; exact X).
    cbn in Y. intuition discriminate.
  - rewrite app_length. cbn [List.length]. rewrite skipn_length. cbn [List.length methods0 repeat]. lia.
Qed.

(** The external PPS input. *)
Definition external (t : string) : Prop := t = "sfc"%string \/ t = "xlnx"%string.
Lemma external_b t : (String.eqb t "sfc" || String.eqb t "xlnx") = true <-> external t.
Proof. rewrite orb_true_iff, !String.eqb_eq. reflexivity. Qed.

Definition seen_int (name : string) (l : list entry) (s : dstate) : Prop :=
  match s with
  | SEARCHING => True
  | FOUND_INT => exists r1 a r2, l = r1 ++ a :: r2 /\ en_name a = Some (Some name) /\
      (forall x, In x r2 -> exists t, en_name x = Some (Some t) /\ ~ external t)
  | _ => False
  end.

Lemma discover_sound name ext rest : forall pre s dev, seen_int name pre s ->
  discover name ext s rest = Some (Some dev) ->
  exists l1 en l2, pre ++ rest = l1 ++ en :: l2 /\ en_dev en = dev /\
    (en_name en = Some (Some ext) \/
     exists t, en_name en = Some (Some t) /\ external t /\ seen_int name l1 FOUND_INT).
Proof.
  induction rest as [|en r IH]; intros pre s dev V H; cbn [discover] in H; [discriminate|].
  destruct (dstep name ext s en) as [s'|] eqn:Ed; cbn [bind] in H; [|discriminate].
  assert (Go : seen_int name (pre ++ [en]) s' -> discover name ext s' r = Some (Some dev) ->
     exists l1 x l2, pre ++ en :: r = l1 ++ x :: l2 /\ en_dev x = dev /\
       (en_name x = Some (Some ext) \/ exists t, en_name x = Some (Some t) /\ external t /\ seen_int name l1 FOUND_INT)).
  { intros V' H'. destruct (IH (pre ++ [en]) s' dev V' H') as (l1 & x & l2 & A & B). exists l1, x, l2.
    rewrite <- app_assoc in A. auto. }
  unfold dstep in Ed. destruct (en_name en) as [[t|]|] eqn:En.
  - destruct (fits16 t); [|discriminate]. destruct (String.eqb_spec t ext) as [->|Nx].
    { injection Ed as <-. injection H as <-. exists pre, en, r. auto. }
    destruct s; try destruct V.
    + destruct (String.eqb_spec t name) as [->|Nn]; injection Ed as <-.
      * apply Go; [|exact H]. exists pre, en, []. split; [reflexivity|]. split; [exact En|]. intros x [].
      * apply Go; [exact Logic.I|exact H].
    + destruct H0 as (a & r2 & V1 & V2 & V3).
      destruct (String.eqb t "sfc" || String.eqb t "xlnx") eqn:Ex; injection Ed as <-.
      * injection H as <-. exists pre, en, r. split; [reflexivity|]. split; [reflexivity|]. right. exists t.
        split; [exact En|]. split; [apply external_b; exact Ex|]. exists x, a, r2. auto.
      * apply Go; [|exact H]. exists x, a, (r2 ++ [en]). rewrite V1, <- app_assoc. split; [reflexivity|]. split; [exact V2|].
        intros y Hy. apply in_app_or in Hy as [Hy|[<-|[]]]; [auto|]. exists t. split; [exact En|]. intros X. apply external_b in X. congruence.
  - destruct s; injection Ed as <-; try destruct V; (apply Go; [exact Logic.I|exact H]).
  - destruct s; injection Ed as <-; try destruct V; try discriminate. apply Go; [exact Logic.I|exact H].
Qed.

Lemma discover_adjacent name ext l1 a b l2 t :
  (forall x s, In x (l1 ++ [a; b]) -> en_name x = Some (Some s) -> (String.length s < 16)%nat) ->
  (forall x, In x l1 -> en_name x <> Some (Some name) /\ en_name x <> Some (Some ext)) ->
  en_name a = Some (Some name) -> name <> ext -> en_name b = Some (Some t) -> external t ->
  discover name ext SEARCHING (l1 ++ a :: b :: l2) = Some (Some (en_dev b)).
Proof.
  induction l1 as [|x l1 IH]; intros F N A Ne B X; cbn [app discover].
  - assert (Fa : (String.length name <? 16)%nat = true) by (apply Nat.ltb_lt; apply (F a); [left; reflexivity|exact A]).
    assert (Fb : (String.length t <? 16)%nat = true) by (apply Nat.ltb_lt; apply (F b); [right; left; reflexivity|exact B]).
    unfold dstep. rewrite A, B. unfold fits16. rewrite Fa, Fb.
    destruct (String.eqb_spec name ext); [contradiction|]. rewrite String.eqb_refl. cbn [bind].
    destruct (String.eqb t ext); cbn [bind]; [reflexivity|].
    destruct (String.eqb t "sfc" || String.eqb t "xlnx") eqn:Ex; cbn [bind]; [reflexivity|].
    apply external_b in X. congruence.
  - destruct (N x (or_introl eq_refl)) as [N1 N2].
    assert (R : discover name ext SEARCHING (l1 ++ a :: b :: l2) = Some (Some (en_dev b))).
    { apply IH; auto. - intros y s Hy. apply F. right. exact Hy. - intros y Hy. apply N. right. exact Hy. }
    unfold dstep. destruct (en_name x) as [[s|]|] eqn:Ex; cbn [bind]; try exact R.
    assert (Fx : (String.length s <? 16)%nat = true) by (apply Nat.ltb_lt; apply (F x); [left; reflexivity|exact Ex]).
    unfold fits16. rewrite Fx. destruct (String.eqb_spec s ext); [congruence|].
    destruct (String.eqb_spec s name); [congruence|]. exact R.
Qed.

(** Events of the external PPS input. *)
Fixpoint events (prev : kinfo) (fetches : list (Z + kinfo)) : list (Z + ts * Z) :=
  match fetches with
  | [] => []
  | f :: r => let x := devpps_event prev f in fst x :: events (snd x) r
  end.
Fixpoint last_fetched (prev : kinfo) (l : list (Z + kinfo)) : kinfo :=
  match l with [] => prev | inl _ :: r => last_fetched prev r | inr k :: r => last_fetched k r end.

Lemma kinfo_eqb a b : (k_sec a =? k_sec b) && (k_nsec a =? k_nsec b) && (k_seq a =? k_seq b) = true <-> a = b.
Proof.
  rewrite !andb_true_iff, !Z.eqb_eq. destruct a, b; cbn. split; [intros [[-> ->] ->]; reflexivity|intros X; injection X; auto].
Qed.

Lemma events_spec l : forall prev i f, nth_error l i = Some f ->
  match f with
  | inl e => nth_error (events prev l) i = Some (inl e)
  | inr k => (k = last_fetched prev (firstn i l) -> nth_error (events prev l) i = Some (inl EAGAIN)) /\
             (k <> last_fetched prev (firstn i l) ->
              nth_error (events prev l) i = Some (inr (mkTs (k_sec k) (k_nsec k) 0, k_seq k)))
  end.
Proof.
  induction l as [|g l IH]; intros prev [|i] f H; cbn [nth_error] in H; try discriminate.
  - injection H as ->. destruct f as [e|k]; cbn [events nth_error devpps_event fst firstn last_fetched]; [reflexivity|].
    destruct ((k_sec k =? k_sec prev) && (k_nsec k =? k_nsec prev) && (k_seq k =? k_seq prev)) eqn:E; cbn [fst].
    + apply kinfo_eqb in E. split; [reflexivity|]. congruence.
    + split; [|reflexivity]. intros X. apply kinfo_eqb in X. congruence.
  - cbn [events nth_error firstn last_fetched].
    assert (Es : snd (devpps_event prev g) = match g with inl _ => prev | inr k => k end).
    { destruct g as [e|k]; cbn [devpps_event snd]; [reflexivity|].
      destruct ((k_sec k =? k_sec prev) && (k_nsec k =? k_nsec prev) && (k_seq k =? k_seq prev)) eqn:E; [|reflexivity].
      apply kinfo_eqb in E. cbn. congruence. }
    rewrite Es. specialize (IH (match g with inl _ => prev | inr k => k end) i f H). destruct f as [e|k]; [exact IH|].
    destruct g as [e'|k']; exact IH.
Qed.

Lemma devptp_spec reads r : devptp_event reads = Some r ->
  exists l1 x l2, reads = l1 ++ x :: l2 /\ (forall y, In y l1 -> exists pin t, y = inr (pin, t) /\ pin <> 0) /\
    match r with inl e => x = inl e | inr (t, q) => x = inr (0, t) /\ q = 2^32 - 1 end.
Proof.
  revert r. induction reads as [|y l IH]; intros r H; cbn [devptp_event] in H; [discriminate|].
  destruct y as [e|[pin t]].
  - injection H as <-. exists [], (inl e), l. split; [reflexivity|]. split; [intros z []|reflexivity].
  - destruct (Z.eqb_spec pin 0) as [->|Np].
    + injection H as <-. exists [], (inr (0, t)), l. split; [reflexivity|]. split; [intros z []|]. auto.
    + destruct (IH r H) as (l1 & x & l2 & -> & A & B). exists (inr (pin, t) :: l1), x, l2. split; [reflexivity|]. split; [|exact B].
      intros z [<-|Hz]; [eauto|auto].
Qed.
