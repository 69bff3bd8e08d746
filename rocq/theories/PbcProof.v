(** Proofs about changes of links under a running PTP interface. *)
Require Import ZArith List Bool Lia Arith.
Require Import Verif.Base Verif.ListLib Verif.PtiSpec Verif.PtiModel Verif.PtiProof Verif.PtiProof2 Verif.PtiProof3 Verif.PbcSpec Verif.PbcModel.
Import ListNotations.
Open Scope Z_scope.

Lemma eqo_iff : forall a b, eqo a b = true <-> a = b.
Proof. intros [a|] [b|]; cbn [eqo]; rewrite ?Nat.eqb_eq; split; intros H; try discriminate; try reflexivity; [subst|injection H as ->]; reflexivity. Qed.
Lemma eqo_sym : forall a b, eqo a b = eqo b a.
Proof. intros [a|] [b|]; cbn [eqo]; try reflexivity. apply Nat.eqb_sym. Qed.
Lemma eqts_iff : forall a b, eqts a b = true <-> a = b.
Proof. intros [] []; cbn; split; intros; try discriminate; reflexivity. Qed.
Lemma eqp_iff : forall p q, eqp p q = true -> p = q.
Proof.
  intros [a b c d] [a' b' c' d'] H. unfold eqp in H. cbn [p_intf p_up p_primary p_hwts] in H. apply andb_prop in H as [H H4]. apply andb_prop in H as [H H3]. apply andb_prop in H as [H1 H2].
  apply eqo_iff in H1. apply eqb_prop in H2. apply eqb_prop in H3. apply eqb_prop in H4. congruence.
Qed.
Lemma eqp_refl : forall p, eqp p p = true.
Proof. intros [a b c d]. unfold eqp. cbn [p_intf p_up p_primary p_hwts]. rewrite (proj2 (eqo_iff a a) eq_refl), !eqb_reflx. reflexivity. Qed.
Lemma eql_iff : forall a b, eql a b = true <-> a = b.
Proof.
  induction a as [|p a IH]; intros [|q b]; cbn [eql]; split; intros H; try discriminate; try reflexivity.
  - apply andb_prop in H as [H1 H2]. apply eqp_iff in H1. apply IH in H2. congruence.
  - injection H as -> ->. rewrite eqp_refl. apply IH. reflexivity.
Qed.
Lemma set_changed_false : forall new old, set_changed new old = false <-> b_num new = b_num old /\ set_of new = set_of old.
Proof.
  intros new old. unfold set_changed, set_of. rewrite orb_false_iff, !negb_false_iff, Nat.eqb_eq, eql_iff. split; intros [A B]; (split; [exact A|]); rewrite B, ?A; congruence.
Qed.

(** ** The loop over the ports *)
Definition moved (w : world) (old : binfo) (p q : port) : Prop :=
  pt_phys q = active_intf w (pt_last p) (pt_clock p) old /\ pt_last q = pt_last p /\ pt_pref q = pt_pref p /\ pt_alarm q = pt_alarm p /\
  (pt_phys q <> pt_phys p -> pt_clock q = clock_at w (pt_phys q)).
Definition touched (w : world) (old : binfo) (tsch : bool) (p : port) : bool := negb (eqo (active_intf w (pt_last p) (pt_clock p) old) (pt_phys p)) || tsch.
Lemma change_eq : forall w net k p a ts nts, change w net k p a ts nts =
  (mkPt a (clock_at w a) (pt_last p) (pt_pref p) (pt_alarm p),
   Down :: (match a with Some i => [Open i] | None => [] end) ++ (if eqo (pt_phys p) a then [] else [Steer k (clock_at w a)]) ++ (if eqts ts nts then [] else [Reset k])
        ++ (if (match a with None => ENOENT | Some _ => if net k then 0 else EIO end) =? 0 then [] else [Faulty]),
   match a with None => ENOENT | Some _ => if net k then 0 else EIO end).
Proof. reflexivity. Qed.
Lemma each_ports : forall w net old nts tsch ps k ts rc, Forall2 (moved w old) ps (lp_ports (each w net old nts tsch k ps ts rc)).
Proof.
  induction ps as [|p ps IH]; intros k ts rc; [constructor|]. cbn [each]. set (a := active_intf w (pt_last p) (pt_clock p) old).
  destruct (negb (eqo a (pt_phys p)) || tsch) eqn:E.
  - rewrite change_eq. cbn [lp_ports]. constructor; [|apply IH]. unfold moved. cbn [pt_phys pt_last pt_pref pt_alarm pt_clock]. auto.
  - cbn [lp_ports]. constructor; [|apply IH]. apply orb_false_iff in E as [E _]. apply negb_false_iff in E. apply eqo_iff in E. unfold moved. repeat split; auto. congruence.
Qed.
Lemma each_changed : forall w net old nts tsch ps k ts rc, lp_changed (each w net old nts tsch k ps ts rc) = existsb (touched w old tsch) ps.
Proof.
  induction ps as [|p ps IH]; intros k ts rc; [reflexivity|]. cbn [each existsb]. unfold touched at 1. destruct (negb _ || tsch); [rewrite change_eq; reflexivity|cbn [lp_changed orb]; apply IH].
Qed.
Lemma each_active : forall w net old nts tsch ps k ts rc, lp_active (each w net old nts tsch k ps ts rc) = existsb (touched w old false) ps.
Proof.
  induction ps as [|p ps IH]; intros k ts rc; [reflexivity|]. cbn [each existsb]. unfold touched at 1. destruct (negb (eqo _ _)) eqn:A; cbn [orb].
  - rewrite change_eq. reflexivity.
  - destruct tsch; [rewrite change_eq|]; cbn [lp_active orb]; apply IH.
Qed.
Lemma each_ts : forall w net old nts ps k ts rc, lp_ts (each w net old nts (negb (eqts nts ts)) k ps ts rc) = match ps with [] => ts | _ => nts end.
Proof.
  assert (Same : forall w net old nts tsch ps k rc, lp_ts (each w net old nts tsch k ps nts rc) = nts).
  { induction ps as [|p ps IH]; intros k rc; [reflexivity|]. cbn [each]. destruct (negb _ || _); [rewrite change_eq|]; cbn [lp_ts]; apply IH. }
  intros w net old nts ps k ts rc. destruct ps as [|p ps]; [reflexivity|]. cbn [each]. destruct (negb (eqts nts ts)) eqn:E.
  - rewrite orb_true_r, change_eq. cbn [lp_ts]. apply Same.
  - apply negb_false_iff, eqts_iff in E. subst ts. rewrite orb_false_r. destruct (negb _); [rewrite change_eq|]; cbn [lp_ts]; apply Same.
Qed.
(** The result: that of the last port. *)
Definition port_rc (net : nat -> bool) (w : world) (old : binfo) (tsch : bool) (k : nat) (p : port) : Z :=
  if touched w old tsch p then match active_intf w (pt_last p) (pt_clock p) old with None => ENOENT | Some _ => if net k then 0 else EIO end else 0.
Lemma each_rc : forall w net old nts tsch ps k ts rc,
  lp_rc (each w net old nts tsch k ps ts rc) = match rev ps with [] => rc | p :: _ => port_rc net w old tsch (k + List.length ps - 1) p end.
Proof.
  induction ps as [|p ps IH]; intros k ts rc; [reflexivity|]. cbn [each rev List.length].
  assert (H : forall ts' rc', rc' = port_rc net w old tsch k p -> lp_rc (each w net old nts tsch (S k) ps ts' rc') =
     match rev ps ++ [p] with [] => rc | p0 :: _ => port_rc net w old tsch (k + S (List.length ps) - 1) p0 end).
  { intros ts' rc' E. rewrite IH. destruct (rev ps) as [|q l] eqn:R; cbn [app].
    - apply (f_equal (@List.length _)) in R. rewrite rev_length in R. cbn in R. rewrite R, E. f_equal. lia.
    - f_equal. lia. }
  destruct (negb _ || tsch) eqn:E.
  - rewrite change_eq. cbn [lp_rc]. apply H. unfold port_rc, touched. rewrite E. reflexivity.
  - cbn [lp_rc]. apply H. unfold port_rc, touched. rewrite E. reflexivity.
Qed.
(** What is done to servos, and that timestamping is not touched. *)
Lemma change_effs : forall w net k p a ts nts e, In e (snd (fst (change w net k p a ts nts))) ->
  match e with Steer j c => j = k /\ a <> pt_phys p /\ c = clock_at w a | Reset j => j = k /\ ts <> nts | On _ | Off _ => False | Open i => a = Some i | _ => True end.
Proof.
  intros w net k p a ts nts e. rewrite change_eq. cbn [fst snd]. cbn [In app]. rewrite !in_app_iff. intros [<-|[H|[H|[H|H]]]].
  - exact I.
  - destruct a as [i|]; [destruct H as [<-|[]]; reflexivity|destruct H].
  - destruct (eqo (pt_phys p) a) eqn:E; [destruct H|]. destruct H as [<-|[]]. split; [reflexivity|]. split; [|reflexivity]. intros Q. symmetry in Q. apply eqo_iff in Q. congruence.
  - destruct (eqts ts nts) eqn:E; [destruct H|]. destruct H as [<-|[]]. split; [reflexivity|]. intros Q. apply eqts_iff in Q. congruence.
  - destruct (_ =? 0); [destruct H|]. destruct H as [<-|[]]. exact I.
Qed.
Lemma each_effs : forall w net old nts tsch ps k ts rc e, In e (lp_effs (each w net old nts tsch k ps ts rc)) ->
  match e with
  | Steer j c => exists p q, (k <= j)%nat /\ nth_error ps (j - k) = Some p /\ nth_error (lp_ports (each w net old nts tsch k ps ts rc)) (j - k) = Some q /\ pt_phys q <> pt_phys p /\ c = pt_clock q
  | Reset j => tsch = true -> j = k /\ ts <> nts
  | On _ | Off _ => False
  | _ => True
  end.
Proof.
  induction ps as [|p ps IH]; intros k ts rc e H; [destruct H|]. cbn [each] in *. set (a := active_intf w (pt_last p) (pt_clock p) old) in *.
  assert (Sh : forall ps' j, (S k <= j)%nat -> nth_error (p :: ps') (j - k) = nth_error ps' (j - S k)) by (intros ps' j L; replace (j - k)%nat with (S (j - S k)) by lia; reflexivity).
  assert (Sh' : forall (h : port) ps' j, (S k <= j)%nat -> nth_error (h :: ps') (j - k) = nth_error ps' (j - S k)) by (intros h ps' j L; replace (j - k)%nat with (S (j - S k)) by lia; reflexivity).
  destruct (negb (eqo a (pt_phys p)) || tsch) eqn:E.
  - pose proof (change_effs w net k p a ts nts e) as C. rewrite change_eq in *. cbn [fst snd lp_effs lp_ports] in *. apply in_app_or in H. destruct H as [H|H].
    + specialize (C H). destruct e; auto; try contradiction.
      * destruct C as (-> & C2 & ->). eexists p, _. split; [lia|]. rewrite Nat.sub_diag. split; [reflexivity|]. split; [reflexivity|]. cbn [pt_phys pt_clock]. auto.
    + apply IH in H. destruct e; auto.
      * destruct H as (p' & q' & L & P & Q & D). exists p', q'. rewrite !Sh' by lia. split; [lia|]. auto.
      * intros T. destruct (H T) as [_ F]. congruence.
  - cbn [lp_effs lp_ports] in *. apply IH in H. destruct e; auto.
    + destruct H as (p' & q' & L & P & Q & D). exists p', q'. rewrite !Sh' by lia. split; [lia|]. auto.
    + intros T. apply orb_false_iff in E as [_ E]. congruence.
Qed.
Lemma each_steers : forall w net old nts tsch ps k ts rc j p q, nth_error ps j = Some p -> nth_error (lp_ports (each w net old nts tsch k ps ts rc)) j = Some q -> pt_phys q <> pt_phys p ->
  In (Steer (k + j) (pt_clock q)) (lp_effs (each w net old nts tsch k ps ts rc)).
Proof.
  induction ps as [|p0 ps IH]; intros k ts rc j p q P Q D; [destruct j; discriminate|]. cbn [each] in *. set (a := active_intf w (pt_last p0) (pt_clock p0) old) in *.
  destruct (negb (eqo a (pt_phys p0)) || tsch) eqn:E.
  - rewrite change_eq in *. cbn [lp_effs lp_ports] in *. destruct j as [|j]; cbn [nth_error] in *.
    + injection P as <-. injection Q as <-. cbn [pt_phys pt_clock] in *. rewrite Nat.add_0_r. apply in_or_app. left. right. apply in_or_app. right. apply in_or_app. left.
      destruct (eqo (pt_phys p0) a) eqn:F; [apply eqo_iff in F; congruence|left; reflexivity].
    + apply in_or_app. right. replace (k + S j)%nat with (S k + j)%nat by lia. eapply IH; eauto.
  - cbn [lp_effs lp_ports] in *. destruct j as [|j]; cbn [nth_error] in *; [congruence|]. replace (k + S j)%nat with (S k + j)%nat by lia. eapply IH; eauto.
Qed.
Lemma each_reset_first : forall w net old nts ps k ts rc, ts <> nts -> ps <> [] -> In (Reset k) (lp_effs (each w net old nts true k ps ts rc)).
Proof.
  intros w net old nts [|p ps] k ts rc D NE; [congruence|]. cbn [each]. rewrite orb_true_r, change_eq. cbn [lp_effs]. apply in_or_app. left. right. apply in_or_app. right. apply in_or_app. right. apply in_or_app. left.
  destruct (eqts ts nts) eqn:E; [apply eqts_iff in E; congruence|left; reflexivity].
Qed.
Lemma each_no_reset : forall w net old nts tsch ps k rc j, ~ In (Reset j) (lp_effs (each w net old nts tsch k ps nts rc)).
Proof.
  induction ps as [|p ps IH]; intros k rc j; [intros []|]. cbn [each]. destruct (negb _ || tsch).
  - pose proof (fun e => change_effs w net k p (active_intf w (pt_last p) (pt_clock p) old) nts nts e) as C. rewrite change_eq in *. cbn [lp_effs fst snd] in *. rewrite in_app_iff. intros [H|H]; [apply C in H; tauto|exact (IH _ _ _ H)].
  - cbn [lp_effs]. apply IH.
Qed.
