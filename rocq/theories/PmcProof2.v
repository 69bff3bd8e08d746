(** Proofs for C75: taking instances and interfaces down. *)
Require Import ZArith List Bool Arith Lia.
From Verif Require Import Base PmcSpec PmcModel PmcProof.
Import ListNotations.
Open Scope Z_scope.

Definition all (l : list intf) : list nat := flat_map n_insts l.
Definition not_i (i : nat) (l : list nat) : list nat := filter (fun k => negb (Nat.eqb i k)) l.
Lemma in_not_i i l x : In x (not_i i l) <-> In x l /\ x <> i.
Proof. unfold not_i. rewrite filter_In, negb_true_iff, Nat.eqb_neq. split; intros [A B]; split; congruence. Qed.
Lemma not_i_id i l : ~ In i l -> not_i i l = l.
Proof.
  induction l as [|x l IH]; [reflexivity|]. intro H. cbn. destruct (Nat.eqb_spec i x) as [->|N]; [destruct H; left; reflexivity|]. cbn. f_equal. apply IH. intro. apply H. right. assumption.
Qed.

Definition ok_ctx (w : world) (n : intf) : Prop :=
  match n_ctx n with
  | None => forall i, In i (n_insts n) -> ~ In i (w_ports w)
  | Some ports => n_ok n = true /\ In (OCtx (n_rep n)) (w_live w) /\ In (n_rep n) (w_ctxs w) /\ In OGlob (w_live w) /\ NoDup ports /\
      (forall i, In i ports <-> In i (n_insts n) /\ In i (w_ports w)) /\ forall i, In i ports -> In (OPort i) (w_live w)
  end.
Definition owned (w : world) (o : obj) : Prop :=
  match o with
  | OGlob => True
  | OInst i => In i (all (w_intfs w))
  | OIntf j => In j (map n_rep (w_intfs w))
  | OCtx j => exists n, In n (w_intfs w) /\ n_rep n = j /\ n_ctx n <> None
  | OPort i => exists n ports, In n (w_intfs w) /\ n_ctx n = Some ports /\ In i ports
  end.
Record wf (w : world) : Prop := mkWf {
  wf_reps : NoDup (map n_rep (w_intfs w));
  wf_all : NoDup (all (w_intfs w));
  wf_some : forall n, In n (w_intfs w) -> n_insts n <> [];
  wf_ok : forall n, In n (w_intfs w) -> ok_ctx w n;
  wf_ctxs : NoDup (w_ctxs w);
  wf_own : forall o, In o (w_live w) -> owned w o;
  wf_inst : forall i, In i (all (w_intfs w)) -> In (OInst i) (w_live w);
  wf_intf : forall n, In n (w_intfs w) -> In (OIntf (n_rep n)) (w_live w);
  wf_live : (exists n, In n (w_intfs w) /\ n_ctx n <> None) -> forall j, In j (w_ctxs w) -> In (OCtx j) (w_live w) }.
(** Every context in the list is that of an interface. *)
Definition exact (w : world) : Prop := forall j, In j (w_ctxs w) -> exists n, In n (w_intfs w) /\ n_rep n = j /\ n_ctx n <> None.

Lemma unlink_spec o i l w : NoDup l -> (forall x, In x l -> In (o x) (w_live w)) -> In i l -> unlink o i l w = Some (not_i i l).
Proof.
  induction l as [|x l IH]; [intros _ _ []|]. intros ND H Hi. inversion_clear ND as [|? ? X Y]. cbn [unlink].
  rewrite (proj2 (live_In (o x) w)) by (apply H; left; reflexivity). cbn [negb]. destruct (Nat.eqb_spec x i) as [->|N].
  - cbn. rewrite Nat.eqb_refl. cbn. f_equal. symmetry. apply not_i_id, X.
  - destruct Hi as [Hi|Hi]; [congruence|]. rewrite IH; auto; [|intros; apply H; right; assumption]. cbn. destruct (Nat.eqb_spec i x); [congruence|]. reflexivity.
Qed.
Lemma all_in l n i : In n l -> In i (n_insts n) -> In i (all l).
Proof. intros A B. apply in_flat_map. eauto. Qed.

Lemma step_spec w n rest i is : wf w -> w_intfs w = n :: rest -> n_insts n = i :: is ->
  exists w', destroy_instance i w = Some w' /\ wf w' /\ walk (w_intfs w') = is ++ walk rest /\
    (In OGlob (w_live w') <-> In OGlob (w_live w)) /\ w_conf w' = w_conf w /\ (exact w -> exact w').
Proof.
  intros W E Ei. destruct W as [W1 W2 W3 W4 W5 W6 W7 W8 W9].
  assert (Hn : In n (w_intfs w)) by (rewrite E; left; reflexivity).
  pose proof (W4 n Hn) as On. pose proof W1 as W1'. rewrite E in W1'. cbn [map] in W1'. inversion_clear W1' as [|? ? R1 R2].
  pose proof W2 as W2'. rewrite E in W2'. unfold all in W2'. cbn [flat_map] in W2'. rewrite Ei in W2'. cbn [app] in W2'. inversion_clear W2' as [|? ? I1 I2].
  assert (I3 : ~ In i is) by (intro H; apply I1, in_or_app; left; exact H).
  assert (I4 : forall m, In m rest -> ~ In i (n_insts m)).
  { intros m Hm H. apply I1, in_or_app. right. eapply all_in; eauto. }
  assert (Ii : In i (all (w_intfs w))) by (rewrite E; unfold all; cbn [flat_map]; rewrite Ei; left; reflexivity).
  (* the port *)
  assert (P : exists w1 n1, (if mem i (w_ports w) then port_destroy i n w else Some w) = Some w1 /\ w_intfs w1 = n1 :: rest /\
     n_rep n1 = n_rep n /\ n_insts n1 = n_insts n /\ n_ok n1 = n_ok n /\ n_ctx n1 = option_map (not_i i) (n_ctx n) /\
     (forall x, In x (w_live w1) <-> In x (w_live w) /\ x <> OPort i) /\ w_conf w1 = w_conf w /\ w_ports w1 = w_ports w /\ w_ctxs w1 = w_ctxs w).
  { destruct (mem i (w_ports w)) eqn:Mi.
    - apply mem_In in Mi. unfold ok_ctx in On. unfold port_destroy. destruct (n_ctx n) as [ports|] eqn:Ec.
      2:{ exfalso. apply (On i); [rewrite Ei; left; reflexivity|exact Mi]. }
      destruct On as (O1 & O2 & O3 & O4 & O5 & O6 & O7). assert (Hp : In i ports) by (apply O6; split; [rewrite Ei; left; reflexivity|exact Mi]).
      rewrite (proj2 (live_In _ _) (O7 i Hp)), (proj2 (live_In _ _) O2). cbn [andb negb].
      rewrite (unlink_spec OPort i ports w O5 O7 Hp). cbn [bind].
      destruct (free_spec (OPort i) (put (with_ctx n (Some (not_i i ports))) w)) as (w1 & F1 & F2 & F3 & F4 & F5 & F6 & F7 & F8); [exact (O7 i Hp)|].
      exists w1, (with_ctx n (Some (not_i i ports))). split; [exact F1|].
      split; [rewrite F4; apply (put_spec w [] n rest); [exact W1|exact E|reflexivity]|]. split; [reflexivity|]. split; [reflexivity|]. split; [reflexivity|]. split; [reflexivity|]. split; [exact F2|]. split; [exact F3|]. split; [exact F5|exact F7].
    - apply mem_not in Mi. exists w, n. split; [reflexivity|]. split; [exact E|]. split; [reflexivity|]. split; [reflexivity|]. split; [reflexivity|]. split; [|split; [|auto]].
      + destruct (n_ctx n) as [ports|] eqn:Ec; [|reflexivity]. cbn. f_equal. symmetry. apply not_i_id. unfold ok_ctx in On. rewrite Ec in On. destruct On as (_ & _ & _ & _ & _ & O6 & _). intro H. apply O6 in H. tauto.
      + intro x. split; [|tauto]. intro H. split; [exact H|]. intros ->. apply W6 in H. cbn in H. destruct H as (m & ports & M1 & M2 & M3). specialize (W4 m M1). unfold ok_ctx in W4. rewrite M2 in W4. destruct W4 as (_ & _ & _ & _ & _ & O6 & _). apply O6 in M3. tauto. }
  destruct P as (w1 & n1 & P1 & P2 & P3 & P4 & P5 & P6 & P7 & P8 & P9 & P10).
  unfold destroy_instance. rewrite (proj2 (live_In _ _) (W7 i Ii)). cbn [negb]. unfold home. rewrite E. cbn [find].
  rewrite (proj2 (mem_In i (n_insts n))) by (rewrite Ei; left; reflexivity). cbn [bind]. rewrite P1. cbn [bind]. rewrite <- P3.
  assert (ND1 : NoDup (map n_rep (w_intfs w1))) by (rewrite P2; cbn [map]; rewrite P3; constructor; assumption).
  rewrite (get_spec n1 w1 ND1); [|rewrite P2; left; reflexivity|rewrite P3; apply P7; split; [apply W8, Hn|discriminate]]. cbn [bind].
  fold (not_i i (n_insts n1)). assert (En : not_i i (n_insts n1) = is).
  { rewrite P4, Ei. cbn. rewrite Nat.eqb_refl. cbn. apply not_i_id, I3. } rewrite En.
  set (n' := with_insts n1 is). set (w2 := put n' w1).
  assert (Q2 : w_intfs w2 = n' :: rest) by (apply (put_spec w1 [] n1 rest); [exact ND1|exact P2|reflexivity]).
  assert (L2 : forall x, In x (w_live w2) <-> In x (w_live w) /\ x <> OPort i) by exact P7.
  assert (Cn : n_ctx n' = option_map (not_i i) (n_ctx n)) by exact P6.
  assert (Rn : n_rep n' = n_rep n) by exact P3.
  change (n_insts n') with is. destruct is as [|i2 is].
  - (* the last instance of its interface *)
    assert (Cx : forall ports, n_ctx n = Some ports -> not_i i ports = []).
    { intros ports Ec. unfold ok_ctx in On. rewrite Ec in On. destruct On as (_ & _ & _ & _ & _ & O6 & _).
      destruct (not_i i ports) as [|x r] eqn:Q; [reflexivity|]. assert (X : In x (not_i i ports)) by (rewrite Q; left; reflexivity). apply in_not_i in X as [X1 X2]. apply O6 in X1 as [X1 _]. rewrite Ei in X1. destruct X1 as [X1|[]]. congruence. }
    assert (D : exists w3, (if n_ok n' && match n_ctx n' with None => false | Some _ => true end then ctx_destroy n' w2 else Some w2) = Some w3 /\
      w_intfs w3 = n' :: rest /\ w_conf w3 = w_conf w /\ w_ports w3 = w_ports w /\
      (n_ctx n <> None -> w_ctxs w3 = not_i (n_rep n) (w_ctxs w)) /\ (n_ctx n = None -> w_ctxs w3 = w_ctxs w) /\
      (forall x, In x (w_live w3) <-> In x (w_live w) /\ x <> OPort i /\ x <> OCtx (n_rep n))).
    { rewrite Cn. change (n_ok n') with (n_ok n1). rewrite P5. unfold ok_ctx in On. destruct (n_ctx n) as [ports|] eqn:Ec; cbn [option_map].
      - destruct On as (O1 & O2 & O3 & O4 & O5 & O6 & O7). rewrite O1. cbn [andb]. unfold ctx_destroy. rewrite Cn. cbn [option_map]. rewrite (Cx ports eq_refl).
        rewrite Rn. assert (A1 : In (OCtx (n_rep n)) (w_live w2)) by (apply L2; split; [exact O2|discriminate]).
        assert (A2 : In OGlob (w_live w2)) by (apply L2; split; [exact O4|discriminate]).
        rewrite (proj2 (live_In _ _) A1), (proj2 (live_In _ _) A2). cbn [andb negb ports_destroy bind].
        change (w_ctxs w2) with (w_ctxs w1). rewrite P10. rewrite (unlink_spec OCtx (n_rep n) (w_ctxs w) w2 W5).
        2:{ intros x Hx. apply L2. split; [|discriminate]. apply W9; [|exact Hx]. exists n. split; [exact Hn|congruence]. } 2:{ exact O3. } cbn [bind].
        destruct (free_spec (OCtx (n_rep n)) (set_ctxs w2 (not_i (n_rep n) (w_ctxs w)))) as (w3 & F1 & F2 & F3 & F4 & F5 & F6 & F7 & F8); [exact A1|].
        exists w3. split; [exact F1|]. split; [rewrite F4; exact Q2|]. split; [rewrite F3; exact P8|]. split; [rewrite F5; exact P9|].
        split; [intros _; exact F7|]. split; [congruence|]. intro x. rewrite F2. cbn [w_live set_ctxs]. rewrite L2. tauto.
      - rewrite andb_false_r. exists w2. split; [reflexivity|]. split; [exact Q2|]. split; [exact P8|]. split; [exact P9|]. split; [congruence|]. split; [intros _; exact P10|].
        intro x. rewrite L2. split; [|tauto]. intros [A B]. split; [exact A|]. split; [exact B|]. intros ->. apply W6 in A. cbn in A. destruct A as (m & M1 & M2 & M3).
        rewrite E in M1. destruct M1 as [<-|M1]; [congruence|]. apply R1. rewrite <- M2. apply in_map, M1. }
    destruct D as (w3 & D1 & D2 & D3 & D4 & D5 & D5' & D6).
    unfold destroy_interface.
    rewrite (get_spec n' w2); [|rewrite Q2; cbn [map]; rewrite Rn; constructor; assumption|rewrite Q2; left; reflexivity|rewrite Rn; apply L2; split; [apply W8, Hn|discriminate]].
    cbn [bind]. change (n_insts n') with (@nil nat). cbv iota. rewrite D1. cbn [bind]. rewrite Rn.
    set (w4 := set_intfs w3 _).
    assert (Q4 : w_intfs w4 = rest).
    { unfold w4. cbn [w_intfs set_intfs]. rewrite D2. cbn [filter]. rewrite Rn, Nat.eqb_refl. cbn [negb]. clear - R1. induction rest as [|m r IH]; [reflexivity|]. cbn.
      destruct (Nat.eqb_spec (n_rep m) (n_rep n)) as [Q|Q]; [destruct R1; left; exact Q|]. cbn. f_equal. apply IH. intro. apply R1. right. assumption. }
    destruct (free_spec (OIntf (n_rep n)) w4) as (w5 & F1 & F2 & F3 & F4 & F5 & F6 & F7 & F8). { apply D6. split; [apply W8, Hn|split; discriminate]. }
    rewrite F1. cbn [bind].
    destruct (free_spec (OInst i) w5) as (w6 & G1 & G2 & G3 & G4 & G5 & G6 & G7 & G8). { apply F2. split; [|discriminate]. apply D6. split; [apply W7, Ii|split; discriminate]. }
    rewrite G1. exists w6. split; [reflexivity|].
    assert (Lw : forall x, In x (w_live w6) <-> In x (w_live w) /\ x <> OPort i /\ x <> OCtx (n_rep n) /\ x <> OIntf (n_rep n) /\ x <> OInst i).
    { intro x. rewrite G2, F2. change (w_live w4) with (w_live w3). rewrite D6. tauto. }
    assert (Iw : w_intfs w6 = rest) by (rewrite G4, F4; exact Q4).
    assert (Pw : w_ports w6 = w_ports w) by (rewrite G5, F5; exact D4).
    assert (Cw : w_ctxs w6 = w_ctxs w3) by (rewrite G7, F7; reflexivity).
    assert (Sub : forall j, In j (w_ctxs w6) -> In j (w_ctxs w) /\ (n_ctx n <> None -> j <> n_rep n)).
    { intros j Hj. rewrite Cw in Hj. destruct (n_ctx n) eqn:Q; [rewrite D5 in Hj by congruence; apply in_not_i in Hj; tauto|]. rewrite D5' in Hj by reflexivity. split; [exact Hj|congruence]. }
    assert (Keep : forall m, In m rest -> n_rep m <> n_rep n) by (intros m Hm Q; apply R1; rewrite <- Q; apply in_map, Hm).
    split.
    { constructor.
      - rewrite Iw. exact R2.
      - rewrite Iw. exact I2.
      - rewrite Iw. intros m Hm. apply W3. rewrite E. right. exact Hm.
      - rewrite Iw. intros m Hm. assert (Hm' : In m (w_intfs w)) by (rewrite E; right; exact Hm). specialize (W4 m Hm'). unfold ok_ctx in *. rewrite Pw. destruct (n_ctx m) as [pm|]; [|exact W4].
        destruct W4 as (O1 & O2 & O3 & O4 & O5 & O6 & O7). split; [exact O1|]. specialize (Keep m Hm). split; [apply Lw; repeat split; try discriminate; [exact O2|congruence]|].
        split. { rewrite Cw. destruct (n_ctx n) eqn:Q; [rewrite D5 by congruence; apply in_not_i; split; congruence|]. rewrite D5' by reflexivity. exact O3. }
        split; [apply Lw; repeat split; try discriminate; exact O4|]. split; [exact O5|]. split; [exact O6|]. intros x Hx. apply Lw. repeat split; try discriminate; [apply O7, Hx|].
        intro Q. injection Q as ->. apply (I4 m Hm). apply O6 in Hx. tauto.
      - rewrite Cw. destruct (n_ctx n) eqn:Q; [rewrite D5 by congruence; apply NoDup_filter, W5|]. rewrite D5' by reflexivity. exact W5.
      - intros o Ho. apply Lw in Ho as (H1 & H2 & H3 & H4 & H5). apply W6 in H1. rewrite E in *. unfold owned in *. rewrite Iw. rewrite E in H1. destruct o; auto.
        + unfold all in H1. cbn [flat_map] in H1. rewrite Ei in H1. cbn in H1. destruct H1 as [H1|H1]; [congruence|exact H1].
        + destruct H1 as [H1|H1]; [congruence|exact H1].
        + destruct H1 as (m & [<-|M1] & M2 & M3); [congruence|eauto].
        + destruct H1 as (m & pm & [<-|M1] & M2 & M3); [|eauto]. exfalso. apply H2. f_equal. pose proof (Cx pm M2) as X. destruct (Nat.eq_dec i0 i) as [->|N]; [reflexivity|]. assert (Y : In i0 (not_i i pm)) by (apply in_not_i; auto). rewrite X in Y. destruct Y.
      - rewrite Iw. intros k Hk. apply Lw. repeat split; try discriminate. { apply W7. rewrite E. unfold all. cbn [flat_map]. apply in_or_app. right. exact Hk. } intro Q. injection Q as ->. apply I1. exact Hk.
      - rewrite Iw. intros m Hm. apply Lw. repeat split; try discriminate. { apply W8. rewrite E. right. exact Hm. } intro Q. injection Q as Q. exact (Keep m Hm Q).
      - rewrite Iw. intros (m & Hm & Cm) j Hj. destruct (Sub j Hj) as [S1 S2]. assert (X : In (OCtx j) (w_live w)) by (apply W9; [exists m; split; [rewrite E; right; exact Hm|exact Cm]|exact S1]).
        apply Lw. repeat split; try discriminate; [exact X|]. intro Q. injection Q as Q. destruct (n_ctx n) eqn:Qn; [apply S2; congruence|]. 
        pose proof (W6 _ X) as Y. cbn in Y. destruct Y as (m2 & M1 & M2 & M3). rewrite E in M1. destruct M1 as [<-|M1]; [congruence|]. apply (Keep m2 M1). congruence. }
    split; [rewrite Iw; reflexivity|]. split; [rewrite Lw; split; [tauto|intro H; repeat split; try discriminate; exact H]|]. split; [rewrite G3, F3; exact D3|].
    intros Ex j Hj. destruct (Sub j Hj) as [S1 S2]. destruct (Ex j S1) as (m & M1 & M2 & M3). rewrite E in M1. destruct M1 as [<-|M1]; [exfalso; apply (S2 M3); congruence|]. exists m. rewrite Iw. auto.
  - (* some remain *)
    cbn [bind]. destruct (free_spec (OInst i) w2) as (w3 & G1 & G2 & G3 & G4 & G5 & G6 & G7 & G8). { apply L2. split; [apply W7, Ii|discriminate]. }
    rewrite G1. exists w3. split; [reflexivity|].
    assert (Lw : forall x, In x (w_live w3) <-> In x (w_live w) /\ x <> OPort i /\ x <> OInst i) by (intro x; rewrite G2, L2; tauto).
    assert (Iw : w_intfs w3 = n' :: rest) by (rewrite G4; exact Q2).
    assert (Pw : w_ports w3 = w_ports w) by (rewrite G5; exact P9). assert (Cw : w_ctxs w3 = w_ctxs w) by (rewrite G7; exact P10).
    assert (Cn' : n_ctx n' <> None <-> n_ctx n <> None) by (rewrite Cn; destruct (n_ctx n); cbn; split; congruence).
    assert (In' : n_insts n' = i2 :: is) by reflexivity. assert (On' : n_ok n' = n_ok n) by exact P5. clear - W1 W2 W3 W4 W5 W6 W7 W8 W9 E Ei Hn On R1 R2 I1 I2 I3 I4 Ii Lw Iw Pw Cw Cn' In' On' Rn Cn G3 P8.
    split.
    { constructor.
      - rewrite Iw. cbn [map]. rewrite Rn. constructor; assumption.
      - rewrite Iw. unfold all. cbn [flat_map]. rewrite In'. exact I2.
      - rewrite Iw. intros m [<-|Hm]; [congruence|]. apply W3. rewrite E. right. exact Hm.
      - rewrite Iw. intros m [<-|Hm].
        + unfold ok_ctx in *. rewrite Pw, Cw, Cn, In', Rn. destruct (n_ctx n) as [ports|]; cbn [option_map].
          * destruct On as (O1 & O2 & O3 & O4 & O5 & O6 & O7). split; [rewrite On'; exact O1|]. split; [apply Lw; repeat split; try discriminate; exact O2|].
            split; [exact O3|]. split; [apply Lw; repeat split; try discriminate; exact O4|]. split; [apply NoDup_filter, O5|]. split.
            -- intro k. rewrite in_not_i, O6, Ei. split.
               ++ intros [[[A|A] B] C]; [congruence|]. split; [exact A|exact B].
               ++ intros [A B]. split; [split; [right; exact A|exact B]|]. intros ->. exact (I3 A).
            -- intros k Hk. apply in_not_i in Hk as [H1 H2]. apply Lw. repeat split; try discriminate; [apply O7, H1|congruence].
          * intros k Hk. apply On. rewrite Ei. right. exact Hk.
        + assert (Hm' : In m (w_intfs w)) by (rewrite E; right; exact Hm). specialize (W4 m Hm'). unfold ok_ctx in *. rewrite Pw, Cw. destruct (n_ctx m) as [pm|]; [|exact W4].
          destruct W4 as (O1 & O2 & O3 & O4 & O5 & O6 & O7). split; [exact O1|]. split; [apply Lw; repeat split; try discriminate; exact O2|]. split; [exact O3|].
          split; [apply Lw; repeat split; try discriminate; exact O4|]. split; [exact O5|]. split; [exact O6|]. intros x Hx. apply Lw. repeat split; try discriminate; [apply O7, Hx|].
          intro Q. injection Q as ->. apply (I4 m Hm). apply O6 in Hx. tauto.
      - rewrite Cw. exact W5.
      - intros o Ho. apply Lw in Ho as (H1 & H2 & H3). apply W6 in H1. unfold owned in *. rewrite Iw. rewrite E in H1. destruct o; auto.
        + unfold all in *. cbn [flat_map] in *. rewrite Ei in H1. rewrite In'. destruct H1 as [H1|H1]; [congruence|exact H1].
        + cbn [map] in *. rewrite Rn. exact H1.
        + destruct H1 as (m & [<-|M1] & M2 & M3); [exists n'; split; [left; reflexivity|]; split; [congruence|apply Cn', M3]|exists m; split; [right; exact M1|auto]].
        + destruct H1 as (m & pm & [<-|M1] & M2 & M3); [|exists m, pm; split; [right; exact M1|auto]].
          exists n', (not_i i pm). split; [left; reflexivity|]. split; [rewrite Cn, M2; reflexivity|]. apply in_not_i. split; [exact M3|congruence].
      - rewrite Iw. intros k Hk. assert (Hk' : In k ((i2 :: is) ++ flat_map n_insts rest)) by (unfold all in Hk; cbn [flat_map] in Hk; rewrite In' in Hk; exact Hk).
        apply Lw. repeat split; try discriminate. { apply W7. rewrite E. unfold all. cbn [flat_map]. rewrite Ei. right. exact Hk'. } intro Q. injection Q as ->. exact (I1 Hk').
      - rewrite Iw. intros m Hm. apply Lw. repeat split; try discriminate. destruct Hm as [<-|Hm]; [rewrite Rn; apply W8, Hn|apply W8; rewrite E; right; exact Hm].
      - rewrite Iw, Cw. intros (m & Hm & Cm) j Hj. apply Lw. repeat split; try discriminate. apply W9; [|exact Hj]. destruct Hm as [<-|Hm]; [exists n; split; [exact Hn|apply Cn', Cm]|exists m; split; [rewrite E; right; exact Hm|exact Cm]]. }
    split; [rewrite Iw; cbn [walk]; rewrite In'; reflexivity|]. split; [rewrite Lw; split; [tauto|intro H; repeat split; try discriminate; exact H]|].
    split; [rewrite G3; exact P8|]. intros Ex j Hj. rewrite Cw in Hj. destruct (Ex j Hj) as (m & M1 & M2 & M3). rewrite Iw. rewrite E in M1. destruct M1 as [<-|M1].
    + exists n'. split; [left; reflexivity|]. split; [congruence|apply Cn', M3].
    + exists m. split; [right; exact M1|auto].
Qed.

Lemma walk_all w : wf w -> walk (w_intfs w) = all (w_intfs w).
Proof.
  intros W. pose proof (wf_some w W) as H. induction (w_intfs w) as [|n l IH]; [reflexivity|]. cbn. destruct (n_insts n) eqn:E; [destruct (H n (or_introl eq_refl)); exact E|].
  cbn. rewrite IH; [reflexivity|]. intros m Hm. apply H. right. exact Hm.
Qed.
(** Everything goes, and nothing is used after it went. *)
Lemma destroy_spec w : wf w -> exists w', destroy_instances w = Some w' /\ w_intfs w' = [] /\ (forall o, In o (w_live w') -> o = OGlob) /\
  (In OGlob (w_live w') <-> In OGlob (w_live w)) /\ w_conf w' = w_conf w /\ (exact w -> w_ctxs w' = []) /\ wf w'.
Proof.
  unfold destroy_instances. remember (walk (w_intfs w)) as l eqn:El. revert w El. induction l as [|i l IH]; intros w El W.
  - exists w. split; [reflexivity|]. rewrite (walk_all w W) in El. assert (E : w_intfs w = []).
    { destruct (w_intfs w) as [|n r] eqn:E; [reflexivity|]. exfalso. apply (wf_some w W n); [rewrite E; left; reflexivity|]. unfold all in El. cbn in El. destruct (n_insts n); [reflexivity|discriminate]. }
    split; [exact E|]. split. { intros o Ho. apply (wf_own w W) in Ho. unfold owned in Ho. rewrite E in Ho. destruct o; [destruct Ho|destruct Ho|destruct Ho as (? & [] & _)|destruct Ho as (? & ? & [] & _)|reflexivity]. }
    split; [reflexivity|]. split; [reflexivity|]. split; [|exact W]. intro Ex. destruct (w_ctxs w) as [|j r] eqn:Ec; [reflexivity|]. destruct (Ex j) as (n & Hn & _); [rewrite Ec; left; reflexivity|]. rewrite E in Hn. destruct Hn.
  - destruct (w_intfs w) as [|n rest] eqn:E; [discriminate|]. cbn [walk] in El. destruct (n_insts n) as [|i' is] eqn:Ei; [discriminate|]. cbn [app] in El. injection El as -> El.
    destruct (step_spec w n rest i' is W E Ei) as (w1 & D & W1 & Wk & G & C & X). cbn [destroy_all]. rewrite D. cbn [bind].
    destruct (IH w1) as (w2 & A1 & A2 & A3 & A4 & A5 & A6 & A7); [congruence|exact W1|]. exists w2. split; [exact A1|]. split; [exact A2|]. split; [exact A3|].
    split; [rewrite A4; exact G|]. split; [congruence|]. split; [auto|exact A7].
Qed.
