(** Proofs for C77: histories. *)
Require Import ZArith List Bool Lia.
From Verif Require Import Base RmnSpec RmnModel RmnProof.
Import ListNotations.
Open Scope Z_scope.

Record Inv (whole recent : list op) (J : list json) (m : mon) : Prop := mkI {
  v_rx : rxinv (m_rx m) (syncs recent);
  v_xid : ids x_id (m_rx m) (c_rx m);
  v_xc : 0 <= c_rx m <= Z.of_nat (List.length (syncs whole));
  v_tx : ids t_id (m_tx m) (c_tx m);
  v_tc : c_tx m = Z.of_nat (List.length (sents whole));
  v_tr : m_tx m = number mk_tx (c_tx m - Z.of_nat (List.length (sents recent))) (sents recent);
  v_st : ids z_id (m_st m) (c_st m);
  v_sc : c_st m = Z.of_nat (List.length (statuses whole));
  v_sr : m_st m = number mk_st (c_st m - Z.of_nat (List.length (statuses recent))) (statuses recent);
  v_la : linv (m_latest m) (number mk_st 0 (statuses whole));
  v_no : ninv (m_nodes m) (reporters whole);
  v_j : all_json whole -> concat (map j_tx J) ++ m_tx m = number mk_tx 0 (sents whole) /\ concat (map j_st J) ++ m_st m = number mk_st 0 (statuses whole) /\
        map x_id (concat (map j_rx J) ++ m_rx m) = number (fun n _ => n) 0 (concat (map j_rx J) ++ m_rx m) /\ c_rx m = Z.of_nat (List.length (concat (map j_rx J) ++ m_rx m));
  v_own : (forall x, In x (m_rx m) -> In (x_port x) (map n_port (m_nodes m))) /\ (forall x, In x (m_tx m) -> In (t_port x) (map n_port (m_nodes m))) }.

Lemma fm_snoc {A B} (f : A -> list B) l a : flat_map f (l ++ [a]) = flat_map f l ++ f a.
Proof. rewrite flat_map_app. cbn. rewrite app_nil_r. reflexivity. Qed.
Lemma rx_len g b s : forall l m T c, ids x_id (m_rx m) (c_rx m) -> rx_all (Some g) b s l m = Some (set_rx m T c) -> c - c_rx m = Z.of_nat (List.length T) - Z.of_nat (List.length (m_rx m)).
Proof.
  assert (One : forall e m m', rx_one (Some g) b s e m = Some m' -> c_rx m' - c_rx m = Z.of_nat (List.length (m_rx m')) - Z.of_nat (List.length (m_rx m))).
  { intros e m m' H. assert (Rl : forall (v : rx) l i, List.length (replace i v l) = List.length l) by (induction l as [|a l IH]; intros [|i]; cbn; auto). unfold rx_one in H. destruct (position _ (m_rx m)) as [i|].
    - destruct (nth_error (m_rx m) i); [|discriminate]. cbn [bind] in H. injection H as <-. cbn. rewrite Rl. lia.
    - unfold bump in H. destruct (c_rx m =? 2147483647); [discriminate|]. cbn [bind] in H. injection H as <-. cbn. rewrite Rl, app_length. cbn. lia. }
  assert (All : forall l m m', rx_all (Some g) b s l m = Some m' -> c_rx m' - c_rx m = Z.of_nat (List.length (m_rx m')) - Z.of_nat (List.length (m_rx m))).
  { induction l as [|e l IH]; intros m m' H; cbn [rx_all] in H; [injection H as <-; lia|]. destruct (rx_one (Some g) b s e m) as [m1|] eqn:E; [|discriminate]. cbn [bind] in H. apply One in E. apply IH in H. lia. }
  intros l m T c _ H. apply All in H. exact H.
Qed.

Definition next (recent : list op) (o : op) : list op := if quiet o then recent ++ [o] else [].
Definition more (J : list json) (j : option json) : list json := match j with Some j => J ++ [j] | None => J end.
Lemma all_json_snoc l o : all_json (l ++ [o]) -> all_json l /\ match o with Flush _ j => j = true | _ => True end.
Proof. unfold all_json. rewrite Forall_app. intros [A B]. split; [exact A|]. inversion_clear B. assumption. Qed.

(** A report of Syncs, of either kind. *)
Lemma rx_op g b s l whole recent J m o : (forall w, syncs (w ++ [o]) = syncs w ++ map (fun e => (b, s, e)) l) -> (forall w, sents (w ++ [o]) = sents w) -> (forall w, statuses (w ++ [o]) = statuses w) ->
  (forall w, reporters (w ++ [o]) = reporters w ++ [s]) -> (forall w, all_json (w ++ [o]) -> all_json w) -> small (whole ++ [o]) -> Inv whole recent J m ->
  exists m', rx_all (Some g) b s l (register s m) = Some m' /\ Inv (whole ++ [o]) (recent ++ [o]) J m'.
Proof.
  intros E1 E2 E3 E4 E5 Sm V. destruct (register_spec s m (reporters whole) (v_no _ _ _ _ V)) as (N & Rn & Ni). rewrite Rn.
  assert (Bd : c_rx m + Z.of_nat (List.length l) <= 2147483647). { pose proof (v_xc _ _ _ _ V). specialize (Sm _ (or_introl eq_refl)). rewrite E1, app_length, map_length in Sm. lia. }
  destruct (rx_all_spec g b s l (set_nodes m N) (syncs recent) (v_rx _ _ _ _ V) (v_xid _ _ _ _ V) Bd) as (T & c & A1 & A2 & A3 & A4). pose proof (rx_len g b s l (set_nodes m N) T c (v_xid _ _ _ _ V) A1) as Ln. cbn [c_rx m_rx set_nodes] in Ln, A4.
  exists (set_rx (set_nodes m N) T c). split; [exact A1|]. destruct V as [V1 V2 V3 V4 V5 V6 V7 V8 V9 V10 V11 V12 V13]. constructor; cbn [m_rx m_tx m_st m_latest m_nodes c_rx c_tx c_st set_rx set_nodes]; rewrite ?E1, ?E2, ?E3, ?E4.
  - exact A2.
  - exact A3.
  - rewrite app_length, map_length. lia.
  - exact V4.
  - exact V5.
  - exact V6.
  - exact V7.
  - exact V8.
  - exact V9.
  - exact V10.
  - exact Ni.
  - intro Aj. destruct (V12 (E5 _ Aj)) as (Q1 & Q2 & Q3 & Q4). split; [exact Q1|]. split; [exact Q2|].
    rewrite app_length in Q4 |- *. split; [|lia]. rewrite map_app, number_app in Q3 |- *. assert (HJ : map x_id (concat (map j_rx J)) = number (fun n _ => n) 0 (concat (map j_rx J))).
    { assert (Q : forall (a b c d : list Z), List.length a = List.length c -> a ++ b = c ++ d -> a = c). { induction a as [|x a IH]; intros b0 [|y c0] d E F; try discriminate; [reflexivity|]. cbn in *. injection F as -> F. f_equal. eapply IH; [lia|exact F]. } eapply Q; [|exact Q3]. rewrite map_length, number_len. reflexivity. }
    rewrite HJ. f_equal. rewrite A3. f_equal. lia.
  - destruct V13 as [P1 P2]. destruct Ni as (Nd & Nf & Nc). assert (Old : forall p, In p (map n_port (m_nodes m)) -> In p (map n_port N)).
    { intros p Hp. destruct V11 as (_ & F & _). apply in_map_iff in Hp as (n & <- & Hn). destruct (F n Hn) as (x & Fx & _). apply find_some in Fx as [Hx Ex]. apply Z.eqb_eq in Ex. rewrite <- Ex. apply Nc. apply in_app_iff. left. exact Hx. }
    split; [|intros x Hx; apply Old, P2, Hx]. intros x Hx. destruct A2 as [K _]. assert (Kx : In (xkey x) (firsts (syncs recent ++ map (fun e => (b, s, e)) l))) by (rewrite <- K; apply in_map, Hx). apply (firsts_spec _) in Kx as (r & Hr & Er). apply in_app_iff in Hr as [Hr|Hr].
    + assert (Kr : In (key r) (firsts (syncs recent))) by (apply firsts_spec; eauto). destruct V1 as [K1 _]. rewrite <- K1 in Kr. apply in_map_iff in Kr as (y & Ey & Hy). apply Old. assert (x_port x = x_port y) by (rewrite Er in Ey; unfold xkey in Ey; congruence). rewrite H. apply P1, Hy.
    + apply in_map_iff in Hr as (e & <- & _). unfold key, xkey in Er. injection Er as Er _ _. rewrite <- Er. apply Nc. apply in_app_iff. right. left. reflexivity.
Qed.
Lemma number_snoc {A B} (f : Z -> A -> B) n l a : number f n (l ++ [a]) = number f n l ++ [f (n + Z.of_nat (List.length l)) a].
Proof. rewrite number_app. reflexivity. Qed.

Lemma step_inv g o whole recent J m : small (whole ++ [o]) -> Inv whole recent J m ->
  exists m' t j, step (Some g) o m = Some (m', t, j) /\ Inv (whole ++ [o]) (next recent o) (more J j) m'.
Proof.
  intros Sm V. destruct o as [s l|s l|s t l|s d gm now|t j]; cbn [step].
  - destruct (rx_op g true s l whole recent J m (Timing s l)) as (m' & A & B); auto; try (intro w; unfold syncs, sents, statuses, reporters; rewrite fm_snoc, ?app_nil_r; reflexivity); try (intros w Aj; apply all_json_snoc in Aj; apply Aj).
    rewrite A. cbn [bind]. exists m', None, None. split; [reflexivity|exact B].
  - destruct (rx_op g false s l whole recent J m (Computed s l)) as (m' & A & B); auto; try (intro w; unfold syncs, sents, statuses, reporters; rewrite fm_snoc, ?app_nil_r; reflexivity); try (intros w Aj; apply all_json_snoc in Aj; apply Aj).
    rewrite A. cbn [bind]. exists m', None, None. split; [reflexivity|exact B].
  - destruct (register_spec s m (reporters whole) (v_no _ _ _ _ V)) as (N & Rn & Ni). rewrite Rn. set (o := Sent s t l) in *.
    assert (E1 : forall w, syncs (w ++ [o]) = syncs w) by (intro w; unfold syncs; rewrite fm_snoc, app_nil_r; reflexivity).
    assert (E2 : forall w, sents (w ++ [o]) = sents w ++ map (fun e => (s, t, e)) l) by (intro w; unfold sents; rewrite fm_snoc; reflexivity).
    assert (E3 : forall w, statuses (w ++ [o]) = statuses w) by (intro w; unfold statuses; rewrite fm_snoc, app_nil_r; reflexivity).
    assert (E4 : forall w, reporters (w ++ [o]) = reporters w ++ [s]) by (intro w; unfold reporters; rewrite fm_snoc; reflexivity).
    assert (Bd : c_tx m + Z.of_nat (List.length l) <= 2147483647). { rewrite (v_tc _ _ _ _ V). specialize (Sm _ (or_intror (or_introl eq_refl))). rewrite E2, app_length, map_length in Sm. lia. }
    destruct (tx_all_spec s t l (set_nodes m N) (v_tx _ _ _ _ V) Bd) as (T & c & A1 & A2 & A3 & A4). rewrite A1. cbn [bind]. cbn [c_tx m_tx set_nodes] in A2, A4. exists (set_tx (set_nodes m N) T c), None, None. split; [reflexivity|]. cbn [next quiet o more].
    destruct V as [V1 V2 V3 V4 V5 V6 V7 V8 V9 V10 V11 V12 V13]. constructor; cbn [m_rx m_tx m_st m_latest m_nodes c_rx c_tx c_st set_tx set_nodes]; fold o; rewrite ?E1, ?E2, ?E3, ?E4.
    + exact V1.
    + exact V2.
    + exact V3.
    + exact A3.
    + rewrite app_length, map_length. lia.
    + rewrite A2, V6, number_app, app_length, map_length, A4. f_equal; f_equal; lia.
    + exact V7.
    + exact V8.
    + exact V9.
    + exact V10.
    + exact Ni.
    + intro Aj. apply all_json_snoc in Aj as [Aj _]. destruct (V12 Aj) as (Q1 & Q2 & Q3). split; [|split; [exact Q2|exact Q3]]. rewrite A2, app_assoc, Q1, number_app, V5. f_equal.
    + destruct V13 as [P1 P2]. destruct Ni as (Nd & Nf & Nc). assert (Old : forall p, In p (map n_port (m_nodes m)) -> In p (map n_port N)).
      { intros p Hp. destruct V11 as (_ & F & _). apply in_map_iff in Hp as (n & <- & Hn). destruct (F n Hn) as (x & Fx & _). apply find_some in Fx as [Hx Ex]. apply Z.eqb_eq in Ex. rewrite <- Ex. apply Nc. apply in_app_iff. left. exact Hx. }
      split; [intros x Hx; apply Old, P1, Hx|]. intros x Hx. rewrite A2 in Hx. apply in_app_iff in Hx as [Hx|Hx]; [apply Old, P2, Hx|]. assert (Px : t_port x = s_port s).
      { clear -Hx. revert Hx. generalize (c_tx m). induction l as [|e l IH]; intros n Hx; [destruct Hx|]. cbn in Hx. destruct Hx as [<-|Hx]; [reflexivity|exact (IH _ Hx)]. }
      rewrite Px. apply Nc. apply in_app_iff. right. left. reflexivity.
  - destruct (register_spec s m (reporters whole) (v_no _ _ _ _ V)) as (N & Rn & Ni). rewrite Rn. set (o := Status s d gm now) in *.
    assert (E1 : forall w, syncs (w ++ [o]) = syncs w) by (intro w; unfold syncs; rewrite fm_snoc, app_nil_r; reflexivity).
    assert (E2 : forall w, sents (w ++ [o]) = sents w) by (intro w; unfold sents; rewrite fm_snoc, app_nil_r; reflexivity).
    assert (E3 : forall w, statuses (w ++ [o]) = statuses w ++ [(s, d, gm, now)]) by (intro w; unfold statuses; rewrite fm_snoc; reflexivity).
    assert (E4 : forall w, reporters (w ++ [o]) = reporters w ++ [s]) by (intro w; unfold reporters; rewrite fm_snoc; reflexivity).
    assert (Bd : c_st m < 2147483647). { rewrite (v_sc _ _ _ _ V). specialize (Sm _ (or_intror (or_intror eq_refl))). rewrite E3, app_length in Sm. cbn in Sm. lia. }
    destruct (status_spec s d gm now (set_nodes m N) _ (v_la _ _ _ _ V) (v_st _ _ _ _ V) Bd) as (L & A1 & A2). rewrite A1. cbn [bind]. cbn [c_st m_st set_nodes] in A2 |- *. eexists. exists None, None. split; [reflexivity|]. cbn [next quiet o more].
    destruct V as [V1 V2 V3 V4 V5 V6 V7 V8 V9 V10 V11 V12 V13]. constructor; cbn [m_rx m_tx m_st m_latest m_nodes c_rx c_tx c_st set_st set_nodes]; fold o; rewrite ?E1, ?E2, ?E3, ?E4.
    + exact V1.
    + exact V2.
    + exact V3.
    + exact V4.
    + exact V5.
    + exact V6.
    + apply ids_snoc; [exact V7|reflexivity].
    + rewrite app_length. cbn [List.length]. lia.
    + rewrite app_length. cbn [List.length]. replace (c_st m + 1 - Z.of_nat (List.length (statuses recent) + 1)) with (c_st m - Z.of_nat (List.length (statuses recent))) by lia. rewrite number_snoc. rewrite V9 at 1. f_equal. do 2 f_equal. lia.
    + rewrite number_snoc. rewrite <- V8. exact A2.
    + exact Ni.
    + intro Aj. apply all_json_snoc in Aj as [Aj _]. destruct (V12 Aj) as (Q1 & Q2 & Q3). split; [exact Q1|]. split; [|exact Q3]. rewrite app_assoc, Q2, number_snoc, V8. reflexivity.
    + destruct V13 as [P1 P2]. destruct Ni as (Nd & Nf & Nc). assert (Old : forall p, In p (map n_port (m_nodes m)) -> In p (map n_port N)).
      { intros p Hp. destruct V11 as (_ & F & _). apply in_map_iff in Hp as (n & <- & Hn). destruct (F n Hn) as (x & Fx & _). apply find_some in Fx as [Hx Ex]. apply Z.eqb_eq in Ex. rewrite <- Ex. apply Nc. apply in_app_iff. left. exact Hx. }
      split; [intros x Hx; apply Old, P1, Hx|intros x Hx; apply Old, P2, Hx].
  - set (o := Flush t j) in *. eexists. eexists. eexists. split; [reflexivity|]. cbn [next quiet o].
    assert (E1 : syncs (whole ++ [o]) = syncs whole) by (unfold syncs; rewrite fm_snoc, app_nil_r; reflexivity).
    assert (E2 : sents (whole ++ [o]) = sents whole) by (unfold sents; rewrite fm_snoc, app_nil_r; reflexivity).
    assert (E3 : statuses (whole ++ [o]) = statuses whole) by (unfold statuses; rewrite fm_snoc, app_nil_r; reflexivity).
    assert (E4 : reporters (whole ++ [o]) = reporters whole) by (unfold reporters; rewrite fm_snoc, app_nil_r; reflexivity).
    destruct V as [V1 V2 V3 V4 V5 V6 V7 V8 V9 V10 V11 V12 V13]. constructor; cbn [m_rx m_tx m_st m_latest m_nodes c_rx c_tx c_st]; fold o; rewrite ?E1, ?E2, ?E3, ?E4.
    + split; [reflexivity|constructor].
    + apply ids_nil.
    + exact V3.
    + apply ids_nil.
    + exact V5.
    + reflexivity.
    + apply ids_nil.
    + exact V8.
    + reflexivity.
    + exact V10.
    + exact V11.
    + intro Aj. apply all_json_snoc in Aj as [Aj Ej]. cbn in Ej. subst j. destruct (V12 Aj) as (Q1 & Q2 & Q3 & Q4). cbn [more]. rewrite !map_app, !concat_app. cbn [map concat output_json j_tx j_st j_rx]. rewrite (sort_ids _ _ _ V2), (sort_ids _ _ _ V4), (sort_ids _ _ _ V7), !app_nil_r. auto.
    + split; intros x [].
Qed.
Lemma empty_inv : Inv [] [] [] empty.
Proof.
  constructor; cbn.
  - split; [reflexivity|constructor].
  - apply ids_nil.
  - lia.
  - apply ids_nil.
  - reflexivity.
  - reflexivity.
  - apply ids_nil.
  - reflexivity.
  - reflexivity.
  - split; [constructor|]. split; [intros z []|intros y []].
  - split; [constructor|]. split; [intros z []|intros y []].
  - auto.
  - split; intros x [].
Qed.
Lemma small_app l r : small (l ++ r) -> small l.
Proof.
  intros H n Hn. unfold syncs, sents, statuses in *. destruct Hn as [->|[->| ->]]; [specialize (H _ (or_introl eq_refl))|specialize (H _ (or_intror (or_introl eq_refl)))|specialize (H _ (or_intror (or_intror eq_refl)))]; unfold syncs, sents, statuses in H; rewrite flat_map_app, app_length in H; lia.
Qed.
Lemma run_inv g : forall l whole recent J m, small (whole ++ l) -> Inv whole recent J m ->
  exists m' js, run (Some g) l m = Some (m', js) /\ Inv (whole ++ l) (fold_left (fun r o => if quiet o then r ++ [o] else []) l recent) (J ++ js) m'.
Proof.
  induction l as [|o l IH]; intros whole recent J m Sm V; cbn [run fold_left].
  - exists m, []. rewrite !app_nil_r. split; [reflexivity|exact V].
  - replace (whole ++ o :: l) with ((whole ++ [o]) ++ l) in * by (rewrite <- app_assoc; reflexivity). destruct (step_inv g o whole recent J m (small_app _ _ Sm) V) as (m1 & t & j & A & B). rewrite A. cbn [bind]. destruct (IH _ _ _ _ Sm B) as (m2 & js & C & D). rewrite C. cbn [bind fst snd].
    eexists. eexists. split; [reflexivity|]. destruct j as [j|]; cbn [more] in D; [rewrite <- (app_assoc J [j] js) in D|]; exact D.
Qed.
