(** Proofs about the hash table. *)
Require Import ZArith Lia List Bool Arith Permutation.
Require Import ZifyBool.
Require Import Verif.Base Verif.ListLib Verif.HtSpec Verif.HtModel.
Import ListNotations.
Open Scope Z_scope.

Section P.
Context {U : Type} (key : U -> hkey).
Notation ht := (ht U).

Definition all (t : ht) : list U := concat (h_buckets t).

Definition inv (t : ht) : Prop :=
  (0 < h_size t)%nat /\ length (h_buckets t) = h_size t /\
  (forall i c u, nth_error (h_buckets t) i = Some c -> In u c -> hash (h_size t) (key u) = Some i) /\
  NoDup (map key (all t)) /\
  h_num t = Z.of_nat (length (all t)) /\ h_num t <= h_max t < 2^16 /\ h_locked t = false.

Lemma concat_split : forall (bs : list (list U)) i c, nth_error bs i = Some c ->
  concat bs = concat (firstn i bs) ++ c ++ concat (skipn (S i) bs).
Proof.
  induction bs as [|b bs IH]; intros [|i] c H; cbn in *; try discriminate.
  - congruence.
  - rewrite (IH _ _ H). rewrite <- app_assoc. reflexivity.
Qed.

Lemma concat_set_nth : forall (bs : list (list U)) i c c', nth_error bs i = Some c ->
  concat (set_nth i c' bs) = concat (firstn i bs) ++ c' ++ concat (skipn (S i) bs).
Proof.
  induction bs as [|b bs IH]; intros [|i] c c' H; cbn in *; try discriminate.
  - reflexivity.
  - rewrite (IH _ _ _ H). rewrite <- app_assoc. reflexivity.
Qed.

Lemma hash_lt : forall size k i, hash size k = Some i -> (i < size)%nat.
Proof.
  unfold hash. intros size k i. destruct (size =? 0)%nat eqn:E; [discriminate|].
  intros H. injection H as <-. apply Nat.eqb_neq in E.
  pose proof (Z.mod_pos_bound (hash_bytes k) (Z.of_nat size)). lia.
Qed.

Lemma hash_some : forall size k, (0 < size)%nat -> exists i, hash size k = Some i.
Proof.
  unfold hash. intros size k H. destruct (size =? 0)%nat eqn:E; [apply Nat.eqb_eq in E; lia|eauto].
Qed.

Lemma chain_find_spec : forall k l pos r, chain_find key k l pos = r ->
  match r with
  | Some p => exists a u b, l = a ++ u :: b /\ key u = k /\ p = (pos + length a)%nat
  | None => ~ In k (map key l)
  end.
Proof.
  induction l as [|u l IH]; intros pos r H; cbn in H.
  - subst. auto.
  - destruct (hkey_dec (key u) k) as [E|E].
    + subst. exists [], u, l. cbn. split; [reflexivity|]. split; [reflexivity|]. lia.
    + specialize (IH (S pos) r H). destruct r as [p|].
      * destruct IH as [a [v [b [-> [Hk ->]]]]]. exists (u :: a), v, b. cbn.
        split; [reflexivity|]. split; [assumption|]. lia.
      * cbn. intros [A|A]; auto.
Qed.

Lemma in_all : forall (t : ht) u, In u (all t) <-> exists i c, nth_error (h_buckets t) i = Some c /\ In u c.
Proof.
  intros t u. unfold all. rewrite in_concat. split.
  - intros [c [Hc Hu]]. apply In_nth_error in Hc as [i Hi]. eauto.
  - intros [i [c [Hi Hu]]]. exists c. split; [eapply nth_error_In; eassumption|assumption].
Qed.

(** Finding in the bucket is finding in the table. *)
Lemma bucket_key : forall t i c k, inv t -> hash (h_size t) k = Some i ->
  nth_error (h_buckets t) i = Some c -> (In k (map key (all t)) <-> In k (map key c)).
Proof.
  intros t i c k [_ [_ [Hb _]]] Hh Hc. rewrite !in_map_iff. split; intros [u [Hk Hu]].
  - apply in_all in Hu as [j [c' [Hj Hu]]]. pose proof (Hb _ _ _ Hj Hu) as E. subst k.
    rewrite Hh in E. injection E as <-. rewrite Hc in Hj. injection Hj as <-. eauto.
  - exists u. split; [assumption|]. apply in_all. eauto.
Qed.

Definition models (t : ht) (m : fmap (U:=U)) : Prop := inv t /\ enumerates key (all t) m.

Lemma enum_in : forall l m k, enumerates key l m -> (In k (map key l) <-> m k <> None).
Proof.
  intros l m k [_ E]. rewrite in_map_iff. split.
  - intros [u [Hk Hu]] Hn. assert (m k = Some u) by (apply E; auto). congruence.
  - intros Hn. destruct (m k) as [u|] eqn:Em; [|congruence]. apply E in Em as [A B]. eauto.
Qed.

Lemma NoDup_map_in : forall l u v, NoDup (map key l) -> In u l -> In v l -> key u = key v -> u = v.
Proof.
  induction l as [|w l IH]; intros u v Hn Hu Hv E; [contradiction|].
  cbn in Hn. inversion Hn as [|? ? Hx Hn']; subst.
  destruct Hu as [->|Hu], Hv as [->|Hv]; auto.
  - exfalso. apply Hx. rewrite E. apply in_map. assumption.
  - exfalso. apply Hx. rewrite <- E. apply in_map. assumption.
Qed.

(** *** add *)
Lemma add_spec : forall t m u update mem, models t m ->
  exists t' rc, ht_add key t u update mem = Some (t', rc) /\
    allowed key (h_max t) m (Add u update mem) (RC rc) /\
    models t' (after key m (Add u update mem) (RC rc)) /\ h_max t' = h_max t.
Proof.
  intros t m u update mem [I E]. pose proof I as [Hs [Hl [Hb [Hn [Hc [Hm Hlk]]]]]].
  unfold ht_add. rewrite Hlk.
  destruct (hash_some (h_size t) (key u) Hs) as [b Hh]. rewrite Hh. cbn [bind].
  pose proof (hash_lt _ _ _ Hh) as Hlt. rewrite <- Hl in Hlt.
  destruct (nth_error (h_buckets t) b) as [chain|] eqn:Hchain; [|apply nth_error_None in Hchain; lia].
  cbn [bind].
  pose proof (chain_find_spec (key u) chain 0 _ eq_refl) as F.
  assert (AL : forall r, match m (key u) with
      | Some _ => r = (if update then rc_ok else EEXIST)
      | None => r = (if h_num t =? h_max t then ENOSPC else if mem then rc_ok else ENOMEM)
      end -> allowed key (h_max t) m (Add u update mem) (RC r)).
  { intros r Hr. exists (all t). split; [assumption|]. split; [lia|].
    destruct (m (key u)); [assumption|]. rewrite <- Hc. assumption. }
  destruct (chain_find key (key u) chain 0) as [pos|].
  - (* present *)
    destruct F as [x [v [y [Ech [Hkv Hpos]]]]]. cbn in Hpos. subst pos.
    assert (Hin : In v (all t)).
    { apply in_all. exists b, chain. split; [assumption|]. subst chain. apply in_elt. }
    assert (Hsome : m (key u) = Some v) by (apply E; auto).
    destruct update.
    + eexists _, _. split; [reflexivity|]. split; [apply AL; rewrite Hsome; reflexivity|].
      split; [|reflexivity].
      assert (Eall : all t = concat (firstn b (h_buckets t)) ++ (x ++ v :: y) ++ concat (skipn (S b) (h_buckets t))).
      { unfold all. rewrite (concat_split _ _ _ Hchain). subst chain. reflexivity. }
      set (t' := mkHt _ _ _ _ _).
      assert (Eset : set_nth (length x) u chain = x ++ u :: y).
      { subst chain. rewrite set_nth_split by (rewrite app_length; cbn; lia).
        rewrite firstn_app, Nat.sub_diag, firstn_all, app_nil_r.
        rewrite skipn_app, skipn_all2 by lia.
        replace (S (length x) - length x)%nat with 1%nat by lia. reflexivity. }
      assert (Eall' : all t' = concat (firstn b (h_buckets t)) ++ (x ++ u :: y) ++ concat (skipn (S b) (h_buckets t))).
      { unfold all, t'. cbn [h_buckets]. rewrite (concat_set_nth _ _ _ _ Hchain), Eset. reflexivity. }
      assert (Ekeys : map key (all t') = map key (all t)).
      { rewrite Eall, Eall', !map_app. cbn [map]. rewrite Hkv. reflexivity. }
      assert (Hn' : NoDup (map key (all t'))) by (rewrite Ekeys; assumption).
      split.
      * split; [assumption|]. split; [cbn; rewrite set_nth_length; assumption|].
        split; [|split; [assumption|split; [|split; [assumption|reflexivity]]]].
        -- intros i c w Hi Hw. cbn [h_buckets h_size t'] in *.
           destruct (Nat.eq_dec b i) as [<-|Hbi].
           ++ rewrite nth_error_set_nth_same in Hi by assumption. injection Hi as <-.
              rewrite Eset in Hw. apply in_app_or in Hw as [Hw|[->|Hw]].
              ** apply (Hb b chain w Hchain). subst chain. apply in_or_app; auto.
              ** assumption.
              ** apply (Hb b chain w Hchain). subst chain. apply in_or_app; cbn; auto.
           ++ rewrite nth_error_set_nth_other in Hi by assumption. eapply Hb; eassumption.
        -- cbn [h_num t']. rewrite Hc. f_equal.
           rewrite <- (map_length key), <- Ekeys, map_length. reflexivity.
      * split; [assumption|]. intros k w. cbn [after]. rewrite Z.eqb_refl.
        assert (Hother : forall w, key w <> key u -> (In w (all t') <-> In w (all t))).
        { intros z Hz. rewrite Eall, Eall', !in_app_iff. cbn [In].
          assert (u <> z) by congruence. assert (v <> z) by congruence. tauto. }
        assert (Hin' : In u (all t')) by (rewrite Eall', !in_app_iff; cbn; tauto).
        destruct (hkey_dec k (key u)) as [->|Hk].
        -- split.
           ++ intros T. injection T as <-. auto.
           ++ intros [Hw Hkw]. f_equal. apply (NoDup_map_in (all t')); auto.
        -- destruct E as [_ E]. rewrite E. split; intros [A B]; (split; [|assumption]); apply Hother; auto; congruence.
    + eexists _, _. split; [reflexivity|]. split; [apply AL; rewrite Hsome; reflexivity|].
      split; [split; assumption|reflexivity].
  - (* absent *)
    assert (Hnone : m (key u) = None).
    { destruct (m (key u)) eqn:Em; [|reflexivity]. exfalso. apply F.
      rewrite <- (bucket_key t b chain (key u) I Hh Hchain). apply (enum_in _ m _ E). congruence. }
    assert (Hfresh : ~ In (key u) (map key (all t))) by (rewrite (enum_in _ m _ E), Hnone; auto).
    destruct (h_num t =? h_max t) eqn:Efull.
    { eexists _, _. split; [reflexivity|]. split; [apply AL; rewrite Hnone; reflexivity|].
      split; [split; assumption|reflexivity]. }
    destruct mem.
    2:{ eexists _, _. split; [reflexivity|]. split; [apply AL; rewrite Hnone; reflexivity|].
        split; [split; assumption|reflexivity]. }
    eexists _, _. split; [reflexivity|]. split; [apply AL; rewrite Hnone; reflexivity|].
    split; [|reflexivity]. apply Z.eqb_neq in Efull.
    set (t' := mkHt _ _ _ _ _).
    assert (Eall : all t = concat (firstn b (h_buckets t)) ++ chain ++ concat (skipn (S b) (h_buckets t))).
    { unfold all. rewrite (concat_split _ _ _ Hchain). reflexivity. }
    assert (Pall : Permutation (u :: all t) (all t')).
    { unfold t', all at 2. cbn [h_buckets]. rewrite (concat_set_nth _ _ _ _ Hchain), Eall.
      apply Permutation_middle. }
    assert (Hn' : NoDup (map key (all t'))).
    { eapply Permutation_NoDup; [apply Permutation_map; exact Pall|]. cbn. constructor; assumption. }
    split.
    + split; [assumption|]. split; [cbn; rewrite set_nth_length; assumption|].
      split; [|split; [assumption|split; [|split; [|reflexivity]]]].
      * intros i c w Hi Hw. cbn [h_buckets h_size t'] in *.
        destruct (Nat.eq_dec b i) as [<-|Hbi].
        -- rewrite nth_error_set_nth_same in Hi by assumption. injection Hi as <-.
           destruct Hw as [->|Hw]; [assumption|]. eapply Hb; eassumption.
        -- rewrite nth_error_set_nth_other in Hi by assumption. eapply Hb; eassumption.
      * cbn [h_num t']. rewrite <- (Permutation_length Pall). cbn [length]. unfold u32. rewrite Z.mod_small; lia.
      * cbn [h_num h_max t']. unfold u32. rewrite Z.mod_small; lia.
    + split; [assumption|]. intros k w. cbn [after]. rewrite Z.eqb_refl.
      assert (Hiff : In w (all t') <-> w = u \/ In w (all t)).
      { split; intros Hw.
        - apply (Permutation_in _ (Permutation_sym Pall)) in Hw. cbn in Hw. intuition.
        - apply (Permutation_in _ Pall). cbn. intuition. }
      rewrite Hiff. destruct E as [_ E].
      destruct (hkey_dec k (key u)) as [->|Hk].
      * split.
        -- intros T. injection T as <-. auto.
        -- intros [[->|Hw] Hkw]; [reflexivity|]. exfalso. apply Hfresh. rewrite <- Hkw. apply in_map. assumption.
      * rewrite E. split.
        -- intros [A B]. auto.
        -- intros [[->|A] B]; [congruence|auto].
Qed.

(** *** iteration *)
Lemma scan_spec : forall (bs : list (list U)) i r, scan bs i = r ->
  match r with
  | None => concat bs = []
  | Some (j, c) => (i <= j)%nat /\ nth_error bs (j - i) = Some c /\ c <> [] /\
                   concat bs = c ++ concat (skipn (S (j - i)) bs)
  end.
Proof.
  induction bs as [|b bs IH]; intros i r H; cbn in H.
  - subst. reflexivity.
  - destruct b as [|u b].
    + specialize (IH (S i) r H). destruct r as [[j c]|]; [|exact IH].
      destruct IH as [A [B [C D]]]. split; [lia|].
      replace (j - i)%nat with (S (j - S i)) by lia. cbn. auto.
    + subst. split; [lia|]. rewrite Nat.sub_diag. cbn. split; [reflexivity|]. split; [discriminate|reflexivity].
Qed.

Definition remaining (t : ht) (it : iter) : list U :=
  tl (it_entry it) ++ concat (skipn (S (it_index it)) (h_buckets t)).

Lemma skipn_skipn' : forall A (l : list A) a b, skipn a (skipn b l) = skipn (b + a) l.
Proof.
  intros A l a b. revert l. induction b as [|b IH]; intros l; cbn; [reflexivity|].
  destruct l as [|x l]; [destruct a; reflexivity|]. apply IH.
Qed.

Lemma rest_spec : forall fuel t it, it_entry it <> [] -> (length (remaining t it) < fuel)%nat ->
  ht_rest fuel t it = Some (set_lock t false, remaining t it).
Proof.
  induction fuel as [|f IH]; intros t it Hne Hf; [lia|].
  cbn [ht_rest]. unfold ht_next. unfold remaining in Hf |- *.
  destruct (it_entry it) as [|u0 [|u c]] eqn:Ee; [congruence| |].
  - pose proof (scan_spec (skipn (S (it_index it)) (h_buckets t)) (S (it_index it)) _ eq_refl) as S0.
    destruct (scan _ _) as [[j [|u c]]|] eqn:Esc.
    + destruct S0 as [_ [_ [X _]]]. congruence.
    + destruct S0 as [Hj [Hn [_ Hcat]]].
      set (it' := mkIter j (u :: c)).
      assert (R : remaining t it' = c ++ concat (skipn (S j) (h_buckets t))) by reflexivity.
      assert (Hcat' : concat (skipn (S (it_index it)) (h_buckets t)) = (u :: c) ++ concat (skipn (S j) (h_buckets t))).
      { rewrite Hcat. rewrite skipn_skipn'. do 3 f_equal. lia. }
      rewrite (IH t it').
      * rewrite R. cbn [bind fst snd tl app]. rewrite Hcat'. reflexivity.
      * discriminate.
      * rewrite R. cbn [tl app] in Hf. rewrite Hcat' in Hf. cbn [app length] in Hf. lia.
    + cbn [tl app]. rewrite S0. reflexivity.
  - set (it' := mkIter (it_index it) (u :: c)).
    assert (R : remaining t it' = c ++ concat (skipn (S (it_index it)) (h_buckets t))) by reflexivity.
    rewrite (IH t it').
    + reflexivity.
    + discriminate.
    + cbn in Hf |- *. lia.
Qed.

Lemma iterate_spec : forall fuel t, h_locked t = false -> (length (all t) <= fuel)%nat ->
  ht_iterate fuel t = Some (t, all t).
Proof.
  intros fuel t Hl Hf. unfold ht_iterate, ht_first. rewrite Hl.
  pose proof (scan_spec (h_buckets t) 0 _ eq_refl) as S0.
  destruct (scan (h_buckets t) 0) as [[j [|u c]]|] eqn:Esc.
  - destruct S0 as [_ [_ [X _]]]. congruence.
  - destruct S0 as [_ [_ [_ Hcat]]]. rewrite Nat.sub_0_r in Hcat. cbn [bind].
    assert (R : remaining (set_lock t true) (mkIter j (u :: c)) = c ++ concat (skipn (S j) (h_buckets t))) by reflexivity.
    unfold all in Hf. rewrite Hcat in Hf. cbn [app length] in Hf.
    rewrite rest_spec; [|discriminate|rewrite R; lia].
    cbn [bind fst snd]. rewrite R. unfold all. rewrite Hcat. destruct t; cbn in *; subst. reflexivity.
  - cbn [bind]. unfold all. rewrite S0. reflexivity.
Qed.

Lemma step_spec : forall t m op, models t m ->
  exists t' r, ht_step key t op = Some (t', r) /\ allowed key (h_max t) m op r /\
    models t' (after key m op r) /\ h_max t' = h_max t.
Proof.
  intros t m op M. pose proof M as [I E]. pose proof I as [Hs [Hl [Hb [Hn [Hc [Hm Hlk]]]]]].
  destruct op as [u update mem| | |]; cbn [ht_step].
  - destruct (add_spec t m u update mem M) as [t' [rc [-> [A [B C]]]]]. exists t', (RC rc). split; [reflexivity|]. auto.
  - unfold ht_clear. rewrite Hlk. cbn [bind]. eexists _, _. split; [reflexivity|].
    split; [exists (all t); split; [assumption|split; [lia|exact Logic.I]]|].
    split; [|reflexivity].
    assert (A0 : all (mkHt (h_size t) (h_max t) 0 false (map (fun _ => []) (h_buckets t))) = []).
    { unfold all. cbn. clear. induction (h_buckets t) as [|x l IH]; cbn; auto. }
    split.
    + split; [assumption|]. split; [cbn; rewrite map_length; assumption|].
      split; [|split; [rewrite A0; constructor|split; [rewrite A0; reflexivity|split; [cbn; lia|reflexivity]]]].
      intros i c u Hi Hu. cbn in Hi. rewrite nth_error_map in Hi.
      destruct (nth_error (h_buckets t) i); cbn in Hi; [|discriminate]. injection Hi as <-. destruct Hu.
    + rewrite A0. split; [constructor|]. intros k u. cbn. split; [discriminate|]. intros [[] _].
  - rewrite iterate_spec; [|assumption|]. 2:{ lia. }
    cbn [bind fst snd]. eexists _, _. split; [reflexivity|].
    split; [exists (all t); split; [assumption|split; [lia|assumption]]|].
    split; [assumption|reflexivity].
  - eexists _, _. split; [reflexivity|]. split; [exists (all t); split; [assumption|split; [lia|assumption]]|].
    split; [assumption|reflexivity].
Qed.

Lemma models_init : forall size max, (0 < size)%nat -> 0 <= max < 2^16 -> models (ht_alloc size max) empty.
Proof.
  intros size max Hs Hm.
  assert (A0 : all (ht_alloc size max) = []).
  { unfold all, ht_alloc. cbn. induction size as [|n IH]; cbn; auto. destruct n; [reflexivity|]. apply IH. lia. }
  split.
  - split; [assumption|]. split; [apply repeat_length|].
    split; [|split; [rewrite A0; constructor|split; [rewrite A0; reflexivity|split; [cbn; lia|reflexivity]]]].
    intros i c u Hi Hu. cbn in Hi. apply nth_error_In, repeat_spec in Hi. subst. destruct Hu.
  - rewrite A0. split; [constructor|]. intros k u. split; [discriminate|]. intros [[] _].
Qed.

Lemma run_spec : forall ops t m, models t m ->
  exists t' rs, ht_run key t ops = Some (t', rs) /\ length rs = length ops /\
    conforms key (h_max t) m (combine ops rs).
Proof.
  induction ops as [|op ops IH]; intros t m M.
  - exists t, []. split; [reflexivity|]. split; [reflexivity|exact I].
  - destruct (step_spec t m op M) as [t1 [r [E [A [M1 Em]]]]].
    destruct (IH t1 _ M1) as [t2 [rs [E2 [L C]]]].
    exists t2, (r :: rs). cbn [ht_run]. rewrite E. cbn [bind fst snd]. rewrite E2. cbn [bind fst snd].
    split; [reflexivity|]. split; [cbn; lia|]. cbn [combine conforms]. split; [assumption|].
    rewrite <- Em. assumption.
Qed.
End P.
