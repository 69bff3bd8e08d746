(** Proofs about starting the instances of the freerun module, and about its messages. *)
Require Import ZArith QArith List Bool Lia Arith.
Require Import Verif.Base Verif.TimeSpec Verif.TimeModel Verif.ListLib Verif.FrnSpec Verif.FrnModel Verif.FrnProof.
Import ListNotations.
Open Scope Z_scope.

Lemma same_name_eq : forall a b, short a -> short b -> same_name a b = true <-> a = b.
Proof.
  unfold short, same_name. intros a b A B. rewrite !firstn_all2 by lia. destruct (list_eq_dec Z.eq_dec a b); split; congruence.
Qed.
Lemma by_name_named : forall t n l, (forall x, In x t -> short (l_name x)) -> short n -> by_name t n = Some l -> named t n l.
Proof.
  intros t n l ST SN H. pose proof (fold_last link (fun x => same_name (l_name x) n) t None) as F. cbv beta in F. unfold by_name in H. rewrite H in F.
  destruct F as [(x & y & E & P & N)|(E & _)]; [|discriminate].
  assert (I : forall z, In z y -> In z t) by (intros z J; rewrite E; apply in_or_app; right; right; exact J).
  assert (J : In l t) by (rewrite E; apply in_elt).
  split; [apply same_name_eq; [apply ST, J|exact SN|exact P]|]. exists x, y. split; [exact E|].
  intros z K C. specialize (N z K). apply (same_name_eq (l_name z) n) in C; [congruence|apply ST, I, K|exact SN].
Qed.
Lemma named_by_name : forall t n l, (forall x, In x t -> short (l_name x)) -> short n -> named t n l -> by_name t n = Some l.
Proof.
  intros t n l ST SN (I & a & b & E & N). unfold by_name. subst t. rewrite fold_left_app. cbn [fold_left].
  rewrite (proj2 (same_name_eq (l_name l) n (ST l (in_elt _ _ _)) SN) I).
  assert (SB : forall x, In x b -> short (l_name x)) by (intros x J; apply ST, in_or_app; right; right; exact J). clear I ST.
  induction b as [|z b IH]; [reflexivity|]. cbn [fold_left]. destruct (same_name (l_name z) n) eqn:S.
  - apply same_name_eq in S; [|apply SB; left; reflexivity|exact SN]. exfalso. apply (N z); [left; reflexivity|exact S].
  - apply IH; intros x J; [apply N|apply SB]; right; exact J.
Qed.
Lemma by_name_none : forall t n, (forall x, In x t -> short (l_name x)) -> short n -> by_name t n = None -> forall l, In l t -> l_name l <> n.
Proof.
  intros t n ST SN H l I C. pose proof (fold_last link (fun x => same_name (l_name x) n) t None) as F. cbv beta in F. unfold by_name in H. rewrite H in F.
  destruct F as (_ & F). specialize (F l I). apply (same_name_eq (l_name l) n (ST l I) SN) in C. congruence.
Qed.

Lemma nodup_snoc : forall A (l : list A) x, NoDup l -> ~ In x l -> NoDup (l ++ [x]).
Proof. intros A l x N I. apply NoDup_rev in N. rewrite <- (rev_involutive (l ++ [x])). apply NoDup_rev. rewrite rev_app_distr. cbn. constructor; [rewrite <- in_rev; exact I|exact N]. Qed.

Section World.
Variable iface : Z -> option (option clk).
Variable specs : clk -> spec.
Variable t : list link.
Hypothesis ST : forall x, In x t -> short (l_name x).
Variable set : clk -> Z.

Lemma wanted_sound : forall n c w, short (c_name c) -> wanted iface specs n t c = Some w ->
  match w with
  | inr k => asks iface specs t c k
  | inl e => (e = 22 /\ c_name c = []) \/ (e = 19 /\ asks_none iface t c)
  end.
Proof.
  intros n c w SN H. unfold wanted in H. destruct (list_eq_dec Z.eq_dec (c_name c) sys_name) as [E|NS]; [injection H as <-; left; split; [exact E|reflexivity]|].
  destruct (c_name c) as [|z r] eqn:C; [injection H as <-; left; split; reflexivity|]. rewrite <- C in *. assert (NE : c_name c <> []) by (rewrite C; discriminate).
  destruct (by_name t (c_name c)) as [l|] eqn:B.
  - apply by_name_named in B; [|exact ST|exact SN]. destruct (find iface specs n t l) as [f|] eqn:F; [|discriminate]. cbn [bind] in H. injection H as <-.
    destruct (find_sound _ _ _ _ _ _ F) as (L & N & FB). destruct f as [(x, k)|].
    + right. split; [exact NS|]. split; [exact NE|]. exists l, L, x. split; [exact B|]. split; assumption.
    + right. split; [reflexivity|]. split; [exact NS|]. split; [exact NE|]. right. exists l. cbn in FB. subst L. split; assumption.
  - injection H as <-. right. split; [reflexivity|]. split; [exact NS|]. split; [exact NE|]. left. apply by_name_none; assumption.
Qed.
Lemma wanted_mono : forall n m c w, wanted iface specs n t c = Some w -> (n <= m)%nat -> wanted iface specs m t c = Some w.
Proof.
  intros n m c w H L. unfold wanted in *. destruct (list_eq_dec Z.eq_dec (c_name c) sys_name); [exact H|]. destruct (c_name c) as [|z r]; [exact H|].
  destruct (by_name t _) as [l|]; [|exact H]. destruct (find iface specs n t l) as [f|] eqn:F; [|discriminate]. rewrite (find_mono _ _ n m t l f F L). exact H.
Qed.
Lemma wanted_complete : forall c k, short (c_name c) -> asks iface specs t c k -> exists n, wanted iface specs n t c = Some (inr k).
Proof.
  intros c k SN [(E & ->)|(NS & NE & l & L & x & B & N & F)].
  - exists 0%nat. unfold wanted. destruct (list_eq_dec Z.eq_dec (c_name c) sys_name); [reflexivity|contradiction].
  - destruct (proj2 (find_spec iface specs t l (Some (x, k)))) as (n & H); [exists L; split; assumption|]. exists n. unfold wanted.
    destruct (list_eq_dec Z.eq_dec (c_name c) sys_name); [contradiction|]. rewrite (named_by_name t (c_name c) l ST SN B), H. destruct (c_name c); [contradiction|reflexivity].
Qed.

(** An instance that has started. *)
Definition good (c : conf) (i : inst) : Prop :=
  i_conf i = c /\ i_flags i = 2 /\ exists k, i_clock i = Some k /\ asks iface specs t c k /\ (k = SYSTEM \/ set k = 0).
Definition fails (l : list inst) (c : conf) (rc : Z) : Prop :=
  rc = 22 /\ c_name c = [] \/ rc = 19 /\ asks_none iface t c \/
  (exists k, asks iface specs t c k /\ (rc = 16 /\ (exists i, In i l /\ i_clock i = Some k) \/ k <> SYSTEM /\ rc = set k /\ forall i, In i l -> i_clock i <> Some k)).
Lemma uses_create : forall k cs, existsb (uses k) (create cs) = false.
Proof. induction cs as [|c cs IH]; [reflexivity|exact IH]. Qed.
Lemma uses_in : forall k l, existsb (uses k) l = true <-> exists i, In i l /\ i_clock i = Some k.
Proof.
  intros k l. rewrite existsb_exists. split; intros (i & I & U); exists i; (split; [exact I|]); unfold uses in *.
  - destruct (i_clock i); [|discriminate]. apply Nat.eqb_eq in U. congruence.
  - rewrite U. apply Nat.eqb_refl.
Qed.
Lemma start_sound : forall n cs done is rc, (forall c, In c cs -> short (c_name c)) -> start iface specs set n t done (create cs) = Some (is, rc) ->
  (rc = 0 -> exists new, is = done ++ new /\ Forall2 good cs new /\ (NoDup (map i_clock done) -> NoDup (map i_clock is))) /\
  (rc <> 0 -> exists pre c post new, cs = pre ++ c :: post /\ Forall2 good pre new /\ fails (done ++ new) c rc).
Proof.
  intros n. induction cs as [|c cs IH]; intros done is rc SC H.
  - cbn in H. injection H as <- <-. split; [|intros []; reflexivity]. intros _. exists []. rewrite app_nil_r. split; [reflexivity|]. split; [constructor|]. intros D. exact D.
  - cbn [create map start] in H. change (map (fun c0 : conf => mkI c0 0 None) cs) with (create cs) in H. destruct (select iface specs set n t (done ++ mkI c 0 None :: create cs) (mkI c 0 None)) as [x|] eqn:X; [|discriminate]. cbn [bind] in H.
    unfold select in X. cbn [i_conf] in X. destruct (wanted iface specs n t c) as [w|] eqn:W; [|discriminate]. cbn [bind] in X.
    pose proof (wanted_sound n c w (SC c (or_introl eq_refl)) W) as WS.
    destruct w as [e|k].
    + injection X as <-. cbn [snd fst] in H. assert (N0 : e <> 0) by (destruct WS as [(E & _)|(E & _)]; rewrite E; lia).
      rewrite (proj2 (Z.eqb_neq _ _) N0) in H. injection H as <- <-. split; [intros C; contradiction|]. intros _. exists [], c, cs, []. split; [reflexivity|]. split; [constructor|].
      rewrite app_nil_r. destruct WS as [WS|WS]; [left; exact WS|right; left; exact WS].
    + rewrite existsb_app in X. cbn [existsb uses i_clock orb] in X. rewrite uses_create, orb_false_r in X. destruct (existsb (uses k) done) eqn:U.
      * injection X as <-. cbn [snd fst] in H. change (EBUSY =? 0) with false in H. injection H as <- <-. split; [discriminate|]. intros _. exists [], c, cs, []. split; [reflexivity|]. split; [constructor|].
        rewrite app_nil_r. right. right. exists k. split; [exact WS|]. left. split; [reflexivity|]. apply uses_in, U.
      * assert (NU : forall i, In i done -> i_clock i <> Some k) by (intros i I E; assert (existsb (uses k) done = true) by (apply uses_in; exists i; split; assumption); congruence).
        injection X as <-. cbn [snd fst] in H. destruct ((if (k =? SYSTEM)%nat then 0 else set k) =? 0) eqn:S0.
        -- apply Z.eqb_eq in S0. assert (G : good c (mkI c (2 ^ TIMESTAMPS) (Some k))).
           { split; [reflexivity|]. split; [reflexivity|]. exists k. split; [reflexivity|]. split; [exact WS|]. destruct (k =? SYSTEM)%nat eqn:K; [left; apply Nat.eqb_eq, K|right; exact S0]. }
           destruct (IH _ _ _ (fun c' I => SC c' (or_intror I)) H) as (A & B). split.
           ++ intros R. destruct (A R) as (new & -> & F & D). exists (mkI c (2 ^ TIMESTAMPS) (Some k) :: new). rewrite <- app_assoc. split; [reflexivity|]. split; [constructor; assumption|].
              intros ND. rewrite <- app_assoc in D. apply D. rewrite map_app. apply nodup_snoc; [exact ND|].
              intros I. apply in_map_iff in I. destruct I as (i & E' & I). cbn [i_clock] in E'. apply (NU i I E').
           ++ intros R. destruct (B R) as (pre & c' & post & new & -> & F & FL). exists (c :: pre), c', post, (mkI c (2 ^ TIMESTAMPS) (Some k) :: new). split; [reflexivity|]. split; [constructor; assumption|].
              rewrite <- app_assoc in FL. exact FL.
        -- apply Z.eqb_neq in S0. injection H as <- <-. split; [intros C; contradiction|]. intros _. exists [], c, cs, []. split; [reflexivity|]. split; [constructor|]. rewrite app_nil_r. right. right. exists k. split; [exact WS|].
           right. destruct (k =? SYSTEM)%nat eqn:K; [contradiction|]. split; [apply Nat.eqb_neq, K|]. split; [reflexivity|exact NU].
Qed.
Lemma start_complete : forall n cs ks done, Forall2 (fun c k => wanted iface specs n t c = Some (inr k)) cs ks -> (forall k, In k ks -> k = SYSTEM \/ set k = 0) ->
  NoDup ks -> (forall i k, In i done -> In k ks -> i_clock i <> Some k) ->
  exists new, start iface specs set n t done (create cs) = Some (done ++ new, 0) /\ map i_clock new = map Some ks.
Proof.
  intros n. induction cs as [|c cs IH]; intros ks done F SK ND D; inversion F as [|? k ? ks' W F']; subst.
  - exists []. rewrite app_nil_r. split; reflexivity.
  - cbn [create map start]. unfold select. cbn [i_conf]. rewrite W. cbn [bind]. rewrite existsb_app. cbn [existsb uses i_clock orb]. change (map (fun c0 : conf => mkI c0 0 None) cs) with (create cs). rewrite uses_create, orb_false_r.
    destruct (existsb (uses k) done) eqn:U; [exfalso; apply uses_in in U; destruct U as (i & I & E); apply (D i k I (or_introl eq_refl) E)|].
    cbn [bind fst snd]. replace ((if (k =? SYSTEM)%nat then 0 else set k) =? 0) with true by (destruct (SK k (or_introl eq_refl)) as [->|E]; [reflexivity|rewrite E; destruct (k =? SYSTEM)%nat; reflexivity]).
    inversion ND as [|? ? NI ND']; subst. destruct (IH ks' (done ++ [mkI c (2 ^ TIMESTAMPS) (Some k)]) F') as (new & H & M).
    + intros k' I. apply SK. right. exact I.
    + exact ND'.
    + intros i k' I J. apply in_app_or in I. destruct I as [I|[<-|[]]]; [apply D; [exact I|right; exact J]|]. cbn [i_clock]. intros E. injection E as ->. contradiction.
    + exists (mkI c (2 ^ TIMESTAMPS) (Some k) :: new). rewrite H. rewrite <- app_assoc. split; [reflexivity|]. cbn [map i_clock]. rewrite M. reflexivity.
Qed.
Lemma asks_fuel : forall cs ks, (forall c, In c cs -> short (c_name c)) -> Forall2 (asks iface specs t) cs ks -> exists n, Forall2 (fun c k => wanted iface specs n t c = Some (inr k)) cs ks.
Proof.
  intros cs ks SC F. induction F as [|c k cs ks A F IH]; [exists 0%nat; constructor|].
  destruct IH as (n1 & H1); [intros c' I; apply SC; right; exact I|]. destruct (wanted_complete c k (SC c (or_introl eq_refl)) A) as (n2 & H2). exists (n1 + n2)%nat. constructor.
  - apply (wanted_mono n2); [exact H2|lia].
  - clear -H1. induction H1 as [|c k cs ks W F IH]; constructor; [apply (wanted_mono n1); [exact W|lia]|exact IH].
Qed.
End World.

(** ** Messages *)
Lemma set_nth_length' : forall A n (x : A) l, List.length (set_nth n x l) = List.length l.
Proof. intros. apply set_nth_length. Qed.
Definition like (a b : list inst) : Prop := Forall2 (fun x y => i_conf x = i_conf y /\ i_clock x = i_clock y) a b.
Lemma like_refl : forall a, like a a.
Proof. induction a as [|x a IH]; constructor; [split; reflexivity|exact IH]. Qed.
Lemma like_trans : forall a b c, like a b -> like b c -> like a c.
Proof.
  intros a b c H. revert c. induction H as [|x y a b (E1 & E2) H IH]; intros c K; inversion K as [|? z ? c' (E3 & E4) K']; subst; constructor; [split; congruence|apply IH, K'].
Qed.
Lemma like_set : forall n l i j, nth_error l n = Some i -> i_conf j = i_conf i -> i_clock j = i_clock i -> like l (set_nth n j l).
Proof.
  induction n as [|n IH]; intros [|x l] i j H C K; cbn in H; try discriminate.
  - injection H as ->. constructor; [split; congruence|apply like_refl].
  - constructor; [split; reflexivity|]. apply (IH _ i); assumption.
Qed.
Lemma step_like : forall l o l' os, step l o = Some (l', os) -> like l l'.
Proof.
  intros l o l' os H. destruct o as [n|n m f|n d| |n|]; cbn [step] in H.
  - destruct (nth_error l n) as [i|]; [|discriminate]. cbn [bind] in H. destruct (status_of i); [|discriminate]. injection H as <- <-. apply like_refl.
  - destruct (nth_error l n) as [i|] eqn:N; [|discriminate]. cbn [bind] in H. injection H as <- <-. apply (like_set _ _ i); [exact N|reflexivity|reflexivity].
  - destruct (nth_error l n) as [i|]; [|discriminate]. cbn [bind] in H. destruct (i_clock i); [|discriminate]. injection H as <- <-. apply like_refl.
  - destruct (forallb _ l); [|discriminate]. injection H as <- <-. apply like_refl.
  - destruct (nth_error l n) as [i|]; [|discriminate]. cbn [bind] in H. destruct (i_clock i); [|discriminate]. cbn [bind] in H. destruct (Z.testbit _ _); [|discriminate]. injection H as <- <-. apply like_refl.
  - injection H as <- <-. apply like_refl.
Qed.
Lemma like_nth : forall a b n i, like a b -> nth_error b n = Some i -> exists j, nth_error a n = Some j /\ i_conf j = i_conf i /\ i_clock j = i_clock i.
Proof.
  intros a b n i H. revert n. induction H as [|x y a b (E1 & E2) H IH]; intros [|n] K; cbn in K; try discriminate.
  - injection K as ->. exists x. split; [reflexivity|]. split; assumption.
  - apply IH, K.
Qed.
Lemma run_split : forall ops l l' h o os, run l ops = Some (l', h) -> In (o, os) h -> exists l1, like l l1 /\ exists l2, step l1 o = Some (l2, os).
Proof.
  induction ops as [|p ops IH]; intros l l' h o os H I; cbn [run] in H.
  - injection H as <- <-. destruct I.
  - destruct (step l p) as [(l1, os1)|] eqn:S; [|discriminate]. cbn [bind fst snd] in H. destruct (run l1 ops) as [(l2, h2)|] eqn:R; [|discriminate]. cbn [bind fst snd] in H. injection H as <- <-.
    destruct I as [E|I].
    + injection E as <- <-. exists l. split; [apply like_refl|]. exists l1. exact S.
    + destruct (IH _ _ _ _ _ R I) as (l3 & K & l4 & S'). exists l3. split; [apply (like_trans _ l1); [apply (step_like _ _ _ _ S)|exact K]|]. exists l4. exact S'.
Qed.

(** The flags of an instance. *)
Definition flag (l : list inst) (n : nat) (b : Z) : bool := match nth_error l n with Some i => Z.testbit (i_flags i) b | None => false end.
Lemma testbit_upd : forall f mask g b, 0 <= b -> Z.testbit (Z.lor (Z.ldiff f mask) (Z.land g mask)) b = if Z.testbit mask b then Z.testbit g b else Z.testbit f b.
Proof.
  intros f mask g b B. rewrite Z.lor_spec, Z.ldiff_spec, Z.land_spec. destruct (Z.testbit mask b), (Z.testbit f b), (Z.testbit g b); reflexivity.
Qed.
Lemma nth_set : forall A n m (x : A) l, nth_error (set_nth n x l) m = if (n =? m)%nat then match nth_error l m with Some _ => Some x | None => None end else nth_error l m.
Proof.
  induction n as [|n IH]; intros m x [|y l]; destruct m as [|m]; try reflexivity.
  - cbn. destruct (n =? m)%nat; reflexivity.
  - cbn. apply IH.
Qed.
Lemma run_defined : forall ops l, (forall i, In i l -> i_clock i <> None) ->
  run l ops <> None <-> (forall o, In o ops -> match o with GetStatus n | Control n _ _ | StepClock n _ | Topology n => (n < List.length l)%nat | _ => True end) /\
    (forall pre n post, ops = pre ++ Topology n :: post -> flag_after n SELECTED (flag l n SELECTED) pre = true).
Proof.
  induction ops as [|o ops IH]; intros l HC.
  - split; [intros _|intros _; discriminate]. split; [intros o []|]. intros pre n post E. destruct pre; discriminate.
  - assert (HC' : forall l', like l l' -> forall i, In i l' -> i_clock i <> None).
    { intros l' K i I. apply In_nth_error in I. destruct I as (n & N). destruct (like_nth _ _ _ _ K N) as (j & J & _ & E). rewrite <- E. apply HC, (nth_error_In _ _ J). }
    cbn [run]. destruct (step l o) as [(l1, os)|] eqn:S; cbn [bind fst snd].
    + pose proof (step_like _ _ _ _ S) as K. assert (LL : List.length l1 = List.length l) by (clear -K; induction K as [|x y a b _ K IH]; [reflexivity|cbn [List.length]; rewrite IH; reflexivity]).
      specialize (IH l1 (HC' l1 K)). rewrite LL in IH.
      assert (R : (do y <- run l1 ops; Some (fst y, (o, os) :: snd y)) <> None <-> run l1 ops <> None) by (destruct (run l1 ops); cbn [bind]; split; congruence).
      rewrite R, IH. clear R IH.
      assert (FL : forall n post, flag_after n SELECTED (flag l n SELECTED) (o :: post) = flag_after n SELECTED (flag l1 n SELECTED) post).
      { intros n post. destruct o as [m|m mask g|m d| |m|]; cbn [step] in S; cbn [flag_after].
        - destruct (nth_error l m) as [i|]; [|discriminate]. cbn [bind] in S. destruct (status_of i); [|discriminate]. injection S as <- <-. reflexivity.
        - destruct (nth_error l m) as [i|] eqn:N; [|discriminate]. cbn [bind] in S. injection S as <- <-. f_equal. unfold flag. rewrite nth_set. destruct (m =? n)%nat eqn:E.
          + apply Nat.eqb_eq in E. subst m. rewrite N. cbn [i_flags andb]. rewrite testbit_upd by discriminate. destruct (Z.testbit mask SELECTED); reflexivity.
          + reflexivity.
        - destruct (nth_error l m) as [i|]; [|discriminate]. cbn [bind] in S. destruct (i_clock i); [|discriminate]. injection S as <- <-. reflexivity.
        - destruct (forallb _ l); [|discriminate]. injection S as <- <-. reflexivity.
        - destruct (nth_error l m) as [i|]; [|discriminate]. cbn [bind] in S. destruct (i_clock i); [|discriminate]. cbn [bind] in S. destruct (Z.testbit _ _); [|discriminate]. injection S as <- <-. reflexivity.
        - injection S as <- <-. reflexivity. }
      split.
      * intros (A & B). split.
        -- intros p [<-|I]; [|apply A, I]. destruct o as [m|m mask g|m d| |m|]; cbn [step] in S; try exact Logic.I; (destruct (nth_error l m) as [i|] eqn:N; [apply nth_error_Some; congruence|discriminate]).
        -- intros pre n post E. destruct pre as [|p pre].
           ++ injection E as -> ->. cbn [step] in S. cbn [flag_after]. unfold flag. destruct (nth_error l n) as [i|]; [|discriminate]. cbn [bind] in S. destruct (i_clock i); [|discriminate]. cbn [bind] in S. destruct (Z.testbit (i_flags i) SELECTED); [reflexivity|discriminate].
           ++ injection E as <- E. rewrite FL. apply (B pre n post E).
      * intros (A & B). split; [intros p I; apply A; right; exact I|]. intros pre n post E. rewrite <- FL. apply (B (o :: pre) n post). rewrite E. reflexivity.
    + split; [intros C; destruct C; reflexivity|]. intros (A & B) _. specialize (A o (or_introl eq_refl)).
      assert (G : forall n, (n < List.length l)%nat -> exists i k, nth_error l n = Some i /\ i_clock i = Some k).
      { intros n L. destruct (nth_error l n) as [i|] eqn:N; [|apply nth_error_None in N; lia]. destruct (i_clock i) as [k|] eqn:K; [exists i, k; split; [reflexivity|exact K]|destruct (HC i (nth_error_In _ _ N) K)]. }
      destruct o as [n|n mask g|n d| |n|]; cbn [step] in S.
      * destruct (G n A) as (i & k & N & K). rewrite N in S. cbn [bind] in S. unfold status_of in S. rewrite K in S. discriminate.
      * destruct (G n A) as (i & k & N & K). rewrite N in S. discriminate.
      * destruct (G n A) as (i & k & N & K). rewrite N in S. cbn [bind] in S. rewrite K in S. discriminate.
      * assert (F : forallb (fun i => match i_clock i with Some _ => true | None => false end) l = true).
        { apply forallb_forall. intros i I. destruct (i_clock i) eqn:K; [reflexivity|destruct (HC i I K)]. } rewrite F in S. discriminate.
      * destruct (G n A) as (i & k & N & K). rewrite N in S. cbn [bind] in S. rewrite K in S. cbn [bind] in S. specialize (B [] n ops eq_refl). cbn [flag_after] in B. unfold flag in B. rewrite N in B. rewrite B in S. discriminate.
      * discriminate.
Qed.
