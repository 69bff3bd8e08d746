(** Proofs for C76: histories. *)
Require Import ZArith List Bool Arith Lia.
From Verif Require Import Base LacSpec LacModel LacProof.
Import ListNotations.
Open Scope Z_scope.
Opaque bits.

Lemma probe_spec t : sm (t_mask t) -> probe t = Some (set_map t [], pool t).
Proof. intro S. unfold probe. cbn zeta. rewrite for_each_bits by exact S. rewrite fold_collect. unfold pool. cbn [bind app t_socks t_mask set_map]. reflexivity. Qed.
Lemma inv_map base t m : inv base t -> (List.length m <= 16)%nat -> NoDup (map fst m) -> NoDup (map snd m) -> inv base (set_map t m).
Proof. intros [V1 V2 V3 V4 V5 V6 V7 V8] A B C. constructor; [exact V1|exact V2|exact V3|exact V4|exact A|exact B|exact C|exact V8]. Qed.

(** What an observation does to the map. *)
Definition seen (fd x : Z) (m : list (Z * Z)) : list (Z * Z) * bool :=
  let clash := existsb (fun e => (fst e =? fd) && negb (snd e =? x)) m in
  let m := if clash then [] else m in
  (if existsb (fun e => snd e =? x) m || (16 <=? Z.of_nat (List.length m)) then m else m ++ [(fd, x)], clash).
Lemma find_clash fd x m : NoDup (map fst m) ->
  existsb (fun e => (fst e =? fd) && negb (snd e =? x)) m = match find (fun e => fst e =? fd) m with Some e => negb (snd e =? x) | None => false end.
Proof.
  induction m as [|[a b] m IH]; intro ND; [reflexivity|]. cbn [existsb find fst snd map] in *. inversion_clear ND as [|? ? N1 N2]. destruct (Z.eqb_spec a fd) as [E|N]; cbn [andb orb snd fst]; [|exact (IH N2)].
  destruct (negb (b =? x)); [reflexivity|]. cbn [orb]. apply not_true_iff_false. intro X. apply existsb_exists in X as ([c d] & H & Y). apply andb_true_iff in Y as [Y _]. apply Z.eqb_eq in Y. cbn in Y. apply N1. rewrite E, <- Y. apply (in_map fst _ _ H).
Qed.
Lemma on_tx_spec base fd x t : inv base t ->
  on_tx fd x t = Some (set_map t (fst (seen fd x (t_map t))), if snd (seen fd x (t_map t)) then pool t else []).
Proof.
  intro V. unfold on_tx, seen. cbn zeta. cbn [fst snd]. rewrite find_clash by apply V. unfold mapping. destruct (find (fun e => fst e =? fd) (t_map t)) as [e|].
  - destruct (negb (snd e =? x)).
    + rewrite probe_spec by apply V. cbn [bind]. reflexivity.
    + cbn [bind]. destruct (_ || _); [|reflexivity]. destruct t; reflexivity.
  - cbn [bind]. destruct (_ || _); [|reflexivity]. destruct t; reflexivity.
Qed.
Lemma nodup_snoc {A} (l : list A) a : NoDup l -> ~ In a l -> NoDup (l ++ [a]).
Proof.
  intros H N. induction l as [|b l IH]; [constructor; [intros []|constructor]|]. inversion_clear H as [|? ? H1 H2]. cbn. constructor; [|apply IH; [exact H2|intro; apply N; right; assumption]].
  intro X. apply in_app_iff in X as [X|[X|[]]]; [contradiction|]. apply N. left. auto.
Qed.
Lemma seen_ok fd x m : (List.length m <= 16)%nat -> NoDup (map fst m) -> NoDup (map snd m) ->
  (List.length (fst (seen fd x m)) <= 16)%nat /\ NoDup (map fst (fst (seen fd x m))) /\ NoDup (map snd (fst (seen fd x m))).
Proof.
  intros L F Sn. unfold seen. cbn zeta. cbn [fst]. destruct (existsb (fun e => (fst e =? fd) && negb (snd e =? x)) m) eqn:Ec.
  - cbn. split; [lia|]. split; (constructor; [intros []|constructor]).
  - destruct (existsb (fun e => snd e =? x) m) eqn:Ex; [cbn; auto|]. cbn [orb]. destruct (Z.leb_spec 16 (Z.of_nat (List.length m))); [auto|]. rewrite app_length, !map_app. cbn [map fst snd List.length]. split; [lia|].
    assert (Nx : forall e, In e m -> snd e <> x). { intros e He E. apply not_true_iff_false in Ex. apply Ex. apply existsb_exists. exists e. split; [exact He|apply Z.eqb_eq, E]. }
    split; apply nodup_snoc; auto.
    + intro X. apply in_map_iff in X as (e & E & He). apply not_true_iff_false in Ec. apply Ec. apply existsb_exists. exists e. split; [exact He|]. rewrite E, Z.eqb_refl. apply negb_true_iff, Z.eqb_neq, Nx, He.
    + intro X. apply in_map_iff in X as (e & E & He). exact (Nx e He E).
Qed.
Lemma seen_in fd x m e : In e (fst (seen fd x m)) -> In e m \/ e = (fd, x).
Proof.
  unfold seen. cbn zeta. cbn [fst]. destruct (existsb (fun e => (fst e =? fd) && negb (snd e =? x)) m); destruct (_ || _); intro H.
  - destruct H.
  - destruct H as [H|[]]; auto.
  - auto.
  - apply in_app_iff in H as [H|[H|[]]]; auto.
Qed.

Lemma create_spec base b y t : sound y -> (b_lacp b = true -> b_n b <= 7 /\ b_len b <= 16) -> inv base t -> t_mask t = 0 ->
  exists t', create b y t = Some t' /\ inv base t' /\ t_map t' = t_map t /\ t_event t' = t_event t /\ t_general t' = t_general t /\
    forall i, bit (t_mask t') i = true <-> b_lacp b = true /\ 1 < b_n b /\ Z.of_nat i < 4 * b_n b /\ works y i.
Proof.
  intros Sy F V E0. assert (B0 : forall i, bit (t_mask t) i = false) by (intro i; rewrite E0; apply Z.bits_0). unfold create.
  assert (None0 : negb (b_lacp b) || (b_n b <=? 1) = true -> forall i, bit (t_mask t) i = true <-> b_lacp b = true /\ 1 < b_n b /\ Z.of_nat i < 4 * b_n b /\ works y i).
  { intros H i. rewrite B0. split; [discriminate|]. intros (A & B & _). rewrite A in H. cbn in H. apply Z.leb_le in H. lia. }
  destruct (negb (b_lacp b) || (b_n b <=? 1)) eqn:Ec.
  - exists t. split; [reflexivity|]. split; [exact V|]. split; [reflexivity|]. split; [reflexivity|]. split; [reflexivity|]. apply None0. reflexivity.
  - apply orb_false_iff in Ec as [E1 E2]. apply negb_false_iff in E1. apply Z.leb_gt in E2. destruct (F E1) as [F1 F2]. rewrite (proj2 (Z.ltb_ge _ _) F2), E0. cbn [Z.eqb negb].
    destruct (Z.ltb_spec 64 (b_n b * 4)); [lia|]. destruct (create_loop_spec base y Sy (Z.to_nat (b_n b * 4)) 0 t V ltac:(lia) (fun i _ => B0 i)) as (t1 & A1 & A2 & A3 & A4 & A5 & A6).
    rewrite A1. cbn [bind]. eexists. split; [reflexivity|]. split; [|split; [exact A3|split; [exact A4|split; [exact A5|]]]].
    + destruct A2 as [V1 V2 V3 V4 V5 V6 V7 V8]. constructor; [exact V1|exact V2|exact V3|exact V4|exact V5|exact V6|exact V7|exact V8].
    + intro i. cbn [t_mask set_created]. rewrite A6, B0. split; [intros [X|[X Y]]; [discriminate|]; split; [exact E1|]; split; [exact E2|]; split; [lia|exact Y]|]. intros (_ & _ & X & Y). right. split; [lia|exact Y].
Qed.

(** One operation. *)
Definition source (o : op) (t : trans) : Z := match o with Tx (Some i) _ => t_socks t i | _ => t_event t end.
Lemma step_spec base o t : fine o -> inv base t -> exists t' sent, step o t = Some (t', sent) /\ inv base t' /\ t_event t' = t_event t /\ t_general t' = t_general t /\
  match o with
  | Init b y => sent = [] /\ t_map t' = [] /\ forall i, bit (t_mask t') i = true <-> b_lacp b = true /\ 1 < b_n b /\ Z.of_nat i < 4 * b_n b /\ works y i
  | Setopt rc => sent = [] /\ t_map t' = t_map t /\ forall i, bit (t_mask t') i = bit (t_mask t) i && negb (rc i <? 0) /\ (bit (t_mask t') i = true -> t_socks t' i = t_socks t i)
  | Probe => t' = set_map t [] /\ sent = pool t
  | Tx k x => (match k with Some i => bit (t_mask t) i = true | None => True end -> t' = set_map t (fst (seen (source o t) x (t_map t))) /\ sent = if snd (seen (source o t) x (t_map t)) then pool t else []) /\
      (match k with Some i => bit (t_mask t) i = false | None => False end -> t' = t /\ sent = [])
  | Shutdown => sent = [] /\ t_map t' = [] /\ t_mask t' = 0
  end.
Proof.
  intros F V. destruct o as [b y|rc| |k x|]; cbn [step source].
  - destruct F as [F1 F2]. destruct (destroy_spec base t V) as (t1 & A1 & A2 & A3 & A4 & A5 & A6). rewrite A1. cbn [bind]. destruct (create_spec base b y t1 F1 F2 A2 A3) as (t2 & B1 & B2 & B3 & B4 & B5 & B6). rewrite B1. cbn [bind].
    exists t2, []. split; [reflexivity|]. split; [exact B2|]. split; [congruence|]. split; [congruence|]. split; [reflexivity|]. split; [congruence|exact B6].
  - destruct (setopt_spec base rc t V) as (t1 & A1 & A2 & A3 & A4 & A5 & A6 & A7). rewrite A1. cbn [bind]. exists t1, []. split; [reflexivity|]. split; [exact A2|]. split; [exact A6|]. split; [exact A7|]. split; [reflexivity|]. split; [exact A5|]. intro i. split; [apply A3|apply A4].
  - rewrite probe_spec by apply V. exists (set_map t []), (pool t). split; [reflexivity|]. split; [apply inv_map; [exact V|cbn; lia|constructor|constructor]|]. split; [reflexivity|]. split; [reflexivity|]. split; reflexivity.
  - assert (On : forall fd, exists t' sent, on_tx fd x t = Some (t', sent) /\ inv base t' /\ t_event t' = t_event t /\ t_general t' = t_general t /\ t' = set_map t (fst (seen fd x (t_map t))) /\ sent = (if snd (seen fd x (t_map t)) then pool t else [])).
    { intro fd. rewrite (on_tx_spec base) by exact V. eexists. eexists. split; [reflexivity|]. split; [|split; [reflexivity|split; [reflexivity|split; reflexivity]]]. destruct (seen_ok fd x (t_map t)) as (Q1 & Q2 & Q3); try apply V. apply inv_map; assumption. }
    destruct k as [i|].
    + unfold bit. destruct (Z.testbit (t_mask t) (Z.of_nat i)) eqn:E.
      * destruct (On (t_socks t i)) as (t1 & s1 & A1 & A2 & A3 & A4 & A5). exists t1, s1. split; [exact A1|]. split; [exact A2|]. split; [exact A3|]. split; [exact A4|]. split; [intros _; exact A5|discriminate].
      * exists t, []. split; [reflexivity|]. split; [exact V|]. split; [reflexivity|]. split; [reflexivity|]. split; [discriminate|auto].
    + destruct (On (t_event t)) as (t1 & s1 & A1 & A2 & A3 & A4 & A5). exists t1, s1. split; [exact A1|]. split; [exact A2|]. split; [exact A3|]. split; [exact A4|]. split; [intros _; exact A5|intros []].
  - destruct (destroy_spec base t V) as (t1 & A1 & A2 & A3 & A4 & A5 & A6). rewrite A1. cbn [bind]. exists t1, []. split; [reflexivity|]. split; [exact A2|]. split; [exact A5|]. split; [exact A6|]. auto.
Qed.
Lemma start_inv event general others : inv (event :: general :: others) (start event general others).
Proof.
  constructor; cbn [start t_mask t_socks t_open t_map t_event t_general].
  - exact sm_0.
  - intro i. unfold bit. rewrite Z.bits_0. reflexivity.
  - intros i j H. unfold bit in H. rewrite Z.bits_0 in H. discriminate.
  - intro fd. rewrite in_pool by exact sm_0. split; [auto|]. intros [H|(i & H & _)]; [exact H|]. cbn in H. unfold bit in H. rewrite Z.bits_0 in H. discriminate.
  - cbn. lia.
  - constructor.
  - constructor.
  - cbn. auto.
Qed.
(** Positive descriptors in the map; with no failing option they are open. *)
Definition mapped (P : Z -> trans -> Prop) (t : trans) := forall e, In e (t_map t) -> P (fst e) t.
Definition pos (fd : Z) (t : trans) := 0 < fd.
Definition live (fd : Z) (t : trans) := fd = t_event t \/ In fd (pool t).
Lemma run_spec base : forall l t, Forall fine l -> inv base t -> 0 < t_event t -> mapped pos t ->
  exists t', run l t = Some t' /\ inv base t' /\ t_event t' = t_event t /\ t_general t' = t_general t /\ mapped pos t' /\ (Forall calm l -> mapped live t -> mapped live t').
Proof.
  induction l as [|o l IH]; intros t F V Pe M; cbn [run].
  - exists t. split; [reflexivity|]. auto.
  - inversion_clear F as [|? ? F1 F2]. destruct (step_spec base o t F1 V) as (t1 & s & A1 & A2 & A3 & A4 & A5). rewrite A1. cbn [bind fst].
    assert (M1 : mapped pos t1 /\ (calm o -> mapped live t -> mapped live t1)).
    { destruct o as [b y|rc| |k x|].
      - destruct A5 as (_ & E & _). unfold mapped. rewrite E. split; [intros e []|intros _ _ e []].
      - destruct A5 as (_ & E & Q). unfold mapped, pos. rewrite E. split; [exact M|]. intros C L e He. destruct (L e He) as [X|X]; [left; congruence|right]. apply in_pool in X; [|apply V]. destruct X as (i & X1 & X2). apply in_pool; [apply A2|]. exists i.
        destruct (Q i) as [Q1 Q2]. cbn [calm] in C. assert (B : bit (t_mask t1) i = true) by (rewrite Q1, X1; specialize (C i); destruct (Z.ltb_spec (rc i) 0); [lia|reflexivity]). split; [exact B|]. rewrite (Q2 B). exact X2.
      - destruct A5 as [-> _]. split; [intros e []|intros _ _ e []].
      - assert (D : t1 = set_map t (fst (seen (source (Tx k x) t) x (t_map t))) /\ (source (Tx k x) t = t_event t \/ exists i, bit (t_mask t) i = true /\ source (Tx k x) t = t_socks t i) \/ t1 = t).
        { destruct A5 as [Q1 Q2]. destruct k as [i|]; [|left; split; [apply Q1, Logic.I|left; reflexivity]]. destruct (bit (t_mask t) i) eqn:B; [left; split; [apply Q1; reflexivity|right; exists i; auto]|right; apply Q2; reflexivity]. }
        destruct D as [[E D]|E]; [|rewrite E; auto]. set (fd := source (Tx k x) t) in *. split.
        + intros e He. rewrite E in He. cbn [t_map set_map] in He. apply seen_in in He as [He|He]; [exact (M e He)|]. rewrite He. unfold pos. cbn [fst]. destruct D as [D|(i & B & D)]; rewrite D; [exact Pe|]. pose proof (i_sock _ _ V i) as Y. rewrite B in Y. apply Y.
        + intros _ L e He. rewrite E in He. cbn [t_map set_map] in He. unfold live. rewrite E. rewrite (pool_ext (set_map t _) t eq_refl eq_refl). cbn [t_event set_map]. apply seen_in in He as [He|He]; [exact (L e He)|]. rewrite He. cbn [fst]. destruct D as [D|(i & B & D)]; [left; exact D|right]. apply in_pool; [apply V|]. exists i. auto.
      - destruct A5 as (_ & E & _). unfold mapped. rewrite E. split; [intros e []|intros _ _ e []]. }
    destruct M1 as [M1 M2]. destruct (IH t1 F2 A2 ltac:(congruence) M1) as (t2 & B1 & B2 & B3 & B4 & B5 & B6). exists t2. split; [exact B1|]. split; [exact B2|]. split; [congruence|]. split; [congruence|]. split; [exact B5|].
    intros C L. inversion_clear C as [|? ? C1 C2]. apply B6; auto.
Qed.

(** Readiness and handling. *)
Lemma handled_spec base t : inv base t -> handled true t = Some (t_event t :: pool t).
Proof. intro V. unfold handled. rewrite for_each_bits by apply V. rewrite fold_collect. unfold pool. cbn [app]. reflexivity. Qed.
Definition mark (r : ready) (f : bool * bool * bool) : bool * bool * bool := let '(e, g, x) := f in (e || r_rd r, g, x || r_err r).
Lemma fold_mark (p : nat -> bool) r l f : fold (fun i f => Some (if p i then mark r f else f)) l f = Some (if existsb p l then mark r f else f).
Proof.
  revert f. induction l as [|i l IH]; intro f; [reflexivity|]. cbn [fold existsb bind]. rewrite IH. destruct (p i); [|reflexivity]. cbn [orb]. destruct (existsb p l); [|reflexivity].
  destruct f as [[e g] x]. cbn. rewrite <- !orb_assoc, !orb_diag. reflexivity.
Qed.
Definition ours (t : trans) (r : ready) : bool := (r_fd r =? t_event t) || existsb (fun i => r_fd r =? t_socks t i) (bits (t_mask t)).
Lemma flags_spec t : sm (t_mask t) -> forall l f, flags l t f =
  Some (let '(e, g, x) := f in (e || existsb (fun r => ours t r && r_rd r) l, g || existsb (fun r => r_fd r =? t_general t) l, x || existsb (fun r => ours t r && r_err r) l)).
Proof.
  intro S. induction l as [|r l IH]; intros [[e g] x]; cbn [flags existsb]; [rewrite !orb_false_r; reflexivity|].
  rewrite for_each_bits by exact S. change (fun i f => Some (if r_fd r =? t_socks t i then let '(e0, g0, x0) := f in (e0 || r_rd r, g0, x0 || r_err r) else f)) with (fun i f => Some (if r_fd r =? t_socks t i then mark r f else f)).
  rewrite (fold_mark (fun i => r_fd r =? t_socks t i)). cbn [bind]. rewrite IH. unfold ours, mark. destruct (r_fd r =? t_event t), (r_fd r =? t_general t), (existsb (fun i => r_fd r =? t_socks t i) (bits (t_mask t))), (r_rd r), (r_err r), e, g, x; cbn; reflexivity.
Qed.
Lemma ours_iff t r : sm (t_mask t) -> (ours t r = true <-> r_fd r = t_event t \/ In (r_fd r) (pool t)).
Proof.
  intro S. unfold ours. rewrite orb_true_iff, Z.eqb_eq, existsb_exists, in_pool by exact S. split; intros [H|(i & A & B)]; auto; right; exists i; [apply in_bits in A; [|exact S]; apply Z.eqb_eq in B; auto|]. rewrite in_bits by exact S. split; [exact A|apply Z.eqb_eq; auto].
Qed.
(** The choice of the socket. *)
Lemma choose_fold x m d : NoDup (map snd m) -> fold_left (fun fd (e : Z * Z) => if snd e =? x then fst e else fd) m d = match find (fun e => snd e =? x) m with Some e => fst e | None => d end.
Proof.
  revert d. induction m as [|[a b] m IH]; intros d ND; [reflexivity|]. cbn [fold_left find map snd fst] in *. inversion_clear ND as [|? ? N1 N2]. rewrite IH by exact N2. destruct (Z.eqb_spec b x) as [E|N]; [|reflexivity].
  destruct (find (fun e => snd e =? x) m) as [e|] eqn:Ef; [|reflexivity]. apply find_some in Ef as [H Y]. apply Z.eqb_eq in Y. exfalso. apply N1. rewrite E, <- Y. apply in_map, H.
Qed.
Lemma index_bits fd t : sm (t_mask t) -> forall r fuel m, bits m = r -> (List.length r <= fuel)%nat -> sm m ->
  index_loop fuel m fd t = Some (match find (fun i => t_socks t i =? fd) r with Some i => Z.of_nat i | None => -1 end).
Proof.
  intro S0. induction r as [|i r IH]; intros fuel m E L S.
  - pose proof (bits_nil m S) as Q. rewrite E in Q. destruct fuel; cbn [index_loop]; rewrite Q; reflexivity.
  - pose proof (bits_nil m S) as Q. rewrite E in Q. destruct fuel as [|f]; [cbn in L; lia|]. cbn [index_loop find]. rewrite Q, lowest_bits, E. cbn [hd_error bind]. destruct (t_socks t i =? fd); [reflexivity|].
    unfold shl. assert (Hi : In i (bits m)) by (rewrite E; left; reflexivity). apply in_bits in Hi; [|exact S]. apply (proj2 S) in Hi. destruct (Nat.ltb_spec i 31); [|lia]. cbn [bind].
    apply IH; [apply bits_clear, E|cbn in L; lia|apply clear_sm, S].
Qed.
