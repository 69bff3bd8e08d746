(** Proofs about probing, continued; the interface used; timestamps. *)
Require Import ZArith List Bool Lia Permutation Sorted Arith.
Require Import Verif.Base Verif.ListLib Verif.PtiSpec Verif.PtiModel Verif.PtiProof Verif.PtiProof2.
Import ListNotations.
Open Scope Z_scope.

Lemma probe_other : forall w t l x, fit x -> l_kind l = Bond \/ l_kind l = Team -> ~ supported (l_mode l) ->
  exists T, behind w t (members t l) T /\
    ((List.length T <= MAX_IFS)%nat -> (T <> [] -> exists y, probe w t l x = Some (EINVAL, y)) /\ (T = [] -> l_mode l = OtherMode -> probe w t l x = None)).
Proof.
  intros w t l x F K M. assert (GK : group_kind (l_kind l)) by (unfold group_kind; tauto).
  destruct (parse_group_ok w t l x F GK) as (y & R & Fy & Ny & My & Br & Bn & Lg & Fo & (T & BT & ET) & Ac & An).
  assert (NB : (match l_kind l with Bridge => true | _ => false end) = false) by (destruct K as [K|K]; rewrite K; reflexivity). rewrite NB in *.
  assert (RC1 : mode_rc (l_mode l) false = EINVAL) by (destruct (l_mode l); [reflexivity|exfalso; apply M; left; reflexivity|exfalso; apply M; right; reflexivity|reflexivity]).
  exists T. split; [exact BT|]. intros LE. specialize (ET LE). rewrite probe_eq, R. cbn [bind]. rewrite RC1.
  replace (match l_kind l with Bond | Team | Bridge => true | _ => false end) with true by (destruct K as [Q|Q]; rewrite Q; reflexivity). cbn [andb]. cbv zeta.
  rewrite Ny. split.
  - intros NT. destruct T as [|p T]; [congruence|]. cbn [List.length] in ET. rewrite ET. exists y. reflexivity.
  - intros -> MO. cbn [List.length] in ET. rewrite ET, My, MO, Br. cbn. destruct K as [K|K]; rewrite K; reflexivity.
Qed.
Lemma live_some : forall w o i, live w o = Some i <-> o = Some i /\ w_deleted w i = false.
Proof.
  intros w o i. unfold live. destruct o as [j|]; [|split; [discriminate|intros [H _]; discriminate]]. destruct (w_deleted w j) eqn:E; split; intros H.
  - discriminate.
  - destruct H as [H D]. injection H as ->. congruence.
  - injection H as ->. auto.
  - destruct H as [H D]. exact H.
Qed.
Lemma live_none : forall w o, (forall i, ~ usable w o i) -> live w o = None.
Proof. intros w o H. destruct (live w o) as [i|] eqn:E; [exfalso; apply (H i), live_some, E|reflexivity]. Qed.
Lemma one_set : forall y i, fit y -> map p_intf (set_of (one_intf y i)) = [Some i] /\ b_active (one_intf y i) = Some i /\ fit (one_intf y i).
Proof.
  intros y i F. unfold fit, set_of, one_intf in *. cbn [b_num b_arr b_active]. destruct (b_arr y) as [|p r]; [discriminate|]. cbn [firstn map p_intf List.length] in *. auto.
Qed.
Lemma probe_plain : forall w t l x, fit x -> l_kind l = Plain ->
  (forall i, usable w (w_name w (l_name l)) i -> exists y, probe w t l x = Some (0, y) /\ map p_intf (set_of y) = [Some i] /\ b_active y = Some i /\ fit y) /\
  ((forall i, ~ usable w (w_name w (l_name l)) i) -> exists y, probe w t l x = Some (ENODEV, y) /\ set_of y = [] /\ fit y).
Proof.
  intros w t l x F K. rewrite probe_eq. unfold parse_group. rewrite K. cbn [bind andb start_info b_mode is_ab b_bridge orb Z.eqb negb]. rewrite K. cbv iota zeta. cbn [negb andb].
  split; intros H.
  - intros U. apply live_some in U. rewrite U. eexists. split; [reflexivity|]. apply (one_set (start_info l x) H F).
  - rewrite live_none by exact H. eexists. split; [reflexivity|]. split; [reflexivity|exact F].
Qed.
Lemma probe_macvlan : forall w t l x, fit x -> l_kind l = Macvlan ->
  (forall i, usable w (w_index w (l_under l)) i \/ (forall j, ~ usable w (w_index w (l_under l)) j) /\ usable w (w_index w (l_index l)) i ->
     exists y, probe w t l x = Some (0, y) /\ map p_intf (set_of y) = [Some i] /\ b_active y = Some i /\ fit y) /\
  ((forall i, ~ usable w (w_index w (l_under l)) i) -> (forall i, ~ usable w (w_index w (l_index l)) i) ->
     exists y, probe w t l x = Some (ENODEV, y) /\ set_of y = [] /\ fit y).
Proof.
  intros w t l x F K. rewrite probe_eq. unfold parse_group. rewrite K. cbn [bind andb start_info b_mode is_ab b_bridge orb Z.eqb negb]. rewrite K. cbv iota zeta. cbn [negb andb].
  split.
  - intros i [U|[N U]].
    + apply live_some in U. rewrite U. eexists. split; [reflexivity|]. apply (one_set (start_info l x) i F).
    + rewrite live_none by exact N. apply live_some in U. rewrite U. eexists. split; [reflexivity|]. apply (one_set (start_info l x) i F).
  - intros H H2. rewrite !live_none by assumption. eexists. split; [reflexivity|]. split; [reflexivity|exact F].
Qed.

(** ** Topology *)
Definition renamed (name : list Z) (x : binfo) : binfo := mkB (firstn 15 name) (b_bond x) (b_mode x) (b_bridge x) (b_num x) (b_arr x) (b_active x).
Lemma topology_base : forall w t name x l b, name <> [] -> short name -> named t name l -> base t l b ->
  exists n, forall m, (n <= m)%nat -> topology w m t name x = do r <- probe w t b (renamed name x); Some (if fst r =? ENOENT then 0 else fst r, snd r).
Proof.
  intros w t name x l b NE Sh N B. destruct (resolve_base t l b B) as (n & R). exists n. intros m L. unfold topology.
  destruct name as [|c name]; [congruence|]. rewrite (link_by_name_of _ _ _ Sh N), (resolve_mono m n _ _ _ L R). reflexivity.
Qed.
Lemma topology_error : forall w t name x, short name ->
  (name = [] -> forall n, topology w n t name x = Some (ENODEV, x)) /\
  (name <> [] -> (forall l, In l t -> l_name l <> name) -> forall n, topology w n t name x = Some (ENOENT, x)) /\
  (forall l, name <> [] -> named t name l -> broken t l -> exists n, forall m, (n <= m)%nat -> exists y, topology w m t name x = Some (EINVAL, y)).
Proof.
  intros w t name x Sh. split; [intros -> n; reflexivity|]. split.
  - intros NE N n. unfold topology. destruct name as [|c name]; [congruence|]. pose proof (link_by_name_spec t _ Sh) as X.
    destruct (link_by_name t (c :: name)) as [l|]; [|reflexivity]. destruct (last_such_in _ _ _ _ X) as [I E]. exfalso. exact (N l I E).
  - intros l NE N B. destruct (resolve_broken t l B) as (n & R). exists n. intros m L. unfold topology.
    destruct name as [|c name]; [congruence|]. rewrite (link_by_name_of _ _ _ Sh N), (resolve_mono m n _ _ _ L R). cbn [bind]. eexists. reflexivity.
Qed.

(** ** The interface used *)
Lemma none_snoc : forall A (P : A -> Prop) d x, none_of P d -> ~ P x -> none_of P (d ++ [x]).
Proof. intros A P d x N H y I. apply in_app_or in I. destruct I as [I|[<-|[]]]; [apply N, I|exact H]. Qed.
Lemma first_keep : forall A (P : A -> Prop) d x y, first_such P d x -> first_such P (d ++ [y]) x.
Proof. intros A P d x y (a & b & -> & H & N). exists a, (b ++ [y]). rewrite <- app_assoc. auto. Qed.
Lemma first_new : forall A (P : A -> Prop) d y, none_of P d -> P y -> first_such P (d ++ [y]) y.
Proof. intros A P d y N H. exists d, []. auto. Qed.
Lemma last_keep : forall A (P : A -> Prop) d x y, last_such P d x -> ~ P y -> last_such P (d ++ [y]) x.
Proof.
  intros A P d x y (a & b & -> & H & N) Q. exists a, (b ++ [y]). rewrite <- app_assoc. split; [reflexivity|]. split; [exact H|].
  intros z I. apply in_app_or in I. destruct I as [I|[<-|[]]]; [apply N, I|exact Q].
Qed.
Lemma last_new : forall A (P : A -> Prop) d y, P y -> last_such P (d ++ [y]) y.
Proof. intros A P d y H. exists d, []. split; [reflexivity|]. split; [exact H|]. intros z []. Qed.

Section Pick.
Variable w : world.
Variable last : Z.
Variable clk : nat.
Variable f : phys.
Hypothesis Hf : p_up f = true \/ p_hwts f = false.
Definition up (p : phys) : Prop := p_up p = true.
Definition inv (d : list phys) (b : phys) (sync cur : bool) : Prop :=
  if sync then last_such (got_sync w last) d b else
  none_of (got_sync w last) d /\ p_primary b = false /\
  ((none_of up d /\ cur = false /\ b = f) \/
   (none_of hard d /\ last_such up d b /\ p_hwts b = false) \/
   (p_hwts b = true /\ if cur then first_such (in_use w clk) d b else none_of (in_use w clk) d /\ first_such hard d b)).
Lemma pick_inv : forall l d b sync cur, inv d b sync cur -> (exists r, d ++ l = f :: r) -> Forall (fun p => p_primary p = false) l ->
  exists s c, inv (d ++ l) (pick w last clk l b sync cur) s c.
Proof.
  induction l as [|p l IH]; intros d b sync cur H D Pr; [rewrite app_nil_r; exists sync, cur; exact H|].
  inversion Pr as [|? ? Pp Pr']; subst. replace (d ++ p :: l) with ((d ++ [p]) ++ l) by (rewrite <- app_assoc; reflexivity).
  assert (D' : exists r, (d ++ [p]) ++ l = f :: r) by (destruct D as [r D]; exists r; rewrite <- D, <- app_assoc; reflexivity).
  cbn [pick]. destruct (p_up p) eqn:U; cbn [negb].
  - destruct (ifindex_of w p =? last) eqn:Sy; cbv zeta.
    + rewrite orb_true_r. apply IH; [|exact D'|exact Pr']. apply last_new. split; [exact U|apply Z.eqb_eq, Sy].
    + rewrite orb_false_r. assert (NS : ~ got_sync w last p) by (intros [_ E]; apply Z.eqb_neq in Sy; contradiction).
      destruct sync; [apply IH; [apply last_keep; [exact H|exact NS]|exact D'|exact Pr']|].
      destruct H as (H1 & H2 & H3). rewrite Pp, H2.
      assert (Nh : p_hwts p = false -> ~ hard p) by (intros E [_ Q]; congruence).
      assert (Nu : (clock_of w p =? clk)%nat = false -> ~ in_use w clk p) by (intros E [_ Q]; apply Nat.eqb_neq in E; contradiction).
      assert (Yu : p_hwts p = true -> (clock_of w p =? clk)%nat = true -> in_use w clk p) by (intros E Q; split; [split; assumption|apply Nat.eqb_eq, Q]).
      (* p becomes the best *)
      assert (NewB : none_of hard d -> inv (d ++ [p]) p false (clock_of w p =? clk)%nat).
      { intros N. split; [apply none_snoc; assumption|]. split; [exact Pp|]. right. destruct (p_hwts p) eqn:Hp.
        - right. split; [reflexivity|]. assert (Nd : none_of (in_use w clk) d) by (intros y I [Q _]; exact (N y I Q)).
          destruct (clock_of w p =? clk)%nat eqn:C; [apply first_new; [exact Nd|apply Yu; auto]|].
          split; [apply none_snoc; [exact Nd|apply Nu; reflexivity]|apply first_new; [exact N|split; assumption]].
        - left. split; [apply none_snoc; [exact N|apply Nh; reflexivity]|]. split; [apply last_new; exact U|reflexivity]. }
      destruct H3 as [(N & -> & ->)|[(N & Lb & Hb)|(Hb & H4)]].
      * assert (Nhd : none_of hard d) by (intros y I [Q _]; exact (N y I Q)).
        destruct (p_hwts f) eqn:Hh.
        -- destruct Hf as [Uf|Hc]; [|congruence]. destruct D as [r D]. destruct d as [|q d]; [|exfalso; injection D as -> _; apply (N f); [left; reflexivity|exact Uf]].
           cbn [app] in D. injection D as -> _. rewrite Hh. cbn [orb negb andb]. rewrite andb_true_r.
           assert (G : inv [f] f false (clock_of w f =? clk)%nat) by (apply NewB, Nhd).
           destruct (clock_of w f =? clk)%nat; apply IH; assumption.
        -- replace ((p_hwts p || negb false) && (negb false || (clock_of w p =? clk)%nat && negb false)) with true by (destruct (p_hwts p); reflexivity).
           apply IH; [apply NewB, Nhd|exact D'|exact Pr'].
      * rewrite Hb. replace ((p_hwts p || negb false) && (negb false || (clock_of w p =? clk)%nat && negb cur)) with true by (destruct (p_hwts p); reflexivity).
        apply IH; [apply NewB, N|exact D'|exact Pr'].
      * rewrite Hb. cbn [negb orb]. rewrite orb_false_r. destruct (p_hwts p) eqn:Hp; cbn [andb].
        -- destruct (clock_of w p =? clk)%nat eqn:C; cbn [andb].
           ++ destruct cur; cbn [negb].
              ** apply IH; [|exact D'|exact Pr']. split; [apply none_snoc; assumption|]. split; [exact H2|]. right; right. split; [exact Hb|]. apply first_keep, H4.
              ** apply IH; [|exact D'|exact Pr']. split; [apply none_snoc; assumption|]. split; [exact Pp|]. right; right. split; [exact Hp|]. apply first_new; [apply H4|apply Yu; auto].
           ++ apply IH; [|exact D'|exact Pr']. split; [apply none_snoc; assumption|]. split; [exact H2|]. right; right. split; [exact Hb|].
              destruct cur; [apply first_keep, H4|]. destruct H4 as [H4 H5]. split; [apply none_snoc; [exact H4|apply Nu; reflexivity]|apply first_keep, H5].
        -- apply IH; [|exact D'|exact Pr']. split; [apply none_snoc; assumption|]. split; [exact H2|]. right; right. split; [exact Hb|].
           destruct cur; [apply first_keep, H4|]. destruct H4 as [H4 H5]. split; [apply none_snoc; [exact H4|intros [Q _]; exact (Nh eq_refl Q)]|apply first_keep, H5].
  - apply IH; [|exact D'|exact Pr'].
    assert (Nu : ~ up p) by (unfold up; congruence). assert (Nh : ~ hard p) by (intros [Q _]; congruence). assert (Ns : ~ got_sync w last p) by (intros [Q _]; congruence).
    assert (Ni : ~ in_use w clk p) by (intros [Q _]; contradiction).
    destruct sync; [apply last_keep; assumption|]. destruct H as (H1 & H2 & H3). split; [apply none_snoc; assumption|]. split; [exact H2|].
    destruct H3 as [(N & -> & ->)|[(N & Lb & Hb)|(Hb & H4)]].
    + left. split; [apply none_snoc; assumption|auto].
    + right; left. split; [apply none_snoc; assumption|]. split; [apply last_keep; assumption|exact Hb].
    + right; right. split; [exact Hb|]. destruct cur; [apply first_keep, H4|]. destruct H4 as [H4 H5]. split; [apply none_snoc; assumption|apply first_keep, H5].
Qed.
End Pick.

Lemma inv_preferred : forall w last clk f r b s c, inv w last clk f (f :: r) b s c -> preferred w last clk (f :: r) b.
Proof.
  intros w last clk f r b s c H. unfold inv in H. destruct s; [left; exact H|]. destruct H as (H1 & _ & H3). right. split; [exact H1|].
  assert (HI : forall l, none_of hard l -> none_of (in_use w clk) l) by (intros l N y I [Q _]; exact (N y I Q)).
  destruct H3 as [(N & _ & ->)|[(N & Lb & _)|(_ & H4)]].
  - assert (Nh : none_of hard (f :: r)) by (intros y I [Q _]; exact (N y I Q)).
    right. split; [apply HI, Nh|]. right. split; [exact Nh|]. right. split; [exact N|reflexivity].
  - right. split; [apply HI, N|]. right. split; [exact N|]. left. exact Lb.
  - destruct c; [left; exact H4|]. right. split; [apply H4|]. left. apply H4.
Qed.
Lemma select_ok : forall w last clk b f r, set_of b = f :: r -> (p_up f = true \/ p_hwts f = false) -> Forall (fun p => p_primary p = false) (f :: r) ->
  exists x, preferred w last clk (f :: r) x /\ active_intf w last clk b = p_intf x.
Proof.
  intros w last clk b f r E Hf Pr. destruct (pick_inv w last clk f Hf (f :: r) [] f false false) as (s & c & V).
  - split; [intros y []|]. split; [inversion Pr; assumption|]. left. split; [intros y []|auto].
  - exists r. reflexivity.
  - exact Pr.
  - exists (pick w last clk (f :: r) f false false). split; [apply inv_preferred with (s := s) (c := c), V|]. unfold active_intf. rewrite E. reflexivity.
Qed.
Lemma pick_in : forall w last clk l b s c, pick w last clk l b s c = b \/ In (pick w last clk l b s c) l.
Proof.
  intros w last clk. induction l as [|p l IH]; intros b s c; [left; reflexivity|]. cbn [pick].
  assert (G : forall b' s' c', b' = b \/ b' = p -> pick w last clk l b' s' c' = b \/ In (pick w last clk l b' s' c') (p :: l)).
  { intros b' s' c' [->| ->]; destruct (IH b s' c') as [X|X]; destruct (IH p s' c') as [Y|Y]; cbn [In]; auto. }
  destruct (negb (p_up p)); [apply G; auto|]. cbv zeta. destruct (ifindex_of w p =? last); destruct (s || _)%bool; try (apply G; auto; fail).
  all: destruct (p_primary p); try (destruct (p_primary _)); try (destruct (_ && _)); apply G; auto.
Qed.
Lemma select_member : forall w last clk b, (set_of b = [] -> active_intf w last clk b = None) /\
  (set_of b <> [] -> exists p, In p (set_of b) /\ active_intf w last clk b = p_intf p).
Proof.
  intros w last clk b. unfold active_intf. split; [intros ->; reflexivity|]. destruct (set_of b) as [|p r]; [congruence|]. intros _.
  exists (pick w last clk (p :: r) p false false). split; [|reflexivity]. destruct (pick_in w last clk (p :: r) p false false) as [->|X]; [left; reflexivity|exact X].
Qed.

(** ** Timestamps *)
Lemma want_iff : forall prefs, (existsb (fun p => match p with WantSw => true | _ => false end) prefs = true <-> In WantSw prefs) /\
  (existsb (fun p => match p with WantHw => true | _ => false end) prefs = true <-> In WantHw prefs).
Proof.
  intros prefs. split; rewrite existsb_exists; split; try (intros (x & I & E); destruct x; try discriminate; exact I); intros I; eexists; (split; [exact I|reflexivity]).
Qed.
Lemma determine_ok : forall w prefs o,
  (In WantHw prefs -> In WantSw prefs -> fst (determine w prefs o) = EINVAL) /\
  (In WantHw prefs -> ~ In WantSw prefs -> ~ stamps w o -> fst (determine w prefs o) = ENOTSUP) /\
  (In WantHw prefs -> ~ In WantSw prefs -> stamps w o -> determine w prefs o = (0, Hw)) /\
  (~ In WantHw prefs -> In WantSw prefs \/ ~ stamps w o -> determine w prefs o = (0, Sw)) /\
  (~ In WantHw prefs -> ~ In WantSw prefs -> stamps w o -> determine w prefs o = (0, Hw)).
Proof.
  intros w prefs o. unfold determine. destruct (want_iff prefs) as [A B].
  set (sw := existsb _ prefs) in *. set (hw := existsb (fun p => match p with WantHw => true | _ => false end) prefs) in *.
  assert (T : (match o with None => Sw | Some i => if w_ptp w i then Hw else Sw end) = Hw <-> stamps w o).
  { unfold stamps. destruct o as [i|]; [|split; [discriminate|intros (j & Q & _); discriminate]]. destruct (w_ptp w i) eqn:E; split; intros H; try discriminate; try reflexivity.
    - exists i. auto.
    - destruct H as (j & Q & Z). injection Q as <-. congruence. }
  destruct (match o with None => Sw | Some i => if w_ptp w i then Hw else Sw end); destruct sw, hw;
    repeat split; intros; cbn [andb fst]; try reflexivity; exfalso;
    repeat match goal with H : _ <-> _ |- _ => destruct H end; intuition discriminate.
Qed.
