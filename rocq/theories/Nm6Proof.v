(** Proofs about the mode 6 client: reassembly of replies (C66). *)
Require Import ZArith List Bool String QArith Lia Sorting.Sorted.
Require Import Verif.Base Verif.ListLib Verif.CevSpec Verif.Nm6Spec Verif.Nm6Model.
Import ListNotations.
Open Scope Z_scope.

(** ** Octets *)
Lemma byte_all : forall P : Z -> bool, forallb P (map Z.of_nat (seq 0 256)) = true -> forall b, byte b -> P b = true.
Proof.
  intros P H b [B1 B2]. rewrite forallb_forall in H. apply H. apply in_map_iff. exists (Z.to_nat b). split; [lia|]. apply in_seq. lia.
Qed.
Lemma version_spec : forall b, byte b -> pkt_version b = (b / 8) mod 8.
Proof. intros b B. apply Z.eqb_eq. revert b B. apply byte_all. vm_compute. reflexivity. Qed.
Lemma mode_spec : forall b, byte b -> pkt_mode b = b mod 8.
Proof. intros b B. apply Z.eqb_eq. revert b B. apply byte_all. vm_compute. reflexivity. Qed.
Lemma op_spec : forall b, byte b -> Z.land CTL_OP_MASK b = b mod 32.
Proof. intros b B. apply Z.eqb_eq. revert b B. apply byte_all. vm_compute. reflexivity. Qed.
Lemma bit_spec : forall b, byte b ->
  has CTL_RESPONSE b = (4 <=? b / 32) /\ has CTL_ERROR b = ((b / 32 / 2) mod 2 =? 1) /\ has CTL_MORE b = ((b / 32) mod 2 =? 1).
Proof.
  intros b B. assert (X : (Bool.eqb (has CTL_RESPONSE b) (4 <=? b / 32) && Bool.eqb (has CTL_ERROR b) ((b / 32 / 2) mod 2 =? 1)
      && Bool.eqb (has CTL_MORE b) ((b / 32) mod 2 =? 1)) = true).
  { revert b B. apply byte_all. vm_compute. reflexivity. }
  apply andb_prop in X. destruct X as [X X3]. apply andb_prop in X. destruct X as [X1 X2].
  apply Bool.eqb_prop in X1, X2, X3. auto.
Qed.

Lemma be16_byte : forall n, u16p n -> Forall byte (be16 n).
Proof.
  intros n [H1 H2]. unfold be16, byte. repeat constructor; try (apply Z.mod_pos_bound; lia).
  - apply Z.div_pos; lia.
  - apply Z.div_lt_upper_bound; lia.
Qed.
Lemma be16_word : forall n, 256 * (n / 256) + n mod 256 = n.
Proof. intros. pose proof (Z.div_mod n 256). lia. Qed.
Lemma word_be16 : forall a b, byte a -> byte b -> (256 * a + b) / 256 = a /\ (256 * a + b) mod 256 = b.
Proof.
  intros a b [A1 A2] [B1 B2]. split.
  - symmetry. apply Z.div_unique with b; lia.
  - symmetry. apply Z.mod_unique with a; lia.
Qed.

(** The fields of a well-formed packet. *)
Lemma packet_fields : forall li v bits op seq status assoc off count rest,
  let p := packet li v bits op seq status assoc off count rest in
  oct p 0 = 64 * li + 8 * v + 6 /\ oct p 1 = 32 * bits + op /\ word p 2 = seq /\ word p 4 = status /\ word p 8 = off /\ word p 10 = count /\
  skipn 12 p = rest /\ len p = 12 + len rest.
Proof.
  intros. unfold p, packet, word, oct, be16. cbn [app nth skipn]. rewrite !be16_word.
  repeat split. unfold len. cbn [List.length]. lia.
Qed.

Lemma validate_packet : forall li v bits op seq status assoc off count rest,
  0 <= li < 4 -> 1 <= v <= 4 -> 4 <= bits < 8 -> 0 <= op < 32 ->
  validate seq op (packet li v bits op seq status assoc off count rest) = true.
Proof.
  intros li v bits op seq status assoc off count rest L V B O.
  destruct (packet_fields li v bits op seq status assoc off count rest) as (F0 & F1 & F2 & _ & _ & _ & _ & FL).
  unfold validate. rewrite F0, F1, F2, FL.
  assert (B0 : byte (64 * li + 8 * v + 6)) by (unfold byte; lia).
  assert (B1 : byte (32 * bits + op)) by (unfold byte; lia).
  rewrite (version_spec _ B0), (mode_spec _ B0), (op_spec _ B1). destruct (bit_spec _ B1) as (-> & _ & _).
  replace ((64 * li + 8 * v + 6) / 8) with (8 * li + v) by (apply Z.div_unique with 6; lia).
  replace ((8 * li + v) mod 8) with v by (apply Z.mod_unique with li; lia).
  replace ((64 * li + 8 * v + 6) mod 8) with 6 by (apply Z.mod_unique with (8 * li + v); lia).
  replace ((32 * bits + op) / 32) with bits by (apply Z.div_unique with op; lia).
  replace ((32 * bits + op) mod 32) with op by (apply Z.mod_unique with bits; lia).
  pose proof (Nat2Z.is_nonneg (List.length rest)). unfold HEADER, len in *.
  rewrite !Z.eqb_refl. repeat (apply andb_true_intro; split); try apply negb_true_iff; try apply orb_false_intro;
    try apply Z.ltb_ge; try apply Z.leb_le; try reflexivity; lia.
Qed.

Lemma dest12 : forall p : list Z, 12 <= len p -> exists a b c d e f g h i j k l r, p = a :: b :: c :: d :: e :: f :: g :: h :: i :: j :: k :: l :: r.
Proof.
  intros p L. unfold len in L. do 12 (destruct p as [|? p]; [cbn [List.length] in L; lia|]).
  repeat eexists.
Qed.

Lemma validate_answers : forall seq op p, u16p seq -> Forall byte p -> validate seq op p = true -> answers seq op p.
Proof.
  intros seq op p SQ FB V. unfold validate in V.
  repeat (apply andb_prop in V; let X := fresh "X" in destruct V as [V X]).
  apply negb_true_iff in V. apply Z.ltb_ge in V. unfold HEADER in V.
  destruct (dest12 p V) as (a & b & c & d & e & f & g & h & i & j & k & l & r & ->).
  repeat match goal with H : Forall byte (_ :: _) |- _ => inversion H; subst; clear H end.
  assert (Ba : byte a) by assumption. assert (Bb : byte b) by assumption.
  change (oct (a :: b :: c :: d :: e :: f :: g :: h :: i :: j :: k :: l :: r) 0) with a in *.
  change (oct (a :: b :: c :: d :: e :: f :: g :: h :: i :: j :: k :: l :: r) 1) with b in *.
  change (word (a :: b :: c :: d :: e :: f :: g :: h :: i :: j :: k :: l :: r) 2) with (256 * c + d) in *.
  rewrite version_spec in X3 by assumption. rewrite mode_spec in X2 by assumption.
  rewrite op_spec in X by assumption. destruct (bit_spec b) as (E1 & _ & _); [assumption|]. rewrite E1 in X1.
  apply negb_true_iff, orb_false_iff in X3. destruct X3 as [X3 X3']. apply Z.ltb_ge in X3, X3'.
  apply Z.eqb_eq in X2, X0, X. apply Z.leb_le in X1.
  unfold byte in Ba, Bb.
  exists (a / 64), ((a / 8) mod 8), (b / 32), (256 * e + f), (256 * g + h), (256 * i + j), (256 * k + l), r.
  assert (D1 : 0 <= a / 64 < 4) by (split; [apply Z.div_pos; lia|apply Z.div_lt_upper_bound; lia]).
  assert (D2 : b / 32 < 8) by (apply Z.div_lt_upper_bound; lia).
  unfold byte, u16p in *.
  do 7 (split; [lia|]). split; [assumption|].
  unfold packet, be16. cbn [app].
  assert (Q1 : a = 64 * (a / 64) + 8 * ((a / 8) mod 8) + 6).
  { pose proof (Z.div_mod a 8). pose proof (Z.div_mod (a / 8) 8). rewrite Z.div_div in * by lia. change (8 * 8) with 64 in *. lia. }
  assert (Q2 : b = 32 * (b / 32) + op) by (pose proof (Z.div_mod b 32); lia).
  destruct (word_be16 c d) as [W1 W2]; [unfold byte; lia..|].
  destruct (word_be16 e f) as [W3 W4]; [unfold byte; lia..|].
  destruct (word_be16 g h) as [W5 W6]; [unfold byte; lia..|].
  destruct (word_be16 i j) as [W7 W8]; [unfold byte; lia..|].
  destruct (word_be16 k l) as [W9 W10]; [unfold byte; lia..|].
  rewrite <- X0, W1, W2, W3, W4, W5, W6, W7, W8, W9, W10. f_equal; [exact Q1|]. f_equal. exact Q2.
Qed.

(** ** The buffer *)
Lemma len_nonneg : forall A (l : list A), 0 <= len l.
Proof. intros. unfold len. lia. Qed.
Lemma len_app : forall A (a b : list A), len (a ++ b) = len a + len b.
Proof. intros. unfold len. rewrite app_length. lia. Qed.

Lemma nth_error_splice : forall b off d i, 0 <= off -> off + len d <= len b ->
  nth_error (splice b off d) i =
  if (Z.of_nat i <? off) then nth_error b i else if (Z.of_nat i <? off + len d) then nth_error d (i - Z.to_nat off) else nth_error b i.
Proof.
  intros b off d i O L. unfold splice, len in *.
  assert (L1 : List.length (firstn (Z.to_nat off) b) = Z.to_nat off) by (rewrite firstn_length; lia).
  destruct (Z.of_nat i <? off) eqn:E1.
  - apply Z.ltb_lt in E1. rewrite nth_error_app1 by lia. rewrite <- (firstn_skipn (Z.to_nat off) b) at 2.
    rewrite nth_error_app1 by lia. reflexivity.
  - apply Z.ltb_ge in E1. rewrite nth_error_app2 by lia. rewrite L1. destruct (Z.of_nat i <? off + Z.of_nat (List.length d)) eqn:E2.
    + apply Z.ltb_lt in E2. rewrite nth_error_app1 by lia. reflexivity.
    + apply Z.ltb_ge in E2. rewrite nth_error_app2 by lia.
      rewrite <- (firstn_skipn (Z.to_nat off + List.length d) b) at 2. rewrite nth_error_app2 by (rewrite firstn_length; lia).
      f_equal. rewrite firstn_length. lia.
Qed.
Lemma splice_length : forall b off d, 0 <= off -> off + len d <= len b -> List.length (splice b off d) = List.length b.
Proof. intros b off d O L. unfold splice, len in *. rewrite !app_length, firstn_length, skipn_length. lia. Qed.

Lemma slice_ext : forall (b1 b2 : list Z) o c, (forall i, (o <= i < o + c)%nat -> nth_error b1 i = nth_error b2 i) ->
  firstn c (skipn o b1) = firstn c (skipn o b2).
Proof.
  intros b1 b2 o c; revert o. induction c as [|c IH]; intros o H; [reflexivity|].
  assert (N : nth_error b1 o = nth_error b2 o) by (apply H; lia).
  assert (S1 : forall b : list Z, skipn o b = match nth_error b o with None => [] | Some x => x :: skipn (S o) b end).
  { clear. induction o as [|o IH]; intros [|x b]; cbn [skipn nth_error]; try reflexivity. apply IH. }
  rewrite (S1 b1), (S1 b2), N. destruct (nth_error b2 o); [|reflexivity]. cbn [firstn]. f_equal. apply IH. intros. apply H. lia.
Qed.

Definition slice (b : list Z) (o c : Z) : list Z := firstn (Z.to_nat c) (skipn (Z.to_nat o) b).
Lemma slice_splice_same : forall b off d, 0 <= off -> off + len d <= len b -> slice (splice b off d) off (len d) = d.
Proof.
  intros b off d O L. unfold slice, splice, len in *.
  assert (L1 : List.length (firstn (Z.to_nat off) b) = Z.to_nat off) by (rewrite firstn_length; lia).
  rewrite skipn_app, L1, Nat.sub_diag, skipn_all2 by lia. cbn [skipn app].
  rewrite firstn_app. replace (Z.to_nat (Z.of_nat (List.length d)) - List.length d)%nat with 0%nat by lia.
  rewrite firstn_all2 by lia. cbn [firstn]. apply app_nil_r.
Qed.
Lemma slice_splice_other : forall b off d o c, 0 <= off -> off + len d <= len b -> 0 <= o -> 0 <= c ->
  o + c <= off \/ off + len d <= o -> slice (splice b off d) o c = slice b o c.
Proof.
  intros b off d o c O L Ho Hc D. unfold slice. apply slice_ext. intros i I. rewrite nth_error_splice by assumption.
  destruct (Z.of_nat i <? off) eqn:E1; [reflexivity|]. destruct (Z.of_nat i <? off + len d) eqn:E2; [|reflexivity].
  apply Z.ltb_ge in E1. apply Z.ltb_lt in E2. lia.
Qed.
Lemma skipn_add : forall (l : list Z) x z, skipn x (skipn z l) = skipn (x + z) l.
Proof.
  intros l x z; revert l. induction z as [|z IH]; intros l; [rewrite Nat.add_0_r; reflexivity|].
  rewrite Nat.add_succ_r. destruct l as [|a l]; cbn [skipn]; [apply skipn_nil|apply IH].
Qed.
Lemma slice_app : forall b o c e, 0 <= o -> 0 <= c -> 0 <= e -> slice b o (c + e) = slice b o c ++ slice b (o + c) e.
Proof.
  intros b o c e O C E. unfold slice. replace (Z.to_nat (c + e)) with (Z.to_nat c + Z.to_nat e)%nat by lia.
  replace (Z.to_nat (o + c)) with (Z.to_nat c + Z.to_nat o)%nat by lia.
  generalize (Z.to_nat c) as x, (Z.to_nat e) as y, (Z.to_nat o) as z. intros x y z.
  rewrite <- (skipn_add b x z). generalize (skipn z b) as l. clear. induction x as [|x IH]; intros l; [reflexivity|].
  destruct l as [|a l]; [rewrite skipn_nil, !firstn_nil; reflexivity|]. cbn [skipn firstn app Nat.add]. f_equal. apply IH.
Qed.

(** ** Fragments in order *)
Definition desc (f : frag) : Z * Z := (f_off f, len (f_data f)).
Definition before (a b : frag) : Prop := f_off a < f_off b /\ f_off a + len (f_data a) <= f_off b.
Definition held (buf : list Z) (f : frag) : Prop := slice buf (f_off f) (len (f_data f)) = f_data f.

Lemma place_desc : forall off l, StronglySorted before l ->
  exists a b, l = a ++ b /\ place off (map desc l) = (map desc a, map desc b) /\ Forall (fun f => f_off f < off) a /\ Forall (fun f => off <= f_off f) b.
Proof.
  intros off l S. induction S as [|x l S IH F].
  - exists [], []. repeat split; constructor.
  - cbn [map place]. change (desc x) with (f_off x, len (f_data x)). cbn iota. destruct (f_off x <? off) eqn:E.
    + apply Z.ltb_lt in E. destruct IH as (a & b & -> & P & FA & FB). exists (x :: a), b. rewrite P. repeat split; auto.
    + apply Z.ltb_ge in E. exists [], (x :: l). repeat split; [constructor|]. constructor; [exact E|].
      eapply Forall_impl; [|exact F]. intros y [Y _]. lia.
Qed.

Lemma sorted_split : forall a b, StronglySorted before (a ++ b) -> StronglySorted before a /\ StronglySorted before b /\
  (forall x y, In x a -> In y b -> before x y).
Proof.
  induction a as [|x a IH]; intros b S; cbn [app] in S.
  - split; [constructor|]. split; [exact S|]. intros x y [].
  - inversion S as [|? ? S' F]; subst. destruct (IH b S') as (SA & SB & C). rewrite Forall_forall in F. split; [|split; [exact SB|]].
    + constructor; [exact SA|]. apply Forall_forall. intros y Y. apply F. apply in_or_app. auto.
    + intros u y [->|X] Y; [apply F, in_or_app; auto|apply (C u y); auto].
Qed.
Lemma sorted_join : forall a b, StronglySorted before a -> StronglySorted before b ->
  (forall x y, In x a -> In y b -> before x y) -> StronglySorted before (a ++ b).
Proof.
  induction a as [|x a IH]; intros b SA SB C; cbn [app]; [exact SB|].
  inversion SA as [|? ? S' F]; subst. constructor.
  - apply IH; auto. intros y z Y Z. apply C; cbn; auto.
  - apply Forall_app. split; [exact F|]. apply Forall_forall. intros y Y. apply C; cbn; auto.
Qed.

(** The checks on the neighbours put a fragment into its place. *)
Lemma insert_sorted : forall a b f, StronglySorted before (a ++ b) -> Forall (fun g => f_off g < f_off f) a -> Forall (fun g => f_off f <= f_off g) b ->
  (match map desc b with (o, _) :: _ => f_off f =? o | [] => false end) = false ->
  over_before (map desc a) (f_off f) = false ->
  (match map desc b with (o, _) :: _ => o <? f_off f + len (f_data f) | [] => false end) = false ->
  StronglySorted before (a ++ f :: b).
Proof.
  intros a b f S FA FB C1 C2 C3. destruct (sorted_split a b S) as (SA & SB & C). rewrite Forall_forall in FA, FB.
  assert (B : forall y, In y b -> before f y).
  { intros y Y. destruct b as [|g b]; [destruct Y|]. cbn [map] in C1, C3. change (desc g) with (f_off g, len (f_data g)) in C1, C3. cbn iota in C1, C3.
    apply Z.eqb_neq in C1. apply Z.ltb_ge in C3. pose proof (FB g (or_introl eq_refl)) as G.
    destruct Y as [->|Y]; [split; lia|]. inversion SB as [|? ? _ F]; subst. rewrite Forall_forall in F. destruct (F y Y). split; lia. }
  assert (A : forall x, In x a -> before x f).
  { intros x X. split; [apply FA, X|]. destruct (exists_last (l := a)) as (a' & g & ->); [intros ->; destruct X|].
    unfold over_before in C2. rewrite map_app in C2. cbn [map] in C2. rewrite rev_app_distr in C2. cbn [rev app] in C2.
    change (desc g) with (f_off g, len (f_data g)) in C2. cbn iota in C2. apply Z.ltb_ge in C2.
    apply in_app_or in X. destruct X as [X|[->|[]]]; [|lia].
    destruct (sorted_split a' [g] SA) as (_ & _ & C'). destruct (C' x g X (or_introl eq_refl)) as [_ K].
    pose proof (FA g). assert (f_off g < f_off f) by (apply H, in_or_app; right; left; reflexivity). lia. }
  apply sorted_join; [exact SA| |].
  - constructor; [exact SB|]. apply Forall_forall. exact B.
  - intros x y X [<-|Y]; [apply A, X|apply C; assumption].
Qed.

(** ** Soundness *)
Definition ended (fs : list frag) : Prop := exists f, In f fs /\ f_more f = false.
Definition good_from (seq op : Z) (l : list event) (f : frag) : Prop :=
  0 <= f_off f /\ f_off f + len (f_data f) <= 4096 /\ exists p, In (Packet p) l /\ carries seq op p f.
Definition inv (seq op : Z) (h : list event) (s : rst) : Prop :=
  exists fs, map desc fs = r_frags s /\ StronglySorted before fs /\ Forall (held (r_buf s)) fs /\ Forall (good_from seq op h) fs /\
    List.length (r_buf s) = 4096%nat /\ (r_last s = true -> ended fs).

Lemma total_cons : forall x l, l <> [] -> total (x :: l) = total l.
Proof.
  intros x l NE. unfold total. cbn [rev]. destruct (rev l) as [|y r] eqn:R; [|reflexivity].
  exfalso. apply NE. rewrite <- (rev_involutive l), R. reflexivity.
Qed.
Lemma no_gap_chain : forall buf fs o, map desc fs <> [] -> (match map desc fs with (x, _) :: _ => x | [] => 0 end) = o -> 0 <= o ->
  no_gap (map desc fs) = true -> Forall (held buf) fs ->
  exists m, chain o fs m /\ slice buf o (len m) = m /\ total (map desc fs) = o + len m.
Proof.
  intros buf fs. induction fs as [|f fs IH]; intros o NE O P G H; [exfalso; apply NE; reflexivity|].
  change (map desc (f :: fs)) with ((f_off f, len (f_data f)) :: map desc fs) in *. cbn iota in O. subst o.
  inversion H as [|? ? Hf Hr]; subst. destruct fs as [|g fs].
  - exists (f_data f). cbn [map]. cbn [chain]. split; [split; [reflexivity|]; exists []; rewrite app_nil_r; auto|].
    split; [exact Hf|]. reflexivity.
  - cbn [map no_gap] in G. change (desc g) with (f_off g, len (f_data g)) in G. cbn iota in G. apply andb_prop in G. destruct G as [G1 G2].
    apply Z.eqb_eq in G1. pose proof (len_nonneg _ (f_data f)) as LF.
    destruct (IH (f_off f + len (f_data f))) as (m & C & SL & T); [discriminate|exact (eq_sym G1)|lia|exact G2|exact Hr|].
    exists (f_data f ++ m). cbn [chain]. split; [split; [reflexivity|]; exists m; auto|].
    rewrite len_app. split.
    + rewrite slice_app by (try apply len_nonneg; lia). unfold held in Hf. rewrite Hf, SL. reflexivity.
    + rewrite total_cons by discriminate. rewrite T. lia.
Qed.

Lemma roundup : forall c n, 0 <= c -> n mod 4 = 0 -> Z.land (12 + c + 3) (Z.lnot 3) <= n -> c + 12 <= n.
Proof.
  intros c n C N H. change (Z.lnot 3) with (Z.lnot (Z.ones 2)) in H. rewrite <- Z.ldiff_land, Z.ldiff_ones_r in H by lia.
  rewrite Z.shiftl_mul_pow2, Z.shiftr_div_pow2 in H by lia. change (2 ^ 2) with 4 in H.
  pose proof (Z.div_mod (12 + c + 3) 4 ltac:(lia)). pose proof (Z.mod_pos_bound (12 + c + 3) 4 ltac:(lia)). lia.
Qed.
Lemma land3 : forall n, 0 <= n -> Z.land n 3 = n mod 4.
Proof. intros. change 3 with (Z.ones 2). rewrite Z.land_ones by lia. reflexivity. Qed.

Lemma on_packet_inv : forall seq op h s p v, u16p seq -> Forall byte p -> (List.length p <= 516)%nat -> inv seq op h s -> In (Packet p) h ->
  on_packet seq op s p = Some v ->
  match v with
  | Go s' => inv seq op h s'
  | Ret _ _ => True
  | Done n b => exists fs m, chain 0 fs m /\ len m = n /\ firstn (Z.to_nat n) b = m /\ n <= 4096 /\ List.length b = 4096%nat /\ (List.length fs <= 32)%nat /\
                 ended fs /\ Forall (good_from seq op h) fs
  end.
Proof.
  intros seq op h s p v SQ FB LP I IN E. pose proof I as I0. destruct I as (fs & D & SO & HE & GF & LB & LA).
  unfold on_packet in E. cbv zeta in E. rewrite (firstn_all2 (n := PKT_SIZE) p) in E by exact LP.
  destruct (validate seq op p) eqn:V; cbn [negb] in E; [|injection E as <-; exact I0].
  destruct (validate_answers seq op p SQ FB V) as (li & vv & bits & st & asn & off & count & rest & L1 & L2 & L3 & L4 & L5 & L6 & L7 & L8 & ->).
  destruct (packet_fields li vv bits op seq st asn off count rest) as (F0 & F1 & F2 & F4 & F8 & F10 & FS & FL).
  rewrite F1, F4, F8, F10, FS, FL in E.
  assert (B1 : byte (32 * bits + op)) by (inversion FB as [|? ? ? FB']; inversion FB'; assumption).
  assert (OP : 0 <= op < 32).
  { unfold validate in V. apply andb_prop in V. destruct V as [_ V]. apply Z.eqb_eq in V. rewrite F1 in V. rewrite op_spec in V by exact B1. lia. }
  destruct (bit_spec _ B1) as (_ & E2 & E3). rewrite E2 in E. rewrite !E3 in E.
  replace ((32 * bits + op) / 32) with bits in E by (apply Z.div_unique with op; lia).
  destruct ((bits / 2) mod 2 =? 1) eqn:ER.
  { destruct (nth_error cerr2errno (Z.to_nat (st / 256))); cbn [bind] in E; [injection E as <-; exact Logic.I|discriminate]. }
  pose proof (len_nonneg _ rest) as LR.
  destruct (Z.land (12 + len rest) 3 =? 0) eqn:AL; cbn [negb] in E; [|injection E as <-; exact I0].
  apply Z.eqb_eq in AL. rewrite land3 in AL by lia.
  destruct (12 + len rest <? Z.land (HEADER + count + 3) (Z.lnot 3)) eqn:SB; [injection E as <-; exact Logic.I|].
  apply Z.ltb_ge in SB. unfold HEADER in SB. destruct L7 as [C0 C1]. apply roundup in SB; [|lia|exact AL].
  destruct (12 + len rest - HEADER <? count) eqn:SB2; [injection E as <-; exact I0|]. clear SB2.
  destruct ((count =? 0) && (bits mod 2 =? 1)) eqn:CM; [injection E as <-; exact I0|].
  destruct (BUFFER_SIZE <? off + count) eqn:SP; [injection E as <-; exact Logic.I|]. apply Z.ltb_ge in SP. unfold BUFFER_SIZE in SP.
  destruct (r_last s && negb (bits mod 2 =? 1)) eqn:SL; [injection E as <-; exact I0|].
  destruct (MAXFRAGS - 1 <? List.length (r_frags s))%nat eqn:MF; [injection E as <-; exact Logic.I|].
  rewrite <- D in E. destruct (place_desc off fs SO) as (a & b & -> & PL & FA & FB2). rewrite PL in E.
  set (data := firstn (Z.to_nat count) rest) in *.
  assert (LD : len data = count) by (unfold data, len in *; rewrite firstn_length; lia).
  set (f := mkFrag off data (bits mod 2 =? 1)) in *.
  destruct (match map desc b with (o, _) :: _ => off =? o | [] => false end) eqn:C1'; [injection E as <-; exact I0|].
  destruct (over_before (map desc a) off) eqn:C2'; [injection E as <-; exact I0|].
  destruct (match map desc b with (o, _) :: _ => o <? off + count | [] => false end) eqn:C3'; [injection E as <-; exact I0|].
  assert (SO' : StronglySorted before (a ++ f :: b)).
  { apply insert_sorted; auto. unfold f; cbn [f_off f_data]. rewrite LD. exact C3'. }
  unfold u16p in L6. destruct L6 as [O0 O1].
  set (buf := splice (r_buf s) off data) in *.
  assert (LBZ : len (r_buf s) = 4096) by (unfold len; rewrite LB; reflexivity).
  assert (LB' : List.length buf = 4096%nat) by (unfold buf; rewrite splice_length; lia).
  assert (HE' : Forall (held buf) (a ++ f :: b)).
  { apply Forall_forall. intros g G.
    destruct (sorted_split a (f :: b) SO') as (_ & SF & CC). apply StronglySorted_inv in SF. destruct SF as [_ FF]. rewrite Forall_forall in FF.
    assert (DJ : g = f \/ (In g (a ++ b) /\ (before g f \/ before f g))).
    { apply in_app_or in G. destruct G as [G|[<-|G]]; [right|left; reflexivity|right].
      - split; [apply in_or_app; auto|]. left. apply CC; cbn; auto.
      - split; [apply in_or_app; auto|]. right. apply FF, G. }
    destruct DJ as [->|[G' DJ]].
    - unfold held, f; cbn [f_off f_data]. unfold buf. apply slice_splice_same; lia.
    - unfold held, buf. rewrite Forall_forall in HE, GF. rewrite slice_splice_other; try lia.
      + apply HE, G'. + destruct (GF g G'). assumption. + apply len_nonneg.
      + unfold before, f in DJ. cbn [f_off f_data] in DJ. rewrite LD in *. destruct DJ as [[? ?]|[? ?]]; [left|right]; lia. }
  assert (CA : carries seq op (packet li vv bits op seq st asn off count rest) f).
  { assert (BB : bits = 4 \/ bits = 5).
    { assert (bits = 4 \/ bits = 5 \/ bits = 6 \/ bits = 7) as [-> | [-> | [-> | ->]]] by lia; auto; discriminate ER. }
    exists li, vv, st, asn, (skipn (Z.to_nat count) rest). unfold f. cbn [f_off f_data f_more]. rewrite LD.
    do 5 (split; [assumption || (unfold u16p; lia)|]).
    split; [unfold data; apply Forall_forall; intros x X; rewrite Forall_forall in L8; apply L8; rewrite <- (firstn_skipn (Z.to_nat count) rest); apply in_or_app; auto|].
    split; [apply Forall_forall; intros x X; rewrite Forall_forall in L8; apply L8; rewrite <- (firstn_skipn (Z.to_nat count) rest); apply in_or_app; auto|].
    split; [|split; [exact LP|]].
    - unfold len in FL, AL. rewrite <- FL in AL. apply Nat2Z.inj. rewrite Nat2Z.inj_mod. exact AL.
    - unfold data. rewrite firstn_skipn. destruct BB as [->| ->]; reflexivity. }
  assert (GF' : Forall (good_from seq op h) (a ++ f :: b)).
  { apply Forall_app in GF. destruct GF as [GA GB]. apply Forall_app. split; [exact GA|]. constructor; [|exact GB].
    unfold f; cbn [f_off f_data]. unfold good_from; cbn [f_off f_data]. rewrite LD. split; [lia|]. split; [lia|].
    eexists. split; [exact IN|exact CA]. }
  assert (LA' : r_last s || negb (bits mod 2 =? 1) = true -> ended (a ++ f :: b)).
  { intros X. destruct (bits mod 2 =? 1) eqn:MB; cbn [negb] in X.
    - rewrite orb_false_r in X. destruct (LA X) as (g & G1 & G2). exists g. split; [|exact G2]. apply in_app_or in G1. apply in_or_app. destruct G1; [left|right; right]; assumption.
    - exists f. split; [apply in_or_app; right; left; reflexivity|]. unfold f; cbn [f_more]. reflexivity. }
  assert (MD : map desc a ++ (off, count) :: map desc b = map desc (a ++ f :: b)).
  { rewrite map_app. cbn [map]. f_equal. f_equal. unfold desc, f. cbn [f_off f_data]. rewrite LD. reflexivity. }
  rewrite MD in E.
  destruct ((r_last s || negb (bits mod 2 =? 1)) && (match map desc (a ++ f :: b) with (o, _) :: _ => o =? 0 | [] => false end) && no_gap (map desc (a ++ f :: b))) eqn:CO.
  - injection E as <-. apply andb_prop in CO. destruct CO as [CO NG]. apply andb_prop in CO. destruct CO as [LS HD].
    assert (NE : map desc (a ++ f :: b) <> []) by (rewrite map_app; intros X; apply app_eq_nil in X; destruct X; discriminate).
    destruct (no_gap_chain buf (a ++ f :: b) 0) as (m & CH & SL' & T); auto.
    { destruct (map desc (a ++ f :: b)) as [|[x y] ?]; [reflexivity|]. apply Z.eqb_eq in HD. exact HD. }
    { lia. }
    exists (a ++ f :: b), m. split; [exact CH|]. split; [lia|]. rewrite T. split; [rewrite Z.add_0_l; exact SL'|]. split.
    { apply (f_equal len) in SL'. unfold slice, len in SL'. rewrite firstn_length in SL'. rewrite skipn_length, LB' in SL'. unfold len. lia. }
    split; [exact LB'|]. split; [|split; [apply LA', LS|exact GF']].
    apply Nat.ltb_ge in MF. rewrite <- D, map_length, app_length in MF. unfold MAXFRAGS in MF. rewrite app_length. cbn [List.length]. lia.
  - injection E as <-. exists (a ++ f :: b). cbn [r_frags r_buf r_last]. auto 10.
Qed.

Theorem reassembled : forall seq op buf l n b, u16p seq -> List.length buf = 4096%nat ->
  (forall p, In (Packet p) l -> Forall byte p /\ (List.length p <= 516)%nat) ->
  response seq op buf l = Some (Done n b) ->
  exists fs m, chain 0 fs m /\ len m = n /\ firstn (Z.to_nat n) b = m /\ n <= 4096 /\ List.length b = 4096%nat /\ (List.length fs <= 32)%nat /\ ended fs /\ Forall (good_from seq op l) fs.
Proof.
  intros seq op buf l n b SQ LB OK R. unfold response in R.
  assert (G : forall done l' s, l = done ++ l' -> inv seq op l s -> response_loop seq op s l' = Some (Done n b) ->
    exists fs m, chain 0 fs m /\ len m = n /\ firstn (Z.to_nat n) b = m /\ n <= 4096 /\ List.length b = 4096%nat /\ (List.length fs <= 32)%nat /\ ended fs /\ Forall (good_from seq op l) fs).
  { intros done l'. revert done. induction l' as [|e l' IH]; intros done s EL I RL; cbn [response_loop] in RL; [discriminate|].
    destruct e as [p| |e]; try discriminate.
    assert (IN : In (Packet p) l) by (rewrite EL; apply in_or_app; right; left; reflexivity).
    destruct (OK p IN) as [FB LP].
    destruct (on_packet seq op s p) as [v|] eqn:E; cbn [bind] in RL; [|discriminate].
    pose proof (on_packet_inv seq op l s p v SQ FB LP I IN E) as J. destruct v as [s'|rc b'|n' b'].
    - apply (IH (done ++ [Packet p]) s'); auto. rewrite <- app_assoc. exact EL.
    - discriminate.
    - injection RL as -> ->. exact J. }
  apply (G [] l (mkR [] false buf)); auto.
  exists []. cbn [map r_frags r_buf r_last]. repeat split; try constructor; [exact LB|discriminate].
Qed.
