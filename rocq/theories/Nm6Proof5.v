(** Proofs about the mode 6 client: requests, commands, and what goes wrong (C66). *)
Require Import ZArith List Bool String QArith Lia.
Require Import Verif.Base Verif.ListLib Verif.CevSpec Verif.Nm6Spec Verif.Nm6Model Verif.Nm6Proof Verif.Nm6Proof3 Verif.Nm6Proof4.
Import ListNotations.
Open Scope Z_scope.

Lemma pad4_spec : forall n, ((12 + n + pad4 n) mod 4 = 0 /\ pad4 n < 4)%nat.
Proof.
  intros n. pose proof (Nat.div_mod n 4 ltac:(lia)) as D. pose proof (Nat.mod_upper_bound n 4 ltac:(lia)) as U. unfold pad4.
  destruct (n mod 4)%nat as [|[|[|[|k]]]] eqn:E; [| | | |lia]; (split; [|lia]).
  - apply Nat.mod_divides; [lia|]. exists (3 + n / 4)%nat. lia.
  - apply Nat.mod_divides; [lia|]. exists (4 + n / 4)%nat. lia.
  - apply Nat.mod_divides; [lia|]. exists (4 + n / 4)%nat. lia.
  - apply Nat.mod_divides; [lia|]. exists (4 + n / 4)%nat. lia.
Qed.

Lemma request_spec : forall op assoc seq data, 0 <= op < 32 ->
  (len data <= 468 -> exists pad, (pad < 4)%nat /\
     request op assoc seq data = inl (packet 0 4 0 op seq 0 assoc 0 (len data) (data ++ repeat 0 pad)) /\
     Nat.modulo (List.length (packet 0 4 0 op seq 0 assoc 0 (len data) (data ++ repeat 0 pad))) 4 = 0%nat) /\
  (468 < len data -> request op assoc seq data = inr E2BIG).
Proof.
  intros op assoc seq data OP. unfold request, CTL_MAX_DATA_LEN. split; intros L.
  - replace (468 <? len data) with false by (symmetry; apply Z.ltb_ge; exact L).
    destruct (pad4_spec (List.length data)) as [P1 P2]. exists (pad4 (List.length data)). split; [exact P2|]. split.
    + unfold packet. replace (Z.land op CTL_OP_MASK) with (32 * 0 + op); [reflexivity|].
      unfold CTL_OP_MASK. change 31 with (Z.ones 5). rewrite Z.land_ones by lia. change (2 ^ 5) with 32. rewrite Z.mod_small by lia. lia.
    + unfold packet. cbn [app be16 List.length]. rewrite app_length, repeat_length.
      exact P1.
  - replace (468 <? len data) with true by (symmetry; apply Z.ltb_lt; exact L). reflexivity.
Qed.

Lemma query_data_rest : forall names room, (List.length (flat_map (fun n => 44%Z :: n) names) <= room)%nat -> query_data room false names = flat_map (fun n => 44 :: n) names.
Proof.
  induction names as [|n names IH]; intros room L; [reflexivity|]. cbn [flat_map app List.length] in L. rewrite app_length in L. cbn [query_data].
  replace (room <? List.length n + 1)%nat with false by (symmetry; apply Nat.ltb_ge; lia). cbn [flat_map app]. rewrite IH by lia. reflexivity.
Qed.
Lemma commas_flat : forall n names, commas (n :: names) = n ++ flat_map (fun n => 44 :: n) names.
Proof.
  intros n names; revert n. induction names as [|m names IH]; intros n; [cbn; rewrite app_nil_r; reflexivity|].
  change (commas (n :: m :: names)) with (n ++ 44 :: commas (m :: names)). rewrite IH. reflexivity.
Qed.
Lemma query_data_spec : forall names room, (List.length (commas names) <= room)%nat -> query_data room true names = commas names.
Proof.
  intros [|n names] room L; [reflexivity|]. rewrite commas_flat in *. rewrite app_length in L. cbn [query_data].
  rewrite Nat.add_0_r. replace (room <? List.length n)%nat with false by (symmetry; apply Nat.ltb_ge; lia). cbn [app]. rewrite query_data_rest by lia. reflexivity.
Qed.

Lemma prefix_firstn : forall a b, text_prefix a b = true <-> firstn (List.length a) b = a.
Proof.
  induction a as [|x a IH]; intros [|y b]; cbn [text_prefix List.length firstn]; try (split; auto; discriminate).
  rewrite andb_true_iff, Z.eqb_eq, IH. split; [intros [-> ->]; reflexivity|intros H; injection H as -> H; auto].
Qed.
Lemma config_len : List.length config_succeeded = 18%nat.
Proof. reflexivity. Qed.
Lemma clock_control_answer : forall key d b, key <> 0 ->
  clock_control key (Answer d b) = Some (if text_prefix config_succeeded (d ++ b) then 0 else EACCES).
Proof.
  intros key d b K. unfold clock_control. replace (key =? 0) with false by (symmetry; apply Z.eqb_neq; exact K).
  destruct (text_prefix config_succeeded (d ++ b)) eqn:E.
  - apply prefix_firstn in E. destruct (list_eq_dec Z.eq_dec _ _); [reflexivity|contradiction].
  - destruct (list_eq_dec Z.eq_dec _ _) as [X|]; [|reflexivity]. apply prefix_firstn in X. congruence.
Qed.
Lemma prefix_app : forall a d b, (List.length a <= List.length d)%nat -> text_prefix a (d ++ b) = text_prefix a d.
Proof.
  induction a as [|x a IH]; intros [|y d] b L; cbn [List.length] in L; try reflexivity; [lia|]. cbn [app text_prefix]. rewrite IH by lia. reflexivity.
Qed.

(** ** Error replies *)
Lemma error_reply : forall seq op buf li v (more : bool) status assoc off count rest evs, 0 <= op < 32 -> 0 <= li < 4 -> 1 <= v <= 4 -> u16p status ->
  (List.length rest <= 504)%nat ->
  response seq op buf (Packet (packet li v (if more then 7 else 6) op seq status assoc off count rest) :: evs) =
  do e <- nth_error [EIO; EACCES; EBADMSG; ENOSYS; ENOENT; EINVAL; EPERM; 0] (Z.to_nat (status / 256)); Some (Ret e buf).
Proof.
  intros seq op buf li v more status assoc off count rest evs OP LI V ST LR. unfold response. cbn [response_loop].
  set (bits := if more then 7 else 6). assert (B : 6 <= bits <= 7) by (unfold bits; destruct more; lia).
  unfold on_packet. cbv zeta. set (p := packet li v bits op seq status assoc off count rest).
  pose proof (packet_fields li v bits op seq status assoc off count rest) as PF. cbv zeta in PF. fold p in PF.
  destruct PF as (F0 & F1 & F2 & F4 & _ & _ & _ & FL).
  rewrite (firstn_all2 (n := PKT_SIZE) p) by (unfold len in FL; unfold PKT_SIZE; lia).
  unfold p at 1. rewrite validate_packet by lia. cbn [negb]. rewrite F1, F4.
  assert (BB : byte (32 * bits + op)) by (unfold byte; lia). destruct (bit_spec _ BB) as (_ & -> & _).
  replace ((32 * bits + op) / 32) with bits by (apply Z.div_unique with op; lia).
  replace ((bits / 2) mod 2 =? 1) with true by (unfold bits; destruct more; reflexivity).
  cbn [r_buf]. unfold cerr2errno. destruct (nth_error _ _); reflexivity.
Qed.

Lemma response_done_total : forall seq op buf l, Forall (fun e => match e with Packet p => Forall byte p /\ (List.length p <= 516)%nat /\ (forall li v bits st asn off count rest,
    p = packet li v bits op seq st asn off count rest -> bits < 6 \/ st / 256 < 8) | _ => True end) l -> u16p seq -> response seq op buf l <> None.
Proof.
  intros seq op buf l F SQ. unfold response. generalize (mkR [] false buf) as s. induction F as [|e l E F IH]; intros s; [discriminate|].
  cbn [response_loop]. destruct e as [p| |e]; try discriminate. destruct E as (B & L & SAFE).
  assert (OK : on_packet seq op s p <> None).
  { unfold on_packet. cbv zeta. rewrite (firstn_all2 (n := PKT_SIZE) p) by exact L. destruct (validate seq op p) eqn:V; [|discriminate]. cbn [negb].
    destruct (validate_answers seq op p SQ B V) as (li & v & bits & st & asn & off & count & rest & L1 & L2 & L3 & L4 & L5 & L6 & L7 & L8 & EP).
    pose proof (packet_fields li v bits op seq st asn off count rest) as PF. cbv zeta in PF. rewrite <- EP in PF.
    destruct PF as (F0 & F1 & F2 & F4 & F8 & F10 & FS & FL). 
    assert (BB : byte (32 * bits + op)).
    { rewrite EP in B. unfold packet in B. inversion B as [|? ? _ B']; inversion B'; assumption. }
    assert (OP : 0 <= op < 32).
    { unfold validate in V. apply andb_prop in V. destruct V as [_ V]. apply Z.eqb_eq in V. rewrite F1, op_spec in V by exact BB. lia. }
    destruct (has CTL_ERROR (oct p 1)) eqn:HE.
    - rewrite F1 in HE. destruct (bit_spec _ BB) as (_ & E2 & _). rewrite E2 in HE. 
      replace ((32 * bits + op) / 32) with bits in HE by (apply Z.div_unique with op; lia).
      assert (S8 : st / 256 < 8).
      { destruct (SAFE li v bits st asn off count rest EP) as [X|X]; [|exact X].
        assert (bits = 4 \/ bits = 5) as [-> | ->] by lia; discriminate HE. }
      rewrite F4. destruct (nth_error cerr2errno (Z.to_nat (st / 256))) eqn:N; [discriminate|]. apply nth_error_None in N. cbn [cerr2errno List.length] in N.
      unfold u16p in L4. assert (0 <= st / 256) by (apply Z.div_pos; lia). lia.
    - repeat match goal with |- (if ?b then _ else _) <> None => destruct b; [discriminate|] end.
      destruct (place (word p 8) (r_frags s)) as [bf af]. repeat match goal with |- (if ?b then _ else _) <> None => destruct b; [discriminate|] end.
      discriminate. }
  destruct (on_packet seq op s p) as [v|]; [|congruence]. cbn [bind]. destruct v; [apply IH|discriminate|discriminate].
Qed.

Section Wrong.
  Variables (A : Type) (gai : list Z -> Z * option A) (u32 : list Z -> option Z) (flt : list Z -> option Q)
            (behind : list Z -> list Z) (noname : Z -> bool).
  Notation peer_loop := (peer_loop A gai u32 flt behind noname).
  Notation get_peer_info := (get_peer_info A gai u32 flt behind noname).

  Lemma loop_overflow : forall (l : list association) i ans items left num ps rc,
    Forall (fun a => u16p (snd a) /\ listed a = true) l -> (List.length ps < i + List.length l)%nat -> (i <= List.length ps)%nat ->
    (forall k a, nth_error l k = Some a -> exists e b, ans (i + k)%nat = Answer (show (items (i + k)%nat) ++ e) b /\ line_end e /\
      Forall good_item (items (i + k)%nat) /\ Forall (readable u32 flt) (items (i + k)%nat) /\ NoDup (map i_name (items (i + k)%nat))) ->
    peer_loop i l ans left num ps rc = None.
  Proof.
    induction l as [|[id st] l IH]; intros i ans items left num ps rc FL LT LE AN; [cbn [List.length] in LT; lia|].
    inversion FL as [|? ? [US LI] FL']; subst. cbn [snd] in US. cbn [List.length] in LT.
    destruct (AN 0%nat (id, st) eq_refl) as (e & b & EA & LN & FG & FR & ND). rewrite Nat.add_0_r in EA, FG, FR, ND.
    cbn [Nm6Model.peer_loop]. pose proof (skipped_spec (id, st) US) as SK. cbn [snd] in SK. rewrite SK, LI. cbn [negb].
    rewrite EA. cbn [bind]. destruct (nth_error ps i) as [p|] eqn:NP; [|reflexivity]. cbn [bind].
    assert (II : (i < List.length ps)%nat) by (apply nth_error_Some; congruence).
    destruct (vars_show (items i) e b FG LN) as (out & lf & V & FO). rewrite V. cbn [bind fst snd].
    rewrite set_vars_named, FO. destruct (set_vars_defined A gai u32 flt behind noname (items i) p FG FR) as (p' & SV). rewrite SV. cbn [bind].
    apply (IH (S i) ans items); auto.
    - rewrite set_nth_length. lia.
    - rewrite set_nth_length. lia.
    - intros k a N. specialize (AN (S k) a N). replace (i + S k)%nat with (S i + k)%nat in AN by lia. exact AN.
  Qed.

  Lemma info_loop : forall (l : list association) num ps b ans, l <> [] -> (List.length l <= 1024)%nat ->
    Forall (fun a => u16p (fst a) /\ u16p (snd a)) l ->
    get_peer_info num ps (Answer (assoc_bytes l) b) ans = peer_loop 0 l ans None 0 ps 0.
  Proof.
    intros l num ps b ans NE LL FL. unfold Nm6Model.get_peer_info. rewrite assoc_len.
    assert (LN : 1 <= len l <= 1024) by (unfold len; destruct l; [congruence|cbn [List.length] in *; lia]).
    replace (4 * len l =? 0) with false by (symmetry; apply Z.eqb_neq; lia).
    rewrite (land3 (4 * len l)) by lia. replace ((4 * len l) mod 4) with 0 by (rewrite Z.mul_comm; symmetry; apply Z_mod_mult). cbn [Z.eqb negb].
    replace (BUFFER_SIZE <? 4 * len l) with false by (symmetry; apply Z.ltb_ge; unfold BUFFER_SIZE; lia).
    rewrite assocs_bytes by exact FL. reflexivity.
  Qed.
End Wrong.
