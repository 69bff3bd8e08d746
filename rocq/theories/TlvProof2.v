(** More proofs about TLV processing (C42): arbitrary messages, effects, padding, sending. *)
Require Import ZArith List Bool Lia.
Require Import ZifyBool.
Import ListNotations.
From Verif Require Import Base MsgSpec MsgModel MsgProof MsgProof2 TlvSpec TlvModel TlvProof.
Open Scope Z_scope.

Lemma trans_fold : forall x l t, fold_left (trans_step x) l t =
  mkTrans (tr_mtie t || wants_mtie l) (fold_left (caps_step x) l (tr_caps t)).
Proof.
  intros x. induction l as [|e l IH]; intros t.
  - cbn [fold_left wants_mtie existsb]. destruct t; cbn. now rewrite orb_false_r.
  - cbn [fold_left]. rewrite IH. unfold wants_mtie. cbn [existsb].
    destruct t as [m c]. cbn [trans_step tr_mtie tr_caps]. now rewrite orb_assoc.
Qed.
Lemma trans_start : forall x l, fold_left (trans_step x) l no_trans = mkTrans (wants_mtie l) (caps_of x l).
Proof. intros. rewrite trans_fold. reflexivity. Qed.

(** Arbitrary octets: unpacking at an offset. *)
Lemma header_any : forall junk b off, all_octets b -> (off < length b)%nat ->
  (exists t, unpack_tlv_header junk b off = Some (t, None)) \/
  (exists t l, unpack_tlv_header junk b off = Some (t, Some l) /\ (off + 4 <= length b)%nat /\
     in_u 16 t /\ in_u 16 l /\ bytes 2 t = part off 2 b /\ bytes 2 l = part (off + 2) 2 b).
Proof.
  intros junk b off A L. unfold unpack_tlv_header.
  destruct (Nat.ltb_spec (length b - off) 2); [left; eauto|].
  destruct (ld_any 2 b off A ltac:(lia)) as (t & -> & Rt & Bt). cbn [bind].
  destruct (Nat.ltb_spec (length b - off) 4).
  - rewrite andb_true_r. destruct (t =? 0); left; eauto.
  - rewrite andb_false_r. destruct (ld_any 2 b (off + 2) A ltac:(lia)) as (l & -> & Rl & Bl). cbn [bind].
    right. exists t, l. repeat (split; [reflexivity || assumption || lia|]). assumption.
Qed.

Lemma org_any : forall b off, all_octets b -> (off <= length b)%nat ->
  (unpack_org_header b off = Some None) \/
  (exists o sb, unpack_org_header b off = Some (Some (o, sb)) /\ (off + 6 <= length b)%nat /\
     in_u 24 o /\ in_u 24 sb /\ bytes 3 o ++ bytes 3 sb = part off 6 b).
Proof.
  intros b off A L. unfold unpack_org_header.
  destruct (Nat.ltb_spec (length b - off) 6); [left; reflexivity|].
  destruct (ld24_any b off A ltac:(lia)) as (o & -> & Ro & Bo).
  destruct (ld24_any b (off + 3) A ltac:(lia)) as (sb & -> & Rs & Bs). cbn [bind].
  right. exists o, sb. split; [reflexivity|]. split; [lia|]. split; [assumption|]. split; [assumption|].
  rewrite Bo, Bs. rewrite <- part_app. reflexivity.
Qed.

Lemma pass1_some : forall x c v t, exists r, pass1 x c v t = Some r.
Proof.
  intros. destruct (bad_caps_dec x (c, v)); [rewrite pass1_bad by assumption|rewrite pass1_good by assumption]; eauto.
Qed.

(** What a dispatched TLV is, for any message. *)
Definition genuine (x : ctx) (k : kind) (b : octets) (first : nat) (d : dispatch) : Prop :=
  (first <= d_at d)%nat /\
  exists t, in_u 16 (t_type t) /\ (d_at d + 4 + length (t_value t) <= length b)%nat /\
    part (d_at d) (4 + length (t_value t)) b = tlv_wire t /\
    trusted x (d_name d) = true /\ belongs (d_name d) k = true /\
    ((is_org (t_type t) = true /\ (length (t_value t) < 6)%nat) \/
     (meaning t = Some (d_name d) /\ view b d = (d_name d, passed (d_name d) (t_value t)))).

(** Positions: later TLVs begin after earlier ones end. *)
Fixpoint in_order (b : octets) (from : nat) (l : list dispatch) : Prop :=
  match l with
  | [] => True
  | d :: l => (from <= d_at d)%nat /\
              in_order b (d_at d + 4 + Z.to_nat (be (part (d_at d + 2) 2 b))) l
  end.

Lemma find_some : forall ty org h, find_handler ty org = Some h -> h = handler_of (h_name h) /\ h_type h = ty.
Proof.
  intros ty org h H. apply find_some in H. destruct H as [H1 H2]. apply andb_true_iff in H2. destruct H2 as [H2 _].
  apply Z.eqb_eq in H2. split; [|exact H2].
  cbn [tlv_handlers In] in H1. repeat (destruct H1 as [<-|H1]; [reflexivity|]). contradiction.
Qed.

Lemma skipn_part : forall b off n, skipn off (firstn (off + n) b) = part off n b.
Proof. intros. unfold part. rewrite skipn_firstn_comm. f_equal. lia. Qed.

Lemma part_len : forall off n (b : octets), (off + n <= length b)%nat -> length (part off n b) = n.
Proof. intros. unfold part. rewrite firstn_length, skipn_length. lia. Qed.

Lemma part_in : forall off n m k (b : octets), (m + k <= n)%nat -> part m k (part off n b) = part (off + m) k b.
Proof.
  intros off n m k b H. unfold part. rewrite skipn_firstn_comm, firstn_firstn, skipn_add.
  f_equal. lia.
Qed.

Lemma part_octets : forall off n b, all_octets b -> all_octets (part off n b).
Proof.
  intros off n b A. apply all_firstn. unfold all_octets in *. rewrite Forall_forall in *. intros y Y. apply A.
  rewrite <- (firstn_skipn off b). apply in_or_app. auto.
Qed.

Lemma scan_sound : forall fuel x k junk b first, all_octets b -> forall off acc s, (first <= off)%nat ->
  (length acc <= 32)%nat -> Forall (genuine x k b first) acc ->
  (length b - off < fuel)%nat ->
  exists r, scan fuel x (kind_code k) junk b off acc s = Some r /\
    match r with
    | Dropped => True
    | Scanned l _ => (length l <= 32)%nat /\ Forall (genuine x k b first) l /\
        exists l', l = acc ++ l' /\ in_order b off l'
    end.
Proof.
  induction fuel as [|fuel IH]; intros x k junk b first A off acc s F L G Fu; [lia|].
  cbn [scan]. destruct (Nat.leb_spec (length b) off) as [Le|Gt].
  { eexists. split; [reflexivity|]. cbn. split; [assumption|]. split; [assumption|]. exists []. split; [now rewrite app_nil_r|exact Logic.I]. }
  destruct (header_any junk b off A Gt) as [(t & ->)|(t & len & -> & L4 & Rt & Rl & Bt & Bl)]; cbn [bind].
  { destruct (t =? 0); eexists; (split; [reflexivity|]); [|exact Logic.I].
    cbn. split; [assumption|]. split; [assumption|]. exists []. split; [now rewrite app_nil_r|exact Logic.I]. }
  destruct (Z.ltb_spec (Z.of_nat (length b - (off + 4))) len) as [Sh|En].
  { eexists. split; [reflexivity|exact Logic.I]. }
  set (o' := if org_ext t then (off + 4 + 6)%nat else (off + 4)%nat).
  assert (Next : forall acc' s', (length acc' <= 32)%nat -> Forall (genuine x k b first) acc' ->
     (exists l', acc' = acc ++ l' /\ forall l2, in_order b (o' + Z.to_nat len) l2 -> in_order b off (l' ++ l2)) ->
     exists r, scan fuel x (kind_code k) junk b (o' + Z.to_nat len) acc' s' = Some r /\
       match r with
       | Dropped => True
       | Scanned l _ => (length l <= 32)%nat /\ Forall (genuine x k b first) l /\
           exists l', l = acc ++ l' /\ in_order b off l'
       end).
  { intros acc' s' L' G' (l' & Ea & Or).
    destruct (IH x k junk b first A (o' + Z.to_nat len)%nat acc' s') as (r & E & P); try assumption.
    - unfold o'. destruct (org_ext t); lia.
    - unfold o'. destruct (org_ext t); lia.
    - exists r. split; [exact E|]. destruct r as [l s''|]; [|exact Logic.I].
      destruct P as (P1 & P2 & l2 & P3 & P4). split; [assumption|]. split; [assumption|].
      exists (l' ++ l2). split; [subst; now rewrite app_assoc|]. now apply Or. }
  assert (Stay : exists l', acc = acc ++ l' /\ forall l2, in_order b (o' + Z.to_nat len) l2 -> in_order b off (l' ++ l2)).
  { exists []. split; [now rewrite app_nil_r|]. cbn [app]. intros [|d l2]; [trivial|]. cbn [in_order].
    intros [H1 H2]. split; [|exact H2]. unfold o' in H1. destruct (org_ext t); lia. }
  assert (Len2 : be (part (off + 2) 2 b) = len).
  { rewrite <- Bl, be_bytes. apply (u_mod 2). exact Rl. }
  assert (Main : forall org, (org_ext t = false -> org = None) ->
     (org_ext t = true -> exists o sb, org = Some (o, sb) /\ (off + 4 + 6 <= length b)%nat /\ in_u 24 o /\ in_u 24 sb /\
         bytes 3 o ++ bytes 3 sb = part (off + 4) 6 b) ->
     exists r, match find_handler t org with
            | None => scan fuel x (kind_code k) junk b (o' + Z.to_nat len) acc s
            | Some h =>
              if check_acl_mask x (h_acl h) && negb (Z.land (Z.shiftl 1 (kind_code k)) (h_kinds h) =? 0) then
                if Nat.eqb (length acc) max_tlvs then Some Dropped
                else
                  do r <- pass1 x (h_name h) (firstn (Z.to_nat len) (skipn o' b)) s;
                  match r with
                  | None => Some Dropped
                  | Some s => scan fuel x (kind_code k) junk b (o' + Z.to_nat len)
                                (acc ++ [mkDisp (h_name h) off o' (if org_ext t then u16 (len - 6) else len)]) s
                  end
              else scan fuel x (kind_code k) junk b (o' + Z.to_nat len) acc s
            end = Some r /\
       match r with
       | Dropped => True
       | Scanned l _ => (length l <= 32)%nat /\ Forall (genuine x k b first) l /\
           exists l', l = acc ++ l' /\ in_order b off l'
       end).
  { intros org O1 O2. destruct (find_handler t org) as [h|] eqn:Fh; [|apply Next; assumption].
    destruct (find_some _ _ _ Fh) as [Hh Ht].
    destruct (check_acl_mask x (h_acl h) && negb (Z.land (Z.shiftl 1 (kind_code k)) (h_kinds h) =? 0)) eqn:Ad;
      [|apply Next; assumption].
    assert (Ad2 : trusted x (h_name h) && belongs (h_name h) k = true)
      by (rewrite <- admit_ok, <- Hh; exact Ad).
    apply andb_true_iff in Ad2. destruct Ad2 as [Tr Be].
    destruct (Nat.eqb_spec (length acc) max_tlvs) as [Mx|Mx]; [eexists; split; [reflexivity|exact Logic.I]|].
    unfold max_tlvs in Mx.
    destruct (pass1_some x (h_name h) (firstn (Z.to_nat len) (skipn o' b)) s) as (r & ->). cbn [bind].
    destruct r as [s'|]; [|eexists; split; [reflexivity|exact Logic.I]].
    unfold in_u in Rl. change (2^16) with 65536 in Rl.
    apply Next.
    - rewrite app_length. cbn [length]. lia.
    - apply Forall_app. split; [assumption|]. constructor; [|constructor].
      split; [cbn [d_at]; assumption|].
      set (v := part (off + 4) (Z.to_nat len) b).
      assert (Lv : length v = Z.to_nat len) by (apply part_len; lia).
      exists (mkTlv t v). cbn [t_type t_value d_at d_name]. rewrite Lv.
      split; [exact Rt|]. split; [lia|]. split.
      { unfold tlv_wire. cbn [t_type t_value]. rewrite Lv, Z2Nat.id, Bt, Bl by lia.
        change (4 + Z.to_nat len)%nat with (2 + (2 + Z.to_nat len))%nat. rewrite !part_app.
        replace (off + 2 + 2)%nat with (off + 4)%nat by lia. reflexivity. }
      split; [exact Tr|]. split; [exact Be|].
      change (is_org t) with (org_ext t).
      destruct (org_ext t) eqn:Oe.
      + destruct (O2 eq_refl) as (o & sb & -> & L10 & Ro & Rs & Bo).
        destruct (Nat.ltb_spec (Z.to_nat len) 6) as [Sm|Bg]; [left; auto|right].
        assert (F6 : firstn 6 (t_value (mkTlv t v)) = bytes 3 o ++ bytes 3 sb).
        { cbn [t_value]. unfold v. rewrite Bo. change (firstn 6 (part (off + 4) (Z.to_nat len) b)) with (part 0 6 (part (off + 4) (Z.to_nat len) b)).
          rewrite part_in by lia. f_equal. lia. }
        pose proof (find_org (mkTlv t v) o sb Oe Ro Rs F6) as Fo. cbn [t_type] in Fo. rewrite Fh in Fo.
        destruct (meaning (mkTlv t v)) as [c|] eqn:M; cbn [option_map] in Fo; [|discriminate].
        injection Fo as Fo. assert (Hc : h_name h = c) by (rewrite Fo; apply handler_name).
        split; [now rewrite Hc|]. unfold view. cbn [d_name d_len d_value]. f_equal.
        rewrite Hc. pose proof (passed_skip (mkTlv t v) c M) as Ps. cbn [t_value] in Ps. rewrite Ps. unfold ol. cbn [t_type t_value].
        change (is_org t) with (org_ext t). rewrite Oe.
        replace (u16 (len - 6)) with (len - 6) by (unfold u16; change (2^16) with 65536; lia).
        unfold v, o'. fold (part (off + 4 + 6) (Z.to_nat (len - 6)) b).
        replace (Z.to_nat len) with (6 + Z.to_nat (len - 6))%nat by lia. rewrite part_app.
        rewrite skipn_app, skipn_all2 by (rewrite part_len; lia). rewrite part_len by lia. reflexivity.
      + right. rewrite (O1 eq_refl) in Fh. pose proof (find_plain (mkTlv t v) Oe) as Fo. cbn [t_type] in Fo. rewrite Fh in Fo.
        destruct (meaning (mkTlv t v)) as [c|] eqn:M; cbn [option_map] in Fo; [|discriminate].
        injection Fo as Fo. assert (Hc : h_name h = c) by (rewrite Fo; apply handler_name).
        split; [now rewrite Hc|]. unfold view. cbn [d_name d_len d_value]. f_equal.
        rewrite Hc. pose proof (passed_skip (mkTlv t v) c M) as Ps. cbn [t_value] in Ps. rewrite Ps. unfold ol. cbn [t_type t_value].
        change (is_org t) with (org_ext t). rewrite Oe. reflexivity.
    - eexists. split; [reflexivity|]. intros l2 H. cbn [app in_order d_at]. split; [lia|].
      rewrite Len2. destruct l2 as [|d l2]; [exact Logic.I|]. cbn [in_order] in *. destruct H as [H1 H2]. split; [|exact H2].
      unfold o' in H1. destruct (org_ext t); lia. }
  destruct (org_ext t) eqn:Oe.
  - destruct (org_any b (off + 4) A L4) as [->|(o & sb & -> & L10 & Ro & Rs & Bo)]; cbn [bind].
    + eexists. split; [reflexivity|exact Logic.I].
    + apply (Main (Some (o, sb))); [discriminate|]. intros _. exists o, sb. auto.
  - cbn [bind]. apply (Main None); [reflexivity|discriminate].
Qed.

(** *** Effects of the second pass. *)
Lemma described_size : forall fs vs w, described fs vs w -> length (wire w) = sizes fs.
Proof.
  induction 1; [reflexivity| | |]; unfold wire, sizes in *; cbn [flat_map fold_right fst snd]; rewrite app_length, bytes_length; lia.
Qed.

Lemma filled_length : forall fs els o, filled_all fs els o -> length o = (length els * sizes fs)%nat.
Proof.
  induction 1 as [|e els w o D F IH]; [reflexivity|].
  rewrite app_length, IH, (described_size _ _ _ D). cbn [length]. lia.
Qed.

Lemma unpack_filled : forall fs els o, filled_all fs els o -> forall pre slack,
  unpack_elements (length els) fs (pre ++ o ++ slack) (length pre) = Some (Some els).
Proof.
  induction 1 as [|e els w o D F IH]; intros pre slack; [reflexivity|].
  cbn [length unpack_elements].
  rewrite skipn_app, skipn_all, Nat.sub_diag. cbn [app skipn].
  rewrite <- app_assoc. pose proof (unpack_described _ _ _ D [] (o ++ slack)) as U. cbn [app length] in U. rewrite U.
  cbn [rbind]. rewrite <- (described_size _ _ _ D).
  rewrite <- app_length, (app_assoc pre), IH. reflexivity.
Qed.

Lemma unpack_report_ok : forall pre el p es v o slack w0,
  unpack_fields pre v 0 = Some (Some p) -> v = w0 ++ o ++ slack -> length w0 = sizes pre ->
  filled_all el es o -> (length slack < sizes el)%nat ->
  unpack_report pre el v = Some (Some (p, es)).
Proof.
  intros pre el p es v o slack w0 U V Lw F S. unfold unpack_report. rewrite U.
  assert (N : ((length v - sizes pre) / sizes el)%nat = length es).
  { rewrite V, !app_length, Lw, (filled_length _ _ _ F).
    replace (sizes pre + (length es * sizes el + length slack) - sizes pre)%nat with (length slack + length es * sizes el)%nat by lia.
    rewrite Nat.div_add by lia. rewrite Nat.div_small by lia. reflexivity. }
  rewrite N, <- Lw, V, unpack_filled by assumption. reflexivity.
Qed.

Lemma unpack_fields_app : forall a b v off, unpack_fields (a ++ b) v off =
  rbind (unpack_fields a v off) (fun x => rbind (unpack_fields b v (off + sizes a)) (fun y => Some (Some (x ++ y)))).
Proof.
  induction a as [|[n t] a IH]; intros b v off.
  - unfold sizes. cbn [app unpack_fields rbind fold_right]. rewrite Nat.add_0_r.
    destruct (unpack_fields b v off) as [[y|]|]; reflexivity.
  - cbn [app unpack_fields]. unfold check. destruct (Nat.ltb (length v) (off + n)); [reflexivity|].
    destruct (ld_field t v off) as [x|]; cbn [bind rbind]; [|reflexivity].
    rewrite IH.
    match goal with |- context [sizes (?y :: a)] => change (sizes (y :: a)) with (n + sizes a)%nat end.
    rewrite Nat.add_assoc. destruct (unpack_fields a v (off + n)) as [[y|]|]; cbn [rbind]; try reflexivity.
    destruct (unpack_fields b v (off + n + sizes a)) as [[z|]|]; reflexivity.
Qed.

Lemma nth_ld1 : forall pre x rest, ld 1 (pre ++ x :: rest) (length pre) = Some x.
Proof.
  intros. change (x :: rest) with ([x] ++ rest). unfold ld. change 1%nat with (length [x]).
  rewrite slice_mid. reflexivity.
Qed.

Lemma tx_pre_ok : forall p w t r rest, described tx_port p w -> is_octet t -> is_octet r ->
  unpack_fields d_txts_pre (wire w ++ [t; r] ++ rest) 0 = Some (Some (p ++ [t mod 16; r / 16; r])).
Proof.
  intros p w t r rest D T R. unfold d_txts_pre. rewrite unpack_fields_app.
  pose proof (unpack_described _ _ _ D [] ([t; r] ++ rest)) as U. cbn [app length] in U.
  change f_port with tx_port. cbn [app]. rewrite U. cbn [rbind].
  change (0 + sizes tx_port)%nat with 10%nat.
  assert (Lw : length (wire w) = 10%nat) by (rewrite (described_size _ _ _ D); reflexivity).
  assert (E : unpack_fields [(1%nat, Lo); (0%nat, Hi); f 1] (wire w ++ t :: r :: rest) 10 = Some (Some [t mod 16; r / 16; r])).
  { unfold f. cbn [unpack_fields]. rewrite !check_ok by (rewrite app_length; cbn [length]; lia).
    change (10 + 1 + 0)%nat with (10 + 1)%nat.
    assert (E1 : ld 1 (wire w ++ t :: r :: rest) 10 = Some t) by (rewrite <- Lw; apply nth_ld1).
    assert (E2 : ld 1 (wire w ++ t :: r :: rest) (10 + 1) = Some r).
    { replace (10 + 1)%nat with (length (wire w ++ [t])) by (rewrite app_length; cbn [length]; lia).
      change (t :: r :: rest) with ([t] ++ r :: rest). rewrite app_assoc. apply nth_ld1. }
    cbn [ld_field]. rewrite E1, E2. cbn [bind rbind].
    rewrite land15_mod, Z.shiftr_div_pow2 by lia. rewrite land15_mod. unfold is_octet in R. change (2^4) with 16.
    rewrite (Z.mod_small (r / 16) 16) by lia. reflexivity. }
  rewrite E. reflexivity.
Qed.

Definition quiet (x : ctx) (c : concern) : bool := match c with MonReq => negb (c_netsync x) | _ => true end.

Lemma pass2_acts : forall x g d c v evs, d_name d = c -> 0 <= d_len d ->
  (d_value d + Z.to_nat (d_len d) <= length g)%nat ->
  firstn (Z.to_nat (d_len d)) (skipn (d_value d) g) = v -> acts x (c, v) evs ->
  pass2 x g d = Some (quiet x c, evs).
Proof.
  intros x g d c v evs N L0 L V A. unfold pass2. rewrite N.
  inversion A as [v0|c0 v0 H|c0 v0 H1 H2|p w els o slack H1 H2 H3 H4|p w els o slack H1 H2 H3 H4
                 |p w t r els o slack H1 H2 H3 H4 H5 H6|fl w slack H1 H2|v0 H1 H2]; subst c; subst.
  - rewrite <- H in *. unfold quiet. destruct (c_netsync x); reflexivity.
  - destruct H as [E|[E|E]]; rewrite E in *; reflexivity.
  - destruct H2 as [E|[E|[E|E]]]; rewrite E in *; cbn [report_tables]; rewrite H1; reflexivity.
  - rewrite <- H in *. cbn [report_tables]. rewrite H1.
    rewrite (unpack_report_ok d_timing_pre d_timing_el p els _ o slack (wire w)); try reflexivity; try assumption.
    + rewrite <- H0. exact (unpack_described _ _ _ H2 [] (o ++ slack)).
    + symmetry. exact H0.
    + apply (described_size _ _ _ H2).
  - rewrite <- H in *. cbn [report_tables]. rewrite H1.
    rewrite (unpack_report_ok d_computed_pre d_computed_el p els _ o slack (wire w)); try reflexivity; try assumption.
    + rewrite <- H0. exact (unpack_described _ _ _ H2 [] (o ++ slack)).
    + symmetry. exact H0.
    + apply (described_size _ _ _ H2).
  - rewrite <- H in *. cbn [report_tables]. rewrite H1.
    rewrite (unpack_report_ok d_txts_pre d_txts_el (p ++ [t mod 16; r / 16; r]) els _ o slack (wire w ++ [t; r])); try reflexivity; try assumption.
    + rewrite <- H0. now apply tx_pre_ok.
    + rewrite <- H0. now rewrite <- app_assoc.
    + rewrite app_length, (described_size _ _ _ H2). reflexivity.
  - rewrite <- H in *. rewrite H1. unfold unpack_within. rewrite skipn_length.
    destruct (Z.leb_spec (d_len d) (Z.of_nat (length g - d_value d))); [|lia].
    rewrite <- H0. pose proof (unpack_described _ _ _ H2 [] slack) as U. cbn [app length] in U.
    change d_slave_status with status_fields. rewrite U. reflexivity.
  - rewrite <- H in *. rewrite H1. unfold unpack_within. rewrite skipn_length.
    destruct (Z.leb_spec (d_len d) (Z.of_nat (length g - d_value d))); [|lia].
    set (v := firstn (Z.to_nat (d_len d)) (skipn (d_value d) g)) in *.
    assert (U : unpack_fields d_slave_status v 0 = Some None).
    { destruct (unpack_fields_cases d_slave_status v 0 ltac:(lia)) as [[O _]|[(_ & _ & E)|(_ & T & _)]].
      - apply overread_dec in O. vm_compute in O. contradiction.
      - exact E.
      - exfalso. change (table_size d_slave_status) with 27%nat in T. lia. }
    rewrite U. reflexivity.
Qed.

Lemma second_acts : forall x g ds adm evss, map (view g) ds = adm -> Forall (within g) ds ->
  Forall2 (acts x) adm evss ->
  second_pass x g ds = Some (handled_on x adm, concat evss).
Proof.
  intros x g. induction ds as [|d ds IH]; intros adm evss E W F; cbn [map] in E; subst adm.
  - inversion F; subst. unfold handled_on. cbn. now rewrite andb_false_r.
  - inversion F as [|? evs ? evss' F1 F2]; subst. inversion W as [|? ? W1 W2]; subst.
    cbn [second_pass]. destruct W1 as [W1 W1'].
    assert (P : pass2 x g d = Some (quiet x (d_name d), evs)).
    { apply (pass2_acts x g d (d_name d) (snd (view g d))); [reflexivity|assumption|assumption|reflexivity|exact F1]. }
    rewrite P. cbn [bind]. rewrite (IH _ _ eq_refl W2 F2). cbn [bind fst snd concat]. f_equal. f_equal.
    unfold handled_on. cbn [map existsb view fst]. unfold quiet.
    destruct (d_name d), (c_netsync x); reflexivity.
Qed.

Lemma view_firstn : forall n g d, within (firstn n g) d -> view (firstn n g) d = view g d.
Proof.
  intros n g d [W1 W2]. unfold view. f_equal.
  rewrite firstn_length in W2. rewrite skipn_firstn_comm, firstn_firstn. f_equal. lia.
Qed.
Lemma within_firstn : forall n g d, within (firstn n g) d -> within g d.
Proof. intros n g d [W1 W2]. split; [assumption|]. rewrite firstn_length in W2. lia. Qed.

Lemma fixed_kind : forall k, k <> KPDelayReq -> k <> KManagement -> fixed_size (kind_code k) = kind_size k.
Proof. intros [] A B; reflexivity || congruence. Qed.
Lemma fixed_any : forall k, k <> KManagement -> fixed_size (kind_code k) = kind_size k.
Proof. intros [] B; reflexivity || congruence. Qed.

Lemma tlvs_count : forall l, (length l <= length (tlvs_wire l))%nat.
Proof.
  induction l as [|t l IH]; [cbn; lia|]. change (tlvs_wire (t :: l)) with (tlv_wire t ++ tlvs_wire l).
  rewrite app_length, wire_len. cbn [length]. lia.
Qed.

Lemma process_exact : forall x k junk n g l, k <> KManagement ->
  firstn n g = firstn (kind_size k) g ++ tlvs_wire l -> (kind_size k <= length g)%nat ->
  Forall tlv_ok l -> org_last l ->
  let adm := admitted x k l in
  ((length adm <= 32)%nat -> ~ Exists (bad_caps x) adm -> forall evss, Forall2 (acts x) adm evss ->
     process_tlvs x (kind_code k) junk n g
     = Some (mkDone (handled_on x adm) (mkTrans (wants_mtie adm) (caps_of x adm)) (concat evss))) /\
  ((32 < length adm)%nat \/ Exists (bad_caps x) adm ->
     process_tlvs x (kind_code k) junk n g = Some (mkDone false no_trans [])).
Proof.
  intros x k junk n g l NM E L OK OL. cbv zeta. unfold process_tlvs.
  replace (kind_code k =? 13) with false by (destruct k; reflexivity || congruence).
  rewrite fixed_any by assumption.
  assert (Lk : length (firstn (kind_size k) g) = kind_size k) by (rewrite firstn_length; lia).
  assert (F : (length l < S (length (firstn n g)))%nat).
  { rewrite E, app_length. pose proof (tlvs_count l). lia. }
  destruct (scan_all l (S (length (firstn n g))) x k junk (firstn (kind_size k) g) OK OL F) as [G D].
  rewrite <- E, Lk in G, D.
  split.
  - intros H1 H2 evss H3. destruct (G H1 H2) as (ds & -> & V & W). cbn [bind].
    rewrite (second_acts x g ds (admitted x k l) evss).
    + cbn [bind fst snd]. now rewrite trans_start.
    + rewrite <- V. apply map_ext_in. intros d Hd. symmetry. apply view_firstn. rewrite Forall_forall in W. auto.
    + eapply Forall_impl; [|exact W]. apply within_firstn.
    + exact H3.
  - intros H. rewrite (D H). reflexivity.
Qed.

(** Decoding gives the kind and the believed octets. *)
Lemma decoded_kind : forall d h m, all_octets d -> decode d = Some (Some (h, m)) ->
  (34 <= length d)%nat /\ mtype h = claimed_code d /\ mlength h = claimed_length d.
Proof.
  intros d h m A D. unfold decode in D. destruct (Nat.ltb_spec (length d) 34); [discriminate|].
  destruct (unpack_header_any d A ltac:(lia)) as (h' & E & _ & _ & T & ML). rewrite E in D. cbn [rbind] in D.
  destruct (unpack_body _ _) as [[m'|]|] in D; cbn [rbind] in D; try discriminate.
  injection D as <- <-. auto.
Qed.

Lemma usable_nat : forall d, all_octets d ->
  (if claimed_length d <? Z.of_nat (length d) then Z.to_nat (claimed_length d) else length d) = usable d.
Proof.
  intros d A. unfold usable. pose proof (nth_octet d 2 A) as P. pose proof (nth_octet d 3 A) as Q.
  unfold is_octet, claimed_length in *. destruct (Z.ltb_spec (nth 2 d 0 * 256 + nth 3 d 0) (Z.of_nat (length d))); lia.
Qed.

Lemma receive_eq : forall x junk d h m, all_octets d -> decode d = Some (Some (h, m)) ->
  receive x junk d = match process_tlvs x (mtype h) junk (usable d) d with
                     | Some p => Some (Some (h, m, p))
                     | None => None
                     end.
Proof.
  intros x junk d h m A D. unfold receive. rewrite D. cbn [rbind fst snd].
  destruct (decoded_kind d h m A D) as (_ & _ & ->). rewrite usable_nat by assumption.
  destruct (process_tlvs x (mtype h) junk (usable d) d); reflexivity.
Qed.

(** *** Padding. *)
Lemma ld_zeros : forall n pre p, (n <= p)%nat -> ld n (pre ++ repeat 0 p) (length pre) = Some 0.
Proof.
  intros n pre p L. replace p with (n + (p - n))%nat by lia. rewrite repeat_app.
  assert (E : repeat 0 n = bytes n 0).
  { clear. induction n as [|n IH]; [reflexivity|]. cbn [repeat bytes]. rewrite Z.div_0_l by (apply Z.pow_nonzero; lia). now rewrite <- IH. }
  rewrite E, ld_bytes, Z.mod_0_l by (apply Z.pow_nonzero; lia). reflexivity.
Qed.

Lemma zero_round : forall fuel x ty junk pre p acc s, (4 <= p)%nat ->
  scan (S fuel) x ty junk (pre ++ repeat 0 p) (length pre) acc s
  = scan fuel x ty junk ((pre ++ repeat 0 4) ++ repeat 0 (p - 4)) (length (pre ++ repeat 0 4)) acc s.
Proof.
  intros fuel x ty junk pre p acc s L. cbn [scan]. rewrite app_length, repeat_length.
  destruct (Nat.leb_spec (length pre + p) (length pre)); [lia|].
  unfold unpack_tlv_header. rewrite app_length, repeat_length.
  destruct (Nat.ltb_spec (length pre + p - length pre) 2); [lia|].
  rewrite ld_zeros by lia. cbn [bind].
  destruct (Nat.ltb_spec (length pre + p - length pre) 4); [lia|]. cbn [andb Z.eqb].
  replace (pre ++ repeat 0 p) with ((pre ++ repeat 0 2) ++ repeat 0 (p - 2))
    by (rewrite <- app_assoc, <- repeat_app; do 2 f_equal; lia).
  replace (length pre + 2)%nat with (length (pre ++ repeat 0 2)) by (rewrite app_length, repeat_length; lia).
  rewrite ld_zeros by lia. cbn [bind].
  match goal with |- context [?a <? 0] => destruct (Z.ltb_spec a 0); [lia|] end.
  cbn [org_ext Z.eqb orb]. change (org_ext 0) with false. cbv iota. cbn [bind].
  change (find_handler 0 None) with (@None handler). cbv iota.
  f_equal.
  - rewrite <- !app_assoc, <- !repeat_app. do 2 f_equal. lia.
  - rewrite !app_length, !repeat_length. cbn. lia.
Qed.

Lemma scan_zeros : forall p fuel x ty junk pre acc s, (p < fuel)%nat ->
  (p mod 4 <> 1)%nat \/ junk = 0 ->
  scan fuel x ty junk (pre ++ repeat 0 p) (length pre) acc s = Some (Scanned acc s).
Proof.
  induction p as [p IH] using (well_founded_induction Wf_nat.lt_wf).
  intros fuel x ty junk pre acc s F H.
  destruct fuel as [|fuel]; [lia|].
  destruct (Nat.leb_spec 4 p) as [Bg|Sm].
  - rewrite zero_round by lia. apply IH; [lia|lia|].
    destruct H as [H|H]; [left|right; exact H].
    intros E. apply H. replace p with (p - 4 + 1 * 4)%nat by lia. rewrite Nat.mod_add by lia. exact E.
  - destruct p as [|p']; [apply scan_end; rewrite app_length; cbn; lia|].
    cbn [scan]. rewrite app_length, repeat_length.
    destruct (Nat.leb_spec (length pre + S p') (length pre)); [lia|].
    unfold unpack_tlv_header. rewrite app_length, repeat_length.
    destruct (Nat.ltb_spec (length pre + S p' - length pre) 2) as [L2|L2].
    + cbn [bind]. assert (p' = 0)%nat by lia. subst. destruct H as [H|H]; [elim H; reflexivity|]. subst. reflexivity.
    + rewrite ld_zeros by lia. cbn [bind].
      destruct (Nat.ltb_spec (length pre + S p' - length pre) 4); [|lia]. reflexivity.
Qed.

Lemma scan_zero_junk : forall p fuel x ty junk pre acc s, (p < fuel)%nat -> (p mod 4 = 1)%nat -> junk <> 0 ->
  scan fuel x ty junk (pre ++ repeat 0 p) (length pre) acc s = Some Dropped.
Proof.
  induction p as [p IH] using (well_founded_induction Wf_nat.lt_wf).
  intros fuel x ty junk pre acc s F H J.
  destruct fuel as [|fuel]; [lia|].
  destruct (Nat.leb_spec 4 p) as [Bg|Sm].
  - rewrite zero_round by lia. apply IH; [lia|lia| |exact J].
    pose proof (Nat.mod_add (p - 4) 1 4 ltac:(lia)) as M. replace (p - 4 + 1 * 4)%nat with p in M by lia. congruence.
  - assert (p = 1)%nat by (rewrite Nat.mod_small in H; lia). subst.
    cbn [scan]. rewrite app_length. cbn [repeat length].
    destruct (Nat.leb_spec (length pre + 1) (length pre)); [lia|].
    unfold unpack_tlv_header. rewrite app_length. cbn [length].
    destruct (Nat.ltb_spec (length pre + 1 - length pre) 2); [|lia]. cbn [bind].
    destruct (Z.eqb_spec junk 0); [contradiction|reflexivity].
Qed.

Lemma process_padded : forall x k junk n g l p, k <> KManagement ->
  firstn n g = firstn (kind_size k) g ++ tlvs_wire l ++ repeat 0 p -> (kind_size k <= length g)%nat ->
  Forall tlv_ok l -> Forall (fun t => is_org (t_type t) = false) l ->
  let adm := admitted x k l in
  (length adm <= 32)%nat -> ~ Exists (bad_caps x) adm ->
  (forall evss, (p mod 4 <> 1)%nat \/ junk = 0 -> Forall2 (acts x) adm evss ->
     process_tlvs x (kind_code k) junk n g
     = Some (mkDone (handled_on x adm) (mkTrans (wants_mtie adm) (caps_of x adm)) (concat evss))) /\
  ((p mod 4 = 1)%nat -> junk <> 0 -> process_tlvs x (kind_code k) junk n g = Some (mkDone false no_trans [])).
Proof.
  intros x k junk n g l p NM E L OK NO. cbv zeta. intros H1 H2. unfold process_tlvs.
  replace (kind_code k =? 13) with false by (destruct k; reflexivity || congruence).
  rewrite fixed_any by assumption.
  assert (Lk : length (firstn (kind_size k) g) = kind_size k) by (rewrite firstn_length; lia).
  assert (F : (length l + p < length (firstn n g))%nat).
  { rewrite E, !app_length, repeat_length, Lk. pose proof (tlvs_count l).
    assert (34 <= kind_size k)%nat by (destruct k; cbn; lia). lia. }
  replace (S (length (firstn n g))) with (length l + (S (length (firstn n g)) - length l))%nat by lia.
  destruct (scan_prefix l (S (length (firstn n g)) - length l) x k junk (firstn (kind_size k) g) (repeat 0 p) [] no_trans OK NO ltac:(cbn; lia)) as [G _].
  destruct (G H1 H2) as (ds & S1 & V & W). rewrite <- E, Lk in S1. rewrite <- E in V, W. rewrite S1.
  assert (Pos : (kind_size k + length (tlvs_wire l))%nat = length (firstn (kind_size k) g ++ tlvs_wire l)) by (rewrite app_length, Lk; reflexivity).
  assert (S2 : forall fu acc s, scan fu x (kind_code k) junk (firstn n g) (kind_size k + length (tlvs_wire l)) acc s
    = scan fu x (kind_code k) junk ((firstn (kind_size k) g ++ tlvs_wire l) ++ repeat 0 p) (length (firstn (kind_size k) g ++ tlvs_wire l)) acc s)
    by (intros; rewrite <- Pos, <- app_assoc, <- E; reflexivity).
  rewrite S2. split.
  - intros evss J H3. rewrite scan_zeros; [|lia|exact J]. cbn [bind app].
    rewrite (second_acts x g ds (admitted x k l) evss).
    + cbn [bind fst snd]. now rewrite trans_start.
    + rewrite <- V. apply map_ext_in. intros d Hd. symmetry. apply view_firstn. rewrite Forall_forall in W. auto.
    + eapply Forall_impl; [|exact W]. apply within_firstn.
    + exact H3.
  - intros J1 J2. rewrite scan_zero_junk; [reflexivity|lia|exact J1|exact J2].
Qed.
