(** Proofs about TLV processing (C42). *)
Require Import ZArith List Bool Lia.
Require Import ZifyBool.
Import ListNotations.
From Verif Require Import Base MsgSpec MsgModel MsgProof MsgProof2 TlvSpec TlvModel.
Open Scope Z_scope.

Lemma ld24_bytes : forall pre v rest, in_u 24 v ->
  ld24 (pre ++ bytes 3 v ++ rest) (length pre) = Some v.
Proof.
  intros pre v rest H. unfold ld24.
  assert (E : bytes 3 v = bytes 1 (Z.shiftr v 16) ++ bytes 2 v).
  { rewrite Z.shiftr_div_pow2 by lia. cbn [bytes app].
    rewrite !Z.div_div by (try apply pow256_pos; apply Z.pow_nonzero; lia). reflexivity. }
  rewrite E, <- app_assoc. rewrite ld_bytes. cbn [bind].
  replace (length pre + 1)%nat with (length (pre ++ bytes 1 (Z.shiftr v 16))) by (rewrite app_length, bytes_length; lia).
  rewrite app_assoc, ld_bytes. cbn [bind]. f_equal.
  rewrite Z.shiftr_div_pow2 by lia. unfold in_u in H.
  change (256 ^ Z.of_nat 1) with 256. change (256 ^ Z.of_nat 2) with 65536. change (2^16) with 65536.
  change (2^24) with 16777216 in H.
  rewrite lor_shift; [| lia | lia |]; change (2^16) with 65536; lia.
Qed.

(** An octet-exact view of what is dispatched. *)
Definition view (b : octets) (d : dispatch) : concern * octets :=
  (d_name d, firstn (Z.to_nat (d_len d)) (skipn (d_value d) b)).

Definition within (b : octets) (d : dispatch) : Prop :=
  0 <= d_len d /\ (d_value d + Z.to_nat (d_len d) <= length b)%nat.

Lemma header_at : forall junk pre t rest, tlv_ok t ->
  unpack_tlv_header junk (pre ++ tlv_wire t ++ rest) (length pre)
  = Some (t_type t, Some (Z.of_nat (length (t_value t)))).
Proof.
  intros junk pre t rest (A & B & _). unfold unpack_tlv_header, tlv_wire. rewrite !app_length, !bytes_length.
  destruct (Nat.ltb_spec (length pre + (2 + (2 + length (t_value t)) + length rest) - length pre) 2); [lia|].
  rewrite <- !app_assoc, ld_bytes. cbn [bind].
  rewrite (u_mod 2) by exact A.
  destruct (Nat.ltb_spec (length pre + (2 + (2 + length (t_value t)) + length rest) - length pre) 4); [lia|].
  rewrite andb_false_r.
  replace (length pre + 2)%nat with (length (pre ++ bytes 2 (t_type t))) by (rewrite app_length, bytes_length; lia).
  rewrite app_assoc, ld_bytes. cbn [bind]. rewrite (u_mod 2) by exact B. reflexivity.
Qed.

Lemma ld24_any : forall b off, all_octets b -> (off + 3 <= length b)%nat ->
  exists v, ld24 b off = Some v /\ in_u 24 v /\ bytes 3 v = part off 3 b.
Proof.
  intros b off A L.
  assert (P : b = firstn off b ++ part off 3 b ++ skipn (off + 3) b).
  { unfold part. rewrite <- skipn_add, firstn_skipn, firstn_skipn. reflexivity. }
  assert (Lp : length (part off 3 b) = 3%nat) by (unfold part; rewrite firstn_length, skipn_length; lia).
  assert (Ap : all_octets (part off 3 b)).
  { unfold part. apply all_firstn. unfold all_octets in *. rewrite Forall_forall in *. intros y Y. apply A.
    rewrite <- (firstn_skipn off b). apply in_or_app. auto. }
  exists (be (part off 3 b)).
  assert (R : in_u 24 (be (part off 3 b))) by (apply be_u; [assumption|rewrite Lp; reflexivity]).
  assert (W : bytes 3 (be (part off 3 b)) = part off 3 b) by (apply wire_be; assumption).
  split; [|split; assumption].
  pose proof (ld24_bytes (firstn off b) _ (skipn (off + 3) b) R) as H.
  rewrite W, <- P, firstn_length, Nat.min_l in H by lia. exact H.
Qed.

(** First pass. *)
Definition caps_step (x : ctx) (a : option (Z * Z)) (e : concern * octets) : option (Z * Z) :=
  match fst e with
  | Caps => if c_minor x <? 1 then a else Some (nth 0 (snd e) 0 mod 16, nth 1 (snd e) 0 mod 16)
  | _ => a
  end.
Definition trans_step (x : ctx) (t : transient) (e : concern * octets) : transient :=
  mkTrans (tr_mtie t || match fst e with MtieReq => true | _ => false end) (caps_step x (tr_caps t) e).

Lemma land15_mod : forall v, Z.land v 15 = v mod 16.
Proof. intros. change 15 with (Z.ones 4). rewrite Z.land_ones by lia. reflexivity. Qed.

Lemma caps_unpack : forall v, (2 <= length v)%nat ->
  unpack_fields d_port_caps v 0 = Some (Some [nth 0 v 0 mod 16; nth 1 v 0 mod 16]).
Proof.
  intros [|a [|b v]] L; cbn in L; try lia.
  unfold d_port_caps. cbn [unpack_fields]. rewrite !check_ok by (cbn; lia).
  cbn. now rewrite !land15_mod.
Qed.
Lemma caps_short : forall v, (length v < 2)%nat -> unpack_fields d_port_caps v 0 = Some None.
Proof. intros [|a [|b v]] L; cbn in L; try lia; reflexivity. Qed.

Lemma bad_caps_dec : forall x e, bad_caps x e \/ ~ bad_caps x e.
Proof.
  intros x [c v]. unfold bad_caps. cbn [fst snd].
  destruct c; try (right; intros (? & _); discriminate).
  destruct (Z_le_dec 1 (c_minor x)); [|right; lia].
  destruct (Nat.ltb_spec (length v) 2); [left; auto|right; intros (_ & _ & H1); lia].
Qed.

Lemma trans_same : forall t, mkTrans (tr_mtie t || false) (tr_caps t) = t.
Proof. intros []. cbn. now rewrite orb_false_r. Qed.

Lemma pass1_good : forall x c v t, ~ bad_caps x (c, v) ->
  pass1 x c v t = Some (Some (trans_step x t (c, v))).
Proof.
  intros x c v t B. unfold trans_step, caps_step. cbn [fst snd].
  destruct c; cbn [pass1]; rewrite ?trans_same, ?orb_true_r; try reflexivity.
  destruct (Z.ltb_spec (c_minor x) 1); [now rewrite trans_same|].
  destruct (Nat.ltb_spec (length v) 2).
  - exfalso. apply B. split; [reflexivity|]. cbn [snd]. split; [lia|assumption].
  - rewrite caps_unpack by assumption. cbn [rbind]. now rewrite orb_false_r.
Qed.
Lemma pass1_bad : forall x c v t, bad_caps x (c, v) -> pass1 x c v t = Some None.
Proof.
  intros x c v t (C & M & L). cbn in C, L. subst. cbn [pass1].
  destruct (Z.ltb_spec (c_minor x) 1); [lia|]. now rewrite caps_short.
Qed.

(** The handlers' table. *)
Definition handler_of (c : concern) : handler :=
  match c with
  | MonReq => nth 0 tlv_handlers (mkHandler 0 0 0 Pad 0 0)
  | MtieReq => nth 1 tlv_handlers (mkHandler 0 0 0 Pad 0 0)
  | Pad => nth 2 tlv_handlers (mkHandler 0 0 0 Pad 0 0)
  | Timing => nth 3 tlv_handlers (mkHandler 0 0 0 Pad 0 0)
  | Computed => nth 4 tlv_handlers (mkHandler 0 0 0 Pad 0 0)
  | TxStamps => nth 5 tlv_handlers (mkHandler 0 0 0 Pad 0 0)
  | Status => nth 6 tlv_handlers (mkHandler 0 0 0 Pad 0 0)
  | Caps => nth 7 tlv_handlers (mkHandler 0 0 0 Pad 0 0)
  end.
Lemma handler_name : forall c, h_name (handler_of c) = c.
Proof. now destruct c. Qed.

Lemma admit_ok : forall x c k,
  check_acl_mask x (h_acl (handler_of c)) && negb (Z.land (Z.shiftl 1 (kind_code k)) (h_kinds (handler_of c)) =? 0)
  = trusted x c && belongs c k.
Proof. intros [[] [] ? ? ? ?] [] []; reflexivity. Qed.

Lemma find_plain : forall t, is_org (t_type t) = false ->
  find_handler (t_type t) None = option_map handler_of (meaning t).
Proof.
  intros [ty v] O. unfold is_org in O. cbn [t_type] in *. unfold meaning, find_handler. cbn [t_type].
  cbn [tlv_handlers find h_type]. rewrite !andb_true_r.
  repeat match goal with |- context [?a =? ty] => rewrite (Z.eqb_sym a ty) end.
  repeat (match goal with |- context [if ty =? ?n then _ else _] => destruct (Z.eqb_spec ty n); [subst; try reflexivity; discriminate|] end).
  reflexivity.
Qed.

Lemma bytes_inj : forall n v v', in_u (8 * Z.of_nat n) v -> in_u (8 * Z.of_nat n) v' -> bytes n v = bytes n v' -> v = v'.
Proof. intros n v v' A B E. rewrite <- (u_mod n v), <- (u_mod n v') by assumption. rewrite <- !be_bytes. now rewrite E. Qed.

Lemma app_inj_len : forall A (a b c d : list A), length a = length c -> a ++ b = c ++ d -> a = c /\ b = d.
Proof.
  induction a as [|x a IH]; intros b [|y c] d L E; cbn in *; try discriminate; [auto|].
  injection E as -> E. injection L as L. destruct (IH _ _ _ L E) as [-> ->]. auto.
Qed.

Lemma find_org : forall t o sb, is_org (t_type t) = true -> in_u 24 o -> in_u 24 sb ->
  firstn 6 (t_value t) = bytes 3 o ++ bytes 3 sb ->
  find_handler (t_type t) (Some (o, sb)) = option_map handler_of (meaning t).
Proof.
  intros [ty v] o sb O Ro Rs E. unfold is_org in O. cbn [t_type t_value] in *. unfold meaning, find_handler. cbn [t_type t_value].
  assert (T : ty = 3 \/ ty = 16384 \/ ty = 32768) by lia.
  destruct T as [->|[->| ->]]; try reflexivity.
  change (find _ tlv_handlers) with
    (if (o =? 3923) && (sb =? 1) then Some (handler_of Status) else None).
  change (if 32768 =? 8702 then _ else _) with
    (if list_eq_dec Z.eq_dec (firstn 6 v) sfc_status then Some Status else None).
  rewrite E. destruct (list_eq_dec Z.eq_dec (bytes 3 o ++ bytes 3 sb) sfc_status) as [Q|Q].
  - unfold sfc_status in Q. apply app_inj_len in Q; [|now rewrite !bytes_length]. destruct Q as [Q1 Q2].
    apply bytes_inj in Q1; [|exact Ro|unfold in_u; lia]. apply bytes_inj in Q2; [|exact Rs|unfold in_u; lia].
    subst. reflexivity.
  - destruct (Z.eqb_spec o 3923); [|reflexivity]. destruct (Z.eqb_spec sb 1); [|reflexivity].
    subst. now elim Q.
Qed.

(** One round of the loop. *)
Definition adm1 (x : ctx) (k : kind) (t : tlv) : option (concern * octets) :=
  match meaning t with
  | Some c => if trusted x c && belongs c k then Some (c, passed c (t_value t)) else None
  | None => None
  end.
Definition ol (t : tlv) : nat := if is_org (t_type t) then 6%nat else 0%nat.
Definition disp_of (pre : nat) (t : tlv) (c : concern) : dispatch :=
  mkDisp c pre (pre + 4 + ol t) (Z.of_nat (length (t_value t) - ol t)).

Lemma adm_cons : forall x k t l, admitted x k (t :: l) =
  (match adm1 x k t with Some e => [e] | None => [] end) ++ admitted x k l.
Proof. intros. unfold admitted, adm1. cbn [flat_map]. destruct (meaning t) as [c|]; [|reflexivity]. now destruct (trusted x c && belongs c k). Qed.

Lemma org_same : forall t, org_ext t = is_org t.
Proof. reflexivity. Qed.

Lemma status_org : forall t, meaning t = Some Status -> is_org (t_type t) = true.
Proof.
  intros [ty v]. unfold meaning, is_org. cbn [t_type t_value]. intros H.
  repeat (match type of H with (if ?c then _ else _) = _ => destruct c eqn:?; [try discriminate|] end); try discriminate.
  lia.
Qed.
Lemma org_status : forall t c, meaning t = Some c -> is_org (t_type t) = true -> c = Status.
Proof.
  intros [ty v] c. unfold meaning, is_org. cbn [t_type t_value]. intros H O.
  repeat (match type of H with (if ?c then _ else _) = _ => destruct c eqn:?; [try lia|] end); try discriminate.
  destruct (list_eq_dec Z.eq_dec (firstn 6 v) sfc_status); [|discriminate]. congruence.
Qed.
Lemma passed_skip : forall t c, meaning t = Some c -> passed c (t_value t) = skipn (ol t) (t_value t).
Proof.
  intros t c M. unfold ol. destruct (is_org (t_type t)) eqn:O.
  - rewrite (org_status _ _ M O). reflexivity.
  - destruct c; try reflexivity. rewrite (status_org _ M) in O. discriminate.
Qed.

Lemma value_at : forall pre t rest, tlv_ok t ->
  firstn (length (t_value t) - ol t) (skipn (length pre + 4 + ol t) (pre ++ tlv_wire t ++ rest))
  = skipn (ol t) (t_value t).
Proof.
  intros pre t rest (_ & _ & _ & O). unfold tlv_wire.
  set (q := pre ++ bytes 2 (t_type t) ++ bytes 2 (Z.of_nat (length (t_value t)))).
  replace (pre ++ (bytes 2 (t_type t) ++ bytes 2 (Z.of_nat (length (t_value t))) ++ t_value t) ++ rest)
    with (q ++ t_value t ++ rest) by (unfold q; now rewrite <- !app_assoc).
  replace (length pre + 4 + ol t)%nat with (length q + ol t)%nat
    by (unfold q; rewrite !app_length, !bytes_length; lia).
  rewrite <- skipn_add.
  rewrite skipn_app, skipn_all, Nat.sub_diag. cbn [app skipn].
  assert (L : (ol t <= length (t_value t))%nat) by (unfold ol in *; destruct (is_org (t_type t)); [auto|lia]).
  rewrite skipn_app, firstn_app, skipn_length, Nat.sub_diag, firstn_O, app_nil_r.
  apply firstn_all2. rewrite skipn_length. lia.
Qed.

Lemma wire_len : forall t, length (tlv_wire t) = (4 + length (t_value t))%nat.
Proof. intros. unfold tlv_wire. rewrite !app_length, !bytes_length. lia. Qed.

Section Round.
  Variables (x : ctx) (k : kind) (junk : Z) (pre : octets) (t : tlv) (rest : octets).
  Hypothesis OK : tlv_ok t.
  Let b := pre ++ tlv_wire t ++ rest.
  Let next := (length pre + 4 + ol t + length (t_value t))%nat.

  Lemma b_len : length b = (length pre + 4 + length (t_value t) + length rest)%nat.
  Proof. unfold b. rewrite !app_length, wire_len. lia. Qed.

  Lemma org_at : is_org (t_type t) = true -> exists o sb,
    unpack_org_header b (length pre + 4) = Some (Some (o, sb)) /\ in_u 24 o /\ in_u 24 sb /\
    firstn 6 (t_value t) = bytes 3 o ++ bytes 3 sb.
  Proof.
    intros O. destruct OK as (_ & _ & A & L). specialize (L O).
    destruct (ld24_any (t_value t) 0 A ltac:(lia)) as (o & _ & Ro & Bo).
    destruct (ld24_any (t_value t) 3 A ltac:(lia)) as (sb & _ & Rs & Bs).
    exists o, sb. split; [|split; [assumption|split; [assumption|]]].
    2:{ rewrite Bo, Bs. change 3%nat with (0 + 3)%nat at 2. rewrite <- part_app. reflexivity. }
    assert (V : t_value t = bytes 3 o ++ bytes 3 sb ++ skipn 6 (t_value t)).
    { rewrite Bo, Bs. rewrite app_assoc. change 3%nat with (0 + 3)%nat at 2. rewrite <- part_app.
      symmetry. apply (firstn_skipn 6). }
    unfold unpack_org_header. rewrite b_len.
    destruct (Nat.ltb_spec (length pre + 4 + length (t_value t) + length rest - (length pre + 4)) 6); [lia|].
    set (q := pre ++ bytes 2 (t_type t) ++ bytes 2 (Z.of_nat (length (t_value t)))).
    assert (Q : length q = (length pre + 4)%nat) by (unfold q; rewrite !app_length, !bytes_length; lia).
    assert (E : b = q ++ bytes 3 o ++ bytes 3 sb ++ skipn 6 (t_value t) ++ rest).
    { unfold b, q, tlv_wire. rewrite V at 2. now rewrite <- !app_assoc. }
    rewrite E, <- Q, ld24_bytes by assumption. cbn [bind].
    replace (length q + 3)%nat with (length (q ++ bytes 3 o)) by (rewrite app_length, bytes_length; lia).
    rewrite (app_assoc q), ld24_bytes by assumption. reflexivity.
  Qed.

  Lemma round_open : forall fuel acc s,
    scan (S fuel) x (kind_code k) junk b (length pre) acc s =
    match adm1 x k t with
    | None => scan fuel x (kind_code k) junk b next acc s
    | Some (c, v) =>
        if Nat.eqb (length acc) 32 then Some Dropped
        else match pass1 x c (firstn (length (t_value t)) (skipn (length pre + 4 + ol t) b)) s with
             | None => None
             | Some None => Some Dropped
             | Some (Some s') => scan fuel x (kind_code k) junk b next (acc ++ [disp_of (length pre) t c]) s'
             end
    end.
  Proof.
    intros fuel acc s. pose proof OK as (A & B & O & L). unfold adm1.
    change (scan (S fuel) x (kind_code k) junk b (length pre) acc s) with
      (if Nat.leb (length b) (length pre) then Some (Scanned acc s) else
       do hd <- unpack_tlv_header junk b (length pre);
       match hd with
       | (t, None) => if t =? 0 then Some (Scanned acc s) else Some Dropped
       | (t, Some len) =>
         if Z.of_nat (length b - (length pre + 4)) <? len then Some Dropped
         else
          do sub <- (if org_ext t then
                       do r <- unpack_org_header b (length pre + 4);
                       Some (match r with None => None | Some o => Some (Some o) end)
                     else Some (Some None));
          match sub with
          | None => Some Dropped
          | Some org =>
            match find_handler t org with
            | None => scan fuel x (kind_code k) junk b ((if org_ext t then (length pre + 4 + 6)%nat else (length pre + 4)%nat) + Z.to_nat len) acc s
            | Some h =>
              if check_acl_mask x (h_acl h) && negb (Z.land (Z.shiftl 1 (kind_code k)) (h_kinds h) =? 0) then
                if Nat.eqb (length acc) max_tlvs then Some Dropped
                else
                  do r <- pass1 x (h_name h) (firstn (Z.to_nat len) (skipn (if org_ext t then (length pre + 4 + 6)%nat else (length pre + 4)%nat) b)) s;
                  match r with
                  | None => Some Dropped
                  | Some s => scan fuel x (kind_code k) junk b ((if org_ext t then (length pre + 4 + 6)%nat else (length pre + 4)%nat) + Z.to_nat len)
                        (acc ++ [mkDisp (h_name h) (length pre) (if org_ext t then (length pre + 4 + 6)%nat else (length pre + 4)%nat) (if org_ext t then u16 (len - 6) else len)]) s
                  end
              else scan fuel x (kind_code k) junk b ((if org_ext t then (length pre + 4 + 6)%nat else (length pre + 4)%nat) + Z.to_nat len) acc s
            end
          end
      end).
    destruct (Nat.leb_spec (length b) (length pre)) as [Q|_]; [rewrite b_len in Q; lia|].
    unfold b at 1. rewrite header_at by exact OK. cbn [bind].
    destruct (Z.ltb_spec (Z.of_nat (length b - (length pre + 4))) (Z.of_nat (length (t_value t)))) as [Q|_]; [rewrite b_len in Q; lia|].
    rewrite !org_same, !Nat2Z.id. unfold next, disp_of, ol.
    destruct (is_org (t_type t)) eqn:Og.
    - destruct (org_at Og) as (o & sb & E & Ro & Rs & F). rewrite E. cbn [bind].
      rewrite (find_org t o sb Og Ro Rs F). destruct (meaning t) as [c|] eqn:M; cbn [option_map]; [|reflexivity].
      rewrite admit_ok, handler_name. destruct (trusted x c && belongs c k); [|reflexivity].
      destruct (Nat.eqb_spec (length acc) 32) as [Q|Q].
      + rewrite Q. reflexivity.
      + destruct (Nat.eqb_spec (length acc) max_tlvs) as [Q'|_]; [now elim Q|]. unfold bind.
        replace (u16 (Z.of_nat (length (t_value t)) - 6)) with (Z.of_nat (length (t_value t) - 6)).
        * reflexivity.
        * specialize (L eq_refl). unfold u16. unfold in_u in B. change (2^16) with 65536 in *. lia.
    - cbn [bind]. rewrite find_plain by assumption.
      destruct (meaning t) as [c|] eqn:M; cbn [option_map]; [|rewrite !Nat.add_0_r; reflexivity].
      rewrite admit_ok, handler_name. destruct (trusted x c && belongs c k); [|rewrite !Nat.add_0_r; reflexivity].
      destruct (Nat.eqb_spec (length acc) 32) as [Q|Q].
      + rewrite Q. reflexivity.
      + destruct (Nat.eqb_spec (length acc) max_tlvs) as [Q'|_]; [now elim Q|]. unfold bind.
        rewrite !Nat.add_0_r, !Nat.sub_0_r. reflexivity.
  Qed.
End Round.

Lemma adm1_some : forall x k t c v, adm1 x k t = Some (c, v) -> meaning t = Some c /\ v = passed c (t_value t) /\
  trusted x c && belongs c k = true.
Proof.
  intros x k t c v. unfold adm1. destruct (meaning t) as [c'|]; [|discriminate].
  destruct (trusted x c' && belongs c' k) eqn:T; [|discriminate]. intros E. injection E as -> <-. auto.
Qed.

Lemma pass1_value : forall x t c pre rest s, tlv_ok t -> meaning t = Some c ->
  pass1 x c (firstn (length (t_value t)) (skipn (length pre + 4 + ol t) (pre ++ tlv_wire t ++ rest))) s
  = pass1 x c (passed c (t_value t)) s.
Proof.
  intros x t c pre rest s OK M. destruct (is_org (t_type t)) eqn:O.
  - rewrite (org_status _ _ M O). reflexivity.
  - assert (Z : ol t = 0%nat) by (unfold ol; now rewrite O).
    pose proof (value_at pre t rest OK) as V. rewrite Z in *. rewrite Nat.sub_0_r in V. rewrite V.
    rewrite (passed_skip _ _ M), Z. reflexivity.
Qed.

Lemma view_disp : forall t c pre rest, tlv_ok t -> meaning t = Some c ->
  view (pre ++ tlv_wire t ++ rest) (disp_of (length pre) t c) = (c, passed c (t_value t)).
Proof.
  intros t c pre rest OK M. unfold view, disp_of. cbn [d_name d_len d_value]. rewrite Nat2Z.id.
  rewrite value_at by assumption. now rewrite (passed_skip _ _ M).
Qed.

Lemma within_disp : forall t c pre rest, tlv_ok t ->
  within (pre ++ tlv_wire t ++ rest) (disp_of (length pre) t c).
Proof.
  intros t c pre rest (_ & _ & _ & O). unfold within, disp_of. cbn [d_len d_value]. rewrite Nat2Z.id, !app_length, wire_len.
  unfold ol. destruct (is_org (t_type t)); [specialize (O eq_refl)|]; lia.
Qed.

Lemma round : forall x k junk pre t rest fuel acc s, tlv_ok t ->
  scan (S fuel) x (kind_code k) junk (pre ++ tlv_wire t ++ rest) (length pre) acc s =
  let next := (length pre + 4 + ol t + length (t_value t))%nat in
  match adm1 x k t with
  | None => scan fuel x (kind_code k) junk (pre ++ tlv_wire t ++ rest) next acc s
  | Some (c, v) =>
      if Nat.eqb (length acc) 32 then Some Dropped
      else match pass1 x c v s with
           | None => None
           | Some None => Some Dropped
           | Some (Some s') => scan fuel x (kind_code k) junk (pre ++ tlv_wire t ++ rest) next (acc ++ [disp_of (length pre) t c]) s'
           end
  end.
Proof.
  intros x k junk pre t rest fuel acc s OK. rewrite round_open by assumption. cbv zeta.
  destruct (adm1 x k t) as [[c v]|] eqn:E; [|reflexivity].
  destruct (adm1_some _ _ _ _ _ E) as (M & -> & _). rewrite pass1_value by assumption. reflexivity.
Qed.

Lemma scan_prefix : forall l fuel x k junk pre rest acc s,
  Forall tlv_ok l -> Forall (fun t => is_org (t_type t) = false) l -> (length acc <= 32)%nat ->
  let b := pre ++ tlvs_wire l ++ rest in
  let adm := admitted x k l in
  ((length acc + length adm <= 32)%nat -> ~ Exists (bad_caps x) adm ->
     exists acc', scan (length l + fuel) x (kind_code k) junk b (length pre) acc s
       = scan fuel x (kind_code k) junk b (length pre + length (tlvs_wire l)) (acc ++ acc') (fold_left (trans_step x) adm s)
       /\ map (view b) acc' = adm /\ Forall (within b) acc') /\
  ((32 < length acc + length adm)%nat \/ Exists (bad_caps x) adm ->
     scan (length l + fuel) x (kind_code k) junk b (length pre) acc s = Some Dropped).
Proof.
  induction l as [|t l IH]; intros fuel x k junk pre rest acc s OK NO L; cbv zeta.
  - split.
    + intros _ _. exists []. cbn. rewrite app_nil_r, Nat.add_0_r. auto using Forall_nil.
    + intros [H|H]; [cbn in H; lia|inversion H].
  - inversion OK as [|? ? OK1 OK2]; subst. inversion NO as [|? ? NO1 NO2]; subst.
    assert (Z : ol t = 0%nat) by (unfold ol; now rewrite NO1).
    rewrite adm_cons. cbn [length Nat.add].
    assert (B : pre ++ tlvs_wire (t :: l) ++ rest = pre ++ tlv_wire t ++ (tlvs_wire l ++ rest))
      by (unfold tlvs_wire; cbn [flat_map]; now rewrite <- app_assoc).
    assert (B' : pre ++ tlv_wire t ++ (tlvs_wire l ++ rest) = (pre ++ tlv_wire t) ++ tlvs_wire l ++ rest) by now rewrite <- app_assoc.
    assert (N : (length pre + 4 + ol t + length (t_value t))%nat = length (pre ++ tlv_wire t))
      by (rewrite app_length, wire_len, Z; lia).
    assert (N2 : (length (pre ++ tlv_wire t) + length (tlvs_wire l))%nat = (length pre + length (tlvs_wire (t :: l)))%nat)
      by (unfold tlvs_wire; cbn [flat_map]; rewrite !app_length; lia).
    rewrite B, round by assumption. cbv zeta. rewrite N.
    destruct (adm1 x k t) as [[c v]|] eqn:E.
    + destruct (adm1_some _ _ _ _ _ E) as (M & V & _).
      pose proof (view_disp t c pre (tlvs_wire l ++ rest) OK1 M) as W. rewrite <- V in W.
      pose proof (within_disp t c pre (tlvs_wire l ++ rest) OK1) as Wi.
      cbn [app length]. rewrite B', <- N2 in *.
      destruct (Nat.eqb_spec (length acc) 32) as [Q|Q].
      * split; [intros H; lia|intros _; reflexivity].
      * destruct (bad_caps_dec x (c, v)) as [Bd|Bd].
        -- split; [intros _ H; elim H; now constructor|]. intros _. now rewrite pass1_bad.
        -- rewrite pass1_good by assumption.
           assert (L' : (length (acc ++ [disp_of (length pre) t c]) <= 32)%nat) by (rewrite app_length; cbn; lia).
           destruct (IH fuel x k junk (pre ++ tlv_wire t) rest (acc ++ [disp_of (length pre) t c]) (trans_step x s (c, v)) OK2 NO2 L') as [G D].
           split.
           ++ intros H1 H2. destruct G as (acc' & G1 & G2 & G3).
              ** rewrite app_length; cbn [length]; lia.
              ** intros X. apply H2. now constructor.
              ** exists (disp_of (length pre) t c :: acc'). split.
                 --- rewrite G1. cbn [fold_left]. rewrite <- (app_assoc acc). reflexivity.
                 --- split; [cbn [map]; now rewrite W, G2|constructor; [exact Wi|exact G3]].
           ++ intros H. apply D. rewrite app_length; cbn [length]. destruct H as [H|H]; [left; lia|].
              inversion H; subst; [contradiction|now right].
    + cbn [app length]. rewrite B', <- N2. apply IH; assumption.
Qed.

(** The end of the message. *)
Lemma scan_end : forall fuel x ty junk b off acc s, (length b <= off)%nat ->
  scan (S fuel) x ty junk b off acc s = Some (Scanned acc s).
Proof. intros. cbn [scan]. destruct (Nat.leb_spec (length b) off); [reflexivity|lia]. Qed.

Lemma split_org_last : forall l, org_last l -> Forall (fun t => is_org (t_type t) = false) l \/
  exists l' t, l = l' ++ [t] /\ Forall (fun t => is_org (t_type t) = false) l' /\ is_org (t_type t) = true.
Proof.
  induction l as [|t l IH]; intros H; [left; constructor|].
  destruct l as [|t' l].
  - destruct (is_org (t_type t)) eqn:E; [right; exists [], t; auto|left; auto].
  - destruct H as [H1 H2]. destruct (IH H2) as [F|(l' & u & E & F & O)].
    + left. constructor; assumption.
    + right. exists (t :: l'), u. rewrite E. split; [reflexivity|]. split; [constructor; assumption|assumption].
Qed.

Lemma adm_app : forall x k a b, admitted x k (a ++ b) = admitted x k a ++ admitted x k b.
Proof. intros. unfold admitted. apply flat_map_app. Qed.
Lemma wires_app : forall a b, tlvs_wire (a ++ b) = tlvs_wire a ++ tlvs_wire b.
Proof. intros. unfold tlvs_wire. apply flat_map_app. Qed.

(** A whole list of TLVs. *)
Lemma scan_all : forall l fuel x k junk pre, Forall tlv_ok l -> org_last l -> (length l < fuel)%nat ->
  let b := pre ++ tlvs_wire l in
  let adm := admitted x k l in
  ((length adm <= 32)%nat -> ~ Exists (bad_caps x) adm ->
     exists ds, scan fuel x (kind_code k) junk b (length pre) [] no_trans
       = Some (Scanned ds (fold_left (trans_step x) adm no_trans)) /\ map (view b) ds = adm /\ Forall (within b) ds) /\
  ((32 < length adm)%nat \/ Exists (bad_caps x) adm ->
     scan fuel x (kind_code k) junk b (length pre) [] no_trans = Some Dropped).
Proof.
  intros l fuel x k junk pre OK OL F. cbv zeta.
  destruct (split_org_last l OL) as [N|(l' & t & -> & N & O)].
  - replace fuel with (length l + S (fuel - length l - 1))%nat by lia.
    destruct (scan_prefix l (S (fuel - length l - 1)) x k junk pre [] [] no_trans OK N ltac:(cbn; lia)) as [G D].
    rewrite !app_nil_r in *. split; [|exact D].
    intros H1 H2. destruct (G H1 H2) as (ds & E1 & E2 & E3). exists ds. split; [|split; [exact E2|exact E3]].
    rewrite E1. apply scan_end. rewrite app_length. lia.
  - apply Forall_app in OK. destruct OK as [OK1 OK2]. inversion OK2 as [|? ? OKt _]; subst.
    rewrite app_length in F. cbn [length] in F.
    rewrite adm_app, wires_app. replace (tlvs_wire [t]) with (tlv_wire t) by (cbn; now rewrite app_nil_r).
    set (fuel' := (fuel - length l' - 2)%nat).
    replace fuel with (length l' + S (S fuel'))%nat by lia.
    destruct (scan_prefix l' (S (S fuel')) x k junk pre (tlv_wire t) [] no_trans OK1 N ltac:(cbn; lia)) as [G D].
    cbn [length Nat.add] in G, D.
    assert (A : admitted x k [t] = match adm1 x k t with Some e => [e] | None => [] end) by (rewrite adm_cons; now rewrite app_nil_r).
    rewrite A. 
    assert (NB : forall e, adm1 x k t = Some e -> fst e = Status).
    { intros [c v] E. destruct (adm1_some _ _ _ _ _ E) as (M & _). apply (org_status _ _ M O). }
    assert (R : pre ++ tlvs_wire l' ++ tlv_wire t = (pre ++ tlvs_wire l') ++ tlv_wire t ++ []) by now rewrite app_nil_r, app_assoc.
    assert (step : forall acc s, scan (S (S fuel')) x (kind_code k) junk (pre ++ tlvs_wire l' ++ tlv_wire t) (length pre + length (tlvs_wire l')) acc s
      = match adm1 x k t with
        | None => Some (Scanned acc s)
        | Some (c, v) => if Nat.eqb (length acc) 32 then Some Dropped
                         else Some (Scanned (acc ++ [disp_of (length (pre ++ tlvs_wire l')) t c]) (trans_step x s (c, v)))
        end).
    { intros acc s. rewrite <- app_length, R, round by assumption. cbv zeta.
      assert (En : (length ((pre ++ tlvs_wire l') ++ tlv_wire t ++ []) <= length (pre ++ tlvs_wire l') + 4 + ol t + length (t_value t))%nat)
        by (rewrite app_nil_r, app_length, wire_len; lia).
      destruct (adm1 x k t) as [[c v]|] eqn:E.
      - destruct (Nat.eqb (length acc) 32); [reflexivity|].
        rewrite pass1_good; [now apply scan_end|].
        intros (C & _). specialize (NB _ eq_refl). congruence.
      - now apply scan_end. }
    split.
    + intros H1 H2. rewrite app_length in H1.
      assert (H2' : ~ Exists (bad_caps x) (admitted x k l')) by (intros X; apply H2; apply Exists_app; auto).
      destruct (G ltac:(lia) H2') as (ds & E1 & E2 & E3). rewrite E1, step.
      destruct (adm1 x k t) as [[c v]|] eqn:E.
      * destruct (adm1_some _ _ _ _ _ E) as (M & V & _).
        assert (Lds : length ds = length (admitted x k l')) by (rewrite <- E2; now rewrite map_length).
        destruct (Nat.eqb_spec (length ([] ++ ds)) 32) as [Q|Q]; [cbn [app length] in *; lia|].
        eexists. split; [rewrite fold_left_app; reflexivity|]. cbn [app]. split;
        [|apply Forall_app; split; [exact E3|constructor; [rewrite R; now apply within_disp|constructor]]].
        rewrite map_app, E2. cbn [map]. rewrite R, view_disp by assumption. now rewrite V.
      * rewrite app_nil_r. exists ds. split; [reflexivity|split; [exact E2|exact E3]].
    + intros H.
      destruct (Nat.leb_spec (length (admitted x k l')) 32) as [Le|Gt]; [|apply D; left; exact Gt].
      assert (Dec : Exists (bad_caps x) (admitted x k l') \/ ~ Exists (bad_caps x) (admitted x k l')).
      { clear. induction (admitted x k l') as [|e m IH]; [right; intros X; inversion X|].
        destruct (bad_caps_dec x e); [left; now constructor|]. destruct IH; [left; now constructor 2|].
        right. intros X. inversion X; contradiction. }
      destruct Dec as [Ba|Nb]; [apply D; right; exact Ba|].
      destruct (G Le Nb) as (ds & E1 & E2 & E3). rewrite E1, step.
      assert (Lds : length ds = length (admitted x k l')) by (rewrite <- E2; now rewrite map_length).
      destruct (adm1 x k t) as [[c v]|] eqn:E.
      * destruct H as [H|H].
        -- rewrite app_length in H. cbn [length] in H. cbn [app].
           destruct (Nat.eqb_spec (length ds) 32); [reflexivity|lia].
        -- apply Exists_app in H. destruct H as [H|H]; [contradiction|].
           inversion H as [? ? H0|? ? H0]; subst; [|inversion H0].
           destruct H0 as (C & _). specialize (NB _ eq_refl). congruence.
      * rewrite app_nil_r in H. destruct H as [H|H]; [lia|contradiction].
Qed.
