(** C42: the TLVs that follow a PTP message.

    Full statement: for every message, the TLV parser terminates, never touches octets beyond the
    message, dispatches exactly the TLVs present, in order, each with its own contents, and only
    those permitted for the message type and by the access control lists.

    The full statement is false of the code: see the theorems named _refuted. *)
Require Import ZArith List Bool Lia.
Import ListNotations.
From Verif Require Import Base MsgSpec MsgModel MsgProof MsgProof2 TlvSpec TlvModel TlvProof TlvProof2 TlvProof3.
Open Scope Z_scope.

(** *** Example messages. *)
Definition ex_head (code len : Z) : octets := header_wire (mkHeader 0 code 1 2 len 0 0 0 0 0 0 77 1 5 5 127).
Definition ex_msg (k : kind) (tail : octets) : octets :=
  ex_head (kind_code k) (Z.of_nat (kind_size k + length tail)) ++ repeat 0 (kind_size k - 34) ++ tail.
Definition ex_ctx : ctx := mkCtx true true 1 true true true.
Definition ex_timing : tlv := mkTlv 32772 (wire [(8%nat, 5); (2%nat, 1)] ++ wire [(2%nat, 9); (6%nat, 170); (4%nat, 3); (8%nat, -4); (4%nat, -1); (6%nat, 170); (4%nat, 8)]).
Definition ex_status : tlv := mkTlv 32768 (sfc_status ++ wire [(8%nat, 5); (6%nat, 170); (4%nat, 1); (2%nat, 0); (2%nat, 1); (2%nat, 2); (2%nat, 3); (1%nat, 4)] ++ [0]).
Definition ex_l : list tlv := [ex_timing; mkTlv 9999 [1; 2; 3; 4]; ex_status].
Definition ex_sig : octets := ex_msg KSignaling (tlvs_wire ex_l).

Lemma octets_dec : forall l, forallb (fun x => (0 <=? x) && (x <? 256)) l = true -> all_octets l.
Proof.
  intros l H. unfold all_octets. rewrite forallb_forall in H. rewrite Forall_forall. intros y Y. specialize (H y Y).
  apply andb_true_iff in H. destruct H as [H1 H2]. apply Z.leb_le in H1. apply Z.ltb_lt in H2. split; assumption.
Qed.
Ltac octs := apply octets_dec; vm_compute; reflexivity.
Ltac carried := split; [octs|]; split; [vm_compute; reflexivity|]; split; [apply Nat.leb_le; vm_compute; reflexivity|vm_compute; reflexivity].
Ltac tok := split; [vm_compute; split; [discriminate|reflexivity]|]; split; [vm_compute; split; [discriminate|reflexivity]|];
            split; [octs|]; first [intros _; apply Nat.leb_le; vm_compute; reflexivity | intros X; discriminate X].

(** *** Exactness.  Missing: organisation extensions anywhere but last, path delay requests. *)
(** The TLVs acted on are those admitted, in order, each with its contents. *)
Theorem C42_exact_partial : forall x junk k d l evss,
  k <> KManagement -> k <> KPDelayReq -> carries k d l [] -> Forall tlv_ok l -> org_last l ->
  let adm := admitted x k l in
  (length adm <= 32)%nat -> ~ Exists (bad_caps x) adm -> Forall2 (acts x) adm evss ->
  exists h m, decode d = Some (Some (h, m)) /\ header_wire (seen_header h) = firstn 34 d /\ says k d m /\
    receive x junk d = Some (Some (h, m,
      mkDone (handled_on x adm) (mkTrans (wants_mtie adm) (caps_of x adm)) (concat evss))).
Proof.
  intros x junk k d l evss NM _ H OK OL adm L NB F.
  destruct (carries_decoded k d l [] NM H) as (h & m & D & W & Sy & T). exists h, m. do 3 (split; [assumption|]).
  destruct (carries_split _ _ _ _ H) as (L1 & L2 & Sp). rewrite app_nil_r in Sp. destruct H as (A & _).
  rewrite (receive_eq x junk d h m A D), T.
  destruct (process_exact x k junk (usable d) d l NM Sp L1 OK OL) as [G _].
  rewrite (G L NB evss F). reflexivity.
Qed.
Print Assumptions C42_exact_partial.

Lemma ex_timing_ok : tlv_ok ex_timing. Proof. tok. Qed.
Lemma ex_status_ok : tlv_ok ex_status. Proof. tok. Qed.
Lemma ex_l_ok : Forall tlv_ok ex_l.
Proof. apply Forall_cons; [exact ex_timing_ok|]. apply Forall_cons; [tok|]. apply Forall_cons; [exact ex_status_ok|]. apply Forall_nil. Qed.
Example C42_exact_ex : carries KSignaling ex_sig ex_l [] /\ Forall tlv_ok ex_l /\ org_last ex_l /\
  map fst (admitted ex_ctx KSignaling ex_l) = [Timing; Status] /\
  option_map (option_map (fun r => events (snd r))) (receive ex_ctx 0 ex_sig)
  = Some (Some [Report Timing [5; 1] [[9; 170; 3; -4; -1; 170; 8]]; Report Status [5; 170; 1; 0; 1; 2; 3; 4] []]).
Proof.
  split; [carried|]. split; [exact ex_l_ok|]. split; [cbn; auto|]. split; [vm_compute; reflexivity|]. vm_compute. reflexivity.
Qed.

(** Every admitted TLV has its effects, other than a report cut short at a collector. *)
Theorem C42_effects : forall x k l, Forall tlv_ok l -> ~ Exists (cut_report x) (admitted x k l) ->
  exists evss, Forall2 (acts x) (admitted x k l) evss.
Proof. intros x k l OK N. apply acts_all_any; [apply admitted_octets; exact OK|exact N]. Qed.
Print Assumptions C42_effects.
Example C42_effects_ex : ~ Exists (cut_report ex_ctx) (admitted ex_ctx KSignaling ex_l).
Proof.
  assert (E : admitted ex_ctx KSignaling ex_l = [(Timing, t_value ex_timing); (Status, skipn 6 (t_value ex_status))]) by (vm_compute; reflexivity).
  rewrite E. intros H. inversion H as [? ? [_ B]|? ? H1]; subst; [|inversion H1 as [? ? [_ B]|? ? H2]; subst; [|inversion H2]].
  - cbn [fst snd] in B. destruct B as [[_ B]|[[B _]|[B _]]]; [|discriminate|discriminate]. vm_compute in B. lia.
  - cbn [fst snd] in B. destruct B as [[B _]|[[B _]|[B _]]]; discriminate.
Qed.

(** A message with more than 32 TLVs to act on, or with capabilities cut short, is dropped and has
    no effect at all. *)
Theorem C42_dropped : forall x junk k d l,
  k <> KManagement -> k <> KPDelayReq -> carries k d l [] -> Forall tlv_ok l -> org_last l ->
  (32 < length (admitted x k l))%nat \/ Exists (bad_caps x) (admitted x k l) ->
  exists h m, receive x junk d = Some (Some (h, m, mkDone false no_trans [])).
Proof.
  intros x junk k d l NM _ H OK OL B.
  destruct (carries_decoded k d l [] NM H) as (h & m & D & W & Sy & T). exists h, m.
  destruct (carries_split _ _ _ _ H) as (L1 & L2 & Sp). rewrite app_nil_r in Sp. destruct H as (A & _).
  rewrite (receive_eq x junk d h m A D), T.
  destruct (process_exact x k junk (usable d) d l NM Sp L1 OK OL) as [_ G]. rewrite (G B). reflexivity.
Qed.
Print Assumptions C42_dropped.
Example C42_dropped_ex :
  carries KAnnounce (ex_msg KAnnounce (tlvs_wire [mkTlv 32770 [3]])) [mkTlv 32770 [3]] [] /\
  Exists (bad_caps ex_ctx) (admitted ex_ctx KAnnounce [mkTlv 32770 [3]]) /\
  option_map (option_map (fun r => go_on (snd r)))
    (receive ex_ctx 0 (ex_msg KSignaling (tlvs_wire (repeat (mkTlv 32776 []) 33)))) = Some (Some false) /\
  option_map (option_map (fun r => go_on (snd r)))
    (receive ex_ctx 0 (ex_msg KSignaling (tlvs_wire (repeat (mkTlv 32776 []) 32)))) = Some (Some true).
Proof.
  split; [carried|]. split; [|split; vm_compute; reflexivity].
  apply Exists_cons_hd. split; [reflexivity|]. split; cbn; lia.
Qed.

(** What a sender not on the monitoring list, or a TLV after the wrong message, can do: nothing. *)
Theorem C42_unpermitted : forall x junk k d l,
  k <> KManagement -> k <> KPDelayReq -> carries k d l [] -> Forall tlv_ok l -> org_last l ->
  Forall (fun t => forall c, meaning t = Some c -> trusted x c = false \/ belongs c k = false) l ->
  exists h m, decode d = Some (Some (h, m)) /\ receive x junk d = Some (Some (h, m, mkDone true no_trans [])).
Proof.
  intros x junk k d l NM NP H OK OL U.
  assert (E : admitted x k l = []).
  { clear - U. induction U as [|t l U1 U IH]; [reflexivity|]. unfold admitted in *. cbn [flat_map]. rewrite IH.
    destruct (meaning t) as [c|]; [|reflexivity]. destruct (U1 c eq_refl) as [->| ->]; [reflexivity|]. now rewrite andb_false_r. }
  destruct (C42_exact_partial x junk k d l [] NM NP H OK OL) as (h & m & D & _ & _ & R).
  - rewrite E. cbn. lia.
  - rewrite E. intros X. inversion X.
  - rewrite E. constructor.
  - exists h, m. split; [exact D|]. rewrite R, E. unfold handled_on, wants_mtie, caps_of. cbn. now rewrite andb_false_r.
Qed.
Print Assumptions C42_unpermitted.
Example C42_unpermitted_ex :
  let x := mkCtx true false 1 true true true in
  Forall (fun t => forall c, meaning t = Some c -> trusted x c = false \/ belongs c KSignaling = false) ex_l.
Proof.
  intros x. apply Forall_cons; [|apply Forall_cons; [|apply Forall_cons; [|apply Forall_nil]]];
  intros c E; vm_compute in E; try discriminate; injection E as <-; left; reflexivity.
Qed.

(** *** Padding: zero octets after the last TLV are ignored ... *)
Theorem C42_padding_partial : forall x junk k d l n evss,
  k <> KManagement -> k <> KPDelayReq -> carries k d l (repeat 0 n) -> (n mod 4 <> 1)%nat ->
  Forall tlv_ok l -> Forall (fun t => is_org (t_type t) = false) l ->
  let adm := admitted x k l in
  (length adm <= 32)%nat -> ~ Exists (bad_caps x) adm -> Forall2 (acts x) adm evss ->
  exists h m, decode d = Some (Some (h, m)) /\
    receive x junk d = Some (Some (h, m,
      mkDone (handled_on x adm) (mkTrans (wants_mtie adm) (caps_of x adm)) (concat evss))).
Proof.
  intros x junk k d l n evss NM _ H N OK NO adm L NB F.
  destruct (carries_decoded k d l _ NM H) as (h & m & D & W & Sy & T). exists h, m. split; [exact D|].
  destruct (carries_split _ _ _ _ H) as (L1 & L2 & Sp). destruct H as (A & _).
  rewrite (receive_eq x junk d h m A D), T.
  destruct (process_padded x k junk (usable d) d l n NM Sp L1 OK NO L NB) as [G _].
  rewrite (G evss (or_introl N) F). reflexivity.
Qed.
Print Assumptions C42_padding_partial.
Example C42_padding_ex : carries KSignaling (ex_msg KSignaling (tlvs_wire [ex_timing] ++ repeat 0 6)) [ex_timing] (repeat 0 6) /\
  is_org (t_type ex_timing) = false.
Proof. split; [carried|reflexivity]. Qed.

(** ... but when a single octet is left over, an uninitialised variable decides whether the message
    is handled. *)
Theorem C42_padding_refuted :
  ~ (forall x junk junk' k d l n, k <> KManagement -> k <> KPDelayReq -> carries k d l (repeat 0 n) ->
     Forall tlv_ok l -> Forall (fun t => is_org (t_type t) = false) l ->
     receive x junk d = receive x junk' d).
Proof.
  intros H. specialize (H ex_ctx 0 1 KSignaling (ex_msg KSignaling [0]) [] 1%nat).
  assert (E : receive ex_ctx 0 (ex_msg KSignaling [0]) <> receive ex_ctx 1 (ex_msg KSignaling [0])) by (vm_compute; discriminate).
  apply E, H; [discriminate|discriminate|carried|apply Forall_nil|apply Forall_nil].
Qed.
Print Assumptions C42_padding_refuted.
(** In every such case: dropped unless the variable happens to be zero. *)
Theorem C42_one_octet_left : forall x junk k d l n,
  k <> KManagement -> k <> KPDelayReq -> carries k d l (repeat 0 n) -> (n mod 4 = 1)%nat -> junk <> 0 ->
  Forall tlv_ok l -> Forall (fun t => is_org (t_type t) = false) l ->
  (length (admitted x k l) <= 32)%nat -> ~ Exists (bad_caps x) (admitted x k l) ->
  exists h m, receive x junk d = Some (Some (h, m, mkDone false no_trans [])).
Proof.
  intros x junk k d l n NM _ H N J OK NO L NB.
  destruct (carries_decoded k d l _ NM H) as (h & m & D & W & Sy & T). exists h, m.
  destruct (carries_split _ _ _ _ H) as (L1 & L2 & Sp). destruct H as (A & _).
  rewrite (receive_eq x junk d h m A D), T.
  destruct (process_padded x k junk (usable d) d l n NM Sp L1 OK NO L NB) as [_ G].
  rewrite (G N J). reflexivity.
Qed.
Print Assumptions C42_one_octet_left.
Example C42_one_octet_left_ex : carries KSignaling (ex_msg KSignaling (tlvs_wire [ex_timing] ++ repeat 0 5)) [ex_timing] (repeat 0 5) /\
  (5 mod 4 = 1)%nat.
Proof. split; [carried|reflexivity]. Qed.

(** *** Any octets at all. *)
(** The search for TLVs ends; what it finds are at most 32 TLVs that really are in the message,
    permitted, in order and not overlapping, each passed its own contents (an organisation
    extension too short for its identifier apart). *)
Theorem C42_found_partial : forall x k junk b, all_octets b ->
  exists r, scan (S (length b)) x (kind_code k) junk b (kind_size k) [] no_trans = Some r /\
    match r with
    | Dropped => True
    | Scanned l _ => (length l <= 32)%nat /\ in_order b (kind_size k) l /\
        Forall (fun d => (kind_size k <= d_at d)%nat /\
          exists t, in_u 16 (t_type t) /\ (d_at d + 4 + length (t_value t) <= length b)%nat /\
            part (d_at d) (4 + length (t_value t)) b = tlv_wire t /\
            trusted x (d_name d) = true /\ belongs (d_name d) k = true /\
            ((is_org (t_type t) = true /\ (length (t_value t) < 6)%nat) \/
             (meaning t = Some (d_name d) /\
              firstn (Z.to_nat (d_len d)) (skipn (d_value d) b) = passed (d_name d) (t_value t)))) l
    end.
Proof.
  intros x k junk b A.
  destruct (scan_sound (S (length b)) x k junk b (kind_size k) A (kind_size k) [] no_trans
              ltac:(lia) ltac:(cbn; lia) ltac:(apply Forall_nil) ltac:(lia)) as (r & E & R).
  exists r. split; [exact E|]. destruct r as [l s|]; [|exact Logic.I]. destruct R as (L & G & l' & El & O). cbn in El. subst l'.
  split; [exact L|]. split; [exact O|]. eapply Forall_impl; [|exact G].
  intros d (D1 & t & T1 & T2 & T3 & T4 & T5 & T6). split; [exact D1|]. exists t. do 5 (split; [assumption|]).
  destruct T6 as [T6|[T6 T7]]; [left; exact T6|right; split; [exact T6|]]. unfold view in T7. now injection T7.
Qed.
Print Assumptions C42_found_partial.
Example C42_found_ex :
  option_map (fun r => match r with Scanned l _ => map d_at l | Dropped => [] end)
    (scan (S (length ex_sig)) ex_ctx 12 0 ex_sig 44 [] no_trans) = Some [44%nat; 100%nat].
Proof. vm_compute. reflexivity. Qed.

(** A daemon that does not collect reports survives every datagram (management messages are
    treated in C41). *)
Theorem C42_safe_partial : forall x junk d, all_octets d -> claimed_code d <> 13 -> c_collect x = false ->
  exists r, receive x junk d = Some r.
Proof.
  intros x junk d A NM C. destruct (decode d) as [[[h m]|]|] eqn:D.
  - rewrite (receive_eq x junk d h m A D). destruct (decoded_kind d h m A D) as (L & T & _).
    assert (K : exists k, claimed_code d = kind_code k).
    { destruct (decode_outcome d A) as (_ & O & _).
      assert (Dk : {k | claimed_code d = kind_code k} + {forall k, claimed_code d <> kind_code k}).
      { destruct (Z.eq_dec (claimed_code d) 0); [left; exists KSync; assumption|].
        destruct (Z.eq_dec (claimed_code d) 1); [left; exists KDelayReq; assumption|].
        destruct (Z.eq_dec (claimed_code d) 2); [left; exists KPDelayReq; assumption|].
        destruct (Z.eq_dec (claimed_code d) 3); [left; exists KPDelayResp; assumption|].
        destruct (Z.eq_dec (claimed_code d) 8); [left; exists KFollowUp; assumption|].
        destruct (Z.eq_dec (claimed_code d) 9); [left; exists KDelayResp; assumption|].
        destruct (Z.eq_dec (claimed_code d) 10); [left; exists KPDelayRespFollowUp; assumption|].
        destruct (Z.eq_dec (claimed_code d) 11); [left; exists KAnnounce; assumption|].
        destruct (Z.eq_dec (claimed_code d) 12); [left; exists KSignaling; assumption|].
        right. intros []; cbn [kind_code]; assumption. }
      destruct Dk as [[k E]|N]; [exists k; exact E|]. rewrite (O L N) in D. discriminate. }
    destruct K as [k K]. rewrite T, K. destruct (process_safe x k junk (usable d) d C A) as [p ->]. eexists. reflexivity.
  - unfold receive. rewrite D. cbn [rbind]. eexists. reflexivity.
  - exfalso. destruct (decode_outcome d A) as (O1 & O2 & O3).
    destruct (Nat.le_gt_cases 34 (length d)) as [L|L]; [|rewrite (O1 L) in D; discriminate].
    assert (X : forall k, k <> KManagement -> claimed_code d = kind_code k -> False).
    { intros k NK E. destruct (O3 k L E) as (P1 & _ & _ & P4).
      destruct (Nat.le_gt_cases (kind_size k) (usable d)) as [U|U].
      - destruct (P4 U) as (h & m & P & _); [tauto|]. congruence.
      - rewrite P1 in D; [discriminate|exact U|tauto]. }
    assert (Y : decode d = Some None); [|congruence].
    apply O2; [exact L|]. intros k E. destruct (Z.eq_dec (kind_code k) 13) as [Z13|Z13]; [congruence|].
    apply (X k); [intros ->; apply Z13; reflexivity|exact E].
Qed.
Print Assumptions C42_safe_partial.
Example C42_safe_ex : all_octets (ex_head 0 44 ++ repeat 255 300) /\ claimed_code (ex_head 0 44) <> 13.
Proof. split; [octs|vm_compute; discriminate]. Qed.

(** A collector, on the other hand, is stopped by any admitted report that is too short for its
    preamble: an assertion fails. *)
Theorem C42_collector_stopped : forall x junk k d l,
  k <> KManagement -> k <> KPDelayReq -> carries k d l [] -> Forall tlv_ok l -> org_last l ->
  (length (admitted x k l) <= 32)%nat -> ~ Exists (bad_caps x) (admitted x k l) ->
  Exists (cut_report x) (admitted x k l) ->
  receive x junk d = None.
Proof.
  intros x junk k d l NM _ H OK OL L NB B.
  destruct (carries_decoded k d l [] NM H) as (h & m & D & W & Sy & T).
  destruct (carries_split _ _ _ _ H) as (L1 & L2 & Sp). rewrite app_nil_r in Sp. destruct H as (A & _).
  rewrite (receive_eq x junk d h m A D), T.
  rewrite (process_aborts x k junk (usable d) d l NM A Sp L1 OK OL L NB B). reflexivity.
Qed.
Print Assumptions C42_collector_stopped.
Definition ex_cut : tlv := mkTlv 32772 [0; 0; 0; 0].
Example C42_collector_stopped_ex : carries KSignaling (ex_msg KSignaling (tlvs_wire [ex_cut])) [ex_cut] [] /\
  Forall tlv_ok [ex_cut] /\ org_last [ex_cut] /\ Exists (cut_report ex_ctx) (admitted ex_ctx KSignaling [ex_cut]).
Proof.
  split; [carried|]. split; [apply Forall_cons; [tok|apply Forall_nil]|]. split; [exact Logic.I|].
  apply Exists_cons_hd. split; [reflexivity|]. left. split; [reflexivity|]. cbn. lia.
Qed.
Theorem C42_safe_refuted : ~ (forall x junk d, all_octets d -> claimed_code d <> 13 -> exists r, receive x junk d = Some r).
Proof.
  intros H. destruct (H ex_ctx 0 (ex_msg KSignaling (tlvs_wire [ex_cut]))) as [r E]; [octs|vm_compute; discriminate|].
  vm_compute in E. discriminate.
Qed.
Print Assumptions C42_safe_refuted.

(** A status report whose length is less than 6 is believed to be 65536 octets longer than it is:
    octets beyond the message are read. *)
Theorem C42_beyond_message_refuted :
  ~ (forall x junk d d', all_octets d -> all_octets d' -> usable d = usable d' ->
     firstn (usable d) d = firstn (usable d) d' ->
     option_map (option_map snd) (receive x junk d) = option_map (option_map snd) (receive x junk d')).
Proof.
  intros H.
  set (m := ex_head 12 54 ++ repeat 0 10 ++ bytes 2 32768 ++ bytes 2 0 ++ sfc_status).
  specialize (H ex_ctx 0 (m ++ repeat 1 27) (m ++ repeat 2 27)).
  assert (E : option_map (option_map snd) (receive ex_ctx 0 (m ++ repeat 1 27)) <>
              option_map (option_map snd) (receive ex_ctx 0 (m ++ repeat 2 27))) by (vm_compute; discriminate).
  apply E, H; [octs|octs|vm_compute; reflexivity|vm_compute; reflexivity].
Qed.
Print Assumptions C42_beyond_message_refuted.

(** *** The restrictions of exactness are needed. *)
(** The six octets of an organisation extension's identifier are counted twice, so the TLV after
    it is not found. *)
Theorem C42_exact_refuted :
  ~ (forall x junk k d l evss, k <> KManagement -> k <> KPDelayReq -> carries k d l [] -> Forall tlv_ok l ->
     let adm := admitted x k l in
     (length adm <= 32)%nat -> ~ Exists (bad_caps x) adm -> Forall2 (acts x) adm evss ->
     exists h m, receive x junk d = Some (Some (h, m,
       mkDone (handled_on x adm) (mkTrans (wants_mtie adm) (caps_of x adm)) (concat evss)))).
Proof.
  intros H.
  set (org := mkTlv 3 [0; 1; 2; 0; 0; 1]). set (l := [org; mkTlv 32770 [1; 2]; mkTlv 32776 []]).
  destruct (H ex_ctx 0 KAnnounce (ex_msg KAnnounce (tlvs_wire l)) l [[]; []]) as (h & m & E).
  - discriminate.
  - discriminate.
  - carried.
  - apply Forall_cons; [tok|]. apply Forall_cons; [tok|]. apply Forall_cons; [tok|]. apply Forall_nil.
  - vm_compute. lia.
  - intros B. inversion B as [? ? X|? ? B1]; subst; [|inversion B1 as [? ? X|? ? B2]; subst; [|inversion B2]].
    + destruct X as (_ & _ & X). vm_compute in X. lia.
    + destruct X as (X & _). discriminate X.
  - constructor; [apply a_quiet; tauto|]. constructor; [apply a_quiet; tauto|]. constructor.
  - apply (f_equal (option_map (option_map (fun r => tr_caps (found (snd r)))))) in E. vm_compute in E. discriminate.
Qed.
Print Assumptions C42_exact_refuted.

(** The ten reserved octets of a path delay request are taken for TLVs, so a TLV after them makes
    the request be dropped. *)
Theorem C42_pdelay_refuted :
  ~ (forall x junk d l, all_octets d -> claimed_code d = kind_code KPDelayReq -> (54 <= usable d)%nat ->
     part 44 10 d = repeat 0 10 -> part 54 (usable d - 54) d = tlvs_wire l -> Forall tlv_ok l ->
     Forall (fun t => meaning t = Some Pad) l -> (length l <= 32)%nat ->
     exists h m, receive x junk d = Some (Some (h, m, mkDone true no_trans []))).
Proof.
  intros H.
  set (d := ex_head 2 58 ++ repeat 0 20 ++ tlvs_wire [mkTlv 32776 []]).
  destruct (H ex_ctx 0 d [mkTlv 32776 []]) as (h & m & E).
  - octs.
  - vm_compute. reflexivity.
  - apply Nat.leb_le. vm_compute. reflexivity.
  - vm_compute. reflexivity.
  - vm_compute. reflexivity.
  - apply Forall_cons; [tok|apply Forall_nil].
  - apply Forall_cons; [reflexivity|apply Forall_nil].
  - cbn. lia.
  - apply (f_equal (option_map (option_map (fun r => go_on (snd r))))) in E. vm_compute in E. discriminate.
Qed.
Print Assumptions C42_pdelay_refuted.

(** *** Sending.  A TLV appended to a message that carries [l] gives one that carries it as well;
    the rest of the buffer is untouched.  With the theorems above, the receiver gets the report
    that was sent. *)
Definition appended (k : kind) (m : octets) (l : list tlv) (room : octets) (t : tlv) (b : octets) : Prop :=
  exists d, b = d ++ skipn (length (tlv_wire t)) room /\
    length d = (length m + length (tlv_wire t))%nat /\ carries k d (l ++ [t]) [].

Definition ready (k : kind) (m : octets) (l : list tlv) (room : octets) (size : nat) : Prop :=
  carries k m l [] /\ claimed_length m = Z.of_nat (length m) /\ Nat.even (length m) = true /\
  all_octets room /\ Nat.even (length room) = true /\ (4 + size <= length room)%nat /\
  Z.of_nat (length m + 4 + size) < 65536.

Lemma appended_intro : forall k m l room t n, ready k m l room n -> length (t_value t) = n -> tlv_ok t ->
  appended k m l room t (with_length (length m + 4 + n) m ++ tlv_wire t ++ skipn (4 + n) room).
Proof.
  intros k m l room t n (C & CL & E & A & F & L & Sz) N OK.
  assert (W : length (tlv_wire t) = (4 + n)%nat) by (rewrite wire_len, N; lia).
  exists (with_length (length m + 4 + n) m ++ tlv_wire t). split; [rewrite W, <- app_assoc; reflexivity|].
  destruct (carries_split _ _ _ _ C) as (_ & L34 & _).
  split; [rewrite app_length, with_length_len by lia; reflexivity|].
  replace (length m + 4 + n)%nat with (length m + length (tlv_wire t))%nat by lia.
  apply carries_append; try assumption. rewrite W. replace (length m + (4 + n))%nat with (length m + 4 + n)%nat by lia. exact Sz.
Qed.

Lemma wire_octets : forall w, all_octets (wire w).
Proof.
  intros w. unfold wire, all_octets. apply Forall_flat_map. rewrite Forall_forall. intros f _. apply bytes_octets.
Qed.
Lemma filled_octets : forall fs els o, filled_all fs els o -> all_octets o.
Proof. intros fs els o H. induction H; [apply Forall_nil|]. apply Forall_app. split; [apply wire_octets|assumption]. Qed.

Lemma filled_even : forall fs els o, filled_all fs els o -> Nat.even (sizes fs) = true -> Nat.even (length o) = true.
Proof.
  intros fs els o H E. rewrite (filled_length _ _ _ H). rewrite Nat.even_mul, E. apply orb_true_r.
Qed.

Lemma ready_parts : forall k m l room n, ready k m l room n ->
  all_octets m /\ (4 <= length m)%nat.
Proof.
  intros k m l room n (C & _). destruct (carries_split _ _ _ _ C) as (_ & L34 & _). destruct C as (A & _). split; [exact A|lia].
Qed.

Lemma tok_plain : forall ty v, in_u 16 ty -> is_org ty = false -> all_octets v -> Z.of_nat (length v) < 65536 -> tlv_ok (mkTlv ty v).
Proof.
  intros ty v T NO A L. split; [exact T|]. split; [unfold in_u; cbn [t_value]; change (2 ^ 16) with 65536; lia|].
  split; [exact A|]. cbn [t_type]. rewrite NO. discriminate.
Qed.

(** Timing and computed data. *)
Theorem C42_timing_sent : forall junk k m l room p w els o, in_u 16 junk ->
  described timing_start p w -> filled_all timing_element els o -> ready k m l room (length (wire w ++ o)) ->
  exists b, append_timing junk p els (m ++ room) = Some b /\ appended k m l room (mkTlv 32772 (wire w ++ o)) b.
Proof.
  intros junk k m l room p w els o J D F R.
  destruct (ready_parts _ _ _ _ _ R) as [A L]. pose proof R as (C & CL & E & AR & ER & SR & Sz).
  assert (LW : length (wire w) = 10%nat) by (rewrite (described_size _ _ _ D); reflexivity).
  assert (V : Nat.even (length (wire w) + length o) = true).
  { rewrite Nat.even_add, LW, (filled_even _ _ _ F); reflexivity. }
  eexists. split.
  - unfold append_timing. apply (append_packed 32772 junk timing_start timing_element p (length (wire w)) (fun _ => wire w) els o m room);
      try assumption; [split; [discriminate|reflexivity]|apply described_packs; exact D|rewrite <- app_length; exact SR].
  - rewrite <- app_length. apply appended_intro; [exact R|reflexivity|].
    apply tok_plain; [split; [discriminate|reflexivity]|reflexivity|apply Forall_app; split; [apply wire_octets|eapply filled_octets; exact F]|lia].
Qed.
Print Assumptions C42_timing_sent.
Definition ex_m44 : octets := ex_msg KSignaling [].
Example C42_timing_sent_ex :
  described timing_start [5; 1] [(8%nat, 5); (2%nat, 1)] /\
  ready KSignaling ex_m44 [] (repeat 170 100) 44 /\
  append_timing 0 [5; 1] [[9; 170; 3; -4; -1; 170; 8]] (ex_m44 ++ repeat 170 100)
  = Some (ex_msg KSignaling (tlvs_wire [ex_timing]) ++ repeat 170 52).
Proof.
  split; [apply d_u; [split; [discriminate|reflexivity]|]; apply d_u; [split; [discriminate|reflexivity]|]; apply d_nil|].
  split; [|vm_compute; reflexivity].
  split; [carried|]. split; [vm_compute; reflexivity|]. split; [vm_compute; reflexivity|]. split; [octs|].
  split; [vm_compute; reflexivity|]. split; [apply Nat.leb_le; vm_compute; reflexivity|vm_compute; reflexivity].
Qed.

Theorem C42_computed_sent : forall junk k m l room p w els o, in_u 16 junk ->
  described computed_start p w -> filled_all computed_element els o -> ready k m l room (length (wire w ++ o)) ->
  exists b, append_computed junk p els (m ++ room) = Some b /\ appended k m l room (mkTlv 32773 (wire w ++ o)) b.
Proof.
  intros junk k m l room p w els o J D F R.
  destruct (ready_parts _ _ _ _ _ R) as [A L]. pose proof R as (C & CL & E & AR & ER & SR & Sz).
  assert (LW : length (wire w) = 12%nat) by (rewrite (described_size _ _ _ D); reflexivity).
  assert (V : Nat.even (length (wire w) + length o) = true).
  { rewrite Nat.even_add, LW, (filled_even _ _ _ F); reflexivity. }
  eexists. split.
  - unfold append_computed. apply (append_packed 32773 junk computed_start computed_element p (length (wire w)) (fun _ => wire w) els o m room);
      try assumption; [split; [discriminate|reflexivity]|apply described_packs; exact D|rewrite <- app_length; exact SR].
  - rewrite <- app_length. apply appended_intro; [exact R|reflexivity|].
    apply tok_plain; [split; [discriminate|reflexivity]|reflexivity|apply Forall_app; split; [apply wire_octets|eapply filled_octets; exact F]|lia].
Qed.
Print Assumptions C42_computed_sent.
Example C42_computed_sent_ex :
  option_map (fun b => option_map (option_map (fun r => events (snd r))) (receive ex_ctx 0 b))
    (append_computed 7 [5; 1; 6; 0] [[9; -170; 3; 0]; [10; 171; 3; -1]] (ex_m44 ++ repeat 170 100))
  = Some (Some (Some [Report Computed [5; 1; 6; 0] [[9; -170; 3; 0]; [10; 171; 3; -1]]])).
Proof. vm_compute. reflexivity. Qed.

(** Transmit timestamps: the upper half of the octet with the message type keeps whatever was in
    the buffer; the first of the two reserved fields is overwritten by the second. *)
Theorem C42_tx_sent : forall junk k m l room p w t r0 r1 els o, in_u 16 junk ->
  described tx_port p w -> in_u 4 t -> in_u 4 r0 -> is_octet r1 -> filled_all tx_element els o ->
  ready k m l room (12 + length o) ->
  exists b q, append_tx junk (p ++ [t; r0; r1]) els (m ++ room) = Some b /\ is_octet q /\ q mod 16 = t /\
    appended k m l room (mkTlv 32774 (wire w ++ [q; r1] ++ o)) b.
Proof.
  intros junk k m l room p w t r0 r1 els o J D T R0 R1 F R.
  destruct (ready_parts _ _ _ _ _ R) as [A L]. pose proof R as (C & CL & E & AR & ER & SR & Sz).
  assert (LW : length (wire w) = 10%nat) by (rewrite (described_size _ _ _ D); reflexivity).
  assert (V : Nat.even (12 + length o) = true).
  { rewrite Nat.even_add, (filled_even _ _ _ F); reflexivity. }
  assert (Q : is_octet (nth 10 (part 4 12 room) 0)).
  { pose proof (nth_octet (part 4 12 room) 10 (part_octets 4 12 room AR)) as X. exact X. }
  exists (with_length (length m + 4 + (12 + length o)) m ++ tlv_wire (mkTlv 32774 (wire w ++ [16 * (nth 10 (part 4 12 room) 0 / 16) + t; r1] ++ o))
          ++ skipn (4 + (12 + length o)) room), (16 * (nth 10 (part 4 12 room) 0 / 16) + t).
  set (q := nth 10 (part 4 12 room) 0) in *. unfold is_octet, in_u in *. change (2 ^ 4) with 16 in *.
  pose proof (Z.div_mod q 16 ltac:(lia)) as DM. pose proof (Z.mod_pos_bound q 16 ltac:(lia)) as MB.
  split; [|split; [lia|split]].
  - unfold append_tx.
    pose proof (append_packed 32774 junk d_txts_pre tx_element (p ++ [t; r0; r1]) 12 _ els o m room ltac:(split; [discriminate|reflexivity]) J
      (tx_packs p w t r0 r1 D T R0 R1) F A L CL E ER V SR AR) as P. cbv beta in P. rewrite <- (app_assoc (wire w)) in P. exact P.
  - rewrite Z.mul_comm, Z.add_comm, Z.mod_add by lia. apply Z.mod_small. lia.
  - apply appended_intro; [exact R|cbn [t_value]; rewrite !app_length, LW; cbn [length]; lia|].
    apply tok_plain; [split; [discriminate|reflexivity]|reflexivity| |rewrite !app_length, LW; cbn [length]; lia].
    apply Forall_app. split; [apply wire_octets|]. apply Forall_app. split; [|eapply filled_octets; exact F].
    apply Forall_cons; [unfold is_octet; lia|]. apply Forall_cons; [exact R1|apply Forall_nil].
Qed.
Print Assumptions C42_tx_sent.
Example C42_tx_sent_ex :
  option_map (fun b => (nth 58 b 0, option_map (option_map (fun r => events (snd r))) (receive ex_ctx 0 b)))
    (append_tx 7 [5; 1; 3; 0; 0] [[9; 170; 3]] (ex_m44 ++ repeat 170 100))
  = Some (163, Some (Some [Report TxStamps [5; 1; 3; 0; 0] [[9; 170; 3]]])).
Proof. vm_compute. reflexivity. Qed.

(** The status report: one octet of padding is added, and counted in its length. *)
Theorem C42_status_sent : forall k m l room v w,
  described status_fields v w -> ready k m l room 34 ->
  exists b, append_status v (m ++ room) = Some b /\ appended k m l room (mkTlv 32768 (sfc_status ++ wire w ++ [0])) b.
Proof.
  intros k m l room v w D R.
  destruct (ready_parts _ _ _ _ _ R) as [A L]. pose proof R as (C & CL & E & AR & ER & SR & Sz).
  assert (LW : length (wire w) = 27%nat) by (rewrite (described_size _ _ _ D); reflexivity).
  assert (LV : length (sfc_status ++ wire w ++ [0]) = 34%nat) by (rewrite !app_length, LW; reflexivity).
  eexists. split; [exact (append_status_wire v w m room D A L CL E ER SR)|].
  replace (length m + 38)%nat with (length m + 4 + 34)%nat by lia.
  apply (appended_intro k m l room (mkTlv 32768 (sfc_status ++ wire w ++ [0])) 34 R LV).
  split; [split; [discriminate|reflexivity]|]. split; [cbn [t_value]; rewrite LV; split; [discriminate|reflexivity]|].
  split; [|intros _; cbn [t_value]; rewrite LV; lia].
  apply Forall_app. split; [octs|]. apply Forall_app. split; [apply wire_octets|]. apply Forall_cons; [unfold is_octet; lia|apply Forall_nil].
Qed.
Print Assumptions C42_status_sent.
Example C42_status_sent_ex :
  option_map (fun b => option_map (option_map (fun r => events (snd r))) (receive ex_ctx 0 b))
    (append_status [5; 170; 1; 0; 1; 2; 3; 4] (ex_m44 ++ repeat 170 100))
  = Some (Some (Some [Report Status [5; 170; 1; 0; 1; 2; 3; 4] []])).
Proof. vm_compute. reflexivity. Qed.

(** Capabilities: the upper halves of both octets keep what was in the buffer. *)
Theorem C42_caps_sent : forall junk k m l room a c, in_u 16 junk -> in_u 4 a -> in_u 4 c ->
  ready k m l room 2 ->
  exists b u v, append_caps junk a c (m ++ room) = Some b /\ u mod 16 = a /\ v mod 16 = c /\
    appended k m l room (mkTlv 32770 [u; v]) b.
Proof.
  intros junk k m l room a c J HA HC R.
  destruct (ready_parts _ _ _ _ _ R) as [A L]. pose proof R as (C & CL & E & AR & ER & SR & Sz).
  pose proof (nth_octet (part 4 2 room) 0 (part_octets 4 2 room AR)) as Q0.
  pose proof (nth_octet (part 4 2 room) 1 (part_octets 4 2 room AR)) as Q1.
  pose proof (append_packed 32770 junk d_port_caps [] [a; c] 2 _ [] [] m room ltac:(split; [discriminate|reflexivity]) J
      (caps_packs a c HA HC) (fa_nil []) A L CL E ER eq_refl SR AR) as P.
  rewrite <- append_caps_report in P. cbn [length Nat.add app] in P.
  eexists. exists (16 * (nth 0 (part 4 2 room) 0 / 16) + a), (16 * (nth 1 (part 4 2 room) 0 / 16) + c). split; [exact P|].
  set (q0 := nth 0 (part 4 2 room) 0) in *. set (q1 := nth 1 (part 4 2 room) 0) in *.
  unfold is_octet, in_u in *. change (2 ^ 4) with 16 in *.
  split; [rewrite Z.mul_comm, Z.add_comm, Z.mod_add by lia; apply Z.mod_small; lia|].
  split; [rewrite Z.mul_comm, Z.add_comm, Z.mod_add by lia; apply Z.mod_small; lia|].
  replace (length m + 6)%nat with (length m + 4 + 2)%nat by lia.
  apply (appended_intro k m l room (mkTlv 32770 [16 * (q0 / 16) + a; 16 * (q1 / 16) + c]) 2 R eq_refl).
  apply tok_plain; [split; [discriminate|reflexivity]|reflexivity| |cbn; lia].
  pose proof (Z.div_mod q0 16 ltac:(lia)) as DM. pose proof (Z.mod_pos_bound q0 16 ltac:(lia)) as MB.
  pose proof (Z.div_mod q1 16 ltac:(lia)) as DM1. pose proof (Z.mod_pos_bound q1 16 ltac:(lia)) as MB1.
  apply Forall_cons; [unfold is_octet; lia|]. apply Forall_cons; [unfold is_octet; lia|apply Forall_nil].
Qed.
Print Assumptions C42_caps_sent.
Example C42_caps_sent_ex :
  option_map (fun b => option_map (option_map (fun r => tr_caps (found (snd r)))) (receive ex_ctx 0 b))
    (append_caps 7 3 1 (ex_msg KAnnounce [] ++ repeat 170 100)) = Some (Some (Some (Some (3, 1)))).
Proof. vm_compute. reflexivity. Qed.
