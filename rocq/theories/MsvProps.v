(** C79: collecting the answer of the NTP daemon. *)
Require Import ZArith List Bool Lia Permutation.
Require Import Verif.Base Verif.MsvSpec Verif.MsvModel Verif.MsvProof.
Import ListNotations.
Open Scope Z_scope.

(** Whatever comes from the socket: no read behind a packet, no write behind the 4096 octets of the buffer, and the items
    counted are there.  Missing: packets for us with an error from 8 to 15, see C79_safe_refuted. *)
Theorem C79_safe_partial : forall want req evs, (forall p, In (Packet p) evs -> Forall octet p /\ (stranger req p \/ known_error p)) ->
  exists o, response want req start evs = Some o /\
  match o with
  | Waiting s => Z.of_nat (length (s_buf s)) <= 4096
  | Returned rc n buf => Z.of_nat (length buf) <= 4096 /\ n * want <= Z.of_nat (length buf)
  end.
Proof. intros want req evs K. apply (response_any want req evs start K); unfold BUFFER; cbn; lia. Qed.
Print Assumptions C79_safe_partial.

(** An error above 7 is looked up behind the end of the table. *)
Theorem C79_safe_refuted : ~ (forall want req r, reply_ok r -> response want req start [Packet (encode r)] <> None).
Proof. intros H. apply (H 3 5 (mkReply false 0 5 8 0 [])); [repeat split; try constructor; cbn; lia|reflexivity]. Qed.
Print Assumptions C79_safe_refuted.

(** Packets of others change nothing. *)
Theorem C79_others : forall want req s ps evs, s_pkts s <= s_last s -> Forall (Forall octet) ps -> Forall (stranger req) ps ->
  response want req s (map Packet ps ++ evs) = response want req s evs.
Proof.
  intros want req s ps evs W O S. induction ps as [|p ps IH]; [reflexivity|]. inversion O; inversion S; subst. cbn [map app]. change (response want req s (Packet p :: map Packet ps ++ evs)) with
    (if s_pkts s <=? s_last s then do x <- packet want req s p; match x with Go s1 => response want req s1 (map Packet ps ++ evs) | Ret rc => Some (Returned rc (s_total s) (s_buf s)) end else Some (Returned 0 (s_total s) (s_buf s))).
  replace (s_pkts s <=? s_last s) with true by lia. rewrite packet_stranger by assumption. cbn [bind]. apply IH; assumption.
Qed.
Print Assumptions C79_others.

(** The daemon's error is returned, whatever came before.  Missing: errors above 7, see C79_safe_refuted. *)
Theorem C79_error_partial : forall want s ps r evs, s_pkts s <= s_last s -> Forall (Forall octet) ps -> Forall (stranger (r_req r)) ps -> reply_ok r -> r_err r <> 0 -> r_err r < 8 ->
  response want (r_req r) s (map Packet ps ++ Packet (encode r) :: evs) = Some (Returned (caller_error (r_err r)) (s_total s) (s_buf s)).
Proof.
  intros want s ps r evs W O S OK ER E8. rewrite C79_others by assumption. cbn [response]. replace (s_pkts s <=? s_last s) with true by lia.
  destruct (decode r OK) as (_ & CK & D1 & _). unfold packet. rewrite CK, D1. replace (r_err r =? 0) with false by lia. cbn [negb].
  assert (R : 0 <= r_err r < 16) by apply OK.
  assert (D : r_err r = 1 \/ r_err r = 2 \/ r_err r = 3 \/ r_err r = 4 \/ r_err r = 5 \/ r_err r = 6 \/ r_err r = 7) by lia. destruct D as [->|[->|[->|[->|[->|[->| ->]]]]]]; reflexivity.
Qed.
Print Assumptions C79_error_partial.

(** The time is over before the answer is whole. *)
Theorem C79_timeout : forall want req s ps evs, s_pkts s <= s_last s -> Forall (Forall octet) ps -> Forall (stranger req) ps ->
  response want req s (map Packet ps ++ Late :: evs) = Some (Returned 110 (s_total s) (s_buf s)) /\
  response want req s (map Packet ps ++ Nothing :: evs) = Some (Returned 110 (s_total s) (s_buf s)).
Proof. intros want req s ps evs W O S. rewrite !C79_others by assumption. cbn [response]. replace (s_pkts s <=? s_last s) with true by lia. split; reflexivity. Qed.
Print Assumptions C79_timeout.

(** Success needs a packet for us that says it is the last one.  (Fewer than 2^31 packets.) *)
Theorem C79_success : forall want req evs n buf, (forall p, In (Packet p) evs -> Forall octet p) -> (forall e, In (SelectFails e) evs \/ In (ReadFails e) evs -> e <> 0) ->
  Z.of_nat (length evs) < 2^31 -> response want req start evs = Some (Returned 0 n buf) -> exists p, In (Packet p) evs /\ ~ stranger req p /\ final p.
Proof.
  intros want req evs n buf O NE L R. destruct (response_final want req evs start n buf) as (p & I & C & F); try assumption; try reflexivity.
  - unfold BUFFER. cbn. lia.
  - unfold INT_MAX. cbn [s_pkts start]. lia.
  - exists p. split; [exact I|]. split; [|exact F]. intros S. rewrite check_stranger in C by (auto). discriminate C.
Qed.
Print Assumptions C79_success.

(** A whole answer, each packet once, in any order, with packets of others between: all items, each brought to the size wanted,
    in the order in which the packets came.  Missing: the order of the sequence (see C79_order_refuted), duplicates (see
    C79_duplicate_refuted) and larger items (see C79_size_refuted). *)
Theorem C79_arrival_partial : forall want req l l' evs, sequence 0 l -> Forall (plain want req) l -> Permutation l l' -> delivered req l' evs -> Z.of_nat (length (data want l)) <= 4096 ->
  response want req start evs = Some (Returned 0 (total l) (data want l')) /\ Permutation (data want l) (data want l').
Proof.
  intros want req l l' evs S F P D B.
  assert (PD : Permutation (data want l) (data want l')) by (apply Permutation_flat_map; exact P).
  assert (TT : total l = total l') by (clear -P; induction P; unfold total in *; cbn [fold_right]; lia). split; [|exact PD]. rewrite TT.
  destruct (lasts_sequence l 0 S) as (q & Q & IQ & SQ). pose proof (lasts_perm _ _ P) as PL. rewrite Q in PL. apply Permutation_length_1_inv in PL.
  assert (F' : Forall (plain want req) l') by (eapply Permutation_Forall; eassumption).
  assert (Q1 : r_seq q < 128) by (rewrite Forall_forall in F; destruct (F q IQ) as ((X & _) & _); lia).
  rewrite (Permutation_length P) in SQ. rewrite (Permutation_length PD) in B.
  apply (run want req l' evs D F' start (Z.of_nat (length l'))); cbn [s_have s_pkts s_buf s_last start length]; try reflexivity; try lia.
  - unfold BUFFER. lia.
  - left. split; [reflexivity|]. exists q. split; [exact PL|lia].
Qed.
Print Assumptions C79_arrival_partial.

(** In order: exactly the items of the answer. *)
Theorem C79_complete_partial : forall want req l evs, sequence 0 l -> Forall (plain want req) l -> delivered req l evs -> Z.of_nat (length (data want l)) <= 4096 ->
  response want req start evs = Some (Returned 0 (total l) (data want l)).
Proof. intros want req l evs S F D B. apply (C79_arrival_partial want req l l evs S F (Permutation_refl _) D B). Qed.
Print Assumptions C79_complete_partial.

(** An answer of which some packets do not come (each of the others once, in any order) is never taken for a whole one. *)
Theorem C79_incomplete_partial : forall want req l l' missing evs t, sequence 0 l -> Forall (plain want req) l -> Permutation l (l' ++ missing) -> missing <> [] -> only req l' evs ->
  Z.of_nat (length (data want l)) <= 4096 -> response want req start (evs ++ Late :: t) = Some (Returned 110 (total l') (data want l')).
Proof.
  intros want req l l' missing evs t S F P M D B.
  assert (PD : Permutation (data want l) (data want (l' ++ missing))) by (apply Permutation_flat_map; exact P).
  assert (DA : data want (l' ++ missing) = data want l' ++ data want missing) by apply flat_map_app.
  rewrite (Permutation_length PD), DA, app_length in B.
  destruct (lasts_sequence l 0 S) as (q & Q & IQ & SQ). pose proof (lasts_perm _ _ P) as PL. rewrite Q in PL. apply Permutation_length_1_inv in PL.
  assert (F' : Forall (plain want req) l') by (eapply Permutation_Forall in F; [|exact P]; apply Forall_app in F; apply F).
  assert (Q1 : r_seq q < 128) by (rewrite Forall_forall in F; destruct (F q IQ) as ((X & _) & _); lia).
  rewrite (Permutation_length P), app_length in SQ. assert (M1 : (1 <= length missing)%nat) by (destruct missing; [destruct M; reflexivity|cbn [length]; lia]).
  apply (run_short want req l' evs t D F' start (Z.of_nat (length l' + length missing))); cbn [s_have s_pkts s_buf s_last start length]; try reflexivity; try lia.
  - unfold BUFFER. lia.
  - left. split; [reflexivity|]. unfold lasts in PL |- *. rewrite filter_app in PL. destruct (filter _ l') as [|x k]; [left; reflexivity|right].
    cbn [app] in PL. injection PL as X Y. apply app_eq_nil in Y. destruct Y as [Y _]. subst k. exists q. split; [rewrite X; reflexivity|lia].
Qed.
Print Assumptions C79_incomplete_partial.

(** An answer of three packets, items of two and one octets brought to three. *)
Definition r0 := mkReply true 0 5 0 2 [[1;2];[3;4]].
Definition r1 := mkReply true 1 5 0 2 [[5;6]].
Definition r2 := mkReply false 2 5 0 1 [[7]].
Example C79_answer : sequence 0 [r0; r1; r2] /\ Forall (plain 3 5) [r0; r1; r2] /\ delivered 5 [r0; r1; r2] [Packet (encode r0); Packet [1;2;3]; Packet (encode r1); Packet (encode r2); Late] /\
  data 3 [r0; r1; r2] = [1;2;0;3;4;0;5;6;0;7;0;0] /\ total [r0; r1; r2] = 4 /\
  response 3 5 start [Packet (encode r0); Packet [1;2;3]; Packet (encode r1); Packet (encode r2); Late] = Some (Returned 0 4 [1;2;0;3;4;0;5;6;0;7;0;0]).
Proof.
  split; [cbn; auto|]. split; [repeat constructor; cbn; lia|]. split.
  { apply D_one. apply D_other; [repeat constructor; unfold octet; lia|exact I|]. apply D_one, D_one, D_end. }
  repeat split; reflexivity.
Qed.
Example C79_one_missing : Permutation [r0; r1; r2] ([r2; r0] ++ [r1]) /\ only 5 [r2; r0] [Packet (encode r2); Packet (encode r0)] /\
  response 3 5 start [Packet (encode r2); Packet (encode r0); Late] = Some (Returned 110 3 [7;0;0;1;2;0;3;4;0]).
Proof. split; [|split; [apply O_one, O_one, O_end|reflexivity]]. cbn [app]. apply (perm_trans (l' := [r0; r2; r1])); [apply perm_skip, perm_swap|apply perm_swap]. Qed.
Example C79_nodata : reply_ok (mkReply false 0 5 4 0 []) /\ response 3 5 start [Packet (encode (mkReply false 0 5 4 0 []))] = Some (Returned 61 0 []).
Proof. split; [repeat split; try constructor; cbn; lia|reflexivity]. Qed.
Example C79_last : final (encode r2) /\ ~ stranger 5 (encode r2) /\ stranger 5 (encode (mkReply false 0 6 0 0 [])).
Proof. split; [reflexivity|]. split; cbn; intuition (try discriminate; try lia). Qed.

Example C79_known : forall p, In (Packet p) [Packet (encode r0); Packet [1;2;3]; Packet (encode r1); Packet (encode r2); Late] -> Forall octet p /\ (stranger 5 p \/ known_error p).
Proof. intros p [E|[E|[E|[E|[E|[]]]]]]; inversion E; subst p; (split; [repeat (apply Forall_cons; [vm_compute; split; [discriminate|reflexivity]|]); apply Forall_nil|]); [right; reflexivity|left; exact I|right; reflexivity|right; reflexivity]. Qed.

(** A packet that comes twice is taken twice, and the answer is whole although one packet is missing. *)
Theorem C79_duplicate_refuted : ~ (forall want req l evs, sequence 0 l -> Forall (plain want req) l -> (forall p, In (Packet p) evs -> In p (map encode l)) ->
  forall n buf, response want req start evs = Some (Returned 0 n buf) -> n = total l).
Proof.
  intros H. specialize (H 3 5 [r0; r1; r2] [Packet (encode r0); Packet (encode r0); Packet (encode r2)]). destruct C79_answer as (S & F & _).
  assert (X : 5 = total [r0; r1; r2]). { eapply (H S F); [|vm_compute; reflexivity]. intros p [E|[E|[E|[]]]]; inversion E; cbn [map In]; auto. }
  discriminate X.
Qed.
Print Assumptions C79_duplicate_refuted.
(** The items are not in the order of the sequence. *)
Theorem C79_order_refuted : ~ (forall want req l l' evs, sequence 0 l -> Forall (plain want req) l -> Permutation l l' -> delivered req l' evs -> Z.of_nat (length (data want l)) <= 4096 ->
  response want req start evs = Some (Returned 0 (total l) (data want l))).
Proof.
  intros H. specialize (H 3 5 [r0; r1; r2] [r2; r1; r0] [Packet (encode r2); Packet (encode r1); Packet (encode r0)]). destruct C79_answer as (S & F & _).
  assert (X : response 3 5 start [Packet (encode r2); Packet (encode r1); Packet (encode r0)] = Some (Returned 0 (total [r0; r1; r2]) (data 3 [r0; r1; r2]))).
  { apply H; [exact S|exact F| |apply D_one, D_one, D_one, D_end|vm_compute; discriminate]. apply (Permutation_rev [r0; r1; r2]). }
  vm_compute in X. discriminate X.
Qed.
Print Assumptions C79_order_refuted.
(** Items larger than wanted are taken whole from the first packet: the second item is not where the caller looks for it. *)
Theorem C79_size_refuted : ~ (forall want req r n buf, 0 < want -> reply_ok r -> response want req start [Packet (encode r)] = Some (Returned 0 n buf) -> Z.of_nat (length buf) = n * want).
Proof.
  intros H. specialize (H 2 5 (mkReply false 0 5 0 3 [[1;2;3];[4;5;6]]) 2 [1;2;3;4;5;6]). assert (X : 6 = 4); [|discriminate X].
  apply H; [lia|repeat split; repeat constructor; cbn; lia|reflexivity].
Qed.
Print Assumptions C79_size_refuted.

(** The query is repeated with the next smaller size of request (188, 160, 48) only if the daemon calls the request too large, at
    most until the smallest one; the size found is kept. *)
Theorem C79_retry : forall want req l mode zs m o, (mode <= 2)%nat -> query want req mode l = Some (zs, m, o) ->
  (mode <= m <= 2)%nat /\ zs = firstn (length zs) (skipn mode [188; 160; 48]) /\ (length zs <= m - mode + 1)%nat /\
  (o <> None -> length zs = (m - mode + 1)%nat) /\
  (forall n buf, Forall (fun a => a_send a <> 90) l -> o = Some (Returned 90 n buf) -> m = 2%nat).
Proof.
  intros want req l. induction l as [|a l IH]; intros mode zs m o M Q; cbn [query] in Q.
  - inversion Q; subst. cbn [length]. repeat split; auto; try lia; try congruence.
  - destruct (nth_error sizes mode) as [z|] eqn:Z; [|discriminate Q]. cbn [bind] in Q.
    assert (ONE : [z] = firstn 1 (skipn mode [188; 160; 48])) by (destruct mode as [|[|[|k]]]; cbn in Z; inversion Z; subst; [reflexivity|reflexivity|reflexivity|lia]).
    destruct (a_send a =? 0) eqn:S; cbn [negb] in Q.
    2:{ inversion Q; subst. cbn [length]. repeat split; auto; try lia. intros n buf F E. inversion F; subst. inversion E. exfalso. auto. }
    destruct (response want req start (a_evs a)) as [[s|rc n buf]|]; cbn [bind] in Q; [|destruct ((rc =? EMSGSIZE) && (mode <? 2)%nat) eqn:C|discriminate Q].
    + inversion Q; subst. cbn [length]. repeat split; auto; try lia; try congruence.
    + apply andb_true_iff in C. destruct C as [_ C]. apply Nat.ltb_lt in C. destruct (query want req (Datatypes.S mode) l) as [[[zs' m'] p']|] eqn:Q'; [|discriminate Q]. cbn [bind] in Q. inversion Q; subst.
      destruct (IH (Datatypes.S mode) zs' m o ltac:(lia) Q') as (A & B & D & E & G). cbn [length]. split; [lia|]. split.
      * destruct mode as [|[|[|k]]]; cbn in Z; inversion Z; subst; [| |lia|lia]; cbn [skipn firstn] in B |- *; f_equal; exact B.
      * split; [lia|]. split; [intros NO; specialize (E NO); lia|]. intros n' buf' F. inversion F; subst. eapply G. assumption.
    + inversion Q; subst. cbn [length]. repeat split; auto; try lia. intros n' buf' _ E. inversion E; subst. cbn in C. apply Nat.leb_gt in C. lia.
Qed.
Print Assumptions C79_retry.

(** A daemon that refuses the larger requests is asked with the first size it accepts, and its answer is returned. *)
Theorem C79_legacy : forall want req k r evs n rc buf more, (k <= 2)%nat -> reply_ok r -> r_err r = 1 -> r_req r = req -> rc <> 90 -> response want req start evs = Some (Returned rc n buf) ->
  query want req 0 (repeat (mkA 0 [Packet (encode r)]) k ++ mkA 0 evs :: more) = Some (firstn (Datatypes.S k) [188; 160; 48], k, Some (Returned rc n buf)).
Proof.
  intros want req k r evs n rc buf more K OK ER RQ NE R.
  assert (X : response want req start [Packet (encode r)] = Some (Returned 90 0 [])).
  { pose proof (C79_error_partial want start [] r []) as T. cbn [map app] in T. rewrite RQ, ER in T. rewrite T; [reflexivity| | | |exact OK|lia|lia]; [cbn; unfold INT_MAX; lia|constructor|constructor]. }
  assert (Y : (rc =? EMSGSIZE) = false) by (apply Z.eqb_neq; exact NE).
  destruct k as [|[|[|k]]]; [| | |lia]; cbn [repeat app query a_send a_evs]; rewrite ?X, ?R; cbn [nth_error sizes bind negb Z.eqb Nat.ltb Nat.leb andb EMSGSIZE Pos.eqb]; rewrite ?X, ?R; cbn [bind]; fold EMSGSIZE; rewrite ?Y; reflexivity.
Qed.
Print Assumptions C79_legacy.
Example C79_old_daemon : reply_ok (mkReply false 0 5 1 0 []) /\
  query 3 5 0 [mkA 0 [Packet (encode (mkReply false 0 5 1 0 []))]; mkA 0 [Packet (encode r0); Packet (encode r1); Packet (encode r2)]] = Some ([188; 160], 1%nat, Some (Returned 0 4 [1;2;0;3;4;0;5;6;0;7;0;0])).
Proof. split; [repeat split; try constructor; cbn; lia|reflexivity]. Qed.
