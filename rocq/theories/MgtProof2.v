(** Proofs about management messages, continued: what the handlers do. *)
Require Import ZArith List Bool Lia ZifyBool.
Import ListNotations.
From Verif Require Import Base TimeSpec MsgSpec MsgModel MsgProof MsgProof2 MgtSpec MgtModel MgtProof.
Open Scope Z_scope.

Definition decide (o : options) (f : facts) (now : ts) (d stale : octets) (s : settings) : option hres :=
  if negb (o_set o) && ((q_action d =? 1) || (q_action d =? 3)) then err 6 s else dispatch o f now (firstn (usable d) d) (d ++ stale) (q_id d) (q_action d) s.

Lemma wd_table : forall a fs d k h, (54 <= usable d)%nat -> with_data a [] (unpack_fields fs (firstn (usable d) d) 54) k = Some h ->
  (a = 0 /\ k [] = Some h) \/ (a <> 0 /\ (54 + table_size fs <= usable d)%nat /\ k (rd fs (firstn (usable d) d) 54) = Some h).
Proof.
  intros a fs d k h L. unfold with_data. destruct (Z.eqb_spec a 0); [now left|]. right. split; [assumption|].
  destruct (unpack_fields fs (firstn (usable d) d) 54) as [[vs|]|] eqn:U; try discriminate. apply unpack_rd in U. destruct U as [-> U]. rewrite lenb in U. split; [auto|assumption].
Qed.
Lemma rd_octets : forall d, (54 + table_size d_octet_reserved <= usable d)%nat -> rd d_octet_reserved (firstn (usable d) d) 54 = [octet 54 d; octet 55 d].
Proof.
  intros d L. pose proof (usable_le d). change (table_size d_octet_reserved) with 2%nat in L. unfold d_octet_reserved, MsgModel.f. cbn [rd rd_field Nat.add].
  rewrite !num_firstn, !num1 by lia. reflexivity.
Qed.
Lemma rd_signed : forall d, all_octets d -> (54 + table_size d_signed_reserved <= usable d)%nat -> rd d_signed_reserved (firstn (usable d) d) 54 = [snum 54 1 d; octet 55 d].
Proof.
  intros d A L. pose proof (usable_le d). change (table_size d_signed_reserved) with 2%nat in L. unfold d_signed_reserved, MsgModel.f, MsgModel.g. cbn [rd rd_field Nat.add].
  rewrite !num_firstn by lia. rewrite sgn_snum by (assumption || lia). rewrite num1 by lia. reflexivity.
Qed.
Lemma rd_init : forall d, (54 + table_size d_initialize <= usable d)%nat -> rd d_initialize (firstn (usable d) d) 54 = [num 54 2 d].
Proof. intros d L. change (table_size d_initialize) with 2%nat in L. unfold d_initialize, MsgModel.f. cbn [rd rd_field Nat.add]. rewrite !num_firstn by lia. reflexivity. Qed.
Lemma rd_utc : forall d, all_octets d -> (54 + table_size d_utc_props <= usable d)%nat -> rd d_utc_props (firstn (usable d) d) 54 = [snum 54 2 d; octet 56 d; octet 57 d].
Proof.
  intros d A L. pose proof (usable_le d). change (table_size d_utc_props) with 4%nat in L. unfold d_utc_props, MsgModel.f, MsgModel.g. cbn [rd rd_field Nat.add].
  rewrite !num_firstn by lia. rewrite sgn_snum by (assumption || lia). rewrite !num1 by lia. reflexivity.
Qed.
Lemma wd_slave : forall a d stale k h, (54 <= usable d)%nat -> clean d stale -> q_id d = 0x2008 -> with_data a [] (unpackMMSlaveOnly (firstn (usable d) d) (d ++ stale)) k = Some h ->
  (a = 0 /\ k [] = Some h) \/ (a <> 0 /\ (54 + 2 <= usable d)%nat /\ k [octet 54 d; octet 55 d] = Some h).
Proof.
  intros a d stale k h L C Q. pose proof (usable_le d) as UL. unfold with_data. destruct (Z.eqb_spec a 0); [now left|]. right. split; [assumption|]. unfold unpackMMSlaveOnly, check in H. rewrite lenb in H.
  destruct (Nat.ltb_spec (usable d) (54 + 1)); [discriminate|]. destruct (ld_le 4 (d ++ stale) 54) as [so|] eqn:E; [|discriminate]. cbn [bind] in H.
  destruct (Nat.ltb_spec (usable d) (55 + 1)); [discriminate|]. destruct (ld 1 (firstn (usable d) d) 55) as [r|] eqn:E2; [|discriminate]. cbn [bind] in H. split; [lia|].
  apply ld_num in E2. rewrite num_firstn, num1 in E2 by lia. subst r. unfold ld_le in E. destruct (slice 4 (d ++ stale) 54) as [l|] eqn:S'; [|discriminate]. cbn [bind] in E. injection E as <-.
  apply slice_part in S'. pose proof (part_app 54 1 3 (d ++ stale)) as P. cbn [Nat.add] in P. rewrite P in S'. rewrite (C Q), nth_part in S' by (rewrite app_length; lia). subst l. cbn [app le] in H.
  rewrite app_nth1 in H by lia. unfold octet. replace (nth 54 d 0 + 256 * (0 + 256 * (0 + 256 * (0 + 256 * 0)))) with (nth 54 d 0) in H by lia. exact H.
Qed.
Lemma wd_user : forall a d k h, (54 <= usable d)%nat -> all_octets d -> with_data a (0, None) (unpackMMUserDescription (firstn (usable d) d)) k = Some h ->
  (a = 0 /\ k (0, None) = Some h) \/ (a <> 0 /\ (54 < usable d)%nat /\
    k (octet 54 d, if Nat.ltb (usable d) (55 + Z.to_nat (octet 54 d)) then None else Some (q_text d)) = Some h).
Proof.
  intros a d k h L A. pose proof (usable_le d) as UL. unfold with_data. destruct (Z.eqb_spec a 0); [now left|]. right. split; [assumption|]. unfold unpackMMUserDescription, check in H. rewrite lenb in H.
  destruct (Nat.ltb_spec (usable d) (54 + 1)); [discriminate|]. split; [lia|]. destruct (ld 1 (firstn (usable d) d) 54) as [n0|] eqn:E; [|discriminate]. cbn [bind] in H.
  apply ld_num in E. rewrite num_firstn, num1 in E by lia. subst n0.
  assert (Q : Nat.ltb (usable d - 54) (1 + Z.to_nat (octet 54 d)) = Nat.ltb (usable d) (55 + Z.to_nat (octet 54 d))) by (destruct (Nat.ltb_spec (usable d - 54) (1 + Z.to_nat (octet 54 d))), (Nat.ltb_spec (usable d) (55 + Z.to_nat (octet 54 d))); lia || reflexivity).
  rewrite Q in H. destruct (Nat.ltb_spec (usable d) (55 + Z.to_nat (octet 54 d))); [exact H|].
  destruct (slice (Z.to_nat (octet 54 d)) (firstn (usable d) d) 55) as [t|] eqn:S'; [|discriminate]. cbn [bind] in H. apply slice_part in S'. rewrite part_firstn in S' by lia. subst t. exact H.
Qed.
Lemma wd_clock : forall a d k h, with_data a tt (unpackMMClockDescription (firstn (usable d) d)) k = Some h -> k tt = Some h.
Proof. intros a d k h. unfold with_data. destruct (a =? 0); [auto|]. destruct (unpackMMClockDescription _) as [[[]|]|]; auto; discriminate. Qed.

(** The cases of a request: 26 ids (one hypothesis [E] each), and what the handler was given. *)
Ltac with_table L H := apply (wd_table _ _ _ _ _ L) in H; destruct H as [[ACT H]|(ACT & LEN & H)].
Ltac split_ids d H L :=
  unfold dispatch in H; cbv zeta in H;
  destruct (Z.eqb_spec (q_id d) 0) as [E|N0]; [|
  destruct (Z.eqb_spec (q_id d) 0x0001) as [E|N1]; [apply wd_clock in H|
  destruct (Z.eqb_spec (q_id d) 0x0002) as [E|N2]; [apply (wd_user _ _ _ _ L) in H; [destruct H as [[ACT H]|(ACT & LEN & H)]|assumption]|
  destruct (Z.eqb_spec (q_id d) 0x0005) as [E|N3]; [with_table L H; [|rewrite rd_init in H by assumption]|
  destruct (Z.eqb_spec (q_id d) 0x2000) as [E|N4]; [with_table L H|
  destruct (Z.eqb_spec (q_id d) 0x2001) as [E|N5]; [with_table L H|
  destruct (Z.eqb_spec (q_id d) 0x2002) as [E|N6]; [with_table L H|
  destruct (Z.eqb_spec (q_id d) 0x2003) as [E|N7]; [with_table L H|
  destruct (Z.eqb_spec (q_id d) 0x2004) as [E|N8]; [with_table L H|
  destruct (Z.eqb_spec (q_id d) 0x2005) as [E|N9]; [with_table L H; [|rewrite rd_octets in H by assumption]|
  destruct (Z.eqb_spec (q_id d) 0x2006) as [E|N10]; [with_table L H; [|rewrite rd_octets in H by assumption]|
  destruct (Z.eqb_spec (q_id d) 0x2007) as [E|N11]; [with_table L H; [|rewrite rd_octets in H by assumption]|
  destruct (Z.eqb_spec (q_id d) 0x2008) as [E|N12]; [apply (wd_slave _ _ _ _ _ L) in H; [destruct H as [[ACT H]|(ACT & LEN & H)]|assumption|assumption]|
  destruct (Z.eqb_spec (q_id d) 0x2009) as [E|N13]; [with_table L H; [|rewrite rd_signed in H by assumption]|
  destruct (Z.eqb_spec (q_id d) 0x200A) as [E|N14]; [with_table L H; [|rewrite rd_octets in H by assumption]|
  destruct (Z.eqb_spec (q_id d) 0x200B) as [E|N15]; [with_table L H; [|rewrite rd_signed in H by assumption]|
  destruct (Z.eqb_spec (q_id d) 0x200C) as [E|N16]; [with_table L H|
  destruct (Z.eqb_spec (q_id d) 0x200D) as [E|N17]; [|
  destruct (Z.eqb_spec (q_id d) 0x200E) as [E|N18]; [|
  destruct (Z.eqb_spec (q_id d) 0x200F) as [E|N19]; [with_table L H|
  destruct (Z.eqb_spec (q_id d) 0x2010) as [E|N20]; [with_table L H; [|rewrite rd_octets in H by assumption]|
  destruct (Z.eqb_spec (q_id d) 0x2011) as [E|N21]; [with_table L H; [|rewrite rd_utc in H by assumption]|
  destruct (Z.eqb_spec (q_id d) 0x2012) as [E|N22]; [with_table L H; [|rewrite rd_octets in H by assumption]|
  destruct (Z.eqb_spec (q_id d) 0x6000) as [E|N23]; [with_table L H; [|rewrite rd_octets in H by assumption]|
  destruct (Z.eqb_spec (q_id d) 0x6001) as [E|N24]; [with_table L H; [|rewrite rd_signed in H by assumption]|
  ]]]]]]]]]]]]]]]]]]]]]]]]].

Lemma some_inj : forall A (a b : A), Some a = Some b -> a = b.
Proof. now intros A a b [= ->]. Qed.
Ltac crush_h H := 
  repeat match type of H with
  | (if ?c then _ else _) = Some _ => let B := fresh "B" in destruct c eqn:B
  | bind ?m _ = Some _ => let B := fresh "M" in destruct m eqn:B; cbn [bind] in H
  | None = Some _ => discriminate H
  | Some _ = Some ?h => apply some_inj in H; subst h
  end.
Ltac unfold_h H := unfold handleMMNullManagement, handleMMClockDescription, handleMMSlaveOnly, handleMMUserDescription, handleMMInitialize, handleMMDefaultDataSet, handleMMCurrentDataSet, handleMMParentDataSet,
  handleMMTimePropertiesDataSet, handleMMPortDataSet, handleMMPriority1, handleMMPriority2, handleMMDomain, handleMMLogAnnounceInterval, handleMMAnnounceReceiptTimeout, handleMMLogSyncInterval,
  handleMMVersionNumber, handleMMEnablePort, handleMMDisablePort, handleMMTime, handleMMClockAccuracy, handleMMUtcProperties, handleMMTraceabilityProperties, handleMMDelayMechanism,
  handleMMLogMinPdelayReqInterval, only_get, set_or_get, ok, err in H; cbv zeta in H; cbn [fst snd] in H.

Lemma IS_SET_bit : forall v n, 0 <= n -> 0 <= v -> IS_SET v n = bit_set n v.
Proof.
  intros v n N V. unfold IS_SET, bit_set. rewrite Z.shiftl_1_l. rewrite <- Z.shiftr_div_pow2 by lia. rewrite <- Z.bit0_odd, Z.shiftr_spec, Z.add_0_l by lia.
  destruct (Z.testbit v n) eqn:T.
  - apply Z.eqb_eq. apply Z.bits_inj'. intros k K. rewrite Z.land_spec, Z.pow2_bits_eqb by lia. destruct (Z.eqb_spec n k); [subst; rewrite T; reflexivity|apply andb_false_r].
  - apply Z.eqb_neq. intro E. apply (f_equal (fun z => Z.testbit z n)) in E. rewrite Z.land_spec, Z.pow2_bits_eqb, Z.eqb_refl, T in E by lia. discriminate.
Qed.

Ltac tidy := match goal with E : q_id ?dd = _ |- _ => repeat match goal with N : q_id dd <> _ |- _ => clear N end | _ => idtac end.
Ltac start_decide H o d s L RO :=
  unfold decide in H; destruct (negb (o_set o) && ((q_action d =? 1) || (q_action d =? 3))) eqn:RO;
  [|assert (ROP : o_set o = true \/ (q_action d <> 1 /\ q_action d <> 3)) by (destruct (o_set o); [now left|right; lia]); split_ids d H L; tidy; try (unfold_h H; crush_h H)].
Ltac knows_ids := repeat match goal with N : q_id ?dd <> ?k |- _ => rewrite (proj2 (Z.eqb_neq _ _) N) || (apply (fun n => proj2 (Z.eqb_neq _ _) n) in N) end.
Ltac knows2 := repeat match goal with N : (q_id ?dd =? ?k) = false |- context [q_id ?dd =? ?k] => rewrite N end.

Lemma decide_effect : forall o f now d stale s h, all_octets d -> (54 <= usable d)%nat -> clean d stale -> decide o f now d stale s = Some h ->
  forall x, value x (new h) = match (if o_set o then asks s d x else None) with Some v => v | None => value x s end.
Proof.
  intros o f now d stale s h A L C H x. start_decide H o d s L RO.
  { injection H as <-. cbn [new]. destruct (o_set o); [discriminate|reflexivity]. }
  all: cbn [new].
  all: destruct (o_set o) eqn:SET'; [|cbn [negb andb] in RO; try reflexivity; exfalso; lia].
  all: unfold asks; cbv zeta; try rewrite !E.
  all: unfold SET, COMMAND, ID_SLAVE_ONLY, ID_PRIORITY1, ID_PRIORITY2, ID_DOMAIN, ID_LOG_ANNOUNCE, ID_TIMEOUT, ID_LOG_SYNC, ID_DELAY_MECHANISM, ID_LOG_PDELAY, ID_ACCURACY, ID_UTC, ID_TRACEABILITY,
    ID_INITIALIZE, ID_ENABLE_PORT, ID_DISABLE_PORT.
  all: try change (is_follower s) with (follower s) in *; knows_ids.
  all: cbn [existsb Z.eqb Pos.eqb andb orb negb].
  all: destruct (q_action d =? 1) eqn:A1; destruct (q_action d =? 3) eqn:A3; try (exfalso; lia); cbn [negb andb].
  all: try (destruct x; reflexivity).
  all: pose proof (octet_u 54 d A) as [O54 _]; pose proof (octet_u 56 d A) as [O56 _]; rewrite ?IS_SET_bit by lia.
  - destruct (num 54 2 d =? 0); destruct x; reflexivity.
  - unfold DISABLED. destruct (s_state s =? 3); destruct x; reflexivity.
  - destruct (follower s); [destruct x; reflexivity|discriminate].
  - destruct (follower s); [discriminate|destruct x; reflexivity].
  - destruct (follower s); [destruct x; reflexivity|discriminate].
  - destruct (follower s); [discriminate|destruct x; reflexivity].
  - destruct (follower s); [destruct x; reflexivity|discriminate].
  - destruct (follower s); [discriminate|destruct x; reflexivity].
  - destruct x; knows2; reflexivity.
  - destruct x; knows2; reflexivity.
Qed.

Lemma decide_verdict : forall o f now d stale s h, all_octets d -> (54 <= usable d)%nat -> clean d stale -> decide o f now d stale s = Some h -> rc h = verdict o s d.
Proof.
  intros o f now d stale s h A L C H. start_decide H o d s L RO.
  { injection H as <-. unfold verdict, SET, COMMAND. cbv zeta. now rewrite RO. }
  all: cbn [rc]; unfold verdict, SET, COMMAND, GET; cbv zeta; unfold mem; try rewrite !E.
  all: replace (negb (o_set o) && ((q_action d =? 1) || (q_action d =? 3))) with false by (symmetry; destruct ROP as [-> |[R1 R3]]; [reflexivity|rewrite (proj2 (Z.eqb_neq _ _) R1), (proj2 (Z.eqb_neq _ _) R3); apply andb_false_r]).
  all: try change (is_follower s) with (follower s) in *.
  all: cbv beta delta [readable writable commandable ID_NULL ID_CLOCK_DESCRIPTION ID_USER_DESCRIPTION ID_DEFAULT_DS ID_CURRENT_DS ID_PARENT_DS ID_TIME_PROPERTIES ID_PORT_DS ID_VERSION ID_TIME
    ID_SLAVE_ONLY ID_PRIORITY1 ID_PRIORITY2 ID_DOMAIN ID_LOG_ANNOUNCE ID_TIMEOUT ID_LOG_SYNC ID_DELAY_MECHANISM ID_LOG_PDELAY ID_ACCURACY ID_UTC ID_TRACEABILITY ID_INITIALIZE ID_ENABLE_PORT ID_DISABLE_PORT].
  all: try (cbn [existsb Z.eqb Pos.eqb andb orb negb]; destruct (q_action d =? 0) eqn:A0; destruct (q_action d =? 1) eqn:A1; destruct (q_action d =? 3) eqn:A3; try (exfalso; lia); cbn [negb andb orb]; reflexivity).
  all: try (cbn [existsb Z.eqb Pos.eqb andb orb negb]; destruct (q_action d =? 0) eqn:A0; destruct (q_action d =? 1) eqn:A1; destruct (q_action d =? 3) eqn:A3; try (exfalso; lia); cbn [negb andb orb];
    destruct (follower s); (discriminate || reflexivity)).
  all: try (cbn [existsb Z.eqb Pos.eqb andb orb negb]; destruct (q_action d =? 0) eqn:A0; destruct (q_action d =? 1) eqn:A1; destruct (q_action d =? 3) eqn:A3; try (exfalso; lia); cbn [negb andb orb];
    destruct (Z.ltb_spec 128 (octet 54 d)); (reflexivity || exfalso; lia)).
  all: try change (existsb (Z.eqb (q_id d)) unimplemented = true) in B; try change (existsb (Z.eqb (q_id d)) unimplemented = false) in B; rewrite B.
  all: cbn [existsb andb orb negb]; knows_ids; cbn [andb orb negb]; knows2; rewrite ?andb_false_r; reflexivity.
Qed.

Definition stored (t : octets) : octets := firstn 129 (t ++ repeat 0 129).
Lemma text_stored : forall t, (length t <= 128)%nat -> text (stored t) = text t.
Proof.
  intros t L. unfold stored. rewrite firstn_app. rewrite firstn_all2 by lia. remember (129 - length t)%nat as k eqn:K. destruct k as [|k]; [lia|].
  replace (firstn (S k) (repeat 0 129)) with (0 :: firstn k (repeat 0 128)) by reflexivity. generalize (firstn k (repeat 0 128)). clear.
  induction t as [|x t IH]; intros l; [reflexivity|]. cbn [app text]. destruct (x =? 0); [reflexivity|]. now rewrite IH.
Qed.
Lemma q_text_length : forall d, (55 + Z.to_nat (octet 54 d) <= usable d)%nat -> length (q_text d) = Z.to_nat (octet 54 d).
Proof. intros d L. pose proof (usable_le d). unfold q_text, part. rewrite firstn_length, skipn_length. lia. Qed.
Lemma decide_desc : forall o f now d stale s h, all_octets d -> (54 <= usable d)%nat -> clean d stale -> decide o f now d stale s = Some h ->
  text (s_desc (new h)) = match (if o_set o then asks_description d else None) with Some t => text t | None => text (s_desc s) end.
Proof.
  intros o f now d stale s h A L C H. start_decide H o d s L RO.
  { injection H as <-. cbn [new]. destruct (o_set o); [discriminate|reflexivity]. }
  all: cbn [new]; unfold asks_description, SET, ID_USER_DESCRIPTION; try rewrite !E; cbn [Z.eqb Pos.eqb]; rewrite ?andb_false_r; cbn [andb].
  all: try (destruct (o_set o); reflexivity).
  all: try (exfalso; lia).
  all: try (rewrite ACT; destruct (o_set o); reflexivity).
  - destruct ROP as [-> |]; [|lia]. rewrite B, B0. cbn [andb]. change (firstn 129 (l ++ repeat 0 129)) with (stored l). cbn [set_desc s_desc].
    pose proof (octet_u 54 d A) as O. unfold in_u in O. destruct (octet 54 d =? 0) eqn:Z0.
    + injection M as <-. unfold q_text. replace (octet 54 d) with 0 by lia. rewrite text_stored by (cbn; lia). reflexivity.
    + destruct (Nat.ltb_spec (usable d) (55 + Z.to_nat (octet 54 d))); [discriminate|]. injection M as <-. apply text_stored. rewrite q_text_length; lia.
  - rewrite B0. rewrite andb_false_r. destruct (o_set o); reflexivity.
  - rewrite B. destruct (o_set o); reflexivity.
  - destruct (o_set o), (num 54 2 d =? 0); reflexivity.
  - destruct (o_set o), (s_state s =? 3); reflexivity.
  - rewrite (proj2 (Z.eqb_neq _ _) N2), andb_false_r. destruct (o_set o); reflexivity.
  - rewrite (proj2 (Z.eqb_neq _ _) N2), andb_false_r. destruct (o_set o); reflexivity.
Qed.

Lemma stored_fits : forall t, all_octets t -> (length t <= 128)%nat -> all_octets (stored t) /\ length (stored t) = 129%nat /\ In 0 (stored t).
Proof.
  intros t A L. unfold stored. split; [|split].
  - apply all_firstn. apply Forall_app. split; [exact A|]. apply Forall_forall. intros x I. apply repeat_spec in I. subst. unfold is_octet. lia.
  - rewrite firstn_length, app_length, repeat_length. lia.
  - rewrite firstn_app, firstn_all2 by lia. apply in_or_app. right. remember (129 - length t)%nat as k eqn:K. destruct k as [|k]; [lia|]. left. reflexivity.
Qed.
Lemma snum_s : forall off n b k, all_octets b -> (0 < n)%nat -> k = 8 * Z.of_nat n -> in_s k (snum off n b).
Proof. intros off n b k A N ->. rewrite <- sgn_snum by assumption. apply sgn_range. assumption. Qed.
Lemma part_all : forall off n b, all_octets b -> all_octets (part off n b).
Proof.
  intros off n b A. unfold part. apply all_firstn. unfold all_octets in *. rewrite Forall_forall in *. intros x I. apply A. rewrite <- (firstn_skipn off b). apply in_or_app. now right.
Qed.
Lemma state_fit : forall v s, settings_fit s -> in_u 8 v -> settings_fit (set_state v s).
Proof. intros v s (F1 & F2 & F3 & F4 & F5 & F6 & F7 & F8 & F9 & F10 & F11 & F12 & F13 & F14) V. repeat (split; [assumption|]). assumption. Qed.
Lemma desc_fit : forall t s, settings_fit s -> all_octets t -> (length t <= 128)%nat -> settings_fit (set_desc (stored t) s).
Proof. intros t s (F1 & F2 & F3 & F4 & F5 & F6 & F7 & F8 & F9 & F10 & F11 & F12 & F13 & F14) A L. destruct (stored_fits t A L) as (S1 & S2 & S3). repeat (split; [assumption|]). assumption. Qed.
Lemma decide_fit : forall o f now d stale s h, all_octets d -> (54 <= usable d)%nat -> clean d stale -> settings_fit s -> decide o f now d stale s = Some h -> settings_fit (new h).
Proof.
  intros o f now d stale s h A L C F H. start_decide H o d s L RO.
  { injection H as <-. exact F. }
  all: cbn [new]; try exact F.
  all: pose proof (octet_u 54 d A) as O54; pose proof (octet_u 56 d A) as O56;
    pose proof (snum_s 54 1 d 8 A ltac:(lia) eq_refl) as S1; pose proof (snum_s 54 2 d 16 A ltac:(lia) eq_refl) as S2.
  all: try (destruct F as (F1 & F2 & F3 & F4 & F5 & F6 & F7 & F8 & F9 & F10 & F11 & F12 & F13 & F14);
    match goal with |- settings_fit (set_desc _ _) => fail 1 | _ => idtac end; repeat split; first [assumption|apply F1|apply F2|apply F3|apply F4|apply F5|apply F6|apply F7|apply F8|apply F9|apply F10|apply F11|apply O54|apply O56|apply S1|apply S2]).
  - exfalso. lia.
  - change (firstn 129 (l ++ repeat 0 129)) with (stored l). unfold in_u in O54. destruct (octet 54 d =? 0) eqn:Z0.
    + injection M as <-. apply desc_fit; [exact F|constructor|cbn; lia].
    + destruct (Nat.ltb_spec (usable d) (55 + Z.to_nat (octet 54 d))); [discriminate|]. injection M as <-. apply desc_fit; [exact F|apply part_all; exact A|rewrite q_text_length; lia].
  - destruct (num 54 2 d =? 0); [apply state_fit|]; try exact F. split; [lia|reflexivity].
  - destruct (s_state s =? 3); [apply state_fit|]; try exact F. split; [lia|reflexivity].
  - apply state_fit; [exact F|]. split; [lia|reflexivity].
Qed.

Lemma cstring_text : forall l t, cstring l = Some t -> t = text l.
Proof.
  induction l as [|x l IH]; intros t; cbn [cstring text]; [discriminate|]. destruct (x =? 0); [now intros [= <-]|]. destruct (cstring l) as [u|] eqn:E; [|discriminate]. cbn [bind].
  intros [= <-]. now rewrite (IH u).
Qed.
Lemma text_length : forall l t, cstring l = Some t -> (length t < length l)%nat.
Proof.
  induction l as [|x l IH]; intros t; cbn [cstring length]; [discriminate|]. destruct (x =? 0); [intros [= <-]; cbn; lia|]. destruct (cstring l) as [u|] eqn:E; [|discriminate]. cbn [bind].
  intros [= <-]. specialize (IH u eq_refl). cbn [length]. lia.
Qed.
Lemma ptptext_counted : forall t, (length t <= 255)%nat -> ptptext t = counted t.
Proof.
  intros t L. unfold ptptext, counted. replace (u8 (Z.of_nat (length t))) with (Z.of_nat (length t)) by (unfold u8; change (2 ^ 8) with 256; lia). rewrite Nat2Z.id, firstn_all. reflexivity.
Qed.
Lemma even_length : forall l, (length (even l) <= S (length l))%nat.
Proof. intros l. unfold even. destruct (Nat.even _); [lia|]. rewrite app_length. cbn. lia. Qed.

Lemma user_shown : forall l t, cstring l = Some t -> (length l <= 129)%nat -> looks (Pieces [ptptext t]) (even (counted (text l))) /\ (length (even (counted (text l))) <= 400)%nat.
Proof.
  intros l t H L. pose proof (text_length l t H) as TL. apply cstring_text in H. subst t. rewrite ptptext_counted by lia. split.
  - replace (counted (text l)) with (concat [counted (text l)]) at 2 by (cbn [concat]; apply app_nil_r). apply lk_pieces.
  - pose proof (even_length (counted (text l))) as EL. unfold counted in EL at 2. cbn [length] in EL. lia.
Qed.
Lemma desc129 : forall l s, (length (s_desc (set_desc (firstn 129 (l ++ repeat 0%Z 129)) s)) <= 129)%nat.
Proof. intros. cbn [set_desc s_desc]. rewrite firstn_length. lia. Qed.
Lemma decide_shown : forall o f now d stale s h, all_octets d -> (54 <= usable d)%nat -> clean d stale -> settings_fit s -> facts_fit f -> (q_id d = ID_DEFAULT_DS -> f_two_step f = false) ->
  decide o f now d stale s = Some h -> rc h = 0 ->
  out_action h = reply_action d /\ looks (out_data h) (contents o f (new h) now d) /\ (length (contents o f (new h) now d) <= 400)%nat.
Proof.
  intros o f now d stale s h A L C FS FF TS H RC. start_decide H o d s L RO.
  { injection H as <-. discriminate RC. }
  all: cbn [rc] in RC; try discriminate RC; cbn [out_action out_data new].
  all: unfold contents; cbv zeta; rewrite !E.
  all: cbv beta delta [ID_NULL ID_CLOCK_DESCRIPTION ID_USER_DESCRIPTION ID_DEFAULT_DS ID_CURRENT_DS ID_PARENT_DS ID_TIME_PROPERTIES ID_PORT_DS ID_VERSION ID_TIME
    ID_SLAVE_ONLY ID_PRIORITY1 ID_PRIORITY2 ID_DOMAIN ID_LOG_ANNOUNCE ID_TIMEOUT ID_LOG_SYNC ID_DELAY_MECHANISM ID_LOG_PDELAY ID_ACCURACY ID_UTC ID_TRACEABILITY ID_INITIALIZE ID_ENABLE_PORT ID_DISABLE_PORT].
  all: cbn [Z.eqb Pos.eqb].
  all: split; [unfold reply_action, GET, SET, COMMAND, RESPONSE, ACKNOWLEDGE; destruct (q_action d =? 0) eqn:A0; destruct (q_action d =? 1) eqn:A1; destruct (q_action d =? 3) eqn:A3; try (exfalso; lia); reflexivity|].
  all: split; [|first [rewrite wire_length; cbn; lia|idtac]].
  all: try apply lk_none.
  all: try (apply some_inj in M; subst o0).
  all: try (cbn [s_prio1 set_prio1]; unfold d_initialize, d_octet_reserved, d_signed_reserved, MsgModel.f, MsgModel.g; apply lk_table; repeat constructor; fail).
  all: try (apply lk_table; unfold d_slave_only, MsgModel.f; apply sh_bool; repeat constructor; fail).
  all: try (apply lk_table; unfold d_version, MsgModel.f; apply (sh_half 0 2); [split; reflexivity || discriminate|split; reflexivity || discriminate|repeat constructor]; fail).
  all: try (apply lk_table; unfold d_time, f_stamp, MsgModel.f; unfold chk_s64 in M; match type of M with (if ?c then _ else _) = _ => destruct c; [|discriminate M] end; apply some_inj in M; subst z; apply sh_u; repeat constructor; fail).
  all: try (apply lk_table; unfold d_utc_props, MsgModel.f, MsgModel.g; apply sh_i; 
    match goal with |- shown _ [Z.lor (Z.lor (SET_FIELD ?a 2) (SET_FIELD ?b 1)) (SET_FIELD ?c 0); 0] _ => 
      replace (Z.lor (Z.lor (SET_FIELD a 2) (SET_FIELD b 1)) (SET_FIELD c 0)) with (bit c 0 + bit b 1 + bit a 2) by (destruct a, b, c; reflexivity) end; repeat constructor; fail).
  all: try (apply lk_table; unfold d_octet_reserved, MsgModel.f; 
    match goal with |- shown _ [Z.lor (SET_FIELD ?a 5) (SET_FIELD ?b 4); 0] _ => 
      replace (Z.lor (SET_FIELD a 5) (SET_FIELD b 4)) with (bit b 4 + bit a 5) by (destruct a, b; reflexivity) end; repeat constructor; fail).
  all: try (apply lk_table; unfold d_current_ds, MsgModel.f, MsgModel.g; repeat constructor; fail).
  all: try (apply lk_table; unfold d_parent_ds, f_port, f_quality, port_fields, MsgModel.f, MsgModel.g; cbn [app]; do 2 apply sh_u; apply (sh_bool (f_pstats f)); repeat constructor; fail).
  all: try (apply lk_table; unfold d_default_ds, f_port, f_quality, MsgModel.f, MsgModel.g; cbn [app]; rewrite (TS E); 
    replace (Z.lor (if s_slave_only s then 2 else 0) (Z.shiftr 0 1)) with (bit (s_slave_only s) 1 + bit false 0) by (destruct (s_slave_only s); reflexivity); repeat constructor; fail).
  all: try (apply lk_table; unfold d_port_ds, f_port, port_fields, MsgModel.f, MsgModel.g; cbn [app]; repeat (apply sh_u || apply sh_i); apply (sh_half 0 2); [split; reflexivity || discriminate|split; reflexivity || discriminate|constructor]; fail).
  all: try (apply lk_table; unfold d_time_props, MsgModel.f, MsgModel.g; apply sh_i;
    match goal with |- shown _ (?v :: _) _ => replace v with (flags3 s + bit (f_ptpt f) 3 + flags2 s) by (unfold flags3, flags2; destruct (s_li61 s), (s_li59 s), (s_utcv s), (f_ptpt f), (s_ttra s), (s_ftra s); reflexivity) end;
    repeat constructor; fail).
  all: try (match goal with K : cstring ?x = Some ?t |- context [text ?x] => destruct (user_shown x t K) as [U1 U2]; [first [apply desc129|destruct FS as (_ & _ & _ & _ & _ & _ & _ & _ & _ & _ & _ & _ & -> & _); lia]|first [exact U1|exact U2]] end).
  - destruct FF as (_ & _ & _ & _ & _ & _ & _ & _ & _ & _ & _ & _ & _ & _ & _ & _ & _ & _ & _ & _ & LM & _ & LA & LP & LR & LF).
    destruct (cstring (s_desc s)) as [t|] eqn:K; [|discriminate]. cbn [bind] in M. apply some_inj in M. subst o0. pose proof (text_length _ _ K) as TL. apply cstring_text in K. subst t.
    destruct FS as (_ & _ & _ & _ & _ & _ & _ & _ & _ & _ & _ & _ & LS & _). rewrite LS in TL. rewrite !ptptext_counted by (cbn [length] in *; lia).
    match goal with |- looks (Pieces ?l) (even ?x) => replace x with (concat l); [apply lk_pieces|] end.
    rewrite LM. cbn [concat app wire flat_map fst snd]. rewrite ?app_nil_r, <- ?app_assoc. reflexivity.
  - destruct FF as (_ & _ & _ & _ & _ & _ & _ & _ & _ & _ & _ & _ & _ & _ & _ & _ & _ & _ & _ & _ & LM & _ & LA & LP & LR & LF).
    destruct (cstring (s_desc s)) as [t|] eqn:K; [|discriminate]. pose proof (text_length _ _ K) as TL. apply cstring_text in K. subst t.
    destruct FS as (_ & _ & _ & _ & _ & _ & _ & _ & _ & _ & _ & _ & LS & _). rewrite LS in TL.
    match goal with |- (length (even ?x) <= _)%nat => pose proof (even_length x) as EL; generalize dependent (length (even x)); intros n EL end. rewrite ?app_length in EL. rewrite !wire_length in EL. unfold counted in EL. cbn [length fold_right fst] in EL. lia.
Qed.
