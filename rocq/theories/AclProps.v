(** C20: access control lists. *)
Require Import ZArith List Bool Lia Permutation.
Require Import ZifyBool.
Import ListNotations.
From Verif Require Import Base ListLib AclSpec AclModel AclProof.
Open Scope Z_scope.

(** C20, full statement.  A list compiled from texts that list networks accepts exactly the
    addresses the documented order accepts; a text that does not list networks is rejected;
    and compiling any text is free of undefined behaviour.

    Proved: the first part, for every text without a mask 255.255.255.255, every address and
    every history of earlier decisions; the counters count the decisions (modulo 2^32).
    Refuted below: the mask 255.255.255.255 makes the program shift by 32 bits (without end
    where such a shift has no effect), and texts which do not list networks are accepted. *)
Theorem C20_decision_partial : forall sort allow_text deny_text o aes des addrs,
  (forall t, Permutation t (sort t)) ->
  good_text allow_text aes -> good_text deny_text des -> Forall is_addr addrs ->
  exists a bs a',
    create sort allow_text deny_text o = Some (Some a) /\ decide a addrs = Some (bs, a') /\
    Forall2 (fun x b => b = true <-> accepts o (map snd aes) (map snd des) x) addrs bs /\
    u32 (passed a') = u32 (Z.of_nat (length (filter (fun b : bool => b) bs))) /\
    u32 (dropped a') = u32 (Z.of_nat (length (filter negb bs))).
Proof.
  intros sort at_ dt o ae de addrs SP GA GD F.
  destruct (create_text sort at_ dt o ae de SP GA GD) as (a & C & I & P & Q).
  destruct (decide_spec _ _ _ addrs a I F) as (bs & a' & D & _ & F2 & P2 & Q2).
  rewrite P in P2. rewrite Q in Q2. exists a, bs, a'. auto.
Qed.
Print Assumptions C20_decision_partial.

(** "10.1.0.0/16, 192.168.1.7;172.16.0.0/255.240.0.0": a well formed text. *)
Definition t_10 : list Z := [49;48;46;49;46;48;46;48].
Definition t_192 : list Z := [49;57;50;46;49;54;56;46;49;46;55].
Definition t_172 : list Z := [49;55;50;46;49;54;46;48;46;48].
Definition t_255_240 : list Z := [50;53;53;46;50;52;48;46;48;46;48].
Definition t_list : list Z := (t_10 ++ 47 :: [49;54]) ++ [44;32] ++ t_192 ++ [59] ++ (t_172 ++ 47 :: t_255_240).
Definition n_list : list (list Z * net) :=
  [(t_10 ++ 47 :: [49;54], mkNet (10*2^24 + 2^16) 16); (t_192, mkNet (192*2^24 + 168*2^16 + 2^8 + 7) 32);
   (t_172 ++ 47 :: t_255_240, mkNet (172*2^24 + 16*2^16) 12)].
Lemma decimal_intro : forall s, s <> [] -> forallb isdigit s = true -> decimal s (digits_value s).
Proof.
  intros s N F. split; [assumption|]. split; [|reflexivity]. rewrite forallb_forall in F. apply Forall_forall.
  intros c I. apply F in I. unfold isdigit in I. unfold digit. lia.
Qed.
Lemma dotted_intro : forall s1 s2 s3 s4 s a, s = s1 ++ 46 :: s2 ++ 46 :: s3 ++ 46 :: s4 ->
  Forall (fun s => s <> [] /\ forallb isdigit s = true /\ digits_value s <= 255) [s1; s2; s3; s4] ->
  a = digits_value s1 * 2^24 + digits_value s2 * 2^16 + digits_value s3 * 2^8 + digits_value s4 -> dotted s a.
Proof.
  intros s1 s2 s3 s4 s a E F A. inversion F as [|x1 y1 (A1 & A2 & A3) F1]; subst. inversion F1 as [|x2 y2 (B1 & B2 & B3) F2]; subst.
  inversion F2 as [|x3 y3 (C1 & C2 & C3) F3]; subst. inversion F3 as [|x4 y4 (D1 & D2 & D3) _]; subst.
  exists s1, s2, s3, s4, (digits_value s1), (digits_value s2), (digits_value s3), (digits_value s4).
  repeat (split; [first [apply decimal_intro; assumption | assumption | reflexivity]|]). reflexivity.
Qed.
Ltac octs := repeat constructor; try discriminate; vm_compute; intuition congruence.

Lemma dotted_10 : dotted t_10 (10*2^24 + 2^16).
Proof. apply (dotted_intro [49;48] [49] [48] [48]); [reflexivity|octs|reflexivity]. Qed.
Lemma dotted_192 : dotted t_192 (192*2^24 + 168*2^16 + 2^8 + 7).
Proof. apply (dotted_intro [49;57;50] [49;54;56] [49] [55]); [reflexivity|octs|reflexivity]. Qed.
Lemma dotted_172 : dotted t_172 (172*2^24 + 16*2^16).
Proof. apply (dotted_intro [49;55;50] [49;54] [48] [48]); [reflexivity|octs|reflexivity]. Qed.
Lemma dotted_255_240 : dotted t_255_240 (mask_of 12).
Proof. apply (dotted_intro [50;53;53] [50;52;48] [48] [48]); [reflexivity|octs|reflexivity]. Qed.
Definition t_full : list Z := [50;53;53;46;50;53;53;46;50;53;53;46;50;53;53].
Lemma dotted_full : dotted t_full (mask_of 32).
Proof. apply (dotted_intro [50;53;53] [50;53;53] [50;53;53] [50;53;53]); [reflexivity|octs|reflexivity]. Qed.

(** A text whose mask is the full one is never understood, so no example is one. *)
Lemma full_mask_none : forall t, full_mask t -> parse_entry t = None.
Proof.
  intros t H. destruct H as [s a m Ds Dm].
  destruct (dotted_plain _ _ Ds) as (P & NE). destruct (dotted_octets _ _ Ds) as (L & os & O & W).
  destruct (dotted_plain _ _ Dm) as (Pm & NEm). destruct (mask_octets m 32 ltac:(lia) Dm) as (Lm & ms & Om & Wm).
  unfold parse_entry. rewrite (tokens_cut slash s 47 m NE (plain_not_slash _ P) eq_refl). cbv zeta. rewrite L. cbn [Nat.ltb Nat.leb orb].
  rewrite O. cbn [bind]. rewrite (tokens_one slash m NEm (plain_not_slash _ Pm)). rewrite Lm. cbn [Nat.eqb Nat.ltb Nat.leb].
  rewrite Om. cbn [bind]. rewrite Wm. reflexivity.
Qed.

Ltac seps := apply Forall_forall; intros ? I; apply sep_separator; cbn in I; intuition subst; reflexivity.

Lemma good_example : good_text t_list n_list.
Proof.
  right. split; [|split; [discriminate|]].
  - unfold t_list, n_list.
    apply (text_cons [] (t_10 ++ 47 :: [49;54]) _ ([44;32] ++ t_192 ++ [59] ++ (t_172 ++ 47 :: t_255_240) ++ [])); [constructor | apply text_prefix; [exact dotted_10 | apply decimal_intro; [discriminate|reflexivity] | lia] | |].
    + apply (text_cons [44;32] t_192 _ ([59] ++ (t_172 ++ 47 :: t_255_240) ++ [])); [seps | apply text_host; exact dotted_192 | |].
      * apply (text_cons [59] (t_172 ++ 47 :: t_255_240) _ []); [seps | apply text_mask; [exact dotted_172 | exact dotted_255_240 | lia] | apply text_end; constructor | left; reflexivity].
      * right. eexists _, _. split; [reflexivity|]. unfold separator. auto.
    + right. eexists _, _. split; [reflexivity|]. unfold separator. auto.
  - repeat constructor; cbn [fst]; intro H; apply full_mask_none in H; vm_compute in H; discriminate.
Qed.

(** Accepted: 10.1.2.3, 192.168.1.7, 172.20.0.1; refused: 10.2.0.0, 192.168.1.6, 172.32.0.0. *)
Example C20_decision_example :
  match create (fun t => t) t_list [] AllowDeny with
  | Some (Some a) =>
      option_map fst (decide a [10*2^24 + 2^16 + 2*2^8 + 3; 192*2^24 + 168*2^16 + 2^8 + 7; 172*2^24 + 20*2^16 + 1;
                                10*2^24 + 2*2^16; 192*2^24 + 168*2^16 + 2^8 + 6; 172*2^24 + 32*2^16])
      = Some [true; true; true; false; false; false]
  | _ => False
  end.
Proof. vm_compute. reflexivity. Qed.

(** Undefined behaviour on a well formed text: every text one of whose networks has the mask
    255.255.255.255 and those before it are fine. *)
Theorem C20_full_mask_refuted : forall sort t rest, full_mask t ->
  (rest = [] \/ exists c r, rest = c :: r /\ separator c) ->
  create_table sort (t ++ rest) = None.
Proof.
  intros sort t rest FM E.
  assert (X : t <> [] /\ Forall (fun c => sep c = false) t).
  { destruct FM as [s a m Ds Dm]. apply (entry_text_chars _ (mkNet a 32)). apply text_mask; [assumption|exact Dm|lia]. }
  destruct X as (NE & F). unfold create_table. destruct t as [|c t]; [congruence|]. cbn [app].
  rewrite (app_comm_cons t rest c).
  rewrite tokens_word; [|assumption|assumption|].
  - cbn [parse_entries]. rewrite (full_mask_none _ FM). reflexivity.
  - destruct E as [-> | (x & r & -> & Sx)]; [auto|]. right. exists x, r. split; [reflexivity|]. apply sep_separator. assumption.
Qed.
Print Assumptions C20_full_mask_refuted.
Example C20_full_mask_example : list_text (t_10 ++ 47 :: t_full) [(t_10 ++ 47 :: t_full, mkNet (10*2^24 + 2^16) 32)] /\
  create_table (fun t => t) (t_10 ++ 47 :: t_full) = None.
Proof.
  split; [|vm_compute; reflexivity]. rewrite <- (app_nil_r (t_10 ++ 47 :: t_full)) at 1.
  apply (text_cons [] (t_10 ++ 47 :: t_full)); [constructor | apply text_mask; [exact dotted_10 | exact dotted_full | lia] | apply text_end; constructor | auto].
Qed.

(** Apart from that mask: the first octet of a mask that is below 255 ends it, so no other
    text is undefined behaviour -- whatever the text, only a fourth mask octet that is odd. *)
Theorem C20_total_partial : forall line,
  (forall s, In s (tokens slash [] line) -> forall os, ip_to_array true s = Some (Some os) -> word os mod 2 = 0) ->
  parse_entry line <> None.
Proof.
  intros line H. unfold parse_entry.
  assert (NO : forall im toks dest count, (length toks + count <= 4)%nat -> octets im toks dest count <> None).
  { intros im. induction toks as [|t toks IH]; intros dest count L; cbn [octets]; cbn [length] in L.
    - destruct (4 <? count)%nat; discriminate.
    - destruct (4 <? count)%nat; [discriminate|]. destruct (in_range (strtol t) 0 255); [|discriminate].
      replace (count <? 4)%nat with true by (symmetry; apply Nat.ltb_lt; lia).
      destruct (im && (strtol t <? 255)); [discriminate|]. apply IH. lia. }
  destruct (tokens slash [] line) as [|tok more] eqn:T; [discriminate|]. cbv zeta.
  destruct ((4 <? length (tokens dot [] tok))%nat || (length (tokens dot [] tok) <? 1)%nat) eqn:N; [discriminate|].
  apply orb_false_iff in N. destruct N as (N1 & N2). apply Nat.ltb_ge in N1.
  destruct (ip_to_array false tok) as [[os|]|] eqn:I; cbn [bind]; [|discriminate|].
  2:{ exfalso. eapply (NO false); [|exact I]. cbn. lia. }
  destruct more as [|tok2 more]; [discriminate|].
  destruct (length (tokens dot [] tok2) =? 1)%nat; [destruct (in_range (strtol tok2) 0 32); discriminate|].
  destruct (4 <? length (tokens dot [] tok2))%nat eqn:N3; [discriminate|]. apply Nat.ltb_ge in N3.
  destruct (ip_to_array true tok2) as [[ms|]|] eqn:I2; cbn [bind]; [|discriminate|].
  2:{ exfalso. eapply (NO true); [|exact I2]. cbn. lia. }
  assert (E : word ms mod 2 = 0). { apply (H tok2); [right; left; reflexivity | assumption]. }
  assert (X : forall f count, 0 <= count <= 31 -> 31 - count < Z.of_nat f -> exists c, shifts f (word ms) count = Some c).
  { induction f; intros count C F; [lia|]. cbn [shifts]. replace (32 <=? count) with false by lia.
    destruct (u32 (word ms * 2^count) =? 0) eqn:Z0; [eauto|].
    assert (count <> 31).
    { intros ->. apply Z.eqb_neq in Z0. apply Z0. unfold u32. pose proof (Z.div_mod (word ms) 2 ltac:(lia)) as D. rewrite E in D.
      rewrite D. replace ((2 * (word ms / 2) + 0) * 2^31) with (word ms / 2 * 2^32) by ring. apply Z.mod_mul. lia. }
    apply IHf; lia. }
  destruct (X 33%nat 0) as (c & Sc); [lia|lia|]. rewrite Sc. cbn. discriminate.
Qed.
Print Assumptions C20_total_partial.
(** "1.2.3.4/255.255.255.254" and "junk/./" have such masks only. *)
Example C20_total_example : parse_entry [49;46;50;46;51;46;52;47;50;53;53;46;50;53;53;46;50;53;53;46;50;53;52] <> None
  /\ parse_entry [106;117;110;107;47;46;47] <> None.
Proof. split; vm_compute; discriminate. Qed.

(** "A text that does not list networks is rejected" is false.  The text "10.0.0.1/x" is not a
    list of networks, is accepted, and lets every address in. *)
Theorem C20_junk_refuted : forall sort, (forall t, Permutation t (sort t)) ->
  exists s a, (forall es, ~ list_text s es) /\ create sort s [] AllowDeny = Some (Some a) /\
    forall addr, is_addr addr -> exists a', match_acl (Some a) addr = Some (true, a').
Proof.
  intros sort SP.
  assert (S1 : forall e, sort [e] = [e]).
  { intros e. apply Permutation_length_1_inv. apply SP. }
  exists [49;48;46;48;46;48;46;49;47;120], (mkAcl [mkEntry 0 0 0 0] [] AllowDeny 0 0).
  split; [|split].
  - intros es L. pose proof (list_text_tokens _ _ L) as T. vm_compute in T. pose proof (list_text_entries _ _ L) as F.
    destruct es as [|(t, n) [|? ?]]; cbn [map fst] in T; [discriminate| |discriminate].
    injection T as <-. inversion F as [|? ? E _]; subst. cbn [fst snd] in E.
    assert (Q : Forall (fun c => plain c \/ c = 47) [49;48;46;48;46;48;46;49;47;120]).
    { remember [49;48;46;48;46;48;46;49;47;120] as txt eqn:TX. clear TX L F.
      assert (W : forall s, Forall plain s -> Forall (fun c => plain c \/ c = 47) s).
      { intros s. apply Forall_impl. auto. }
      inversion E as [s a D | s a l k D Dl K | s a m k D Dm K]; subst; destruct (dotted_plain _ _ D) as (P & _).
      - auto.
      - apply Forall_app. split; [auto|]. constructor; [auto|]. apply W. eapply decimal_plain; eassumption.
      - apply Forall_app. split; [auto|]. constructor; [auto|]. apply W. eapply dotted_plain; eassumption. }
    rewrite Forall_forall in Q. specialize (Q 120). destruct Q as [[D | D] | D]; [cbn; tauto | unfold digit in D; lia | lia | lia].
  - unfold create, create_table.
    replace (tokens sep [] [49;48;46;48;46;48;46;49;47;120]) with [[49;48;46;48;46;48;46;49;47;120]] by reflexivity.
    replace (parse_entries [[49;48;46;48;46;48;46;49;47;120]]) with (Some (Some [mkEntry 0 0 0 0])) by reflexivity.
    cbn [bind]. rewrite S1. reflexivity.
  - intros addr A. eexists. cbn. reflexivity.
Qed.
Print Assumptions C20_junk_refuted.

(** What is rejected: a text of nothing but separators, and one with an entry that is refused
    (an octet above 255, a prefix above 32, more than four octets). *)
Theorem C20_rejected : forall sort s d t rest, d <> [] -> Forall separator d -> Forall separator s ->
  create_table sort d = Some None /\
  (t <> [] -> Forall (fun c => ~ separator c) t -> (rest = [] \/ exists c r, rest = c :: r /\ separator c) ->
   parse_entry t = Some None -> create_table sort (s ++ t ++ rest) = Some None).
Proof.
  intros sort s d t rest ND FD FS.
  assert (Q : forall d, Forall separator d -> Forall (fun c => sep c = true) d).
  { intros x F. eapply Forall_impl; [|exact F]. intros. apply sep_separator. assumption. }
  split.
  - unfold create_table. destruct d as [|c d]; [congruence|].
    rewrite <- (app_nil_r (c :: d)). rewrite tokens_skip by (apply Q; assumption). reflexivity.
  - intros NT FT R P. unfold create_table.
    assert (T : tokens sep [] (s ++ t ++ rest) = t :: tokens sep [] rest).
    { rewrite tokens_skip by (apply Q; assumption). apply tokens_word; [assumption| |].
      - eapply Forall_impl; [|exact FT]. cbn. intros c H. destruct (sep c) eqn:E; [|reflexivity]. apply sep_separator in E. contradiction.
      - destruct R as [-> | (c & r & -> & C)]; [auto|]. right. exists c, r. split; [reflexivity|]. apply sep_separator. assumption. }
    destruct (s ++ t ++ rest) eqn:E.
    + destruct s; [destruct t; [congruence|discriminate]|discriminate].
    + rewrite T. cbn [parse_entries]. rewrite P. reflexivity.
Qed.
Print Assumptions C20_rejected.
(** "256.0.0.1", "1.2.3.4.5", "1.2.3.4/33". *)
Example C20_rejected_example :
  parse_entry [50;53;54;46;48;46;48;46;49] = Some None /\ parse_entry [49;46;50;46;51;46;52;46;53] = Some None /\
  parse_entry [49;46;50;46;51;46;52;47;51;51] = Some None.
Proof. vm_compute. auto. Qed.

(** A message is processed if it comes from the interface's own address, or the list of its
    kind (management, or timing for all others) is disabled or accepts the sender.  A TLV in
    it that requires further lists is processed if all of these that are enabled accept the
    sender too.  This holds whatever was received before (the lists may already have counted
    anything). *)
Fixpoint receive_all (i : iface) (msgs : list (bool * bool * list kind * Z)) : option (list (bool * bool)) :=
  match msgs with
  | [] => Some []
  | (own, mgmt, ks, addr) :: rest =>
      do r <- receive own mgmt ks addr i;
      let '(b, t, i') := r in
      do r2 <- receive_all i' rest; Some ((b, t) :: r2)
  end.
Theorem C20_admission_partial : forall sort en o at_ dt aes des made msgs,
  (forall t, Permutation t (sort t)) ->
  (forall k, good_text (at_ k) (aes k)) -> (forall k, good_text (dt k) (des k)) ->
  (forall k, create sort (at_ k) (dt k) (o k) = Some (made k)) ->
  Forall (fun m : bool * bool * list kind * Z => is_addr (snd m)) msgs ->
  exists rs, receive_all (compile true en made) msgs = Some rs /\
    Forall2 (fun (m : bool * bool * list kind * Z) (r : bool * bool) => match m, r with
      | (own, mgmt, ks, addr), (processed, tlv_processed) =>
          let allowed k := en k = false \/ accepts (o k) (map snd (aes k)) (map snd (des k)) addr in
          (processed = true <-> own = true \/ allowed (if mgmt then Management else Timing)) /\
          (tlv_processed = true <-> processed = true /\ forall k, In k ks -> allowed k)
      end) msgs rs.
Proof.
  intros sort en o at_ dt aes des made msgs SP GA GD C F.
  assert (I : iface_is en o (fun k => map snd (aes k)) (fun k => map snd (des k)) (compile true en made)).
  { split; [reflexivity|]. intros k E. cbn. rewrite E. cbn.
    destruct (create_text sort (at_ k) (dt k) (o k) _ _ SP (GA k) (GD k)) as (a & Ca & Ia & _). rewrite C in Ca.
    injection Ca as Ca. exists a. split; assumption. }
  clear C. revert I. generalize (compile true en made). induction F as [|m msgs A F IH]; intros i I.
  - exists []. split; [reflexivity | constructor].
  - destruct m as (((own, mgmt), ks), addr). cbn [snd] in A.
    destruct (receive_spec _ _ _ _ own mgmt ks addr i I A) as (b & t & i' & R & I' & B & T).
    destruct (IH i' I') as (rs & Q & FQ). exists ((b, t) :: rs). cbn [receive_all]. rewrite R. cbn [bind]. rewrite Q. cbn [bind].
    split; [reflexivity|]. constructor; [|assumption]. cbv zeta.
    assert (EQ : forall k, (en k = true -> accepts (o k) (map snd (aes k)) (map snd (des k)) addr) <->
                           (en k = false \/ accepts (o k) (map snd (aes k)) (map snd (des k)) addr)).
    { intros k. destruct (en k); split; auto; try (intros [X|X]; [discriminate|auto]). }
    split.
    + rewrite B, <- EQ. reflexivity.
    + rewrite T. split; intros (X & Y); (split; [exact X|]); intros k K; apply EQ; auto.
Qed.
Print Assumptions C20_admission_partial.
Example C20_admission_example :
  match create (fun t => t) t_list [] AllowDeny with
  | Some made => receive_all (compile true (fun k => negb (same_kind k Management)) (fun _ => made))
      [(false, false, [Timing; Monitoring], 10*2^24 + 2^16 + 5); (false, false, [], 11*2^24);
       (true, false, [Monitoring], 11*2^24); (false, true, [Monitoring], 11*2^24)]
      = Some [(true, true); (false, false); (true, false); (true, false)]
  | None => False
  end.
Proof. vm_compute. reflexivity. Qed.

(** If a list is enabled and missing (its text was rejected, or for the timing and management
    lists the transport is not IPv4) nothing it guards is processed. *)
Theorem C20_fail_closed : forall mgmt ks addr i,
  let k := if mgmt : bool then Management else Timing in
  enabled i k = true -> lists i k = None -> receive false mgmt ks addr i = Some (false, false, i).
Proof.
  intros mgmt ks addr i k E L. unfold receive, admit. subst k. destruct mgmt.
  - unfold check. cbn [no_memo checked]. rewrite E, L. reflexivity.
  - rewrite E. unfold check. cbn [no_memo checked]. rewrite E, L. reflexivity.
Qed.
Print Assumptions C20_fail_closed.
Example C20_fail_closed_example : forall a,
  enabled (compile false (fun _ => true) (fun _ => Some a)) Timing = true /\
  lists (compile false (fun _ => true) (fun _ => Some a)) Timing = None.
Proof. intros. split; reflexivity. Qed.

(** For one message a list is consulted at most once: asking again gives the same answer and
    changes no counter. *)
Theorem C20_consulted_once : forall k addr i m b i' m',
  check k addr i m = Some (b, i', m') -> (ok m k = true -> checked m k = true) ->
  forall addr', check k addr' i' m' = Some (b, i', m').
Proof.
  intros k addr i m b i' m' C OK addr'. unfold check in C.
  destruct (checked m k) eqn:CK.
  - injection C as <- <- <-. unfold check. rewrite CK. reflexivity.
  - assert (NO : ok m k = false) by (destruct (ok m k); [specialize (OK eq_refl); congruence | reflexivity]).
    assert (KK : same_kind k k = true) by (destruct k; reflexivity).
    destruct (enabled i k) eqn:E; cbn [negb] in C.
    + destruct (lists i k) as [a|] eqn:L.
      * destruct (match_acl (Some a) addr) as [(b0, a0)|] eqn:M; [|discriminate]. cbn [bind fst snd] in C. injection C as <- <- <-.
        unfold check. cbn [checked ok]. rewrite set_kind_get, KK.
        destruct b0; [rewrite set_kind_get, KK; reflexivity | rewrite NO; reflexivity].
      * injection C as <- <- <-. unfold check. rewrite CK, E, L. reflexivity.
    + injection C as <- <- <-. unfold check. cbn [checked ok]. rewrite !set_kind_get, KK. reflexivity.
Qed.
Print Assumptions C20_consulted_once.
Example C20_consulted_once_example : forall a addr,
  (exists b i' m', check Timing addr (mkIface (fun _ => true) (fun _ => Some a)) no_memo = Some (b, i', m')) /\
  (ok no_memo Timing = true -> checked no_memo Timing = true).
Proof.
  intros a addr. split; [|cbn; discriminate]. unfold check. cbn -[match_address].
  destruct (match_address addr (allow a)), (match_address addr (deny a)). cbn. eexists _, _, _. reflexivity.
Qed.

(** "The monitoring list decides by the sender's address" is false of IPv6: the list is
    applied to the flow label, so one sender gets both answers. *)
Theorem C20_ipv6_refuted :
  exists made en a flow1 flow2 i1 i2,
    create (fun t => t) t_list [] AllowDeny = Some made /\
    receive false false [Monitoring] (acl_addr (V6 flow1 a)) (compile false en (fun _ => made)) = Some (true, true, i1) /\
    receive false false [Monitoring] (acl_addr (V6 flow2 a)) (compile false en (fun _ => made)) = Some (true, false, i2).
Proof.
  destruct (create (fun t => t) t_list [] AllowDeny) as [made|] eqn:C; [|vm_compute in C; discriminate].
  vm_compute in C. injection C as <-.
  eexists _, (fun k => same_kind k Monitoring), 1, (10*2^24 + 2^16), 0, _, _.
  split; [reflexivity|]. split; reflexivity.
Qed.
Print Assumptions C20_ipv6_refuted.

(** The configured text contains every parameter given, in order and separated by spaces, or
    the configuration is rejected: no entry is silently cut off. *)
Theorem C20_text_complete : forall size params t,
  acl_list size params [] 0 = Some t ->
  exists tail, t ++ tail = concat (map (fun p => p ++ [32]) params) /\ (tail = [] \/ tail = [32]).
Proof. intros size params t A. apply (acl_list_text size params [] 0 t) in A; [exact A | apply Nat.le_0_l]. Qed.
Print Assumptions C20_text_complete.
Example C20_text_example : acl_list 6 [[49]; [50]; [51]] [] 0 = Some [49;32;50;32;51] /\ acl_list 5 [[49]; [50]; [51]] [] 0 = None.
Proof. split; reflexivity. Qed.
