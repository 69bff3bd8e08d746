(** C66: what the client of the NTP daemon's control protocol (mode 6) reports is what the
    daemon said.  Vocabulary in Nm6Spec.v. *)
Require Import ZArith List Bool String QArith Lia.
Require Import Verif.Base Verif.ListLib Verif.CevSpec Verif.Nm6Spec Verif.Nm6Model Verif.Nm6Proof Verif.Nm6Proof2 Verif.Nm6Proof3 Verif.Nm6Proof4 Verif.Nm6Proof5.
Import ListNotations.
Open Scope Z_scope.

(** The datagrams as the socket delivers them. *)
Definition delivered (l : list event) : Prop := forall p, In (Packet p) l -> Forall byte p /\ (List.length p <= 516)%nat.

(** Whatever arrives, an answer consists of fragments that follow one another from offset 0
    without gap or overlap, each carried by a packet of this request's answer, one of them the
    final one; it is at most 4096 bytes in at most 32 fragments.  The association the packet names is free ([carries]):
    a mismatch is only logged. *)
Theorem C66_reassembled : forall seq op buf l n b, u16p seq -> List.length buf = 4096%nat -> delivered l ->
  response seq op buf l = Some (Done n b) ->
  exists fs m, chain 0 fs m /\ firstn (Z.to_nat n) b = m /\ n = len m /\ n <= 4096 /\ (List.length fs <= 32)%nat /\
    (exists f, In f fs /\ f_more f = false) /\
    forall f, In f fs -> exists p, In (Packet p) l /\ carries seq op p f.
Proof.
  intros seq op buf l n b SQ LB D R. destruct (reassembled seq op buf l n b SQ LB D R) as (fs & m & C & L & F & N & _ & K & E & G).
  exists fs, m. repeat (split; [solve [auto]|]). intros f I. rewrite Forall_forall in G. destruct (G f I) as (_ & _ & P). exact P.
Qed.
Print Assumptions C66_reassembled.

(** A query is refused if its data is longer than 468 bytes, and fails with the error of sending if that fails; nothing
    received then matters.  It gives an answer only if the request went out, and then the message of the
    fragments received; what is handed on behind it is the rest of the buffer. *)
Theorem C66_query : forall seq op data buf sent l, u16p seq -> List.length buf = 4096%nat -> delivered l ->
  (468 < len data -> query seq op data buf sent l = Some (Some (NotSent E2BIG))) /\
  (len data <= 468 -> sent <> 0 -> query seq op data buf sent l = Some (Some (NotSent sent))) /\
  forall m r, query seq op data buf sent l = Some (Some (Answer m r)) -> len data <= 468 /\ sent = 0 /\ (List.length (m ++ r) = 4096)%nat /\
    exists fs, chain 0 fs m /\ (exists f, In f fs /\ f_more f = false) /\ forall f, In f fs -> exists p, In (Packet p) l /\ carries seq op p f.
Proof.
  intros seq op data buf sent l SQ LB D. unfold query. change CTL_MAX_DATA_LEN with 468. split; [|split].
  - intros L. replace (468 <? len data) with true by lia. reflexivity.
  - intros L S. replace (468 <? len data) with false by lia. replace (sent =? 0) with false by lia. reflexivity.
  - intros m r H. destruct (468 <? len data) eqn:L; [discriminate|]. destruct (sent =? 0) eqn:S; cbn [negb] in H; [|discriminate]. destruct (response seq op buf l) as [v|] eqn:R; [|discriminate]. cbn [bind] in H. destruct v as [s|rc b|n b]; try discriminate.
    destruct (reassembled seq op buf l n b SQ LB D R) as (fs & m' & C & Ln & F & N & LL & K & E & G). injection H as <- <-. split; [lia|]. split; [lia|]. split; [rewrite firstn_skipn; exact LL|].
    exists fs. rewrite F. split; [exact C|]. split; [exact E|]. intros f I. rewrite Forall_forall in G. destruct (G f I) as (_ & _ & P). exact P.
Qed.
Print Assumptions C66_query.

(** While nothing received so far completes the answer the query waits on; if then the socket fails it ends
    with that error, and if no packet comes in time with 110 (ETIMEDOUT): nothing half put together is given out. *)
Lemma loop_app : forall seq op l1 s l2, response_loop seq op s (l1 ++ l2) =
  match response_loop seq op s l1 with Some (Go s') => response_loop seq op s' l2 | v => v end.
Proof.
  intros seq op. induction l1 as [|e l1 IH]; intros s l2; [reflexivity|].
  destruct e as [p| |e]; try reflexivity. cbn [app response_loop]. destruct (on_packet seq op s p) as [v|]; [|reflexivity]. cbn [bind]. destruct v; try reflexivity. apply IH.
Qed.
Theorem C66_query_error : forall seq op data buf l r, query seq op data buf 0 l = Some None ->
  (forall e, query seq op data buf 0 (l ++ Trouble e :: r) = Some (Some (Failed e))) /\
  query seq op data buf 0 (l ++ Timeout :: r) = Some (Some (Failed 110)).
Proof.
  intros seq op data buf l r. unfold query, response. destruct (CTL_MAX_DATA_LEN <? len data); [discriminate|]. cbn [Z.eqb negb].
  destruct (response_loop seq op (mkR [] false buf) l) as [v|] eqn:R; [|discriminate]. cbn [bind]. destruct v as [s| |]; try discriminate. intros _.
  split; [intros e|]; rewrite loop_app, R; reflexivity.
Qed.
Print Assumptions C66_query_error.

(** A message of at most 4096 bytes in at most 32 fragments is put together, in whatever order
    the fragments come, repeated or not, with packets that are no answers to this request
    in between. *)
Theorem C66_complete : forall seq op buf m fs ps rest, u16p seq -> 0 <= op < 32 -> List.length buf = 4096%nat ->
  cut_up m fs -> (List.length fs <= 32)%nat -> len m <= 4096 ->
  (forall p, In p ps -> (Forall byte p /\ (List.length p <= 516)%nat /\ ~ answers seq op p) \/ exists f, In f fs /\ carries seq op p f) ->
  (forall f, In f fs -> exists p, In p ps /\ carries seq op p f) ->
  exists b, response seq op buf (map Packet ps ++ rest) = Some (Done (len m) b) /\ firstn (Z.to_nat (len m)) b = m.
Proof. exact complete. Qed.
Print Assumptions C66_complete.

Definition zeros : list Z := repeat 0 4096.
Definition p1 : list Z := packet 0 4 5 2 7 0 0 0 4 [1; 2; 3; 4].
Definition p2 : list Z := packet 0 4 4 2 7 0 0 4 3 [5; 6; 7; 0].
Definition junkp : list Z := packet 0 4 4 2 6 0 0 0 4 [9; 9; 9; 9].
Definition bytesb (l : list Z) : bool := forallb (fun b => (0 <=? b) && (b <? 256)) l.
Lemma bytesb_ok : forall l, bytesb l = true -> Forall byte l.
Proof.
  intros l H. unfold bytesb in H. rewrite forallb_forall in H. apply Forall_forall. intros b B. specialize (H b B).
  apply andb_prop in H. destruct H as [H1 H2]. apply Z.leb_le in H1. apply Z.ltb_lt in H2. split; assumption.
Qed.
Example C66_reassembled_ex :
  delivered [Packet p2; Packet junkp; Packet p2; Packet p1] /\
  exists b, response 7 2 zeros [Packet p2; Packet junkp; Packet p2; Packet p1] = Some (Done 7 b) /\ firstn 7 b = [1; 2; 3; 4; 5; 6; 7].
Proof.
  split.
  - intros p I. cbn [In] in I. repeat (destruct I as [I|I]; [injection I as <-; split; [apply bytesb_ok; vm_compute; reflexivity|apply Nat.leb_le; vm_compute; reflexivity]|]). destruct I.
  - eexists. split; [vm_compute; reflexivity|vm_compute; reflexivity].
Qed.
Example C66_query_ex : query 7 2 [9] zeros 0 [Packet p2; Packet p1] = Some (Some (Answer [1; 2; 3; 4; 5; 6; 7] (skipn 7 zeros))) /\
  query 7 2 [9] zeros 111 [Packet p2; Packet p1] = Some (Some (NotSent 111)).
Proof. split; vm_compute; reflexivity. Qed.
Example C66_query_error_ex : query 7 2 [9] zeros 0 [Packet p2; Packet junkp] = Some None.
Proof. vm_compute. reflexivity. Qed.
Definition f1 := mkFrag 0 [1; 2; 3; 4] true.
Definition f2 := mkFrag 4 [5; 6; 7] false.
Lemma carries_p1 : carries 7 2 p1 f1.
Proof.
  exists 0, 4, 0, 0, []. unfold u16p. cbn [f1 f_off f_data f_more]. repeat (split; [lia|]).
  split; [apply bytesb_ok; reflexivity|]. split; [constructor|]. split; [reflexivity|]. split; [apply Nat.leb_le; reflexivity|reflexivity].
Qed.
Lemma carries_p2 : carries 7 2 p2 f2.
Proof.
  exists 0, 4, 0, 0, [0]. unfold u16p. cbn [f2 f_off f_data f_more]. repeat (split; [lia|]).
  split; [apply bytesb_ok; reflexivity|]. split; [apply bytesb_ok; reflexivity|]. split; [reflexivity|]. split; [apply Nat.leb_le; reflexivity|reflexivity].
Qed.
Example C66_complete_ex : cut_up [1; 2; 3; 4; 5; 6; 7] [f1; f2] /\ carries 7 2 p1 f1 /\ carries 7 2 p2 f2 /\ ~ answers 7 2 junkp.
Proof.
  split; [|split; [apply carries_p1|split; [apply carries_p2|]]].
  - split.
    + cbn [chain]. split; [reflexivity|]. eexists. split; [reflexivity|]. split; [reflexivity|]. exists []. split; reflexivity.
    + exists [f1], f2. split; [reflexivity|]. split; [reflexivity|]. constructor; [|constructor]. split; [reflexivity|discriminate].
  - intros (li & v & bits & st & asn & off & count & rest & _ & _ & _ & _ & _ & _ & _ & _ & E).
    apply (f_equal (fun l => nth 3 l 0)) in E. vm_compute in E. discriminate E.
Qed.

(** "Ends at the final fragment" is false: fragments beyond the one marked final are part of
    the answer if they come first. *)
Theorem C66_beyond_last_refuted : exists seq op buf l b, delivered l /\ List.length buf = 4096%nat /\
  response seq op buf l = Some (Done 12 b) /\ firstn 12 b = [1; 1; 1; 1; 2; 2; 2; 2; 3; 3; 3; 3] /\
  l = [Packet (packet 0 4 5 op seq 0 0 8 4 [3; 3; 3; 3]); Packet (packet 0 4 4 op seq 0 0 4 4 [2; 2; 2; 2]); Packet (packet 0 4 5 op seq 0 0 0 4 [1; 1; 1; 1])].
Proof.
  exists 7, 2, zeros, [Packet (packet 0 4 5 2 7 0 0 8 4 [3; 3; 3; 3]); Packet (packet 0 4 4 2 7 0 0 4 4 [2; 2; 2; 2]); Packet (packet 0 4 5 2 7 0 0 0 4 [1; 1; 1; 1])].
  eexists. split; [|split; [apply repeat_length|split; [vm_compute; reflexivity|split; [vm_compute; reflexivity|reflexivity]]]].
  intros p I. cbn [In] in I. repeat (destruct I as [I|I]; [injection I as <-; split; [apply bytesb_ok; vm_compute; reflexivity|apply Nat.leb_le; vm_compute; reflexivity]|]). destruct I.
Qed.
Print Assumptions C66_beyond_last_refuted.

(** Requests: the octets of RFC 1305, the data padded to a multiple of four; more than 468
    bytes are refused. *)
Theorem C66_request : forall op assoc seq data, 0 <= op < 32 ->
  (len data <= 468 -> exists pad, (pad < 4)%nat /\
     request op assoc seq data = inl (packet 0 4 0 op seq 0 assoc 0 (len data) (data ++ repeat 0 pad)) /\
     Nat.modulo (List.length (packet 0 4 0 op seq 0 assoc 0 (len data) (data ++ repeat 0 pad))) 4 = 0%nat) /\
  (468 < len data -> request op assoc seq data = inr E2BIG).
Proof. exact request_spec. Qed.
Print Assumptions C66_request.
Example C66_request_ex : request 2 3 258 (txt "peeradr") = inl ([38; 2; 1; 2; 0; 0; 0; 3; 0; 0; 0; 7] ++ txt "peeradr" ++ [0]).
Proof. vm_compute. reflexivity. Qed.

(** The names asked for, with commas between; asking again gives the same request. *)
Theorem C66_names : forall names room, (List.length (commas names) <= room)%nat ->
  query_data room true names = commas names /\ query_data (List.length (query_data room true names)) true names = commas names.
Proof. intros names room L. rewrite (query_data_spec names room L). split; [reflexivity|]. apply query_data_spec. apply le_n. Qed.
Print Assumptions C66_names.
Example C66_names_ex : query_data 468 true peervars = txt "srcadr,dstadr,stratum,offset,hmode,sent,received,rootdisp,refid".
Proof. vm_compute. reflexivity. Qed.

(** ** Error replies *)
(** An error reply ends the wait with the error of its code, for the codes up to 3. *)
Theorem C66_errors_partial : forall seq op buf li v (more : bool) code low assoc off count rest evs, 0 <= op < 32 -> 0 <= li < 4 -> 1 <= v <= 4 ->
  0 <= code < 4 -> byte low -> (List.length rest <= 504)%nat ->
  response seq op buf (Packet (packet li v (if more then 7 else 6) op seq (256 * code + low) assoc off count rest) :: evs) =
  Some (Ret (nth (Z.to_nat code) [EIO; EACCES; EBADMSG; ENOSYS] 0) buf).
Proof.
  intros seq op buf li v more code low assoc off count rest evs OP LI V C [L0 L1] LR. rewrite error_reply; try assumption; [|unfold u16p; lia].
  replace ((256 * code + low) / 256) with code by (apply Z.div_unique with low; lia).
  assert (code = 0 \/ code = 1 \/ code = 2 \/ code = 3) as [-> |[-> |[-> | ->]]] by lia; reflexivity.
Qed.
Print Assumptions C66_errors_partial.
Example C66_errors_ex : response 7 8 zeros [Packet (packet 0 4 6 8 7 256 0 0 0 [])] = Some (Ret EACCES zeros).
Proof. apply (C66_errors_partial 7 8 zeros 0 4 false 1 0 0 0 0 []); try lia; [split; lia|cbn; lia]. Qed.

(** The full statement, for all codes, is false.  The table lacks an entry: unknown variable (5)
    and bad value (6) come out as the errors of the next code, "restricted" (7) comes out as
    success without an answer, and the codes from 8 on are looked up outside the table. *)
Theorem C66_errors_refuted : forall seq op buf low assoc evs, 0 <= op < 32 -> byte low ->
  let reply code := response seq op buf (Packet (packet 0 4 6 op seq (256 * code + low) assoc 0 0 []) :: evs) in
  reply CERR_UNKNOWNVAR = Some (Ret EINVAL buf) /\ reply CERR_BADVALUE = Some (Ret EPERM buf) /\ reply CERR_RESTRICT = Some (Ret 0 buf) /\
  forall code, 8 <= code < 256 -> reply code = None.
Proof.
  intros seq op buf low assoc evs OP [L0 L1] reply.
  assert (R : forall code, 0 <= code < 256 -> reply code = do e <- nth_error [EIO; EACCES; EBADMSG; ENOSYS; ENOENT; EINVAL; EPERM; 0] (Z.to_nat code); Some (Ret e buf)).
  { intros code C. unfold reply. change 6 with (if false then 7 else 6) at 1. rewrite error_reply; try lia; [|unfold u16p; lia|apply Nat.leb_le; reflexivity].
    replace ((256 * code + low) / 256) with code by (apply Z.div_unique with low; lia). reflexivity. }
  rewrite !R by (unfold CERR_UNKNOWNVAR, CERR_BADVALUE, CERR_RESTRICT; lia). repeat (split; [reflexivity|]).
  intros code C. rewrite R by lia. destruct (nth_error _ _) eqn:N; [|reflexivity].
  exfalso. assert (X : (Z.to_nat code < 8)%nat) by (apply (proj1 (nth_error_Some [EIO; EACCES; EBADMSG; ENOSYS; ENOENT; EINVAL; EPERM; 0] (Z.to_nat code))); congruence). lia.
Qed.
Print Assumptions C66_errors_refuted.
Example C66_errors_refuted_ex : response 7 8 zeros [Packet (packet 0 4 6 8 7 (256 * 7) 0 0 0 [])] = Some (Ret 0 zeros) /\
  response 7 8 zeros [Packet (packet 0 4 6 8 7 (256 * 9) 0 0 0 [])] = None.
Proof. split; vm_compute; reflexivity. Qed.

(** Without such an error reply the wait has a defined outcome whatever is received. *)
Theorem C66_safe_partial : forall seq op buf l, u16p seq -> delivered l ->
  (forall li v bits code low assoc off count rest, In (Packet (packet li v bits op seq (256 * code + low) assoc off count rest)) l -> byte low -> bits < 6 \/ code < 8) ->
  response seq op buf l <> None.
Proof.
  intros seq op buf l SQ D S. apply response_done_total; [|exact SQ]. apply Forall_forall. intros e I. destruct e as [p| |e]; auto.
  destruct (D p I) as [B L]. split; [exact B|]. split; [exact L|]. intros li v bits st asn off count rest E. subst p.
  pose proof (Z.div_mod st 256 ltac:(lia)) as DM. pose proof (Z.mod_pos_bound st 256 ltac:(lia)).
  apply (S li v bits (st / 256) (st mod 256) asn off count rest); [rewrite <- DM; exact I|split; lia].
Qed.
Print Assumptions C66_safe_partial.
Example C66_safe_ex : response 7 2 zeros [Packet junkp; Timeout] = Some (Ret ETIMEDOUT zeros).
Proof. vm_compute. reflexivity. Qed.

(** ** Variables *)
(** The pairs of a reply are read as they were written, whatever lies behind the reply. *)
Theorem C66_variables : forall l e r, Forall good_item l -> line_end e ->
  exists out left, vars (show l ++ e) r = Some (out, left) /\
    filter (fun x => match fst x with [] => false | _ => true end) out = map (fun i => (i_name i, Some (i_value i))) l.
Proof. exact vars_show. Qed.
Print Assumptions C66_variables.

Definition it (n v : string) (q : bool) : item := mkItem (txt n) (txt v) q (txt ", ").
Definition goodb (i : item) : bool :=
  let n := i_name i in let v := i_value i in
  negb (match n with [] => true | _ => false end) && (List.length n <? 256)%nat && (List.length v <? 2048)%nat &&
  negb (isspace (hd 0 n)) && negb (isspace (last n 0)) && forallb (fun c => negb (stops c)) n && negb (isspace (last v 0)) &&
  negb (existsb (Z.eqb 0) v) &&
  (if i_quoted i then negb (existsb (Z.eqb 34) v)
   else negb (match v with [] => true | _ => false end) && negb (isspace (hd 0 v)) && negb (hd 0 v =? 34) && forallb (fun c => negb ((c =? 44) || (c =? 13))) v) &&
  match i_sep i with 44 :: s => forallb (fun c => (c =? 44) || (c =? 32) || (c =? 9) || (c =? 13) || (c =? 10)) s | _ => false end.
Lemma clean_last : forall t, isspace (last t 0) = false -> ends_clean t.
Proof.
  intros t H. destruct t as [|c t]; [left; reflexivity|]. right. destruct (exists_last (l := c :: t)) as (h & x & E); [discriminate|]. exists h, x. split; [exact E|].
  rewrite E, last_last in H. intros B. apply isspace_iff in B. congruence.
Qed.
Lemma no_existsb : forall x v, existsb (Z.eqb x) v = false -> ~ In x v.
Proof. intros x v H I. assert (existsb (Z.eqb x) v = true) by (apply existsb_exists; exists x; split; [exact I|apply Z.eqb_refl]). congruence. Qed.
Lemma goodb_ok : forall i, goodb i = true -> good_item i.
Proof.
  intros [n v q s] H. unfold goodb in H. cbn [i_name i_value i_quoted i_sep] in H.
  repeat (apply andb_prop in H; let X := fresh "X" in destruct H as [H X]).
  unfold good_item, good_name, good_value, separator. cbn [i_name i_value i_quoted i_sep].
  rewrite negb_true_iff in *. apply Nat.ltb_lt in X6, X7.
  split; [|split].
  - split; [intros ->; discriminate|]. split; [exact X7|]. split; [destruct n as [|c n]; [exact I|]; cbn [hd] in X5; cbn [starts_clean]; intros B; apply isspace_iff in B; congruence|].
    split; [apply clean_last; exact X4|]. apply Forall_forall. rewrite forallb_forall in X3. intros c C. specialize (X3 c C). apply negb_true_iff in X3. unfold stops in X3.
    repeat (apply orb_false_iff in X3; let Y := fresh "Y" in destruct X3 as [X3 Y]; apply Z.eqb_neq in Y). apply Z.eqb_neq in X3. auto 10.
  - split; [exact X6|]. split; [apply no_existsb; exact X1|]. split; [apply clean_last; exact X2|]. destruct q.
    + apply negb_true_iff in X0. apply no_existsb. exact X0.
    + repeat (apply andb_prop in X0; let Y := fresh "Y" in destruct X0 as [X0 Y]). apply negb_true_iff in X0, Y0, Y1.
      split; [intros ->; discriminate|]. split; [destruct v as [|c v]; [exact I|]; cbn [hd] in Y1; cbn [starts_clean]; intros B; apply isspace_iff in B; congruence|].
      split; [apply Z.eqb_neq; exact Y0|]. apply Forall_forall. rewrite forallb_forall in Y. intros c C. specialize (Y c C). apply negb_true_iff, orb_false_iff in Y. destruct Y as [Y Y'].
      apply Z.eqb_neq in Y, Y'. auto.
  - destruct s as [|c s]; [discriminate|].
    destruct (Z.eq_dec c 44) as [->|N].
    + exists s. split; [reflexivity|]. apply Forall_forall. rewrite forallb_forall in X. intros c C. specialize (X c C). rewrite !orb_true_iff, !Z.eqb_eq in X. intuition.
    + exfalso. destruct c as [|k|k]; try discriminate X. do 6 (try (destruct k as [k|k|]; try discriminate X)). apply N. reflexivity.
Qed.
Definition reply1 : list item :=
  [it "srcadr" "192.168.0.9:123" false; it "stratum" "2" false; mkItem (txt "refid") (txt "GPS, local") true ([44; 13; 10]); it "offset" "-0.125" false].
Lemma reply1_good : Forall good_item reply1.
Proof. repeat (constructor; [apply goodb_ok; vm_compute; reflexivity|]). constructor. Qed.
Example C66_variables_ex : vars (show reply1 ++ [13; 10]) zeros =
  Some ([(txt "srcadr", Some (txt "192.168.0.9:123")); (txt "stratum", Some (txt "2")); (txt "refid", Some (txt "GPS, local"));
         ([], None); ([], None); (txt "offset", Some (txt "-0.125")); ([], None); ([], None)], []).
Proof. vm_compute. reflexivity. Qed.

(** A value in quotes with anything but a comma or a line end behind it ends the reading: the variable and all that
    follow are not used. *)
Theorem C66_variables_junk : forall n v c rest r, good_name n -> good_value v true -> c <> 44 -> c <> 13 ->
  exists left, vars (n ++ 61 :: 34 :: v ++ 34 :: c :: rest) r = Some ([], left).
Proof. intros n v c rest r N V C1 C2. unfold vars. cbn [vars_loop]. rewrite (next_var_junk _ _ _ _ _ N V C1 C2). cbn [bind]. eexists. reflexivity. Qed.
Print Assumptions C66_variables_junk.
Example C66_variables_junk_ex : vars (txt "a=""b""c,stratum=3") zeros = Some ([], txt "a=""b""c,stratum=3").
Proof. vm_compute. reflexivity. Qed.

(** Reading stays inside the buffer while a zero byte lies behind the reply. *)
Theorem C66_read_partial : forall d r, In 0 r -> vars d r <> None.
Proof. exact vars_defined. Qed.
Print Assumptions C66_read_partial.
Example C66_read_ex : exists x, vars (txt "a=b") [0] = Some x.
Proof. eexists. vm_compute. reflexivity. Qed.

(** The full statement is false: the end of a reply that fills the buffer is not noticed. *)
Theorem C66_read_refuted : forall d, d <> [] -> Forall (fun c => 65 <= c <= 122) d -> vars d [] = None.
Proof.
  intros d N F. unfold vars. cbn [vars_loop]. unfold next_var.
  assert (H : forall c, 65 <= c <= 122 -> (c =? 44) || isspace c = false /\ stops c = false).
  { intros c C. unfold isspace, stops. split; repeat (apply orb_false_intro); apply Z.eqb_neq; lia. }
  destruct d as [|c d]; [congruence|]. inversion F as [|? ? C FD]; subst. cbn [dropw]. destruct (H c C) as [-> S]. cbv zeta.
  rewrite app_nil_r. replace (existsb stops (c :: d)) with false; [reflexivity|]. symmetry. apply not_true_iff_false. intros X. apply existsb_exists in X.
  destruct X as (x & I & X). rewrite Forall_forall in F. destruct (H x (F x I)). congruence.
Qed.
Print Assumptions C66_read_refuted.
Example C66_read_refuted_ex : vars (repeat 65 4096) [] = None.
Proof. apply C66_read_refuted; [discriminate|]. apply Forall_forall. intros x X. apply repeat_spec in X. lia. Qed.

(** ** Peers *)
(** The addresses the daemon prints, alone, with a port or in brackets. *)
Theorem C66_host : forall behind v h, host v h -> host_of behind v = Some h.
Proof. exact host_of_spec. Qed.
Print Assumptions C66_host.
Example C66_host_ex : host (txt "192.168.0.9:123") (txt "192.168.0.9") /\ host (txt "[fe80::1]:123") (txt "fe80::1") /\ host (txt "fe80::1") (txt "fe80::1").
Proof.
  split; [|split].
  - apply (host_port (txt "192.168.0.9") (txt "123")); try (vm_compute; intuition discriminate).
  - apply (host_bracket (txt "fe80::1") (txt ":123")); try (vm_compute; intuition discriminate). apply Nat.ltb_lt. reflexivity.
  - apply host_alone; try (vm_compute; intuition discriminate).
Qed.
(** A value ends at a NUL in it.  The address is that of the host; a name that does not exist and other failures are told apart. *)
Theorem C66_address : forall A gai behind noname a b v h, ~ In 0 a -> host v h ->
  (hd 0 (a ++ [0]) <> 91 -> host_of behind (a ++ 0 :: b) = host_of behind a) /\
  exists rc x, parse_addr A gai behind noname v = Some (rc, x) /\
    (fst (gai h) = 0 -> rc = 0 /\ x = snd (gai h)) /\
    (fst (gai h) <> 0 -> x = None /\ (noname (fst (gai h)) = true -> rc = ENOENT) /\ (noname (fst (gai h)) = false -> rc = EINVAL)).
Proof.
  intros A gai behind noname a b v h NZ H. split.
  - intros B. unfold host_of. rewrite (cstr_cut a b NZ), (cstr_no0 a NZ). cbv zeta. replace (hd 0 a =? 91) with false; [reflexivity|].
    symmetry. apply Z.eqb_neq. destruct a; [discriminate|exact B].
  - unfold parse_addr. rewrite (C66_host behind v h H). cbn [bind]. destruct (gai h) as [rc x]. cbn [fst snd].
    destruct (rc =? 0) eqn:E; eexists _, _; (split; [reflexivity|]).
    + apply Z.eqb_eq in E. split; [auto|congruence].
    + apply Z.eqb_neq in E. split; [congruence|]. intros _. split; [reflexivity|]. split; intros ->; reflexivity.
Qed.
Print Assumptions C66_address.
Example C66_address_ex : exists rc, parse_addr nat (fun _ => (-2, None)) (fun _ => []) (Z.eqb (-2)) (txt "fe80::1") = Some (rc, None) /\ rc = ENOENT.
Proof. eexists. split; [vm_compute; reflexivity|reflexivity]. Qed.
(** An opening bracket that is not closed makes it read past the end of its array. *)
Theorem C66_host_refuted : forall behind w, ~ In 93 w -> ~ In 0 w -> (forall v, ~ In 93 (behind v)) -> host_of behind (91 :: w) = None.
Proof.
  intros behind w B Z N. unfold host_of. rewrite cstr_no0 by (intros [X|X]; [discriminate|auto]). cbv zeta. cbn [hd tl]. rewrite Z.eqb_refl.
  replace (existsb (Z.eqb 93) (firstn (MAXVALLEN - 1) (w ++ 0 :: behind (91 :: w)))) with false; [reflexivity|].
  symmetry. apply not_true_iff_false. intros X. apply existsb_exists in X. destruct X as (x & I & X). apply Z.eqb_eq in X. subst x.
  rewrite <- (firstn_skipn (MAXVALLEN - 1) (w ++ 0 :: behind (91 :: w))) in *.
  assert (I' : In 93 (w ++ 0 :: behind (91 :: w))) by (rewrite <- (firstn_skipn (MAXVALLEN - 1)); apply in_or_app; left; rewrite firstn_skipn in I; exact I).
  apply in_app_or in I'. destruct I' as [I'|[I'|I']]; [auto|discriminate|exact (N _ I')].
Qed.
Print Assumptions C66_host_refuted.
Example C66_host_refuted_ex : host_of (fun _ => repeat 0 3000) (txt "[::1") = None.
Proof. apply (C66_host_refuted (fun _ => repeat 0 3000) (txt "::1")); [vm_compute; intuition discriminate|vm_compute; intuition discriminate|]. intros v I. apply repeat_spec in I. discriminate. Qed.

(** The peers: when every association of the daemon is configured or reachable, there are 1
    to 32 of them, and each query is answered with readable values, then as many peers are
    reported, each with the values of its answer (offsets and dispersions from milliseconds
    to nanoseconds, the offset with its sign changed), and with the daemon's choice. *)
Theorem C66_peers_partial : forall A gai u32 flt behind noname (l : list association) num ps b ans items,
  l <> [] -> (List.length l <= 32)%nat -> List.length ps = 32%nat ->
  Forall (fun a => u16p (fst a) /\ u16p (snd a) /\ listed a = true) l ->
  (forall k a, nth_error l k = Some a -> exists e b, ans k = Answer (show (items k) ++ e) b /\ line_end e /\
      Forall good_item (items k) /\ Forall (readable u32 flt) (items k) /\ NoDup (map i_name (items k))) ->
  exists ps', get_peer_info A gai u32 flt behind noname num ps (Answer (assoc_bytes l) b) ans = Some (0, List.length l, ps') /\ List.length ps' = 32%nat /\
    forall k a, nth_error l k = Some a -> exists p, nth_error ps' k = Some p /\
      p_selected p = (selection a =? 6) /\ p_shortlist p = (selection a =? 5) /\
      (forall v h, gives (items k) (txt "srcadr") v -> host v h -> p_remote p = (if fst (gai h) =? 0 then snd (gai h) else None)) /\
      (forall v h, gives (items k) (txt "dstadr") v -> host v h -> p_local p = (if fst (gai h) =? 0 then snd (gai h) else None)) /\
      (forall v, gives (items k) (txt "stratum") v -> u32 v = Some (p_stratum p)) /\
      (forall v, gives (items k) (txt "hmode") v -> exists x, u32 v = Some x /\ p_candidate p = (x =? 3)) /\
      (forall v, gives (items k) (txt "offset") v -> exists x, flt v = Some x /\ p_offset p == - (1000000 # 1) * x)%Q /\
      (forall v, gives (items k) (txt "rootdisp") v -> exists x, flt v = Some x /\ p_rootdisp p == (1000000 # 1) * x)%Q /\
      (forall v, gives (items k) (txt "sent") v -> u32 v = Some (p_sent p)) /\
      (forall v, gives (items k) (txt "received") v -> u32 v = Some (p_received p)).
Proof.
  intros A gai u32 flt behind noname l num ps b ans items NE LL LP FL AN.
  destruct (peers_all A gai u32 flt behind noname l num ps b ans items NE LL LP FL AN) as (ps' & G & L' & K). exists ps'. split; [exact G|]. split; [exact L'|].
  intros k a N. destruct (K k a N) as (p & P & R & S1 & S2). exists p. split; [exact P|]. split; [exact S1|]. split; [exact S2|]. exact R.
Qed.
Print Assumptions C66_peers_partial.

Definition num1 (t : list Z) : option Z := match t with [c] => Some (c - 48) | _ => None end.
Definition flt1 (t : list Z) : option Q := match t with [c] => Some (inject_Z (c - 48)) | _ => None end.
Definition gai1 (h : list Z) : Z * option (list Z) := (0, Some h).
Definition blankp : peer (list Z) := mkPeer None None 99 false 0 0 0 0 false false false.
Definition peer_of (s o : string) : list item := [it "srcadr" "10.0.0.1" false; it "stratum" s false; it "offset" o false; it "refid" "GPS" false].
Definition ans1 (k : nat) : reply := Answer (show (peer_of (match k with O => "2" | _ => "3" end) "5") ++ [13; 10]) zeros.
Definition none1 : Z -> bool := fun _ => false.
Definition get1 := get_peer_info (list Z) gai1 num1 flt1 (fun _ => []) none1.
Lemma items1_ok : forall k, Forall good_item (peer_of (match k with O => "2" | _ => "3" end) "5") /\
  Forall (readable num1 flt1) (peer_of (match k with O => "2" | _ => "3" end) "5") /\ NoDup (map i_name (peer_of (match k with O => "2" | _ => "3" end) "5")).
Proof.
  assert (ALONE : host (txt "10.0.0.1") (txt "10.0.0.1")) by (apply host_alone; vm_compute; intuition discriminate).
  intros [|k].
  all: split; [unfold peer_of; repeat (apply Forall_cons; [apply goodb_ok; vm_compute; reflexivity|]); apply Forall_nil|].
  all: split; [|vm_compute; repeat (apply NoDup_cons; [intros H; cbn [In] in H; intuition discriminate|]); apply NoDup_nil].
  all: unfold peer_of; repeat (apply Forall_cons; [split; [|split]; intros H; first [exfalso; vm_compute in H; intuition discriminate | vm_compute; discriminate | exists (txt "10.0.0.1"); exact ALONE]|]); apply Forall_nil.
Qed.
Example C66_peers_ex : exists ps', get1 0%nat (repeat blankp 32) (Answer (assoc_bytes [(7, 38400); (8, 37888)]) zeros) ans1 = Some (0, 2%nat, ps') /\
  map (fun p => (p_remote p, p_stratum p, p_selected p)) (firstn 2 ps') = [(Some (txt "10.0.0.1"), 2, true); (Some (txt "10.0.0.1"), 3, false)] /\
  Forall (fun a => u16p (fst a) /\ u16p (snd a) /\ listed a = true) [(7, 38400); (8, 37888)].
Proof.
  eexists. split; [vm_compute; reflexivity|]. split; [vm_compute; reflexivity|].
  repeat (constructor; [unfold u16p; cbn [fst snd]; split; [lia|split; [lia|reflexivity]]|]). constructor.
Qed.

(** ** Where the peers are wrong *)
Section Wrong.
  Variables (A : Type) (gai : list Z -> Z * option A) (u32 : list Z -> option Z) (flt : list Z -> option Q)
            (behind : list Z -> list Z) (noname : Z -> bool).

  (** "As many peers as are reported can be read" is false: an association that is left out leaves
      a hole, and the one after it is stored where the reader does not look. *)
Theorem C66_peers_holes_refuted : forall a c num ps b ans e b' items, u16p (fst a) -> u16p (snd a) -> u16p (fst c) -> u16p (snd c) ->
    listed a = false -> listed c = true -> List.length ps = 32%nat ->
    ans 1%nat = Answer (show items ++ e) b' -> line_end e -> Forall good_item items -> Forall (readable u32 flt) items ->
    exists ps', get_peer_info A gai u32 flt behind noname num ps (Answer (assoc_bytes [a; c]) b) ans = Some (0, 1%nat, ps') /\
      nth_error ps' 0 = nth_error ps 0 /\ exists p, nth_error ps' 1 = Some p /\ p_selected p = (selection c =? 6).
  Proof.
    intros [ai as_] [ci cs] num ps b ans e b' items U1 U2 U3 U4 LA LC LP AN LE FG FR. cbn [fst snd] in *.
    rewrite info_loop; [|discriminate|cbn [List.length]; lia|repeat (apply Forall_cons; [split; assumption|]); apply Forall_nil].
    cbn [peer_loop]. pose proof (skipped_spec (ai, as_) U2) as S1. pose proof (skipped_spec (ci, cs) U4) as S2. cbn [snd] in S1, S2. rewrite S1, S2, LA, LC. cbn [negb].
    rewrite AN. cbn [bind]. destruct (nth_error ps 1) as [p|] eqn:NP; [|apply nth_error_None in NP; lia]. cbn [bind].
    destruct (vars_show items e b' FG LE) as (out & lf & V & FO). rewrite V. cbn [bind fst snd].
    rewrite set_vars_named, FO. destruct (set_vars_defined A gai u32 flt behind noname items p FG FR) as (p' & SV). rewrite SV. cbn [bind].
    eexists. split; [reflexivity|]. split; [apply nth_error_set_nth_other; lia|]. exists (set_status A p' cs). split; [apply nth_error_set_nth_same; lia|].
    apply (status_spec A p' (ci, cs) U4).
  Qed.

  (** With more than 32 peers it writes past the end of the array. *)
Theorem C66_peers_many_refuted : forall (l : list association) num ps b ans items, (32 < List.length l <= 1024)%nat -> List.length ps = 32%nat ->
    Forall (fun a => u16p (fst a) /\ u16p (snd a) /\ listed a = true) l ->
    (forall k a, nth_error l k = Some a -> exists e b, ans k = Answer (show (items k) ++ e) b /\ line_end e /\
      Forall good_item (items k) /\ Forall (readable u32 flt) (items k) /\ NoDup (map i_name (items k))) ->
    get_peer_info A gai u32 flt behind noname num ps (Answer (assoc_bytes l) b) ans = None.
  Proof.
    intros l num ps b ans items LL LP FL AN. rewrite info_loop; [|destruct l; [cbn [List.length] in LL; lia|discriminate]|lia|eapply Forall_impl; [|exact FL]; intros a (? & ? & _); auto].
    apply (loop_overflow A gai u32 flt behind noname l 0 ans items); try lia.
    - eapply Forall_impl; [|exact FL]. intros a (_ & ? & ?); auto.
    - intros k a N. exact (AN k a N).
  Qed.

  (** A failure to list the associations is reported as success, and the old peers stay; so
      they do when the daemon has no peers left. *)
Theorem C66_peers_stale_refuted : forall num ps b ans rc,
    get_peer_info A gai u32 flt behind noname num ps (Failed rc) ans = Some (0, num, ps) /\
    get_peer_info A gai u32 flt behind noname num ps (NotSent rc) ans = Some (0, num, ps) /\
    get_peer_info A gai u32 flt behind noname num ps (Answer [] b) ans = Some (0, num, ps).
  Proof. intros. repeat split. Qed.

  (** A peer whose query fails is reported all the same, with its old values; the failure is
      forgotten when the query for the next one succeeds. *)
Theorem C66_peers_failed_refuted : forall a c num ps b ans rc p e b' items, u16p (fst a) -> u16p (snd a) -> u16p (fst c) -> u16p (snd c) ->
    listed a = true -> listed c = true -> List.length ps = 32%nat -> nth_error ps 0 = Some p ->
    ans 0%nat = Failed rc -> ans 1%nat = Answer (show items ++ e) b' -> line_end e -> Forall good_item items -> Forall (readable u32 flt) items ->
    exists ps', get_peer_info A gai u32 flt behind noname num ps (Answer (assoc_bytes [a; c]) b) ans = Some (0, 2%nat, ps') /\
      exists q, nth_error ps' 0 = Some q /\ p_offset q = p_offset p /\ p_remote q = p_remote p /\ p_stratum q = p_stratum p.
  Proof.
    intros [ai as_] [ci cs] num ps b ans rc p e b' items U1 U2 U3 U4 LA LC LP NP0 AN0 AN LE FG FR. cbn [fst snd] in *.
    rewrite info_loop; [|discriminate|cbn [List.length]; lia|repeat (apply Forall_cons; [split; assumption|]); apply Forall_nil].
    cbn [peer_loop]. pose proof (skipped_spec (ai, as_) U2) as S1. pose proof (skipped_spec (ci, cs) U4) as S2. cbn [snd] in S1, S2. rewrite S1, S2, LA, LC. cbn [negb].
    rewrite AN0, AN. cbn [bind]. rewrite NP0. cbn [bind]. change (vars [] []) with (Some (@nil (list Z * option (list Z)), @nil Z)). cbn [bind fst snd set_vars].
    rewrite nth_error_set_nth_other by lia. destruct (nth_error ps 1) as [p1'|] eqn:NP; [|apply nth_error_None in NP; lia]. cbn [bind].
    destruct (vars_show items e b' FG LE) as (out & lf & V & FO). rewrite V. cbn [bind fst snd].
    rewrite set_vars_named, FO. destruct (set_vars_defined A gai u32 flt behind noname items p1' FG FR) as (p' & SV). rewrite SV. cbn [bind].
    eexists. split; [reflexivity|]. exists (set_status A p as_). split; [|repeat split].
    rewrite nth_error_set_nth_other by lia. apply nth_error_set_nth_same. lia.
  Qed.

  (** If the first query cannot even be sent, a pointer that was never set is read. *)
Theorem C66_peers_unsent_refuted : forall a num ps b ans rc, u16p (fst a) -> u16p (snd a) -> listed a = true -> ans 0%nat = NotSent rc ->
    get_peer_info A gai u32 flt behind noname num ps (Answer (assoc_bytes [a]) b) ans = None.
  Proof.
    intros [ai as_] num ps b ans rc U1 U2 LA AN. cbn [fst snd] in *.
    rewrite info_loop; [|discriminate|cbn [List.length]; lia|repeat (apply Forall_cons; [split; assumption|]); apply Forall_nil].
    cbn [peer_loop]. pose proof (skipped_spec (ai, as_) U2) as S1. cbn [snd] in S1. rewrite S1, LA. cbn [negb]. rewrite AN. reflexivity.
  Qed.

  (** A variable without a value is a null pointer. *)
Theorem C66_peers_novalue_refuted : forall a num ps b ans b', u16p (fst a) -> u16p (snd a) -> listed a = true -> List.length ps = 32%nat -> In 0 b' ->
    ans 0%nat = Answer (txt "stratum") b' ->
    get_peer_info A gai u32 flt behind noname num ps (Answer (assoc_bytes [a]) b) ans = None.
  Proof.
    intros [ai as_] num ps b ans b' U1 U2 LA LP Z AN. cbn [fst snd] in *.
    rewrite info_loop; [|discriminate|cbn [List.length]; lia|repeat (apply Forall_cons; [split; assumption|]); apply Forall_nil].
    cbn [peer_loop]. pose proof (skipped_spec (ai, as_) U2) as S1. cbn [snd] in S1. rewrite S1, LA. cbn [negb]. rewrite AN. cbn [bind].
    destruct (nth_error ps 0) as [p|] eqn:NP; [|apply nth_error_None in NP; lia]. cbn [bind].
    assert (V : exists lf, vars (txt "stratum") b' = Some ([(txt "stratum", None)], lf)).
    { exists []. unfold vars. change (S (List.length (txt "stratum"))) with 8%nat. cbn [vars_loop].
      assert (NV : next_var (txt "stratum") b' = Some (Some (txt "stratum", None, []))).
      { unfold next_var. change (dropw (fun c => (c =? 44) || isspace c) (txt "stratum")) with (txt "stratum").
        cbv zeta. destruct (txt "stratum") as [|c0 d0] eqn:T; [discriminate|]. rewrite <- T.
        replace (existsb stops (txt "stratum" ++ b')) with true by (symmetry; apply existsb_exists; exists 0; split; [apply in_or_app; auto|reflexivity]).
        reflexivity. }
      rewrite NV. cbn [bind]. reflexivity. }
    destruct V as (lf & ->). cbn [bind fst snd set_vars]. reflexivity.
  Qed.

  (** A reference clock is never marked as this host's own. *)
Theorem C66_peers_self_refuted : forall p v p', set_var A gai u32 flt behind noname p (txt "refid", Some v) = Some p' -> p_self p' = false.
  Proof. intros p v p' H. unfold set_var in H. cbv zeta beta in H. vm_compute list_eq_dec in H. injection H as <-. reflexivity. Qed.

  (** ** The selected peer *)
Theorem C66_sys_info : forall old l e r h a, Forall good_item l -> line_end e ->
    (exists v, gives l (txt "peeradr") v) -> (forall v, gives l (txt "peeradr") v -> host v h) -> gai h = (0, a) ->
    get_sys_info A gai behind noname old (Answer (show l ++ e) r) = Some (0, a).
  Proof.
    intros old l e r h a FG LE EX H G. apply sys_info_shown with (h := h); auto. intros ->. destruct EX as (v & i & [] & _).
  Qed.
  (** Without a selected peer it is no entry, and the address stays. *)
Theorem C66_sys_none : forall old l e r, Forall good_item l -> line_end e -> l <> [] -> (forall v, ~ gives l (txt "peeradr") v) ->
    get_sys_info A gai behind noname old (Answer (show l ++ e) r) = Some (ENOENT, old).
  Proof.
    intros old l e r FG LE NE H. unfold get_sys_info.
    assert (SK := seek_show A gai u32 flt behind noname (S (List.length (show l ++ e))) [] l e r). cbn [app] in SK.
    assert (RO : rest_of l e = show l ++ e) by (destruct l; [congruence|reflexivity]). rewrite RO in SK. rewrite SK; auto. clear SK.
    destruct (find _ l) as [i|] eqn:F; [|reflexivity]. exfalso. apply find_some in F. destruct F as [I0 N].
    destruct (list_eq_dec Z.eq_dec (i_name i) (txt "peeradr")); [|discriminate]. apply (H (i_value i)). exists i. auto.
  Qed.
  (** Its outcome is success, no entry, or no daemon. *)
Theorem C66_sys_errors : forall old rep rc a, get_sys_info A gai behind noname old rep = Some (rc, a) ->
    (rc = 0 \/ rc = ENOENT \/ rc = ECONNREFUSED) /\ (rc = ECONNREFUSED -> exists e, rep = Failed e \/ rep = NotSent e).
  Proof.
    intros old rep rc a H. unfold get_sys_info in H.
    assert (PA : forall v x, parse_addr A gai behind noname v = Some x -> fst x = 0 \/ fst x = ENOENT \/ fst x = EINVAL).
    { intros v x P. unfold parse_addr in P. destruct (host_of behind v); cbn [bind] in P; [|discriminate]. destruct (gai l) as [c b]. injection P as <-.
      destruct (c =? 0); [auto|]. destruct (noname c); auto. }
    assert (SK : forall k d r f, seek A gai behind noname k d r = Some (Some f) -> fst f = 0 \/ fst f = ENOENT \/ fst f = EINVAL).
    { induction k as [|k IH]; intros d r f S; cbn [seek] in S; [discriminate|]. destruct (next_var d r) as [[[[n ov] d']|]|]; cbn [bind] in S; try discriminate.
      destruct (list_eq_dec Z.eq_dec n (txt "peeradr")); [|eapply IH; exact S]. destruct ov as [v|]; cbn [bind] in S; [|discriminate].
      destruct (parse_addr A gai behind noname v) as [x|] eqn:P; cbn [bind] in S; [|discriminate]. injection S as <-. eapply PA. exact P. }
    destruct rep as [e|e|d r].
    - cbn [bind] in H. injection H as <- _. destruct ((e =? 0) || (e =? ENOENT) || (e =? ECONNREFUSED)) eqn:E.
      + rewrite !orb_true_iff, !Z.eqb_eq in E. split; [intuition|]. intros _. exists e. auto.
      + split; [auto|]. intros _. exists e. auto.
    - cbn [bind] in H. injection H as <- _. split; [|intros _; exists e; auto].
      destruct (e =? 0); [auto|]. destruct ((e =? 0) || (e =? ENOENT) || (e =? ECONNREFUSED)) eqn:E; [|auto].
      rewrite !orb_true_iff, !Z.eqb_eq in E. intuition.
    - destruct (seek A gai behind noname (S (List.length d)) d r) as [f|] eqn:S; cbn [bind] in H; [|discriminate].
      destruct f as [[c b]|].
      + injection H as <- _. specialize (SK _ _ _ _ S). cbn [fst] in SK. unfold ENOENT, EINVAL, ECONNREFUSED in *. destruct SK as [-> |[-> | ->]]; cbn; split; auto; discriminate.
      + injection H as <- _. split; [auto|]. discriminate.
  Qed.
End Wrong.
Print Assumptions C66_peers_holes_refuted.
Print Assumptions C66_peers_many_refuted.
Print Assumptions C66_peers_stale_refuted.
Print Assumptions C66_peers_failed_refuted.
Print Assumptions C66_peers_unsent_refuted.
Print Assumptions C66_peers_novalue_refuted.
Print Assumptions C66_peers_self_refuted.
Print Assumptions C66_sys_info.
Print Assumptions C66_sys_errors.
Print Assumptions C66_sys_none.
Example C66_sys_none_ex : get_sys_info (list Z) gai1 (fun _ => []) none1 (Some (txt "10.0.0.9")) (Answer (txt "stratum=3" ++ [13; 10]) zeros) = Some (ENOENT, Some (txt "10.0.0.9")).
Proof. vm_compute. reflexivity. Qed.
(** To give ntpd its discipline of the clock back is to enable, to take it away to disable, by the words of its runtime
    configuration. *)
Theorem C66_command_words : forall enable, exists w, control_command enable = w ++ txt "able ntp kernel" /\ (w = txt "en" <-> enable = true) /\ (w = txt "dis" <-> enable = false).
Proof. intros []; [exists (txt "en")|exists (txt "dis")]; (split; [reflexivity|]); split; split; intro H; try reflexivity; discriminate. Qed.
Print Assumptions C66_command_words.
Example C66_holes_ex : exists ps', get1 0%nat (repeat blankp 32) (Answer (assoc_bytes [(7, 0); (8, 38400)]) zeros) ans1 = Some (0, 1%nat, ps') /\
  map (fun p => (p_stratum p, p_selected p)) (firstn 2 ps') = [(99, false); (3, true)].
Proof. eexists. split; [vm_compute; reflexivity|vm_compute; reflexivity]. Qed.
Example C66_many_ex : get1 0%nat (repeat blankp 32) (Answer (assoc_bytes (repeat (7, 38400) 33)) zeros) ans1 = None.
Proof. vm_compute. reflexivity. Qed.
Example C66_failed_ex : exists ps', get1 0%nat (repeat blankp 32) (Answer (assoc_bytes [(7, 38400); (8, 37888)]) zeros)
    (fun k => match k with O => Failed ETIMEDOUT | _ => ans1 k end) = Some (0, 2%nat, ps') /\ map (fun p => (p_stratum p, p_selected p)) (firstn 2 ps') = [(99, true); (3, false)].
Proof. eexists. split; [vm_compute; reflexivity|vm_compute; reflexivity]. Qed.
Example C66_unsent_ex : get1 0%nat (repeat blankp 32) (Answer (assoc_bytes [(7, 38400)]) zeros) (fun _ => NotSent 111) = None /\
  get1 0%nat (repeat blankp 32) (Answer (assoc_bytes [(7, 38400)]) zeros) (fun _ => Answer (txt "stratum") zeros) = None.
Proof. split; vm_compute; reflexivity. Qed.
Example C66_sys_info_ex : get_sys_info (list Z) gai1 (fun _ => []) none1 None (Answer (txt "peeradr=10.0.0.1:123" ++ [13; 10]) zeros) = Some (0, Some (txt "10.0.0.1")) /\
  get_sys_info (list Z) gai1 (fun _ => []) none1 None (Failed EIO) = Some (ENOENT, None).
Proof. split; vm_compute; reflexivity. Qed.

(** ** Taking and giving back the clock *)
(** With a key, the command succeeds exactly if the answer (of at least 18 bytes) begins with the
    daemon's word of success; without a key it is refused; a failed query is reported. *)
Theorem C66_clock_control_partial : forall key d b rc, key <> 0 -> (18 <= List.length d)%nat -> rc <> 0 ->
  (clock_control key (Answer d b) = Some 0 <-> exists r, d = txt "Config Succeeded" ++ [13; 10] ++ r) /\
  (clock_control key (Answer d b) <> Some 0 -> clock_control key (Answer d b) = Some EACCES) /\
  clock_control key (Failed rc) = Some rc /\ clock_control key (NotSent rc) = Some rc /\
  (forall rep, clock_control 0 rep = Some EACCES).
Proof.
  intros key d b rc K L R. rewrite clock_control_answer by exact K. rewrite prefix_app by (rewrite config_len; exact L).
  split; [|split; [|split; [|split]]].
  - destruct (text_prefix config_succeeded d) eqn:P.
    + split; [intros _|reflexivity]. apply prefix_firstn in P. exists (skipn (List.length config_succeeded) d). rewrite app_assoc. change (txt "Config Succeeded" ++ [13; 10]) with config_succeeded.
      rewrite <- P at 1. rewrite firstn_skipn. reflexivity.
    + split; [discriminate|]. intros (r & ->). exfalso. rewrite app_assoc in P. change (txt "Config Succeeded" ++ [13; 10]) with config_succeeded in P.
      rewrite prefix_app in P by apply le_n. vm_compute in P. discriminate.
  - destruct (text_prefix config_succeeded d); [congruence|reflexivity].
  - unfold clock_control. replace (key =? 0) with false by (symmetry; apply Z.eqb_neq; exact K). replace (rc =? 0) with false by (symmetry; apply Z.eqb_neq; exact R). reflexivity.
  - unfold clock_control. replace (key =? 0) with false by (symmetry; apply Z.eqb_neq; exact K). reflexivity.
  - reflexivity.
Qed.
Print Assumptions C66_clock_control_partial.
Example C66_clock_control_ex : clock_control 5 (Answer (txt "Config Succeeded" ++ [13; 10; 0; 7]) zeros) = Some 0 /\
  clock_control 5 (Answer (txt "Keyword ""ntp"" refused") zeros) = Some EACCES.
Proof. split; vm_compute; reflexivity. Qed.

(** The full statement is false.  The answer's length is not looked at, so an empty answer is taken
    for success when the answer before it was one; and when the daemon restricts the client the
    answer is read through a pointer that was never set. *)
Theorem C66_clock_control_refuted : forall key r seq buf low assoc evs, key <> 0 -> byte low ->
  clock_control key (Answer [] (config_succeeded ++ r)) = Some 0 /\
  (exists rep, query seq 8 (control_command false) buf 0 (Packet (packet 0 4 6 8 seq (256 * 7 + low) assoc 0 0 []) :: evs) = Some (Some rep) /\
     clock_control key rep = None).
Proof.
  intros key r seq buf low assoc evs K [L0 L1]. split.
  - rewrite clock_control_answer by exact K. cbn [app]. rewrite prefix_app by apply le_n. vm_compute. reflexivity.
  - exists (Failed 0). split.
    + unfold query. change (CTL_MAX_DATA_LEN <? len (control_command false)) with false. cbn [Z.eqb negb]. cbv iota.
      change 6 with (if false then 7 else 6) at 1. rewrite error_reply; try lia; [|unfold u16p; lia|apply Nat.leb_le; reflexivity].
      replace ((256 * 7 + low) / 256) with 7 by (apply Z.div_unique with low; lia). reflexivity.
    + unfold clock_control. replace (key =? 0) with false by (symmetry; apply Z.eqb_neq; exact K). reflexivity.
Qed.
Print Assumptions C66_clock_control_refuted.
Example C66_clock_control_refuted_ex : clock_control 5 (Answer [] (config_succeeded ++ zeros)) = Some 0.
Proof. vm_compute. reflexivity. Qed.
