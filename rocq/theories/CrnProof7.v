(** Proofs for the chrony module, part 7: an honest round. *)
Require Import ZArith QArith List Bool Lia.
Require Import Verif.Base Verif.TimeSpec Verif.TimeModel Verif.TimeProof Verif.QLib Verif.ListLib Verif.StatsModel Verif.CrnSpec Verif.CrnModel Verif.CrnProof Verif.CrnProof2 Verif.CrnProof3 Verif.CrnProof4 Verif.CrnProof5 Verif.CrnProof6.
Import ListNotations.
Open Scope Z_scope.

Lemma reply_ok_enc : forall m cmd ty seq d rest arg, m_resp m = enc_answer (mkAns cmd ty 0 seq d) ++ rest -> m_req m = request cmd seq arg -> 0 <= cmd < 2^16 -> 0 <= ty < 2^16 -> 0 <= seq < 2^32 -> reply_ok m ty = true.
Proof.
  intros m cmd ty seq d rest arg R Q C T S. unfold reply_ok. rewrite R, Q, request_enc. unfold enc_answer, enc_request. cbn [a_cmd a_type a_status a_seq a_data].
  unfold be32, be16, oct, enc16, le32. cbn [app nth Nat.add repeat]. rewrite !Z.eqb_refl.
  replace (256 * (ty / 256 mod 256) + ty mod 256) with ty by lia. rewrite Z.eqb_refl. reflexivity.
Qed.
Lemma data_enc : forall m cmd ty seq d rest, m_resp m = enc_answer (mkAns cmd ty 0 seq d) ++ rest -> data m = d ++ rest.
Proof. intros m cmd ty seq d rest R. unfold data. rewrite R. reflexivity. Qed.
Lemma issue_ok : forall e m, env_ok e -> m_open m = true -> exists x, issue e m = Some (set_exp m x, [Sent (m_req m)], true).
Proof.
  intros e m (S & N & R & _) O. unfold issue. rewrite O. cbn [negb].
  assert (exists c, add (e_now e) (mkTs 2 0 0) = Some c) as [c ->].
  { apply add_defined; [exact N|unfold normal; cbn; lia|]. unfold representable, instant, s_unit. cbn [sec nsec frac]. destruct N as (N1 & N2 & N3). lia. }
  cbn [bind]. rewrite S. eexists; reflexivity.
Qed.

(** The module in a round: [m0] is the module at its start. *)
Record mid (m0 : cm) (nx : cst) (q : qst) (req : list Z) (m : cm) : Prop := mkMid {
  d_q : m_q m = q; d_open : m_open m = true; d_nx : m_nx m = nx; d_req : m_req m = req; d_st : m_st m = m_st m0; d_flags : m_flags m = m_flags m0;
  d_resp : List.length (m_resp m) = 528%nat }.
Definition sized (nx : cst) : Prop := List.length (k_arr nx) = 32%nat.

(** An answer is taken. *)
Definition taken (m : cm) (a : answer) : cm := set_resp m (enc_answer a ++ skipn (List.length (enc_answer a)) (m_resp m)).
Lemma io_ans : forall g m a e, m_open m = true -> (List.length (a_data a) <= 500)%nat -> on_io g m (Octets (enc_answer a)) e = advance g (taken m a) Traffic e 0.
Proof.
  intros g m a e O L. unfold on_io, taken. rewrite O. cbn [negb]. cbv zeta. rewrite firstn_all2 by (rewrite head_len; lia). replace (8 <=? _)%nat with true; [reflexivity|].
  symmetry. apply Nat.leb_le. rewrite head_len. lia.
Qed.
Lemma taken_len : forall m a, (List.length (a_data a) <= 500)%nat -> List.length (m_resp m) = 528%nat -> List.length (m_resp (taken m a)) = 528%nat.
Proof. intros m a L R. unfold taken. pj. rewrite app_length, skipn_length, head_len, R. lia. Qed.
(** Traffic that is answered with one question. *)
Lemma asked : forall g m e q m2, switch g m Traffic e 0 = Some (m2, [Sent (m_req m2)], false, false) -> m_q m2 = q -> k_state (m_nx m2) = k_state (m_st m2) -> advance g m Traffic e 0 = Some (m2, [Sent (m_req m2)]).
Proof. intros g m e q m2 H Q S. unfold advance, machine. rewrite H. cbn [bind]. rewrite S, st_eqb_refl. reflexivity. Qed.

Definition ns (x : Z * Z) : Q := (float_val (fst x) (snd x) * (1000000000#1))%Q.
(** What is kept of a source. *)
Definition peer_of (s : source) : cpeer :=
  mkP (o_addr s) (o_local s) (o_sent s) (o_received s) (o_stratum s) false false false (server s)
      (float_val (fst (o_off s)) (snd (o_off s)) * -(1000000000#1))%Q (ns (o_disp s)) (Some (ns (o_est s))) (Some (ns (o_err s))).

Lemma len_source : forall s, source_ok s -> List.length (enc_source s) = 28%nat /\ List.length (enc_stats s) = 56%nat /\ List.length (enc_ntpdata s) = 128%nat.
Proof.
  intros s (A & B & _). unfold enc_source, enc_stats, enc_ntpdata. rewrite !app_length, !(len_addr _ A), !(len_addr _ B). repeat split.
Qed.
Lemma peer_put : forall s i p, sized s -> 0 <= i < 32 -> peer_at (with_arr s (set_nth (Z.to_nat i) p (k_arr s))) i = Some p.
Proof.
  intros s i p L R. unfold peer_at. replace (i <? 0) with false by lia. pj. apply nth_error_set_nth_same. rewrite L. lia.
Qed.
Definition put (s : cst) (i : Z) (p : cpeer) : cst := with_arr s (set_nth (Z.to_nat i) p (k_arr s)).
Lemma put_some : forall s i p, sized s -> 0 <= i < 32 -> put_peer s i p = Some (put s i p).
Proof. intros s i p L R. apply put_peer_some. rewrite L. lia. Qed.
Lemma put_put : forall s i p p', put (put s i p) i p' = put s i p'.
Proof. intros s i p p'. unfold put. pj. rewrite set_nth_twice. reflexivity. Qed.
Lemma sized_put : forall s i p, sized s -> sized (put s i p).
Proof. intros s i p L. unfold sized, put. pj. rewrite set_nth_length. exact L. Qed.

Lemma step_datum : forall g m0 nx i seq m s e, mid m0 nx Datum (request 15 seq (put32 i)) m -> m_idx m = i -> 0 <= i < 32 -> sized nx -> k_state nx = k_state (m_st m0) -> source_ok s -> env_ok e -> 0 <= seq < 2^32 ->
  exists m', step g m (ans SOURCE_DATA seq (enc_source s) e) = Some (m', [Sent (enc_request SOURCE_STATS (e_rand e) (enc32 i))]) /\
  mid m0 (put nx i zero_peer) Stats (request 34 (e_rand e) (put32 i)) m' /\ m_idx m' = i /\ m_addr m' = enc_addr (o_addr s) /\ m_mode m' = o_mode s.
Proof.
  intros g m0 nx i seq m s e M IX R SZ SS OK E SQ. destruct (len_source s OK) as (LD & _). pose proof OK as (AO & LO & OS & OM & _).
  unfold ans, step. rewrite io_ans; [|apply (d_open _ _ _ _ _ M)|cbn [a_data]; rewrite LD; lia].
  set (a := mkAns _ _ _ _ _). set (ma := taken m a). assert (RA : m_resp ma = enc_answer a ++ skipn (List.length (enc_answer a)) (m_resp m)) by reflexivity.
  assert (LA : List.length (m_resp ma) = 528%nat) by (apply taken_len; [cbn [a a_data]; rewrite LD; lia|apply (d_resp _ _ _ _ _ M)]).
  assert (RO : reply_ok ma 3 = true) by (eapply reply_ok_enc; [exact RA|unfold ma, taken; pj; apply (d_req _ _ _ _ _ M)|vm_compute; split; congruence|vm_compute; split; congruence|exact SQ]).
  pose proof (data_enc ma _ _ _ _ _ RA) as DA. set (rest := skipn _ _) in DA.
  assert (D1 : firstn 20 (data ma) = enc_addr (o_addr s)) by (rewrite DA; unfold enc_source; rewrite <- !app_assoc, firstn_app, (len_addr _ AO), firstn_all2, Nat.sub_diag by (rewrite (len_addr _ AO); lia); cbn [firstn]; apply app_nil_r).
  assert (D3 : be16 (data ma) 26 = o_mode s).
  { rewrite DA. unfold enc_source. rewrite <- !app_assoc. rewrite (app_assoc (enc_addr _)), (app_assoc _ (enc16 (o_state s))). apply be16_at; [|exact OM]. rewrite !app_length, (len_addr _ AO). reflexivity. }
  assert (SW : exists x, switch g ma Traffic e 0 = Some (set_q (set_exp (set_req (set_nx (set_src ma (enc_addr (o_addr s)) (o_mode s)) (put nx i zero_peer)) (request 34 (e_rand e) (put32 i))) x) Stats, [Sent (request 34 (e_rand e) (put32 i))], false, false)).
  { unfold switch. replace (m_q ma) with Datum by (symmetry; apply (d_q _ _ _ _ _ M)). unfold handle_datum. rewrite RO. cbn [negb].
    replace (m_nx ma) with nx by (symmetry; apply (d_nx _ _ _ _ _ M)). replace (m_idx ma) with i by (symmetry; exact IX).
    assert (exists p, peer_at nx i = Some p) as [p P]. { unfold peer_at. replace (i <? 0) with false by lia. destruct (nth_error (k_arr nx) (Z.to_nat i)) eqn:N; [eauto|]. apply nth_error_None in N. rewrite SZ in N. lia. }
    rewrite P. cbn [bind]. rewrite put_some by assumption. cbn [bind]. unfold issue_stats. pj. replace (m_idx ma) with i by (symmetry; exact IX). rewrite put_some; [|apply sized_put; exact SZ|exact R]. rewrite put_put. cbn [bind].
    rewrite D1, D3.
    match goal with |- context [issue e ?mm] => destruct (issue_ok e mm E) as [x ->]; [exact (d_open _ _ _ _ _ M)|] end. cbn [bind onward app]. exists x. reflexivity. }
  destruct SW as [x SW].
  match type of SW with _ = Some (?mm, _, _, _) => set (m2 := mm) in * end.
  exists m2. split.
  - rewrite put32_enc, request_enc in SW. rewrite <- request_enc, <- put32_enc in SW.
    erewrite (asked g ma e Stats m2); [unfold m2; pj; rewrite request_enc, put32_enc; reflexivity|exact SW|reflexivity|]. unfold m2, ma, taken. pj. rewrite (d_st _ _ _ _ _ M). exact SS.
  - split; [|auto]. constructor; try reflexivity; unfold m2; pj; try apply M. exact LA.
Qed.
Definition half_peer (s : source) : cpeer := mkP NoAddr NoAddr 0 0 0 false false false false 0 0 (Some (ns (o_est s))) (Some (ns (o_err s))).
Lemma step_stats : forall g m0 nx i seq m s e, mid m0 (put nx i zero_peer) Stats (request 34 seq (put32 i)) m -> m_idx m = i -> m_addr m = enc_addr (o_addr s) -> m_mode m = o_mode s ->
  0 <= i < 32 -> sized nx -> k_state nx = k_state (m_st m0) -> ntp_source s -> env_ok e -> 0 <= seq < 2^32 ->
  exists m', step g m (ans SOURCE_STATS seq (enc_stats s) e) = Some (m', [Sent (enc_request NTP_DATA (e_rand e) (enc_addr (o_addr s)))]) /\
  mid m0 (put nx i (half_peer s)) Ntp (request 57 (e_rand e) (enc_addr (o_addr s))) m' /\ m_idx m' = i.
Proof.
  intros g m0 nx i seq m s e M IX AD MO R SZ SS (OK & NR & NU) E SQ. destruct (len_source s OK) as (_ & LD & _). pose proof OK as (AO & LO & OS & OM & FE & FR & _).
  unfold ans, step. rewrite io_ans; [|apply (d_open _ _ _ _ _ M)|cbn [a_data]; rewrite LD; lia].
  set (a := mkAns _ _ _ _ _). set (ma := taken m a). assert (RA : m_resp ma = enc_answer a ++ skipn (List.length (enc_answer a)) (m_resp m)) by reflexivity.
  assert (LA : List.length (m_resp ma) = 528%nat) by (apply taken_len; [cbn [a a_data]; rewrite LD; lia|apply (d_resp _ _ _ _ _ M)]).
  assert (RO : reply_ok ma 6 = true) by (eapply reply_ok_enc; [exact RA|unfold ma, taken; pj; apply (d_req _ _ _ _ _ M)|vm_compute; split; congruence|vm_compute; split; congruence|exact SQ]).
  pose proof (data_enc ma _ _ _ _ _ RA) as DA. set (rest := skipn _ _) in DA.
  assert (D1 : be32 (data ma) 48 = enc_float (fst (o_est s)) (snd (o_est s))).
  { rewrite DA. unfold enc_stats. rewrite <- !app_assoc. rewrite (app_assoc (repeat 0 4)), (app_assoc _ (repeat 0 24)). apply be32_efl. rewrite !app_length, (len_addr _ AO). reflexivity. }
  assert (D2 : be32 (data ma) 52 = enc_float (fst (o_err s)) (snd (o_err s))).
  { rewrite DA. unfold enc_stats. rewrite <- !app_assoc. rewrite (app_assoc (repeat 0 4)), (app_assoc _ (repeat 0 24)), (app_assoc _ (efl (o_est s))). apply be32_efl. rewrite !app_length, (len_addr _ AO). reflexivity. }
  assert (FA : be16 (m_addr ma) 16 =? 0 = false).
  { change (m_addr ma) with (m_addr m). rewrite AD. pose proof (family_enc 0 [] (o_addr s) [] eq_refl AO) as F. cbn [app Nat.add] in F. rewrite app_nil_r in F. rewrite F. destruct (o_addr s); cbn in AO; try contradiction; try reflexivity; congruence. }
  assert (SW : exists x, switch g ma Traffic e 0 = Some (set_q (set_exp (set_req (set_nx ma (put nx i (half_peer s))) (request 57 (e_rand e) (enc_addr (o_addr s)))) x) Ntp, [Sent (request 57 (e_rand e) (enc_addr (o_addr s)))], false, false)).
  { unfold switch. replace (m_q ma) with Stats by (symmetry; apply (d_q _ _ _ _ _ M)). unfold handle_stats. rewrite RO. cbn [negb].
    replace (m_nx ma) with (put nx i zero_peer) by (symmetry; apply (d_nx _ _ _ _ _ M)). replace (m_idx ma) with i by (symmetry; exact IX).
    unfold put at 1. rewrite peer_put by assumption. cbn [bind]. rewrite put_some; [|apply sized_put; exact SZ|exact R]. cbn [bind]. rewrite put_put.
    replace (m_mode ma) with (o_mode s) by (symmetry; exact MO). replace (o_mode s =? 2) with false by (symmetry; apply Z.eqb_neq; exact NR). rewrite FA. cbn [bind]. rewrite D1, D2, !tofloat_enc by assumption.
    replace (m_addr ma) with (enc_addr (o_addr s)) by (symmetry; exact AD).
    match goal with |- context [issue e ?mm] => destruct (issue_ok e mm E) as [x ->]; [exact (d_open _ _ _ _ _ M)|] end. cbn [bind onward app]. exists x. reflexivity. }
  destruct SW as [x SW].
  match type of SW with _ = Some (?mm, _, _, _) => set (m2 := mm) in * end.
  exists m2. split.
  - erewrite (asked g ma e Ntp m2); [unfold m2; pj; rewrite request_enc; reflexivity|exact SW|reflexivity|]. unfold m2, ma, taken. pj. rewrite (d_st _ _ _ _ _ M). exact SS.
  - split; [|auto]. constructor; try reflexivity; unfold m2; pj; try apply M. exact LA.
Qed.

Lemma mkP_eq : forall a b c d e f g h i j k l o a' b' c' d' e' i' j' k', a = a' -> b = b' -> c = c' -> d = d' -> e = e' -> i = i' -> j = j' -> k = k' -> mkP a b c d e f g h i j k l o = mkP a' b' c' d' e' f g h i' j' k' l o.
Proof. intros. subst. reflexivity. Qed.
(** The answer about NTP data. *)
Lemma ntp_data : forall g m0 nx i seq m s, mid m0 (put nx i (half_peer s)) Ntp (request 57 seq (enc_addr (o_addr s))) m -> m_idx m = i -> 0 <= i < 32 -> sized nx -> source_ok s -> 0 <= seq < 2^32 ->
  exists ma, List.length (m_resp ma) = 528%nat /\ (forall e, step g m (ans NTP_DATA seq (enc_ntpdata s) e) = advance g ma Traffic e 0) /\
  handle_ntp ma = Some (set_nx ma (put nx i (peer_of s))) /\ m_q ma = Ntp /\ m_idx ma = i /\ m_open ma = true /\ m_st ma = m_st m0 /\ m_flags ma = m_flags m0.
Proof.
  intros g m0 nx i seq m s M IX R SZ OK SQ. destruct (len_source s OK) as (_ & _ & LD). pose proof OK as (AO & LO & OS & OM & FE & FR & FD & FO & OP & OST & OSE & ORE).
  set (a := mkAns NTP_DATA (answer_type NTP_DATA) 0 seq (enc_ntpdata s)). set (ma := taken m a). exists ma.
  assert (RA : m_resp ma = enc_answer a ++ skipn (List.length (enc_answer a)) (m_resp m)) by reflexivity.
  assert (LA : List.length (m_resp ma) = 528%nat) by (apply taken_len; [cbn [a a_data]; rewrite LD; lia|apply (d_resp _ _ _ _ _ M)]).
  assert (RO : reply_ok ma 16 = true) by (eapply reply_ok_enc; [exact RA|unfold ma, taken; pj; apply (d_req _ _ _ _ _ M)|vm_compute; split; congruence|vm_compute; split; congruence|exact SQ]).
  split; [exact LA|]. split; [intros e; unfold ans, step; rewrite io_ans; [reflexivity|apply (d_open _ _ _ _ _ M)|cbn [a_data]; rewrite LD; lia]|].
  split; [|unfold ma, taken; pj; destruct M; auto 10].
  pose proof (data_enc ma _ _ _ _ _ RA) as DA. set (rest := skipn _ _) in DA.
  unfold handle_ntp. rewrite RO. cbn [negb].
  replace (m_nx ma) with (put nx i (half_peer s)) by (symmetry; apply (d_nx _ _ _ _ _ M)). replace (m_idx ma) with i by (symmetry; exact IX).
  unfold put at 1. rewrite peer_put by assumption. cbn [bind]. rewrite put_some; [|apply sized_put; exact SZ|exact R]. cbn [bind]. rewrite put_put. do 3 f_equal.
  rewrite DA. unfold enc_ntpdata. rewrite <- !app_assoc. unfold peer_of, server.
  set (A1 := enc_addr (o_addr s)) in *. set (A2 := enc_addr (o_local s)) in *. assert (L1 : List.length A1 = 20%nat) by (apply len_addr; exact AO). assert (L2 : List.length A2 = 20%nat) by (apply len_addr; exact LO).
  assert (L12 : (40 = List.length (A1 ++ A2))%nat) by (rewrite app_length, L1, L2; reflexivity).
  set (T1 := enc32 (o_received s) ++ repeat 0 24 ++ rest). set (T2 := repeat 0 20 ++ enc32 (o_sent s) ++ T1). set (T3 := repeat 0 4 ++ repeat 0 12 ++ efl (o_off s) ++ T2).
  apply mkP_eq.
  - apply (sockaddr_enc 0 []); [reflexivity|exact AO].
  - apply (sockaddr_enc 20 A1); [symmetry; exact L1|exact LO].
  - rewrite (app_assoc A1 A2), (be32_app (A1 ++ A2) _ 40 56 L12). exact (be32_enc (o_sent s) T1 OSE).
  - rewrite (app_assoc A1 A2), (be32_app (A1 ++ A2) _ 40 60 L12). exact (be32_enc (o_received s) (repeat 0 24 ++ rest) ORE).
  - rewrite (app_assoc A1 A2), (oct_app (A1 ++ A2) _ 40 L12 5). reflexivity.
  - rewrite (app_assoc A1 A2), (oct_app (A1 ++ A2) _ 40 L12 4). reflexivity.
  - f_equal. rewrite (app_assoc A1 A2), (be32_app (A1 ++ A2) _ 40 32 L12). rewrite <- tofloat_enc by exact FO. f_equal. exact (be32_enc (enc_float (fst (o_off s)) (snd (o_off s))) T2 (enc_float_range _ _)).
  - unfold ns. f_equal. rewrite (app_assoc A1 A2), (be32_app (A1 ++ A2) _ 40 12 L12). rewrite <- tofloat_enc by exact FD. f_equal. exact (be32_enc (enc_float (fst (o_disp s)) (snd (o_disp s))) T3 (enc_float_range _ _)).
Qed.
Lemma step_ntp_more : forall g m0 nx i seq m s e, mid m0 (put nx i (half_peer s)) Ntp (request 57 seq (enc_addr (o_addr s))) m -> m_idx m = i -> 0 <= i -> i + 1 < k_num nx <= 32 -> sized nx -> k_state nx = k_state (m_st m0) -> source_ok s -> env_ok e -> 0 <= seq < 2^32 ->
  exists m', step g m (ans NTP_DATA seq (enc_ntpdata s) e) = Some (m', [Sent (enc_request SOURCE_DATA (e_rand e) (enc32 (i + 1)))]) /\
  mid m0 (put (put nx i (peer_of s)) (i + 1) blank_peer) Datum (request 15 (e_rand e) (put32 (i + 1))) m' /\ m_idx m' = i + 1.
Proof.
  intros g m0 nx i seq m s e M IX R0 R SZ SS OK E SQ. destruct (ntp_data g m0 nx i seq m s M IX ltac:(lia) SZ OK SQ) as (ma & LA & ST & HN & QA & IA & OA & SA & FA). rewrite ST.
  assert (SW : exists x, switch g ma Traffic e 0 = Some (set_q (set_exp (set_req (set_nx (set_idx ma (i + 1)) (put (put nx i (peer_of s)) (i + 1) blank_peer)) (request 15 (e_rand e) (put32 (i + 1)))) x) Datum, [Sent (request 15 (e_rand e) (put32 (i + 1)))], false, false)).
  { unfold switch. rewrite QA, HN. cbn [bind]. unfold next_source. pj. rewrite IA.
    assert (U : u32 (i + 1) = i + 1) by (unfold u32; apply Z.mod_small; lia). rewrite U. change (k_num (put nx i (peer_of s))) with (k_num nx). replace (i + 1 =? k_num nx) with false by lia.
    unfold issue_datum. pj. rewrite put_some; [|apply sized_put; exact SZ|lia]. cbn [bind].
    match goal with |- context [issue e ?mm] => destruct (issue_ok e mm E) as [x ->]; [exact OA|] end. cbn [bind onward app]. exists x. reflexivity. }
  destruct SW as [x SW].
  match type of SW with _ = Some (?mm, _, _, _) => set (m2 := mm) in * end.
  exists m2. split.
  - erewrite (asked g ma e Datum m2); [unfold m2; pj; rewrite request_enc, put32_enc; reflexivity|exact SW|reflexivity|]. unfold m2. pj. rewrite SA. exact SS.
  - split; [|auto]. constructor; try reflexivity; unfold m2; pj; try assumption.
Qed.

(** The end of the round. *)
Definition rested (m0 : cm) (arr : list cpeer) (n : Z) (m : cm) : Prop :=
  m_q m = SleepConn /\ m_open m = true /\ k_arr (m_st m) = arr /\ k_num (m_st m) = n /\ k_state (m_st m) = (if existsb counts (firstn (Z.to_nat n) arr) then SELECTION else LISTENING) /\ m_flags m = m_flags m0.
Lemma step_ntp_last : forall g m0 nx i seq m s e, mid m0 (put nx i (half_peer s)) Ntp (request 57 seq (enc_addr (o_addr s))) m -> m_idx m = i -> 0 <= i -> i + 1 = k_num nx -> k_num nx <= 32 -> dull nx -> dull (m_st m0) -> k_cc nx = k_cc (m_st m0) ->
  Z.testbit (m_flags m0) DETERMINANT = false -> source_ok s -> 0 <= seq < 2^32 ->
  exists m' told, step g m (ans NTP_DATA seq (enc_ntpdata s) e) = Some (m', told ++ [History None false]) /\ (told = [] \/ exists t, told = [Told t] /\ s_state t = k_state (m_st m')) /\
  rested m0 (k_arr (put nx i (peer_of s))) (k_num nx) m'.
Proof.
  intros g m0 nx i seq m s e M IX R0 R1 R2 DN D0 CC FL OK SQ. assert (SZ : sized nx) by apply DN. destruct (ntp_data g m0 nx i seq m s M IX ltac:(lia) SZ OK SQ) as (ma & LA & ST & HN & QA & IA & OA & SA & FA). rewrite ST.
  set (n2 := put nx i (peer_of s)) in *. assert (D2 : dull n2) by (eapply dull_put; [exact DN|apply (put_some nx i (peer_of s)); [exact SZ|lia]|reflexivity]).
  assert (N2 : k_num n2 = k_num nx) by reflexivity. assert (C2 : k_cc n2 = k_cc nx) by reflexivity.
  assert (SW : switch g ma Traffic e 0 = Some (set_q (set_nx (set_idx ma (i + 1)) (parsed n2 (e_score e))) SleepConn, [], true, false)).
  { unfold switch. rewrite QA, HN. cbn [bind]. unfold next_source. pj. rewrite IA.
    assert (U : u32 (i + 1) = i + 1) by (unfold u32; apply Z.mod_small; lia). rewrite U, N2, R1, Z.eqb_refl. unfold finish_round. pj. rewrite parse_dull by exact D2. rewrite N2. replace (32 <? k_num nx) with false by lia. reflexivity. }
  clearbody n2. unfold advance, machine. rewrite SW. cbn [bind orb].
  assert (DP := dull_parsed n2 (e_score e) D2). assert (NP : k_num (parsed n2 (e_score e)) = k_num nx) by exact N2. assert (AP : k_arr (parsed n2 (e_score e)) = k_arr n2) by reflexivity. assert (CP : k_cc (parsed n2 (e_score e)) = k_cc (m_st ma)) by (rewrite SA; cbn; congruence).
  assert (SP : k_state (parsed n2 (e_score e)) = if existsb counts (firstn (Z.to_nat (k_num nx)) (k_arr n2)) then SELECTION else LISTENING) by (unfold parsed; pj; rewrite N2; reflexivity).
  set (np := parsed n2 (e_score e)) in *. clearbody np.
  set (b := existsb counts (firstn (Z.to_nat (k_num nx)) (k_arr n2))) in *.
  set (mb := set_q (set_nx (set_idx ma (i + 1)) np) SleepConn).
  destruct DP as (P1 & P2 & P3 & P4 & P5 & P6 & P7 & P8 & P9). pose proof D0 as (Q1 & Q2 & Q3 & Q4 & Q5 & Q6 & Q7 & Q8 & Q9).
  assert (NS : st_eqb (k_state np) SLAVE = false) by (rewrite SP; destruct b; reflexivity).
  unfold update_state. change (m_nx mb) with np. change (m_st mb) with (m_st ma). rewrite CP, eqb_reflx. cbn [negb bind].
  unfold state_change. change (m_nx mb) with np. change (m_st mb) with (m_st ma). replace (st_eqb (k_state np) DISABLED) with false by (rewrite SP; destruct b; reflexivity). rewrite andb_false_r. cbn [andb].
  change (m_nx mb) with np. change (m_st mb) with (m_st ma).
  assert (CV : exists mc, converge mb (e_conv e) = Some (mc, false) /\ m_st mc = m_st ma /\ m_q mc = SleepConn /\ m_open mc = true /\ m_flags mc = m_flags m0 /\ k_arr (m_nx mc) = k_arr n2 /\ k_num (m_nx mc) = k_num nx /\ k_state (m_nx mc) = k_state np /\ k_id (m_nx mc) = None /\ k_sync (m_nx mc) = false).
  { unfold converge. destruct (e_conv e).
    - change (m_nx mb) with np. rewrite NS. cbn [negb bind]. pj. change (m_st mb) with (m_st ma). rewrite SA, Q9. eexists. split; [reflexivity|]. pj. rewrite SA in *. auto 12.
    - eexists. split; [reflexivity|]. unfold mb; pj. auto 12. }
  destruct CV as (mc & -> & V1 & V2 & V3 & V4 & V5 & V6 & V7 & V8 & V9). cbn [bind]. rewrite V8, V1, SA, Q4. cbn [id_eqb negb].
  assert (RT : rt_stats (m_nx mc) = Some []) by (unfold rt_stats; rewrite V7, NS; reflexivity).
  assert (CL : clustering mc (m_nx mc) = Some []) by (unfold clustering; rewrite V4, FL; reflexivity).
  assert (HI : history (m_nx mc) = Some [History None false]) by (unfold history; rewrite V7, NS, V9; reflexivity).
  assert (RE : rested m0 (k_arr n2) (k_num nx) (set_st mc (m_nx mc))) by (unfold rested; pj; rewrite V7, SP; auto 10).
  exists (set_st mc (m_nx mc)). 
  destruct (differs np (m_st m0)).
  - exists [Told (status_of mb np)]. cbn [orb]. rewrite RT, CL. cbn [bind app]. pj. rewrite HI. cbn [bind fst snd app]. split; [reflexivity|]. split; [|exact RE]. right. eexists. split; [reflexivity|]. unfold status_of. cbn [s_state]. rewrite V7. reflexivity.
  - exists []. cbn [orb bind app]. pj. rewrite HI. cbn [bind fst snd app]. split; [reflexivity|]. auto.
Qed.

Lemma firstn_put : forall (arr : list cpeer) i p, (i < List.length arr)%nat -> firstn (S i) (set_nth i p arr) = firstn i arr ++ [p].
Proof.
  induction arr as [|x arr IH]; intros i p L; cbn [List.length] in L; [lia|]. destruct i as [|i]; [reflexivity|]. cbn [set_nth]. change (firstn (S (S i)) (x :: set_nth i p arr)) with (x :: firstn (S i) (set_nth i p arr)). rewrite IH by lia. reflexivity.
Qed.
Lemma firstn_puts : forall (arr : list cpeer) i p b, (S i < List.length arr)%nat -> firstn (S i) (set_nth (S i) b (set_nth i p arr)) = firstn i arr ++ [p].
Proof. intros arr i p b L. rewrite firstn_set_nth_le by lia. apply firstn_put. lia. Qed.
Lemma round_sources : forall g m0 l i nx seq m, l <> [] -> mid m0 nx Datum (request 15 seq (put32 i)) m -> m_idx m = i -> 0 <= i -> i + Z.of_nat (List.length l) = k_num nx -> k_num nx <= 32 ->
  dull nx -> dull (m_st m0) -> k_cc nx = k_cc (m_st m0) -> k_state nx = k_state (m_st m0) -> Z.testbit (m_flags m0) DETERMINANT = false -> Forall exch_ok l -> 0 <= seq < 2^32 ->
  exists m' told log arr, run g m (answers seq l) = Some (m', log) /\ map snd log = questions i l (told ++ [History None false]) /\ (told = [] \/ exists t, told = [Told t] /\ s_state t = k_state (m_st m')) /\
  rested m0 arr (k_num nx) m' /\ firstn (Z.to_nat (k_num nx)) arr = firstn (Z.to_nat i) (k_arr nx) ++ map (fun x => peer_of (x_src x)) l.
Proof.
  intros g m0. induction l as [|x l IH]; intros i nx seq m NE M IX R0 RN R2 DN D0 CC SS FL F SQ; [congruence|]. cbn [List.length] in RN. pose proof (Forall_inv F) as (XS & XA & XB & XC). pose proof XS as (SO & _).
  assert (SZ : sized nx) by apply DN. cbn [answers run].
  destruct (step_datum g m0 nx i seq m (x_src x) (x_a x) M IX ltac:(lia) SZ SS SO XA SQ) as (m1 & -> & M1 & I1 & A1 & O1). cbn [bind fst snd].
  destruct (step_stats g m0 nx i (e_rand (x_a x)) m1 (x_src x) (x_b x) M1 I1 A1 O1 ltac:(lia) SZ SS XS XB ltac:(apply XA)) as (m2 & -> & M2 & I2). cbn [bind fst snd].
  destruct l as [|y l].
  - destruct (step_ntp_last g m0 nx i (e_rand (x_b x)) m2 (x_src x) (x_c x) M2 I2 R0 ltac:(cbn in RN; lia) R2 DN D0 CC FL SO ltac:(apply XB)) as (m3 & told & -> & T & RE). cbn [answers run bind fst snd].
    exists m3, told. eexists. eexists. split; [reflexivity|]. split; [reflexivity|]. split; [exact T|]. split; [exact RE|]. cbn [map].
    cbn [List.length] in RN. rewrite <- RN. replace (Z.to_nat (i + Z.of_nat 1)) with (S (Z.to_nat i)) by lia. unfold put. pj.
    apply firstn_put. rewrite SZ. lia.
  - assert (R3 : i + 1 < k_num nx <= 32) by (cbn [List.length] in RN; lia).
    destruct (step_ntp_more g m0 nx i (e_rand (x_b x)) m2 (x_src x) (x_c x) M2 I2 R0 R3 SZ SS SO XC ltac:(apply XB)) as (m3 & -> & M3 & I3). cbn [bind fst snd].
    set (nx' := put (put nx i (peer_of (x_src x))) (i + 1) blank_peer) in *.
    assert (DN1 : dull (put nx i (peer_of (x_src x)))) by (eapply dull_put; [exact DN|apply (put_some nx i); [exact SZ|lia]|reflexivity]).
    assert (DN' : dull nx') by (eapply dull_put; [exact DN1|apply (put_some _ (i + 1)); [apply DN1|lia]|reflexivity]).
    destruct (IH (i + 1) nx' (e_rand (x_c x)) m3 ltac:(discriminate) M3 I3 ltac:(lia) ltac:(change (k_num nx') with (k_num nx); lia) ltac:(exact R2) DN' D0 CC SS FL (Forall_inv_tail F) ltac:(apply XC)) as (m4 & told & log & arr & RU & QU & T & RE & AR).
    rewrite RU. cbn [bind fst snd]. exists m4, told. eexists. exists arr. split; [reflexivity|]. split; [cbn [map snd]; rewrite QU; reflexivity|]. split; [exact T|]. split; [exact RE|].
    change (k_num nx') with (k_num nx) in AR. rewrite AR. replace (Z.to_nat (i + 1)) with (S (Z.to_nat i)) by lia. unfold nx', put. pj. replace (Z.to_nat (i + 1)) with (S (Z.to_nat i)) by lia.
    rewrite firstn_puts by (rewrite SZ; lia). rewrite <- app_assoc. reflexivity.
Qed.

(** The question for the number of sources. *)
Lemma history_end : forall g m e k m1 o, update_state g m e k = Some (m1, o) -> exists a x y, o = a ++ [History x y].
Proof.
  intros g m e k m1 o H. unfold update_state in H. cbv zeta in H. ib H. destruct p as [ma oa]. destruct (state_change g ma) as [m2 told]. ib H. destruct p as [m3 c3]. ib H. ib H. injection H as <- <-.
  assert (exists x y, l0 = [History x y]) as (x & y & ->). { unfold history in B2. di B2; [di B2; [discriminate|]; ib B2; injection B2 as <-; eauto|injection B2 as <-; eauto]. }
  exists (oa ++ l ++ match told with Some s => [Told s] | None => [] end), x, y. rewrite <- !app_assoc. reflexivity.
Qed.
Lemma count_asked : forall g m o p seq m2, inv g m -> step g m o = Some (m2, [Look p; Sent (enc_request NUM_SOURCES seq [])]) ->
  inv g m2 /\ mid m2 (m_nx m2) Count (request 14 seq []) m2.
Proof.
  intros g m o p seq m2 IN H. pose proof (step_ok g m o m2 _ IN H) as ((I2 & _) & _). split; [exact I2|].
  assert (ADV : forall x ma ev e, inv g ma -> advance g ma ev e 0 = Some (m2, [Look p; Sent (x)]) -> m_q m2 = Count /\ m_open m2 = true /\ m_req m2 = x).
  { clear H. intros x ma ev e (J1 & J2 & J3 & J4) A. unfold advance in A. ib A. destruct p0 as [[mb ob] upd]. destruct upd.
    - ib A. destruct p0 as [mc oc]. cbn [fst snd] in A. apply history_end in B0. destruct B0 as (a & w & y & ->). injection A as _ A. rewrite app_assoc in A. apply (app_inj_tail _ [Look p]) in A. destruct A as [_ A]. discriminate.
    - injection A as <- ->. unfold machine in B. ib B. destruct p0 as [[mm oo] uu]. injection B as <- -> U. apply orb_false_elim in U. destruct U as [-> _].
      assert (SW : forall ev', (do b <- switch g ma ev' e 0; let '(m1, o1, upd, disc) := b in if (disc : bool) then let (m2, o2) := drop m1 in Some (m2, o1 ++ o2, true) else Some (m1, o1, upd)) = Some (mm, [Look p; Sent (x)], false) -> m_q mm = Count /\ m_open mm = true /\ m_req mm = x).
      { intros ev' H. ib H. destruct b as [[[a oa] ua] disc]. destruct disc; [destruct (drop a); discriminate|]. injection H as -> -> ->. apply switch_cases in B.
        assert (ON : forall m0 r q o o' u, issued e m0 r -> onward r q o u = (mm, o', false, false) -> m_q mm = q /\ m_open mm = true /\ m_req mm = m_req m0 /\ o' = o ++ [Sent (m_req m0)]).
        { intros m0 r q oz o' u R X. inversion R; subst; cbn [onward] in X; try discriminate. injection X as <- <- _. auto. }
        inversion B as [X|E X|r Q O E R X|Q O E X|s Q O E1 E2 P X|r Q E R X|mx o1 upd1 r Q E N R X|Q E L X|s r Q E L P R X|mx s r Q E HD P R X|b Q E HD N X|mx r Q E HD R X|mx b Q E HD N X|mx b Q E HD N X|rest mx o1 upd1 my m3 Q S T N A SN X|rest mx o1 my Q S T R SN X|rest mx o1 Q S T R X]; subst; clear B.
        - eapply ON in X; [|exact R]. destruct X as (_ & _ & _ & X). discriminate X.
        - eapply ON in X; [|exact R]. destruct X as (_ & _ & _ & X). discriminate X.
        - eapply ON in X; [|exact R]. destruct X as (X1 & X2 & X3 & X). apply (next_control_base g) in N; [|exact J1]. destruct N as (_ & _ & _ & _ & _ & _ & -> & _). apply (f_equal (fun l => match l with [_; Sent y] => y | _ => [] end)) in X. change (x = m_req (ask_count e mx)) in X. split; [exact X1|]. split; [exact X2|]. rewrite X3, X. reflexivity.
        - eapply ON in X; [|exact R]. destruct X as (_ & _ & _ & X). discriminate X.
        - eapply ON in X; [|exact R]. destruct X as (_ & _ & _ & X). discriminate X.
        - apply nexts_look in N; [|apply J1]. destruct N as (_ & N & _). discriminate N.
        - eapply ON in X; [|exact R]. destruct X as (_ & _ & _ & X). discriminate X.
        - apply (handle_stats_base g) in HD; [|exact J1]. destruct HD as (HD & _). apply nexts_look in N; [|apply HD]. destruct N as (_ & N & _). discriminate N.
        - apply (handle_ntp_base g) in HD; [|exact J1]. destruct HD as (HD & _). apply nexts_look in N; [|apply HD]. destruct N as (_ & N & _). discriminate N.
        - apply (next_control_base g) in N; [|exact J1]. destruct N as (_ & _ & _ & _ & _ & _ & N & _). discriminate N.
        - apply issued_out in R. destruct R as (_ & [[R _]|[[R _]|[R _]]]); discriminate R. }
      destruct ev; cbn beta iota in B0; try (apply (SW _ B0); fail); [discriminate|]. destruct (drop ma); discriminate. }
  assert (Y : m_q m2 = Count /\ m_open m2 = true /\ m_req m2 = enc_request NUM_SOURCES seq []).
  { destruct o as [e|r e|mask flags e| | | | | ]; cbn [step] in H.
    - apply ADV in H; auto.
    - unfold on_io in H. destruct (m_open m) eqn:O; cbn [negb] in H; [|discriminate H]. destruct r as [x| | ]; cbv zeta in H; try (apply ADV in H; auto; fail).
      apply ADV in H; [exact H|]. destruct IN as ((D1 & D2 & D3 & D4) & IN'). split; [|exact IN']. unfold base. pj. split; [exact D1|]. split; [exact D2|]. split; [|exact D4]. rewrite app_length, skipn_length, D3. rewrite firstn_length. lia.
    - exfalso. unfold on_control in H. cbv zeta in H. di H; [|discriminate]. destruct (look g m (e_proc e 0)) as [ma cc] eqn:L. apply (look_ev g) in L; [|exact IN]. destruct L as ((L1 & _) & _).
      di H; [|discriminate]. di H; [discriminate|]. ib H. destruct p0 as [[mb ob] rc]. cbn [fst snd] in H. injection H as _ _ H. apply (control_ev g) in B; [|exact L1]. destruct B as (_ & _ & B & _). subst ob. discriminate B.
    - discriminate.
    - ib H. ib H. injection H as _ H. exfalso. unfold rt_stats in B. unfold clustering in B0. di B; [ib B; injection B as <-; discriminate H|]. injection B as <-. di B0; [ib B0; injection B0 as <-; discriminate H|injection B0 as <-; discriminate H].
    - ib H. exfalso. unfold on_save in B. di B; [discriminate|]. ib B. injection B as <-. discriminate H.
    - ib H. exfalso. unfold on_topology in B. di B; [discriminate|]. ib B. injection B as <-. discriminate H.
    - discriminate. }
  destruct Y as (Y1 & Y2 & Y3). constructor; auto; [rewrite Y3, request_enc; reflexivity|apply I2].
Qed.
Lemma step_count : forall g seq m n e, inv g m -> mid m (m_nx m) Count (request 14 seq []) m -> 0 < n < 2^31 -> env_ok e -> 0 <= seq < 2^32 ->
  exists m' nx, step g m (ans NUM_SOURCES seq (enc32 n) e) = Some (m', [Sent (enc_request SOURCE_DATA (e_rand e) (enc32 0))]) /\
  mid m nx Datum (request 15 (e_rand e) (put32 0)) m' /\ m_idx m' = 0 /\ k_num nx = Z.min n 32 /\ dull nx /\ k_cc nx = k_cc (m_st m) /\ k_state nx = k_state (m_st m).
Proof.
  intros g seq m n e (IB & IU & (IS & IC) & _) M N E SQ. pose proof IB as (B1 & B2 & B3 & _).
  unfold ans, step. rewrite io_ans; [|apply (d_open _ _ _ _ _ M)|cbn; lia].
  set (a := mkAns _ _ _ _ _). set (ma := taken m a). assert (RA : m_resp ma = enc_answer a ++ skipn (List.length (enc_answer a)) (m_resp m)) by reflexivity.
  assert (LA : List.length (m_resp ma) = 528%nat) by (apply taken_len; [cbn; lia|exact B3]).
  assert (RO : reply_ok ma 2 = true) by (eapply reply_ok_enc; [exact RA|unfold ma, taken; pj; apply (d_req _ _ _ _ _ M)|vm_compute; split; congruence|vm_compute; split; congruence|exact SQ]).
  pose proof (data_enc ma _ _ _ _ _ RA) as DA. set (rest := skipn _ _) in DA.
  assert (D1 : be32 (data ma) 0 = n) by (rewrite DA; apply be32_enc; lia).
  set (nx := put (with_num (m_nx m) (Z.min n 32)) 0 blank_peer).
  assert (DX : dull nx) by (eapply dull_put; [apply dull_with_num; exact B2|apply (put_some _ 0); [apply B2|lia]|reflexivity]).
  assert (HC : handle_count ma = set_nx ma (with_num (m_nx m) (Z.min n 32))).
  { unfold handle_count. rewrite RO, D1. assert (S : s32 n = n) by (unfold s32; rewrite Z.mod_small by lia; lia). rewrite S. change (m_nx ma) with (m_nx m). f_equal. f_equal. unfold u32. destruct (32 <? n) eqn:L; [lia|]. rewrite Z.mod_small; lia. }
  assert (SW : exists x, switch g ma Traffic e 0 = Some (set_q (set_exp (set_req (set_nx (set_idx ma 0) nx) (request 15 (e_rand e) (put32 0))) x) Datum, [Sent (request 15 (e_rand e) (put32 0))], false, false)).
  { unfold switch. replace (m_q ma) with Count by (symmetry; apply (d_q _ _ _ _ _ M)). rewrite HC. pj. replace (0 <? Z.min n 32) with true by lia. unfold issue_datum. pj. rewrite put_some; [|apply B2|lia]. cbn [bind].
    match goal with |- context [issue e ?mm] => destruct (issue_ok e mm E) as [x ->]; [exact (d_open _ _ _ _ _ M)|] end. cbn [bind onward app]. exists x. reflexivity. }
  destruct SW as [x SW].
  match type of SW with _ = Some (?mm, _, _, _) => set (m2 := mm) in * end.
  exists m2, nx. split.
  - erewrite (asked g ma e Datum m2); [unfold m2; pj; rewrite request_enc, put32_enc; reflexivity|exact SW|reflexivity|]. exact IS.
  - split; [constructor; try reflexivity; unfold m2; pj; try apply M; exact LA|]. split; [reflexivity|]. split; [reflexivity|]. split; [exact DX|]. split; [exact IC|exact IS].
Qed.

Lemma existsb_counts : forall l, existsb counts (map (fun x => peer_of (x_src x)) l) = existsb (fun x => server (x_src x)) l.
Proof. induction l as [|x l IH]; [reflexivity|]. cbn [map existsb]. rewrite IH. unfold counts, peer_of. cbn. rewrite orb_false_r. reflexivity. Qed.
Lemma filter_cand : forall l, List.length (filter q_cand (map (fun x => peer_of (x_src x)) l)) = List.length (filter (fun x => server (x_src x)) l).
Proof. induction l as [|x l IH]; [reflexivity|]. cbn [map filter]. cbn [peer_of q_cand]. destruct (server (x_src x)); cbn [List.length]; rewrite IH; reflexivity. Qed.

Lemma honest_round : forall g seq m n e l, inv g m -> mid m (m_nx m) Count (request 14 seq []) m -> Z.testbit (m_flags m) DETERMINANT = false -> 0 < n < 2^31 -> Z.of_nat (List.length l) = Z.min n 32 ->
  env_ok e -> 0 <= seq < 2^32 -> Forall exch_ok l ->
  let s := if existsb (fun x => server (x_src x)) l then SELECTION else LISTENING in
  exists m' told log, run g m (ans NUM_SOURCES seq (enc32 n) e :: answers (e_rand e) l) = Some (m', log) /\
  map snd log = [Sent (enc_request SOURCE_DATA (e_rand e) (enc32 0))] :: questions 0 l (told ++ [History None false]) /\
  (told = [] \/ exists t, told = [Told t] /\ s_state t = s) /\
  firstn (List.length l) (k_arr (m_st m')) = map (fun x => peer_of (x_src x)) l /\
  (exists a b f, step g m' SaveState = Some (m', [Saved s a b f None (List.length l) (List.length (filter (fun x => server (x_src x)) l))])) /\
  (exists t, step g m' GetStatus = Some (m', [Reply t]) /\ s_state t = s).
Proof.
  intros g seq m n e l IN M FL N L E SQ F s. destruct (step_count g seq m n e IN M N E SQ) as (m1 & nx & ST & M1 & I1 & NX & DX & CX & SX).
  assert (D0 : dull (m_st m)) by apply IN. cbn [run]. rewrite ST. cbn [bind fst snd].
  destruct (round_sources g m l 0 nx (e_rand e) m1 ltac:(destruct l; [cbn in L; lia|discriminate]) M1 I1 ltac:(lia) ltac:(lia) ltac:(lia) DX D0 CX SX FL F ltac:(apply E)) as (m2 & told & log & arr & RU & QU & T & RE & AR).
  rewrite RU. cbn [bind fst snd]. destruct RE as (R1 & R2 & R3 & R4 & R5 & R6). replace (Z.to_nat (k_num nx)) with (List.length l) in * by lia. cbn [Z.to_nat firstn app] in AR. rewrite AR, existsb_counts in R5. fold s in R5.
  exists m2, told. eexists. split; [reflexivity|]. split; [cbn [map snd]; rewrite QU; reflexivity|]. split; [rewrite R5 in T; exact T|]. split; [rewrite R3; exact AR|]. split.
  - cbn [step]. unfold on_save. rewrite R4, R3. replace (32 <? k_num nx) with false by lia. replace (Z.to_nat (k_num nx)) with (List.length l) by lia. rewrite AR, filter_cand, R5.
    replace (st_eqb s SLAVE) with false by (unfold s; destruct (existsb _ l); reflexivity). cbn [bind]. eauto.
  - cbn [step]. eexists. split; [reflexivity|]. exact R5.
Qed.

(** The flag of the determinant. *)
Lemma run_app : forall g l1 l2 m m' log, run g m (l1 ++ l2) = Some (m', log) -> exists m1 log1 log2, run g m l1 = Some (m1, log1) /\ run g m1 l2 = Some (m', log2) /\ log = log1 ++ log2.
Proof.
  intros g. induction l1 as [|o l1 IH]; intros l2 m m' log H; cbn [app run] in *; [eauto 6|]. ib H. destruct p as [ma oa]. ib H. destruct p as [mb lb]. cbn [fst snd] in *. injection H as <- <-.
  destruct (IH _ _ _ _ B0) as (m1 & log1 & log2 & R1 & R & ->). exists m1, ((o, oa) :: log1), log2. split; [cbn [bind fst snd]; rewrite R1; reflexivity|]. auto.
Qed.
Lemma run_join : forall g l1 l2 m m1 log1 m2 log2, run g m l1 = Some (m1, log1) -> run g m1 l2 = Some (m2, log2) -> run g m (l1 ++ l2) = Some (m2, log1 ++ log2).
Proof.
  intros g. induction l1 as [|o l1 IH]; intros l2 m m1 log1 m2 log2 H K; cbn [app run] in *; [injection H as <- <-; exact K|]. ib H. ib H. injection H as <- <-. destruct p0 as [ma la]. cbn [fst snd] in *. cbn [bind]. rewrite (IH _ _ _ _ _ _ B0 K). reflexivity.
Qed.
Lemma step_det : forall g m o m1 l, inv g m -> undetermined o -> step g m o = Some (m1, l) -> Z.testbit (m_flags m) DETERMINANT = false -> Z.testbit (m_flags m1) DETERMINANT = false.
Proof.
  intros g m o m1 l IN U H FL.
  assert (ADV : forall ma ev e, inv g ma -> m_flags ma = m_flags m -> advance g ma ev e 0 = Some (m1, l) -> Z.testbit (m_flags m1) DETERMINANT = false).
  { intros ma ev e (J1 & J2 & J3 & J4 & J5) FE A. unfold advance in A. ib A. destruct p as [[mb ob] upd]. pose proof (machine_ok g _ _ _ _ _ _ _ J1 J2 J3 B) as (A1 & A2 & (K1 & K2 & K3 & K4 & K5 & K6 & K7 & K8 & K9) & _).
    assert (FS : fresh_save mb) by (unfold fresh_save in *; rewrite K7, K9; exact J4). destruct upd; [|injection A as <- <-; congruence]. ib A. destruct p as [mc oc]. cbn [fst snd] in A. injection A as <- <-.
    apply (update_ok g) in B0; [|exact A1|exact A2|exact FS]. destruct B0 as (_ & _ & _ & _ & B0 & _). congruence. }
  destruct o as [e|r e|mask flags e| | | | | ]; cbn [step] in H.
  - apply ADV in H; auto.
  - unfold on_io in H. destruct (m_open m) eqn:O; cbn [negb] in H; [|injection H as <- <-; exact FL]. destruct r as [x| | ]; cbv zeta in H; try (apply ADV in H; auto; fail).
    apply ADV in H; [exact H| |reflexivity]. destruct IN as ((D1 & D2 & D3 & D4) & IN'). split; [|exact IN']. unfold base. pj. split; [exact D1|]. split; [exact D2|]. split; [|exact D4]. rewrite app_length, skipn_length, D3. rewrite firstn_length. lia.
  - cbn [undetermined] in U. unfold on_control in H. cbv zeta in H. set (f := Z.lor (Z.ldiff (m_flags m) mask) (Z.land flags mask)) in H.
    assert (FF : Z.testbit f DETERMINANT = false) by (unfold f; rewrite Z.lor_spec, Z.ldiff_spec, FL, U; reflexivity).
    assert (FX : Z.testbit (Z.lxor f (2 ^ CLOCK_CTRL)) DETERMINANT = false) by (rewrite Z.lxor_spec, FF; reflexivity).
    clearbody f. di H; [|injection H as <- <-; exact FF]. destruct (look g m (e_proc e 0)) as [ma cc]. di H; [|injection H as <- <-; exact FF]. di H; [injection H as <- <-; exact FX|]. ib H. injection H as <- <-. exact FF.
  - injection H as <- <-. exact FL.
  - ib H. ib H. injection H as <- <-. exact FL.
  - ib H. injection H as <- <-. exact FL.
  - ib H. injection H as <- <-. exact FL.
  - injection H as <- <-. exact FL.
Qed.
Lemma run_det : forall g l m m1 log, inv g m -> Forall undetermined l -> run g m l = Some (m1, log) -> Z.testbit (m_flags m) DETERMINANT = false -> Z.testbit (m_flags m1) DETERMINANT = false.
Proof.
  intros g. induction l as [|o l IH]; intros m m1 log IN F H D; cbn [run] in H; [injection H as <- <-; exact D|]. ib H. destruct p as [ma oa]. ib H. destruct p as [mb lb]. cbn [fst snd] in *. injection H as <- <-.
  pose proof (step_ok g m o ma oa IN B) as ((I1 & _) & _). apply (IH ma mb lb I1 (Forall_inv_tail F) B0). eapply step_det; [exact IN|apply (Forall_inv F)|exact B|exact D].
Qed.
