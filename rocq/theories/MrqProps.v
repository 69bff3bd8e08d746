(** C80: requests to the NTP daemon. *)
Require Import ZArith List Bool Lia.
Require Import Verif.Base Verif.MdgSpec Verif.MdgModel Verif.MdgProof Verif.MdgProof2 Verif.MdgProps Verif.MrqSpec Verif.MrqModel.
Import ListNotations.
Open Scope Z_scope.

(** ** The sum of two times *)
Lemma land_low : forall a, Z.land a 65535 = a mod 65536. Proof. intros a. change 65535 with (Z.ones 16). apply Z.land_ones. lia. Qed.
Lemma land_carry : forall a, 0 <= a < 131072 -> (Z.land a 65536 =? 0) = (a <? 65536).
Proof.
  intros a R. assert (E : Z.land a 65536 = if Z.testbit a 16 then 65536 else 0).
  { change 65536 with (2^16). apply Z.bits_inj'. intros k K. rewrite Z.land_spec, Z.pow2_bits_eqb by lia. destruct (Z.eqb_spec 16 k) as [E|E].
    - subst k. rewrite andb_true_r. destruct (Z.testbit a 16); [rewrite Z.pow2_bits_true by lia; reflexivity|rewrite Z.bits_0; reflexivity].
    - rewrite andb_false_r. destruct (Z.testbit a 16); [rewrite Z.pow2_bits_false by exact E; reflexivity|rewrite Z.bits_0; reflexivity]. }
  rewrite E. rewrite Z.testbit_odd, Z.shiftr_div_pow2 by lia. change (2^16) with 65536. destruct (Z.ltb_spec a 65536) as [L|L].
  - rewrite Z.div_small by lia. reflexivity.
  - replace (a / 65536) with 1 by (apply (Z.div_unique_pos _ _ _ (a - 65536)); lia). reflexivity.
Qed.
Lemma lor_words : forall h l, 0 <= h -> 0 <= l < 65536 -> Z.lor (Z.shiftl h 16) l = h * 65536 + l.
Proof.
  intros h l H L. rewrite Z.shiftl_mul_pow2 by lia. change (2^16) with 65536. rewrite <- Z.lxor_lor, <- Z.add_nocarry_lxor; try reflexivity.
  all: apply Z.bits_inj'; intros k K; rewrite Z.land_spec, Z.bits_0; change 65536 with (2^16); rewrite Z.mul_pow2_bits by lia; destruct (Z_lt_dec k 16).
  1,3: rewrite Z.testbit_neg_r by lia; reflexivity.
  all: replace (Z.testbit l k) with false; [apply andb_false_r|]; symmetry; apply Z.testbit_false; try lia; rewrite Z.div_small; [reflexivity|]; split; [lia|]; apply Z.lt_le_trans with (2^16); [change (2^16) with 65536; lia|apply Z.pow_le_mono_r; lia].
Qed.
Lemma m_add_sum : forall i f, 0 <= i < 2^32 -> 0 <= f < 2^32 -> m_add i f 0 85899346 = (let t := (i * 2^32 + f + 85899346) mod 2^64 in (t / 2^32, t mod 2^32)).
Proof.
  intros i f I F. unfold m_add, u32. change (2^32) with 4294967296 in *. change (2^64) with 18446744073709551616 in *. rewrite !land_low. rewrite !Z.shiftr_div_pow2 by lia. change (2^16) with 65536.
  change (85899346 mod 65536) with 47186. change (85899346 / 65536 mod 65536) with 1310.
  assert (DM : f = 65536 * (f / 65536) + f mod 65536) by (apply Z.div_mod; lia). assert (B0 : 0 <= f mod 65536 < 65536) by (apply Z.mod_pos_bound; lia).
  assert (B1 : 0 <= f / 65536 < 65536) by (split; [apply Z.div_pos; lia|apply Z.div_lt_upper_bound; lia]). rewrite (Z.mod_small (f / 65536)) by exact B1.
  set (h := f / 65536) in *. set (l := f mod 65536) in *. clearbody h l. subst f.
  rewrite (Z.mod_small (l + 47186)), (Z.mod_small (h + 1310)) by lia. rewrite (land_carry (l + 47186)) by lia. rewrite Z.add_0_r, (Z.mod_small i) by lia.
  set (hi := if l + 47186 <? 65536 then h + 1310 else (h + 1310 + 1) mod 4294967296).
  assert (HI : hi = if l + 47186 <? 65536 then h + 1310 else h + 1311) by (unfold hi; destruct (l + 47186 <? 65536); [reflexivity|rewrite Z.mod_small by lia; lia]).
  assert (HR : 0 <= hi < 131072) by (rewrite HI; destruct (l + 47186 <? 65536); lia). rewrite land_carry by exact HR. rewrite lor_words by (apply Z.mod_pos_bound; lia).
  assert (LM : (l + 47186) mod 65536 = if l + 47186 <? 65536 then l + 47186 else l + 47186 - 65536) by (destruct (Z.ltb_spec (l + 47186) 65536); [apply Z.mod_small; lia|symmetry; apply (Z.mod_unique_pos _ _ 1); lia]).
  assert (HM : hi mod 65536 = if hi <? 65536 then hi else hi - 65536) by (destruct (Z.ltb_spec hi 65536); [apply Z.mod_small; lia|symmetry; apply (Z.mod_unique_pos _ _ 1); lia]).
  rewrite LM, HM. set (F' := (if hi <? 65536 then hi else hi - 65536) * 65536 + (if l + 47186 <? 65536 then l + 47186 else l + 47186 - 65536)).
  assert (FR : 0 <= F' < 4294967296) by (unfold F'; destruct (Z.ltb_spec hi 65536), (Z.ltb_spec (l + 47186) 65536); lia).
  set (I' := if hi <? 65536 then i else (i + 1) mod 4294967296).
  assert (IR : 0 <= I' < 4294967296) by (unfold I'; destruct (hi <? 65536); [lia|apply Z.mod_pos_bound; lia]).
  assert (T : (i * 4294967296 + (65536 * h + l) + 85899346) mod 18446744073709551616 = I' * 4294967296 + F').
  { symmetry. assert (CA : hi <? 65536 = true \/ (hi <? 65536 = false /\ i + 1 < 4294967296) \/ (hi <? 65536 = false /\ i + 1 = 4294967296)) by (destruct (hi <? 65536); [left|right]; lia).
    destruct CA as [E|[[E S]|[E S]]]; unfold I', F'; rewrite E in *.
    - apply (Z.mod_unique_pos _ _ 0); [nia|]. rewrite HI. destruct (Z.ltb_spec (l + 47186) 65536); lia.
    - rewrite Z.mod_small by lia. apply (Z.mod_unique_pos _ _ 0); [nia|]. rewrite HI. destruct (Z.ltb_spec (l + 47186) 65536); lia.
    - rewrite S, Z.mod_same by lia. apply (Z.mod_unique_pos _ _ 1); [nia|]. rewrite HI. destruct (Z.ltb_spec (l + 47186) 65536); lia. }
  cbn zeta. rewrite T. f_equal; [apply (Z.div_unique_pos _ _ _ F'); lia|apply (Z.mod_unique_pos _ _ I'); lia].
Qed.

(** ** Writing into the packet *)
Lemma copy_app : forall a b c d, length b = length d -> copy (a ++ b ++ c) (length a) d = Some (a ++ d ++ c).
Proof.
  intros a b c d L. rewrite copy_some by (rewrite !app_length; lia). rewrite firstn_app, Nat.sub_diag, firstn_O, app_nil_r, firstn_all. do 3 f_equal.
  rewrite app_assoc, <- L, <- app_length, skipn_app, Nat.sub_diag, skipn_all. reflexivity.
Qed.
Lemma zeros : forall a b, (a <= b)%nat -> repeat 0 b = repeat 0 a ++ repeat 0 (b - a).
Proof. intros a b H. rewrite <- repeat_app. f_equal. lia. Qed.

(** Every request that fits is sent as specified, with any of the three sizes (C79) and any key. *)
Theorem C80_request : forall big junk (auth : bool) req n size data sz sec frac key rest keyid,
  length junk = 64%nat -> ~ In 0 key -> Forall octet key -> Z.of_nat (length key) < 2^32 -> Forall octet data -> 0 <= req < 256 -> 0 <= n < 4096 -> 0 <= size < 65536 ->
  n * size = Z.of_nat (length data) -> (data = [] -> n = 0) -> In sz [188; 160; 48]%nat -> 0 <= sec < 2^32 -> 0 <= frac < 2^32 ->
  (length data <= 176)%nat -> (8 + length data + (if auth then 8 else 0) <= sz)%nat ->
  request big junk auth req n size data sz sec frac (key ++ 0 :: rest) keyid = Some (wanted auth req n size data sz (sec * 2^32 + frac) key keyid).
Proof.
  intros big junk auth req n size data sz sec frac key rest keyid J NK OK LK OD RQ N SZ DS NE IS SE FR LD FIT. unfold request.
  assert (P1 : copy (repeat 0 REQUEST) 0 [23; 0; 3; req mod 256] = Some ([23; 0; 3; req; 0; 0; 0; 0] ++ repeat 0 204)) by (rewrite (Z.mod_small req) by lia; reflexivity).
  rewrite P1. cbn [bind]. clear P1.
  assert (P2 : (if 0 <? n * size then if (n * size <=? 176) && (n * size <=? Z.of_nat (length data)) then copy ([23; 0; 3; req; 0; 0; 0; 0] ++ repeat 0 204) 8 (firstn (Z.to_nat (n * size)) data) else None
     else Some ([23; 0; 3; req; 0; 0; 0; 0] ++ repeat 0 204)) = Some ([23; 0; 3; req; 0; 0; 0; 0] ++ data ++ repeat 0 (204 - length data))).
  { rewrite DS. destruct (Z.ltb_spec 0 (Z.of_nat (length data))) as [P|P].
    - replace (Z.of_nat (length data) <=? 176) with true by lia. rewrite Z.leb_refl. cbn [andb]. rewrite Nat2Z.id, firstn_all, (zeros (length data) 204) by lia.
      apply (copy_app [23; 0; 3; req; 0; 0; 0; 0]). apply repeat_length.
    - destruct data; [reflexivity|cbn [length] in P; lia]. }
  rewrite P2. cbn [bind]. clear P2.
  assert (CN : htons (if 0 <? n * size then Z.land n 4095 else 0) = MrqSpec.be16 n).
  { unfold htons, MrqSpec.be16. replace (if 0 <? n * size then Z.land n 4095 else 0) with n.
    - rewrite (Z.mod_small (n / 256)); [reflexivity|]. split; [apply Z.div_pos; lia|apply Z.div_lt_upper_bound; lia].
    - rewrite DS. destruct (Z.ltb_spec 0 (Z.of_nat (length data))) as [P|P]; [change 4095 with (Z.ones 12); rewrite Z.land_ones, Z.mod_small by lia; reflexivity|apply NE; destruct data; [reflexivity|cbn [length] in P; lia]]. }
  rewrite CN. assert (CS : htons size = MrqSpec.be16 size) by (unfold htons, MrqSpec.be16; rewrite (Z.mod_small (size / 256)); [reflexivity|]; split; [apply Z.div_pos; lia|apply Z.div_lt_upper_bound; lia]). rewrite CS.
  set (tail := data ++ repeat 0 (204 - length data)).
  change ([23; 0; 3; req; 0; 0; 0; 0] ++ tail) with ([23; 0; 3; req] ++ [0; 0] ++ ([0; 0] ++ tail)). rewrite (copy_app [23; 0; 3; req] [0; 0]) by reflexivity. cbn [bind].
  change ([23; 0; 3; req] ++ MrqSpec.be16 n ++ [0; 0] ++ tail) with (([23; 0; 3; req] ++ MrqSpec.be16 n) ++ [0; 0] ++ tail). rewrite (copy_app ([23; 0; 3; req] ++ MrqSpec.be16 n) [0; 0]) by reflexivity. cbn [bind].
  destruct auth; cbn [negb].
  - change (([23; 0; 3; req] ++ MrqSpec.be16 n) ++ MrqSpec.be16 size ++ tail) with ([23] ++ [0] ++ ([3; req] ++ MrqSpec.be16 n ++ MrqSpec.be16 size ++ tail)). rewrite (copy_app [23] [0]) by reflexivity. cbn [bind].
    change ([23] ++ [128] ++ ([3; req] ++ MrqSpec.be16 n ++ MrqSpec.be16 size ++ tail)) with (header true req n size ++ tail).
    rewrite m_add_sum by assumption. cbv beta iota zeta. rewrite !htonl_be32.
    set (start := header true req n size ++ data). assert (LS : length start = (8 + length data)%nat) by (unfold start; rewrite app_length; reflexivity).
    set (st := stamp (sec * 2^32 + frac)). assert (LST : length st = 8%nat) by reflexivity. fold (stamp (sec * 2^32 + frac)). fold st.
    assert (E6 : header true req n size ++ tail = (start ++ repeat 0 (sz - 8 - length start)) ++ repeat 0 8 ++ repeat 0 (212 - sz)).
    { unfold tail, start. rewrite !app_assoc. rewrite <- !(app_assoc (header true req n size ++ data)). f_equal. rewrite <- !repeat_app. f_equal. fold start. rewrite LS. destruct IS as [<-|[<-|[<-|[]]]]; lia. }
    rewrite E6. set (b := start ++ repeat 0 (sz - 8 - length start)). assert (LB : length b = (sz - 8)%nat) by (unfold b; rewrite app_length, repeat_length; lia).
    rewrite <- LB. rewrite (copy_app b (repeat 0 8)) by (rewrite repeat_length; symmetry; exact LST). cbn [bind].
    set (p6 := b ++ st ++ repeat 0 (212 - sz)). assert (L6 : length p6 = 212%nat) by (unfold p6; rewrite !app_length, repeat_length, LB, LST; destruct IS as [<-|[<-|[<-|[]]]]; lia).
    assert (O6 : Forall octet p6).
    { assert (Z0 : forall k, Forall octet (repeat 0 k)) by (intros k; induction k; constructor; [unfold octet; lia|assumption]).
      assert (OH : Forall octet (header true req n size)).
      { unfold header, MrqSpec.be16. cbn [app]. repeat (apply Forall_cons; [unfold octet|]); [lia|lia|lia|lia| | | | |apply Forall_nil];
          try (apply Z.mod_pos_bound; lia); (split; [apply Z.div_pos; lia|apply Z.div_lt_upper_bound; lia]). }
      assert (OS : Forall octet st) by (unfold st, stamp, be32; apply Forall_app; split; apply Forall_rev, le_octets).
      unfold p6, b, start. apply Forall_app; split; [apply Forall_app; split; [apply Forall_app; split; [exact OH|exact OD]|apply Z0]|apply Forall_app; split; [exact OS|apply Z0]]. }
    assert (M4 : (sz mod 4 = 0)%nat) by (destruct IS as [<-|[<-|[<-|[]]]]; reflexivity). assert (S31 : Z.of_nat sz < 2^31) by (destruct IS as [<-|[<-|[<-|[]]]]; reflexivity).
    assert (S20 : (sz + 20 <= 212)%nat) by (destruct IS as [<-|[<-|[<-|[]]]]; lia).
    destruct (C78_mac big junk key rest p6 sz keyid J NK OK LK O6 M4 S31) as [G _]. rewrite L6 in G. destruct (G S20) as (p7 & E7 & _ & F7 & _). rewrite E7. cbn [bind]. change (Z.to_nat 20) with 20%nat. rewrite F7.
    assert (FS : firstn sz p6 = b ++ st). { unfold p6. rewrite app_assoc, firstn_app. replace (sz - length (b ++ st))%nat with 0%nat by (rewrite app_length, LB, LST; lia). rewrite firstn_O, app_nil_r. apply firstn_all2. rewrite app_length, LB, LST. lia. }
    rewrite FS. unfold wanted. fold start. fold st. unfold b. rewrite <- !app_assoc. reflexivity.
  - change (([23; 0; 3; req] ++ MrqSpec.be16 n) ++ MrqSpec.be16 size ++ tail) with (header false req n size ++ tail). unfold wanted. f_equal.
    set (start := header false req n size ++ data). assert (LS : length start = (8 + length data)%nat) by (unfold start; rewrite app_length; reflexivity).
    assert (E6 : header false req n size ++ tail = (start ++ repeat 0 (sz - length start)) ++ repeat 0 (212 - sz)).
    { unfold tail, start. rewrite !app_assoc. rewrite <- !(app_assoc (header false req n size ++ data)). f_equal. rewrite <- !repeat_app. f_equal. fold start. rewrite LS. destruct IS as [<-|[<-|[<-|[]]]]; lia. }
    rewrite E6. rewrite firstn_app. assert (LL : length (start ++ repeat 0 (sz - length start)) = sz) by (rewrite app_length, repeat_length; lia). rewrite LL, Nat.sub_diag, firstn_O, app_nil_r. apply firstn_all2. lia.
Qed.
Print Assumptions C80_request.

(** The request that switches the daemon's control of the clock on, authenticated, in the smallest size; and a query for one peer. *)
Example C80_set_flags : (8 + length [0;0;0;12] + 8 <= 48)%nat /\ 1 * 4 = Z.of_nat (length [0;0;0;12]) /\
  firstn 52 (wanted true 12 1 4 [0;0;0;12] 48 (2^64 - 1) [107;101;121] 7) =
    [23;128;3;12; 0;1;0;4; 0;0;0;12] ++ repeat 0 28 ++ [0;0;0;0; 5;30;184;81] ++ [0;0;0;7] /\
  request false (repeat 9 64) true 12 1 4 [0;0;0;12] 48 (2^32 - 1) (2^32 - 1) [107;101;121;0] 7 = Some (wanted true 12 1 4 [0;0;0;12] 48 (2^64 - 1) [107;101;121] 7).
Proof. split; [cbn; lia|]. split; [reflexivity|]. split; vm_compute; reflexivity. Qed.
Example C80_peer : request true (repeat 9 64) false 3 1 32 (repeat 5 32) 48 0 0 [0] 0 = Some ([23;0;3;3; 0;1;0;32] ++ repeat 5 32 ++ repeat 0 8).
Proof. reflexivity. Qed.

(** A request whose items do not fit is sent nevertheless: the time overwrites the end of the items.  No caller does that. *)
Theorem C80_fit_refuted : ~ (forall data sz p, Z.of_nat (length data) <= 176 -> In sz [188; 160; 48]%nat ->
  request false (repeat 9 64) true 12 1 (Z.of_nat (length data)) data sz 1 1 [107;101;121;0] 7 = Some p -> firstn (length data) (skipn 8 p) = data).
Proof.
  intros H. specialize (H (repeat 5 40) 48%nat). destruct (request false (repeat 9 64) true 12 1 (Z.of_nat (length (repeat 5 40))) (repeat 5 40) 48 1 1 [107;101;121;0] 7) as [p|] eqn:E; [|vm_compute in E; discriminate E].
  specialize (H p ltac:(cbn; lia) ltac:(right; right; left; reflexivity) eq_refl). vm_compute in E. inversion E; subst p. vm_compute in H. discriminate H.
Qed.
Print Assumptions C80_fit_refuted.
