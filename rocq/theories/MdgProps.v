(** C78: the digest and the authenticator of NTP requests. *)
Require Import ZArith List Bool Lia.
Require Import Verif.Base Verif.MdgSpec Verif.MdgModel Verif.MdgProof Verif.MdgProof2.
Import ListNotations.
Open Scope Z_scope.

(** The specification on the messages of the test suite of RFC 1321, A.5: empty, "a", "abc", "message digest". *)
Example C78_suite :
  md5 [] = [0xd4; 0x1d; 0x8c; 0xd9; 0x8f; 0x00; 0xb2; 0x04; 0xe9; 0x80; 0x09; 0x98; 0xec; 0xf8; 0x42; 0x7e] /\
  md5 [97] = [0x0c; 0xc1; 0x75; 0xb9; 0xc0; 0xf1; 0xb6; 0xa8; 0x31; 0xc3; 0x99; 0xe2; 0x69; 0x77; 0x26; 0x61] /\
  md5 [97; 98; 99] = [0x90; 0x01; 0x50; 0x98; 0x3c; 0xd2; 0x4f; 0xb0; 0xd6; 0x96; 0x3f; 0x7d; 0x28; 0xe1; 0x7f; 0x72] /\
  md5 [109; 101; 115; 115; 97; 103; 101; 32; 100; 105; 103; 101; 115; 116] = [0xf9; 0x6b; 0x69; 0x7d; 0x7c; 0xb7; 0x93; 0x8d; 0x52; 0x5a; 0x2f; 0x31; 0xaa; 0xf1; 0x61; 0xd0].
Proof. repeat split; vm_compute; reflexivity. Qed.

(** A life of a context: init, any number of updates, final. *)
Fixpoint updates (big : bool) (c : ctx) (l : list (list Z)) : option ctx := match l with [] => Some c | d :: r => do c1 <- update big c d; updates big c1 r end.
Definition digest (big : bool) (junk : list Z) (l : list (list Z)) : option (list Z) := do c <- updates big (init junk) l; final big c.

(** However a message is cut into pieces, of any number and size (less than 2^32 each), whatever was in the memory before and however the
    host stores words, the result is the digest of RFC 1321 of the whole message, and no access is outside the context. *)
Theorem C78_digest : forall big junk l, length junk = 64%nat -> Forall (Forall octet) l -> Forall (fun d => Z.of_nat (length d) < 2^32) l ->
  digest big junk l = Some (md5 (concat l)).
Proof.
  intros big junk l J O L. unfold digest.
  assert (U : forall l c M, holds c M -> Forall octet M -> Forall (Forall octet) l -> Forall (fun d => Z.of_nat (length d) < 2^32) l -> exists c', updates big c l = Some c' /\ holds c' (M ++ concat l) /\ Forall octet (M ++ concat l)).
  { clear. induction l as [|d l IH]; intros c M H OM O L; [exists c; cbn [concat]; rewrite app_nil_r; auto|]. inversion O as [|? ? OD O']; subst. inversion L as [|? ? LD L']; subst.
    destruct (update_spec big c M d H OM OD LD) as (c1 & E & H1). cbn [updates concat]. rewrite E. cbn [bind]. rewrite app_assoc. apply IH; auto. apply Forall_app. auto. }
  destruct (U l (init junk) [] (holds_init junk J) (Forall_nil _) O L) as (c & E & H & OM). rewrite E. cbn [bind]. exact (final_spec big c _ H OM).
Qed.
Print Assumptions C78_digest.
Example C78_digest_ex : digest true (repeat 7 64) [repeat 1 70; []; repeat 2 63; repeat 3 128] = Some (md5 (repeat 1 70 ++ repeat 2 63 ++ repeat 3 128)) /\
  digest false (repeat 9 64) [repeat 1 60] = Some (md5 (repeat 1 60)) /\ md5 (repeat 1 60) <> md5 (repeat 1 61).
Proof. repeat split; vm_compute; congruence. Qed.

Lemma cstr_key : forall key rest, ~ In 0 key -> cstr (key ++ 0 :: rest) = key.
Proof.
  intros key rest N. induction key as [|c key IH]; [reflexivity|]. cbn [app cstr]. destruct (Z.eqb_spec c 0) as [E|E]; [exfalso; apply N; left; exact E|]. rewrite IH; [reflexivity|]. intros I. apply N. right. exact I.
Qed.
Lemma htonl_be32 : forall big x, htonl big x = be32 x.
Proof. intros big x. unfold htonl, be32. cbn [le rev app]. rewrite !Z.div_div by lia. reflexivity. Qed.
Lemma md5_len : forall m, length (md5 m) = 16%nat.
Proof. intros m. unfold md5, output. destruct (blocks _ _ _) as [[[a b] c] d]. rewrite !app_length, !le_len. reflexivity. Qed.

(** A packet whose length is a multiple of 4, with room for 20 octets behind it, is left as it is; behind it follow the number of the key, high
    order octet first, and the digest of key and packet; 20 is returned and nothing behind is changed.  Without the room the result is undefined. *)
Theorem C78_mac : forall big junk key rest pkt len keyid, length junk = 64%nat -> ~ In 0 key -> Forall octet key -> Z.of_nat (length key) < 2^32 -> Forall octet pkt -> (len mod 4 = 0)%nat -> Z.of_nat len < 2^31 ->
  ((len + 20 <= length pkt)%nat -> exists pkt', authencrypt big junk (key ++ 0 :: rest) pkt len keyid = Some (pkt', 20) /\
     length pkt' = length pkt /\ firstn (len + 20) pkt' = firstn len pkt ++ mac key keyid (firstn len pkt) /\ skipn (len + 20) pkt' = skipn (len + 20) pkt) /\
  ((length pkt < len + 20)%nat -> authencrypt big junk (key ++ 0 :: rest) pkt len keyid = None).
Proof.
  intros big junk key rest pkt len keyid J N OK LK OP A LL. unfold authencrypt.
  assert (L4 : (4 * (len / 4) = len)%nat) by (pose proof (Nat.div_mod len 4 ltac:(lia)); lia). rewrite L4, htonl_be32, cstr_key by exact N.
  set (K := be32 (u32 keyid)). assert (LKK : length K = 4%nat) by reflexivity.
  assert (OKK : Forall octet K) by (unfold K, be32; apply Forall_rev, le_octets).
  assert (RUN : (len + 4 <= length pkt)%nat -> exists p1, copy pkt len K = Some p1 /\ p1 = firstn len pkt ++ K ++ skipn (len + 4) pkt /\ length p1 = length pkt /\
    (do c1 <- update big (init junk) key; do c2 <- update big c1 (firstn len p1); final big c2) = Some (md5 (key ++ firstn len pkt))).
  { intros R. exists (firstn len pkt ++ K ++ skipn (len + 4) pkt). split; [rewrite copy_some by lia; rewrite LKK; reflexivity|]. split; [reflexivity|].
    split; [rewrite !app_length, firstn_length, skipn_length, LKK; lia|].
    assert (FP : firstn len (firstn len pkt ++ K ++ skipn (len + 4) pkt) = firstn len pkt) by (rewrite firstn_app, firstn_firstn, firstn_length, Nat.min_id; replace (len - Nat.min len (length pkt))%nat with 0%nat by lia; rewrite firstn_O, app_nil_r; reflexivity).
    rewrite FP. destruct (update_spec big (init junk) [] key (holds_init junk J) (Forall_nil _) OK LK) as (c1 & E1 & H1). rewrite E1. cbn [bind].
    destruct (update_spec big c1 key (firstn len pkt) H1 OK (Forall_firstn' _ _ _ OP)) as (c2 & E2 & H2); [rewrite firstn_length; lia|]. rewrite E2. cbn [bind].
    apply final_spec; [exact H2|]. apply Forall_app. split; [exact OK|apply Forall_firstn'; exact OP]. }
  assert (ALL : (len + 4 <= length pkt)%nat -> forall f : list Z -> list Z -> option (list Z * Z), exists p1, p1 = firstn len pkt ++ K ++ skipn (len + 4) pkt /\ length p1 = length pkt /\
    (do p1 <- copy pkt len K; do c1 <- update big (init junk) key; do c2 <- update big c1 (firstn len p1); do d <- final big c2; f p1 d) = f p1 (md5 (key ++ firstn len pkt))).
  { intros R f. destruct (RUN R) as (p1 & E & P & L & D). exists p1. split; [exact P|]. split; [exact L|]. rewrite E. cbn [bind].
    destruct (update big (init junk) key) as [c1|]; cbn [bind] in D |- *; [|discriminate]. destruct (update big c1 (firstn len p1)) as [c2|]; cbn [bind] in D |- *; [|discriminate]. rewrite D. reflexivity. }
  split.
  - intros R. destruct (ALL ltac:(lia) (fun p1 d => do p2 <- copy p1 (len + 4) d; Some (p2, 20))) as (p1 & P & L & ->). cbv beta.
    rewrite copy_some by (rewrite md5_len; lia). cbn [bind]. eexists. split; [reflexivity|]. rewrite md5_len.
    assert (F4 : firstn (len + 4) p1 = firstn len pkt ++ K).
    { rewrite P, app_assoc, firstn_app, app_length, firstn_length, LKK. replace (len + 4 - (Nat.min len (length pkt) + 4))%nat with 0%nat by lia. rewrite firstn_O, app_nil_r. apply firstn_all2. rewrite app_length, firstn_length, LKK. lia. }
    assert (LF : length (firstn len pkt) = len) by (rewrite firstn_length; lia).
    rewrite F4. set (D := md5 (key ++ firstn len pkt)) in *. assert (LD : length D = 16%nat) by apply md5_len.
    replace (len + 4 + 16)%nat with (len + 20)%nat by lia.
    assert (LA : length ((firstn len pkt ++ K) ++ D) = (len + 20)%nat) by (rewrite !app_length, LF, LKK, LD; lia).
    rewrite app_assoc. split; [rewrite app_length, LA, skipn_length, L; lia|]. split.
    + rewrite firstn_app, LA, Nat.sub_diag, firstn_O, app_nil_r, firstn_all2 by lia. unfold mac. rewrite <- app_assoc. reflexivity.
    + rewrite skipn_app, LA, Nat.sub_diag, skipn_O, (skipn_all2 (n := len + 20) ((firstn len pkt ++ K) ++ D)) by lia. cbn [app]. rewrite P, app_assoc, skipn_app, app_length, LF, LKK, skipn_all2 by (rewrite app_length, LF, LKK; lia).
      cbn [app]. rewrite skipn_add. f_equal. lia.
  - intros R. destruct (Nat.le_gt_cases (len + 4) (length pkt)) as [H|H].
    + destruct (ALL H (fun p1 d => do p2 <- copy p1 (len + 4) d; Some (p2, 20))) as (p1 & P & L & ->). cbv beta. unfold copy. rewrite md5_len, L. replace (len + 4 + 16 <=? length pkt)%nat with false by (symmetry; apply Nat.leb_gt; lia). reflexivity.
    + unfold copy at 1. rewrite LKK. replace (len + 4 <=? length pkt)%nat with false by (symmetry; apply Nat.leb_gt; lia). reflexivity.
Qed.
Print Assumptions C78_mac.
Example C78_mac_ex : exists p, authencrypt false (repeat 7 64) [107; 101; 121; 0; 99] (repeat 22 12 ++ repeat 5 30) 12 (-2) = Some (p, 20) /\
  p = repeat 22 12 ++ [255; 255; 255; 254] ++ md5 ([107; 101; 121] ++ repeat 22 12) ++ repeat 5 10.
Proof. eexists. split; vm_compute; reflexivity. Qed.

(** For a length that is not a multiple of 4 the same is false: the number of the key goes over the end of the packet and is part of
    what is digested, and octets that were there before stay between it and the digest.  (Both callers give a multiple of 4.) *)
Theorem C78_mac_refuted : exists pkt', authencrypt false (repeat 7 64) [107; 101; 121; 0] (repeat 22 14 ++ repeat 5 30) 14 1 = Some (pkt', 20) /\
  firstn 14 pkt' <> repeat 22 14 /\ firstn 4 (skipn 14 pkt') <> be32 1 /\ firstn 16 (skipn 18 pkt') <> md5 ([107; 101; 121] ++ repeat 22 14).
Proof. eexists. split; [vm_compute; reflexivity|]. repeat split; vm_compute; discriminate. Qed.
Print Assumptions C78_mac_refuted.
