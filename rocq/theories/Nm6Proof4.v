(** Proofs about the mode 6 client: peers and requests (C66). *)
Require Import ZArith List Bool String QArith Lia.
Require Import Verif.Base Verif.ListLib Verif.CevSpec Verif.Nm6Spec Verif.Nm6Model Verif.Nm6Proof Verif.Nm6Proof3.
Import ListNotations.
Open Scope Z_scope.

  (** Status words. *)
  Lemma shift_status : forall s, u16p s -> Z.land (Z.shiftr s 8) 255 = s / 256.
  Proof.
    intros s [S0 S1]. rewrite Z.shiftr_div_pow2 by lia. change (2 ^ 8) with 256. change 255 with (Z.ones 8). rewrite Z.land_ones by lia.
    apply Z.mod_small. change (2 ^ 8) with 256. split; [apply Z.div_pos; lia|apply Z.div_lt_upper_bound; lia].
  Qed.
  Lemma skipped_spec : forall a, u16p (snd a) -> skipped (snd a) = negb (listed a).
  Proof. intros [i s] U. cbn [snd] in *. unfold skipped, listed. cbn [snd]. rewrite shift_status by exact U. rewrite negb_involutive. reflexivity. Qed.
  Lemma status_spec : forall A (p : peer A) a, u16p (snd a) ->
    p_selected (set_status A p (snd a)) = (selection a =? 6) /\ p_shortlist (set_status A p (snd a)) = (selection a =? 5).
  Proof.
    intros A p [i s] U. cbn [snd] in *. unfold set_status, selection. cbn [p_selected p_shortlist snd]. rewrite shift_status by exact U.
    change 7 with (Z.ones 3). rewrite Z.land_ones by lia. auto.
  Qed.

  Lemma assocs_bytes : forall l, Forall (fun a => u16p (fst a) /\ u16p (snd a)) l -> assocs (assoc_bytes l) = l.
  Proof.
    intros l F. induction F as [|[i s] l [I S] F IH]; [reflexivity|]. change (assoc_bytes ((i, s) :: l)) with (i / 256 :: i mod 256 :: s / 256 :: s mod 256 :: assoc_bytes l). cbn [assocs]. rewrite !be16_word, IH. reflexivity.
  Qed.
  Lemma assoc_len : forall l : list association, len (assoc_bytes l) = 4 * @len association l.
  Proof.
    induction l as [|[i s] l IH]; [reflexivity|]. change (assoc_bytes ((i, s) :: l)) with (i / 256 :: i mod 256 :: s / 256 :: s mod 256 :: assoc_bytes l). unfold len in *. cbn [List.length]. lia.
  Qed.

Section Peers.
  Variables (A : Type) (gai : list Z -> Z * option A) (u32 : list Z -> option Z) (flt : list Z -> option Q)
            (behind : list Z -> list Z) (noname : Z -> bool).
  Notation set_var := (set_var A gai u32 flt behind noname).
  Notation set_vars := (set_vars A gai u32 flt behind noname).

  Lemma set_vars_named : forall l p, set_vars p l = set_vars p (filter named l).
  Proof.
    induction l as [|[n v] l IH]; intros p; [reflexivity|]. cbn [filter]. unfold named at 1. cbn [fst]. destruct n as [|c n].
    - cbn [Nm6Model.set_vars]. change (set_var p ([], v)) with (Some p). cbn [bind]. apply IH.
    - cbn [Nm6Model.set_vars]. destruct (set_var p (c :: n, v)); cbn [bind]; [apply IH|reflexivity].
  Qed.

  (** A field depends on one name only. *)
  Lemma set_vars_other : forall X (F : peer A -> X) n, (forall p p' n' ov, n' <> n -> set_var p (n', ov) = Some p' -> F p' = F p) ->
    forall l p p', (forall x, In x l -> fst x <> n) -> set_vars p l = Some p' -> F p' = F p.
  Proof.
    intros X F n H. induction l as [|[n' ov] l IH]; intros p p' N E; cbn [Nm6Model.set_vars] in E; [injection E as <-; reflexivity|].
    destruct (set_var p (n', ov)) as [q|] eqn:S; cbn [bind] in E; [|discriminate].
    rewrite (IH q p'); [eapply H; [|exact S]; exact (N _ (or_introl eq_refl))|intros; apply N; right; assumption|exact E].
  Qed.
  Lemma set_vars_field : forall X (F : peer A -> X) n (R : list Z -> X -> Prop),
    (forall p p' n' ov, n' <> n -> set_var p (n', ov) = Some p' -> F p' = F p) ->
    (forall p p' v, set_var p (n, Some v) = Some p' -> R v (F p')) ->
    forall l p p', NoDup (map i_name l) -> set_vars p (pairs l) = Some p' -> forall v, gives l n v -> R v (F p').
  Proof.
    intros X F n R H1 H2. induction l as [|i l IH]; intros p p' ND E v (j & J & NJ & VJ); [destruct J|].
    cbn [map] in ND. inversion ND as [|? ? NI ND']; subst. unfold pairs in E. cbn [map Nm6Model.set_vars] in E.
    destruct (set_var p (i_name i, Some (i_value i))) as [q|] eqn:S; cbn [bind] in E; [|discriminate].
    destruct J as [->|J].
    - assert (K : F p' = F q).
      { eapply (set_vars_other X F (i_name j)); [exact H1| |exact E]. intros x Y. apply in_map_iff in Y. destruct Y as (k & <- & K). cbn [fst].
        intros Z. apply NI. rewrite <- Z. apply in_map. exact K. }
      rewrite K. eapply H2. exact S.
    - eapply IH; [exact ND'|exact E|]. exists j. auto.
  Qed.

  Ltac is_name := repeat match goal with
    | |- context [list_eq_dec Z.eq_dec ?a ?b] => destruct (list_eq_dec Z.eq_dec a b)
    | H : context [list_eq_dec Z.eq_dec ?a ?b] |- _ => destruct (list_eq_dec Z.eq_dec a b)
    end.
  Ltac one_var S :=
    unfold Nm6Model.set_var in S; cbv zeta beta in S; is_name; subst; try congruence;
    repeat match goal with H : txt _ = txt _ |- _ => first [exfalso; vm_compute in H; discriminate H | clear H] end; cbn [bind] in S;
    repeat match type of S with
           | bind ?o _ = Some _ => let x := fresh "x" in let E := fresh "E" in destruct o as [x|] eqn:E; cbn [bind] in S; [|discriminate S]
           end;
    injection S as <-.

  (** What the variables of a peer come to. *)
  Definition read_peer (l : list item) (p' : peer A) : Prop :=
    (forall v h, gives l (txt "srcadr") v -> host v h -> p_remote p' = (if fst (gai h) =? 0 then snd (gai h) else None)) /\
    (forall v h, gives l (txt "dstadr") v -> host v h -> p_local p' = (if fst (gai h) =? 0 then snd (gai h) else None)) /\
    (forall v, gives l (txt "stratum") v -> u32 v = Some (p_stratum p')) /\
    (forall v, gives l (txt "hmode") v -> exists x, u32 v = Some x /\ p_candidate p' = (x =? 3)) /\
    (forall v, gives l (txt "offset") v -> exists x, flt v = Some x /\ p_offset p' == - (1000000 # 1) * x)%Q /\
    (forall v, gives l (txt "rootdisp") v -> exists x, flt v = Some x /\ p_rootdisp p' == (1000000 # 1) * x)%Q /\
    (forall v, gives l (txt "sent") v -> u32 v = Some (p_sent p')) /\
    (forall v, gives l (txt "received") v -> u32 v = Some (p_received p')).

  Lemma gives_no0 : forall l n v, Forall good_item l -> gives l n v -> cstr v = v.
  Proof.
    intros l n v F (i & I & _ & <-). rewrite Forall_forall in F. destruct (F i I) as (_ & (_ & Z & _) & _). apply cstr_no0, Z.
  Qed.

  Lemma set_vars_reads : forall l p p', Forall good_item l -> NoDup (map i_name l) -> set_vars p (pairs l) = Some p' -> read_peer l p'.
  Proof.
    intros l p p' FG ND E. unfold read_peer.
    assert (ADDR : forall v h x, host v h -> parse_addr A gai behind noname v = Some x -> snd x = (if fst (gai h) =? 0 then snd (gai h) else None)).
    { intros v h x H P. unfold parse_addr in P. rewrite (host_of_spec behind v h H) in P. cbn [bind] in P. destruct (gai h) as [rc a]. injection P as <-.
      cbn [fst snd]. destruct (rc =? 0); reflexivity. }
    repeat match goal with |- _ /\ _ => split end.
    - intros v h G H. refine (set_vars_field _ (@p_remote A) (txt "srcadr") (fun v x => forall h, host v h -> x = (if fst (gai h) =? 0 then snd (gai h) else None)) _ _ l p p' ND E v G h H).
      + intros q q' n' ov N S. one_var S; reflexivity.
      + intros q q' v' S h' H'. one_var S. cbn [p_remote]. apply (ADDR v' h' x H' E0).
    - intros v h G H. refine (set_vars_field _ (@p_local A) (txt "dstadr") (fun v x => forall h, host v h -> x = (if fst (gai h) =? 0 then snd (gai h) else None)) _ _ l p p' ND E v G h H).
      + intros q q' n' ov N S. one_var S; reflexivity.
      + intros q q' v' S h' H'. one_var S. cbn [p_local]. apply (ADDR v' h' x H' E0).
    - intros v G. rewrite <- (gives_no0 l _ v FG G). refine (set_vars_field _ (@p_stratum A) (txt "stratum") (fun v x => u32 (cstr v) = Some x) _ _ l p p' ND E v G).
      + intros q q' n' ov N S. one_var S; reflexivity.
      + intros q q' v' S. one_var S. first [exact E0|reflexivity].
    - intros v G. rewrite <- (gives_no0 l _ v FG G). refine (set_vars_field _ (@p_candidate A) (txt "hmode") (fun v x => exists y, u32 (cstr v) = Some y /\ x = (y =? 3)) _ _ l p p' ND E v G).
      + intros q q' n' ov N S. one_var S; reflexivity.
      + intros q q' v' S. one_var S. exists x. auto.
    - intros v G. rewrite <- (gives_no0 l _ v FG G). refine (set_vars_field _ (@p_offset A) (txt "offset") (fun v x => exists y, flt (cstr v) = Some y /\ x == - (1000000 # 1) * y)%Q _ _ l p p' ND E v G).
      + intros q q' n' ov N S. one_var S; reflexivity.
      + intros q q' v' S. one_var S. exists x. split; [first [exact E0|reflexivity]|]. cbn [p_offset]. ring.
    - intros v G. rewrite <- (gives_no0 l _ v FG G). refine (set_vars_field _ (@p_rootdisp A) (txt "rootdisp") (fun v x => exists y, flt (cstr v) = Some y /\ x == (1000000 # 1) * y)%Q _ _ l p p' ND E v G).
      + intros q q' n' ov N S. one_var S; reflexivity.
      + intros q q' v' S. one_var S. exists x. split; [first [exact E0|reflexivity]|]. cbn [p_rootdisp]. ring.
    - intros v G. rewrite <- (gives_no0 l _ v FG G). refine (set_vars_field _ (@p_sent A) (txt "sent") (fun v x => u32 (cstr v) = Some x) _ _ l p p' ND E v G).
      + intros q q' n' ov N S. one_var S; reflexivity.
      + intros q q' v' S. one_var S. first [exact E0|reflexivity].
    - intros v G. rewrite <- (gives_no0 l _ v FG G). refine (set_vars_field _ (@p_received A) (txt "received") (fun v x => u32 (cstr v) = Some x) _ _ l p p' ND E v G).
      + intros q q' n' ov N S. one_var S; reflexivity.
      + intros q q' v' S. one_var S. first [exact E0|reflexivity].
  Qed.

  Lemma parse_addr_def : forall v h, host v h -> parse_addr A gai behind noname v <> None.
  Proof. intros v h H. unfold parse_addr. rewrite (host_of_spec behind v h H). cbn [bind]. destruct (gai h). discriminate. Qed.

  Lemma set_vars_defined : forall l p, Forall good_item l -> Forall (readable u32 flt) l -> exists p', set_vars p (pairs l) = Some p'.
  Proof.
    induction l as [|i l IH]; intros p FG FR; [exists p; reflexivity|]. inversion FG as [|? ? GI GL]; inversion FR as [|? ? RI RL]; subst.
    unfold pairs. cbn [map Nm6Model.set_vars].
    assert (E : exists q, set_var p (i_name i, Some (i_value i)) = Some q).
    { destruct RI as (R1 & R2 & R3). destruct GI as (_ & (_ & Z & _) & _). unfold Nm6Model.set_var. cbv zeta beta. cbn [bind]. rewrite (cstr_no0 _ Z). cbn [map In] in R1, R2, R3.
      repeat match goal with |- context [list_eq_dec Z.eq_dec ?a ?b] => destruct (list_eq_dec Z.eq_dec a b) as [N|_] end;
      try (eexists; reflexivity);
      try (destruct (u32 (i_value i)) as [x|]; [cbn [bind]; eexists; reflexivity|exfalso; apply R1; [symmetry in N; auto 10|reflexivity]]);
      try (destruct (flt (i_value i)) as [x|]; [cbn [bind]; eexists; reflexivity|exfalso; apply R2; [symmetry in N; auto 10|reflexivity]]);
      try (destruct R3 as (h & H); [symmetry in N; auto 10|]; pose proof (parse_addr_def _ _ H) as PD; destruct (parse_addr A gai behind noname (i_value i)) as [x|]; [cbn [bind]; eexists; reflexivity|congruence]). }
    destruct E as (q & ->). cbn [bind]. apply IH; assumption.
  Qed.

  (** ** The loop *)
  Notation peer_loop := (peer_loop A gai u32 flt behind noname).
  Notation get_peer_info := (get_peer_info A gai u32 flt behind noname).

  Definition answered (l : list association) (ans : nat -> reply) (items : nat -> list item) : Prop :=
    forall k a, nth_error l k = Some a -> exists e b, ans k = Answer (show (items k) ++ e) b /\ line_end e /\
      Forall good_item (items k) /\ Forall (readable u32 flt) (items k) /\ NoDup (map i_name (items k)).

  Lemma read_peer_status : forall l p s, read_peer l p -> read_peer l (set_status A p s).
  Proof. intros l p s H. exact H. Qed.

  Lemma peer_loop_all : forall (l : list association) i ans items left num ps rc,
    Forall (fun a => u16p (snd a) /\ listed a = true) l -> (i + List.length l <= List.length ps)%nat ->
    (forall k a, nth_error l k = Some a -> exists e b, ans (i + k)%nat = Answer (show (items (i + k)%nat) ++ e) b /\ line_end e /\
      Forall good_item (items (i + k)%nat) /\ Forall (readable u32 flt) (items (i + k)%nat) /\ NoDup (map i_name (items (i + k)%nat))) ->
    exists ps', peer_loop i l ans left num ps rc = Some (match l with [] => rc | _ => 0 end, (num + List.length l)%nat, ps') /\ List.length ps' = List.length ps /\
      (forall k, (k < i)%nat -> nth_error ps' k = nth_error ps k) /\
      (forall k a, nth_error l k = Some a -> exists p, nth_error ps' (i + k) = Some p /\ read_peer (items (i + k)%nat) p /\
        p_selected p = (selection a =? 6) /\ p_shortlist p = (selection a =? 5)).
  Proof.
    induction l as [|[id st] l IH]; intros i ans items left num ps rc FL LE AN.
    - exists ps. cbn [Nm6Model.peer_loop List.length]. rewrite Nat.add_0_r. split; [reflexivity|]. split; [reflexivity|]. split; [reflexivity|]. intros k a N. destruct k; discriminate.
    - inversion FL as [|? ? [US LI] FL']; subst. cbn [snd] in US. cbn [List.length] in LE.
      destruct (AN 0%nat (id, st) eq_refl) as (e & b & EA & LN & FG & FR & ND). rewrite Nat.add_0_r in EA, FG, FR, ND.
      cbn [Nm6Model.peer_loop]. pose proof (skipped_spec (id, st) US) as SK. cbn [snd] in SK. rewrite SK, LI. cbn [negb].
      rewrite EA. cbn [bind]. destruct (nth_error ps i) as [p|] eqn:NP; [|apply nth_error_None in NP; lia]. cbn [bind].
      destruct (vars_show (items i) e b FG LN) as (out & lf & V & FO). rewrite V. cbn [bind fst snd].
      rewrite set_vars_named, FO. destruct (set_vars_defined (items i) p FG FR) as (p' & SV). rewrite SV. cbn [bind].
      destruct (IH (S i) ans items (Some (lf, b)) (S num) (set_nth i (set_status A p' st) ps) 0 FL') as (ps' & PL & LP & KE & KA).
      { rewrite set_nth_length. lia. }
      { intros k a N. specialize (AN (S k) a N). replace (i + S k)%nat with (S i + k)%nat in AN by lia. exact AN. }
      exists ps'. split; [rewrite PL; cbn [List.length]; replace (num + S (List.length l))%nat with (S num + List.length l)%nat by lia; destruct l; reflexivity|]. split; [rewrite LP, set_nth_length; reflexivity|]. split.
      + intros k K. rewrite KE by lia. rewrite nth_error_set_nth_other by lia. reflexivity.
      + intros k a N. destruct k as [|k].
        * cbn in N. injection N as <-. rewrite Nat.add_0_r. exists (set_status A p' st). split; [rewrite KE by lia; apply nth_error_set_nth_same; lia|].
          split; [apply read_peer_status; apply (set_vars_reads _ _ _ FG ND SV)|]. exact (status_spec A p' (id, st) US).
        * specialize (KA k a N). replace (i + S k)%nat with (S i + k)%nat by lia. exact KA.
  Qed.

  Theorem peers_all : forall (l : list association) num ps b ans items, l <> [] -> (List.length l <= 32)%nat -> List.length ps = 32%nat ->
    Forall (fun a => u16p (fst a) /\ u16p (snd a) /\ listed a = true) l -> answered l ans items ->
    exists ps', get_peer_info num ps (Answer (assoc_bytes l) b) ans = Some (0, List.length l, ps') /\ List.length ps' = 32%nat /\
      forall k a, nth_error l k = Some a -> exists p, nth_error ps' k = Some p /\ read_peer (items k) p /\
        p_selected p = (selection a =? 6) /\ p_shortlist p = (selection a =? 5).
  Proof.
    intros l num ps b ans items NE LL LP FL AN. unfold Nm6Model.get_peer_info. rewrite assoc_len.
    assert (LN : 1 <= len l <= 32) by (unfold len; destruct l; [congruence|cbn [List.length] in *; lia]).
    replace (4 * len l =? 0) with false by (symmetry; apply Z.eqb_neq; lia).
    rewrite (land3 (4 * len l)) by lia. replace ((4 * len l) mod 4) with 0 by (rewrite Z.mul_comm; symmetry; apply Z_mod_mult). cbn [Z.eqb negb].
    replace (BUFFER_SIZE <? 4 * len l) with false by (symmetry; apply Z.ltb_ge; unfold BUFFER_SIZE; lia).
    rewrite assocs_bytes by (eapply Forall_impl; [|exact FL]; intros a (? & ? & _); auto).
    destruct (peer_loop_all l 0 ans items None 0 ps 0) as (ps' & PL & L' & _ & K).
    { eapply Forall_impl; [|exact FL]. intros a (_ & ? & ?); auto. }
    { lia. }
    { intros k a N. exact (AN k a N). }
    exists ps'. rewrite PL. split; [destruct l; reflexivity|]. split; [lia|]. exact K.
  Qed.

  (** The selected peer. *)
  Lemma seek_show : forall fuel j l e r, Forall junk j -> Forall good_item l -> line_end e -> (List.length (j ++ rest_of l e) < fuel)%nat ->
    seek A gai behind noname fuel (j ++ rest_of l e) r =
    match find (fun i => if list_eq_dec Z.eq_dec (i_name i) (txt "peeradr") then true else false) l with
    | Some i => do x <- parse_addr A gai behind noname (i_value i); Some (Some x)
    | None => Some None
    end.
  Proof.
    induction fuel as [|fuel IH]; intros j l e r FJ FG LE LT; [lia|]. cbn [seek].
    destruct (junk_split j FJ) as [SEP|(a & c & j' & -> & AA & C & J)].
    - destruct l as [|i l].
      + cbn [rest_of]. rewrite app_nil_r, next_var_end by exact SEP. reflexivity.
      + inversion FG as [|? ? GI GL]; subst. cbn [rest_of].
        assert (EX : exists t, show (i :: l) ++ e = i_name i ++ 61 :: show_value i ++ t /\ tail_ok t /\
                      exists j2, (match t with c :: t' => if c =? 44 then t' else t | [] => [] end) = j2 ++ rest_of l e /\ Forall junk j2).
        { destruct l as [|i2 l].
          - exists e. cbn [show]. rewrite <- app_assoc. split; [reflexivity|]. destruct LE as [-> | ->].
            + split; [exact I|]. exists []. split; [reflexivity|constructor].
            + split; [right; reflexivity|]. exists [13; 10]. split; [reflexivity|]. apply Forall_forall. intros x X. cbn in X. unfold junk. intuition lia.
          - destruct GI as (_ & _ & s' & ES & FS). exists (i_sep i ++ show (i2 :: l) ++ e). split.
            { change (show (i :: i2 :: l)) with (i_name i ++ 61 :: show_value i ++ i_sep i ++ show (i2 :: l)). rewrite <- !app_assoc. cbn [app]. rewrite <- !app_assoc. reflexivity. }
            rewrite ES. split; [left; reflexivity|]. exists s'. split; [reflexivity|exact FS]. }
        destruct EX as (t & ET & TK & j2 & EJ & FJ2). rewrite ET. rewrite next_var_item by assumption. cbn [bind find].
        destruct (list_eq_dec Z.eq_dec (i_name i) (txt "peeradr")); [reflexivity|]. rewrite EJ. apply IH; auto.
        cbn [rest_of] in LT. rewrite ET in LT.
        assert (LL : (List.length (j2 ++ rest_of l e) <= List.length t)%nat) by (rewrite <- EJ; destruct t as [|c t]; [apply le_n|]; destruct (c =? 44); cbn [List.length]; lia).
        rewrite !app_length in LT. cbn [List.length] in LT. rewrite app_length in LT. lia.
    - rewrite <- app_assoc. cbn [app]. rewrite next_var_line by assumption. cbn [bind]. change (if list_eq_dec Z.eq_dec [] (txt "peeradr") then do v <- None; do x <- parse_addr A gai behind noname v; Some (Some x) else seek A gai behind noname fuel (j' ++ rest_of l e) r) with (seek A gai behind noname fuel (j' ++ rest_of l e) r).
      apply IH; auto. rewrite !app_length in LT. cbn [List.length] in LT. rewrite app_length. lia.
  Qed.

  Theorem sys_info_shown : forall old l e r h a, Forall good_item l -> line_end e -> l <> [] ->
    (exists v, gives l (txt "peeradr") v) -> (forall v, gives l (txt "peeradr") v -> host v h) -> gai h = (0, a) ->
    get_sys_info A gai behind noname old (Answer (show l ++ e) r) = Some (0, a).
  Proof.
    intros old l e r h a FG LE NE (v0 & G0) H G. unfold get_sys_info.
    assert (SK := seek_show (S (List.length (show l ++ e))) [] l e r). cbn [app] in SK.
    assert (RO : rest_of l e = show l ++ e) by (destruct l; [congruence|reflexivity]). rewrite RO in SK. rewrite SK; auto. clear SK.
    destruct (find _ l) as [i|] eqn:F.
    - apply find_some in F. destruct F as [I N]. destruct (list_eq_dec Z.eq_dec (i_name i) (txt "peeradr")); [|discriminate].
      assert (HI : host (i_value i) h) by (apply H; exists i; auto). unfold parse_addr. rewrite (host_of_spec behind _ _ HI). cbn [bind]. rewrite G. reflexivity.
    - exfalso. destruct G0 as (i & I & N & _). pose proof (find_none _ _ F i I) as X. cbn beta in X. rewrite N in X. destruct (list_eq_dec Z.eq_dec (txt "peeradr") (txt "peeradr")); congruence.
  Qed.
End Peers.
