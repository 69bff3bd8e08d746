(** C48 and C49: bounded string copy and formatting. *)
Require Import ZArith Lia List Bool Arith.
Require Import Verif.Base Verif.ListLib Verif.StrSpec Verif.StrModel Verif.StrProof.
Import ListNotations.
Open Scope Z_scope.

(** C48.  For every destination of at least [n > 0] bytes and every string: the destination
    then holds, as a string, the first [n-1] characters of the source; nothing after the
    first [n] bytes changes. *)
Theorem C48_bounded_copy : forall dest src n, is_string src -> (0 < n <= length dest)%nat ->
  exists d, strncpy dest src n = Some d /\ length d = length dest /\
    text_of (firstn n d) = Some (firstn (n - 1) src) /\ skipn n d = skipn n dest.
Proof.
  intros dest src n Hs H. rewrite (strncpy_spec dest src n H). eexists. split; [reflexivity|].
  set (p := firstn (n - 1) src).
  assert (Lp : (length p <= n - 1)%nat) by (unfold p; rewrite firstn_length; lia).
  assert (L : length (p ++ repeat 0 (n - length p)) = n) by (rewrite app_length, repeat_length; lia).
  rewrite !app_assoc. split; [|split].
  - rewrite app_length, L, skipn_length. lia.
  - rewrite firstn_app, L, Nat.sub_diag. cbn [firstn]. rewrite app_nil_r, firstn_all2 by lia.
    destruct (n - length p)%nat eqn:E; [lia|]. cbn [repeat]. apply text_of_app.
    apply firstn_string. assumption.
  - rewrite skipn_app, L, Nat.sub_diag. rewrite skipn_all2 by lia. reflexivity.
Qed.
Print Assumptions C48_bounded_copy.

Example C48_ex : strncpy [9; 9; 9; 9; 9] [65; 66; 67; 68] 3 = Some [65; 66; 0; 9; 9] /\ is_string [65; 66; 67; 68].
Proof. split; [reflexivity|]. repeat constructor; discriminate. Qed.

(** A size of zero is a fault, whatever the arguments. *)
Theorem C48_zero_size_refuted : forall dest src, strncpy dest src 0 = None.
Proof. reflexivity. Qed.
Print Assumptions C48_zero_size_refuted.

(** C49 in full: for every format, table, buffer and size, sfptpd_format terminates the
    output, writes only the buffer, and produces the expansion of the format.  This is false
    when the expansion does not fit, when an option character is missing, and when a
    conversion fails (below).  What holds: for every format that has an expansion, measuring
    gives its length, and formatting into any buffer with room for it and its terminator
    stores exactly the expansion and the terminator. *)
Theorem C49_measure_partial : forall tbl fmt t, fits tbl -> expands (map in_conv tbl) fmt t ->
  format tbl None 0 fmt = Some (None, Some (length t)).
Proof. exact format_null. Qed.
Print Assumptions C49_measure_partial.

Theorem C49_format_partial : forall tbl fmt t b space, expands (map in_conv tbl) fmt t ->
  (length t < space <= length b)%nat ->
  format tbl (Some b) space fmt = Some (Some (t ++ 0 :: skipn (S (length t)) b), Some (length t)).
Proof. exact format_buf. Qed.
Print Assumptions C49_format_partial.

(** So measuring, allocating one byte more and formatting (format_path,
    src/sfptpd_logging.c:329-358) yields the expansion. *)
Theorem C49_two_pass : forall tbl fmt t, fits tbl -> expands (map in_conv tbl) fmt t -> is_string t ->
  exists n, format tbl None 0 fmt = Some (None, Some n) /\
  forall b, length b = S n ->
    exists b', format tbl (Some b) (S n) fmt = Some (Some b', Some n) /\ text_of b' = Some t.
Proof.
  intros tbl fmt t Hf H Hs. exists (length t). split; [apply format_null; assumption|].
  intros b Lb. eexists. split; [apply format_buf; [assumption|lia]|]. apply text_of_app. assumption.
Qed.
Print Assumptions C49_two_pass.

(** Finding: an expansion that does not fit is not truncated: the call aborts or writes
    outside the buffer, for every format and buffer. *)
Theorem C49_no_room_refuted : forall tbl fmt t b space, all_snprintf tbl -> expands (map in_conv tbl) fmt t ->
  (space <= length t)%nat -> format tbl (Some b) space fmt = None.
Proof. exact format_too_long. Qed.
Print Assumptions C49_no_room_refuted.

Definition conv_I : interp := mkInterp (mkConv 73 false (fun _ => Some [101; 116; 104])) Snprintf (fun _ => []).
Definition conv_C : interp :=
  mkInterp (mkConv 67 true (fun o => Some [49; o; 50])) Snprintf (fun _ => []).
Definition conv_bad : interp := mkInterp (mkConv 66 false (fun _ => None)) Snprintf (fun _ => []).
Definition conv_T : interp :=
  mkInterp (mkConv 84 true (fun o => if o =? 100 then Some [50; 48] else Some [])) Strftime (fun n => repeat 1 n).

(** Finding: after more ordinary characters than fit, a conversion is called at a position
    beyond the end of the buffer, with a size that has wrapped around: "AAAA%I" into 2
    bytes. *)
Theorem C49_overrun_refuted : exists b s, length b = 2%nat /\
  format_loop [conv_I] 2 [65; 65; 65; 65] (mkF (Some b) 0 false) = Some (s, true) /\
  (length b < f_len s)%nat /\ u64 (Z.of_nat 2 - Z.of_nat (f_len s)) = 2^64 - 2.
Proof.
  exists [0; 0]. eexists. split; [reflexivity|]. split; [vm_compute; reflexivity|].
  split; [cbn; lia|vm_compute; reflexivity].
Qed.
Print Assumptions C49_overrun_refuted.

(** Finding: a format that ends before the option character of a conversion is read beyond
    its end. *)
Theorem C49_missing_option_refuted : forall b space, format [conv_C] (Some b) space [65; PERCENT; 67] = None.
Proof.
  intros b space. unfold format. replace (format_loop _ _ _ _) with (@None (fstate * bool)); [destruct space; reflexivity|].
  cbn [format_loop]. change (65 =? PERCENT) with false. cbv iota. destruct (put_char _ _ _); reflexivity.
Qed.
Print Assumptions C49_missing_option_refuted.

(** Finding: the failure of a conversion is forgotten if a later one succeeds. *)
Theorem C49_failure_lost_refuted : exists b', format [conv_bad; conv_I] (Some (repeat 7 8)) 8 [PERCENT; 66; PERCENT; 73] =
  Some (Some b', Some 3%nat) /\ forall t, ~ expands (map in_conv [conv_bad; conv_I]) [PERCENT; 66; PERCENT; 73] t.
Proof.
  eexists. split; [vm_compute; reflexivity|]. intros t H.
  inversion H as [|c r t0 Hc H0|r t0 H0|c r t0 Hc Hn H0|c cv b a x r t0 Hc Hcs Hb Hcc Ho Hx H0|c cv b a o x r t0 Hc Hcs Hb Hcc Ho Hx H0]; subst.
  - apply Hc. reflexivity.
  - apply (Hn (in_conv conv_bad)); [left; reflexivity|reflexivity].
  - cbn in Hcs. destruct b as [|b0 b]; cbn in Hcs.
    + injection Hcs as <- _. discriminate.
    + injection Hcs as <- _. apply (Hb (in_conv conv_bad)); [left; reflexivity|]. cbn. congruence.
  - cbn in Hcs. destruct b as [|b0 b]; cbn in Hcs.
    + injection Hcs as <- _. discriminate.
    + injection Hcs as <- _. apply (Hb (in_conv conv_bad)); [left; reflexivity|]. cbn. congruence.
Qed.
Print Assumptions C49_failure_lost_refuted.

(** "a%%%I%C:%z%Td" *)
Example C49_ex_fmt : list Z := [97; 37; 37; 37; 73; 37; 67; 58; 37; 122; 37; 84; 100].
Example C49_ex :
  format [conv_I; conv_C; conv_T] (Some (repeat 7 12)) 12 C49_ex_fmt =
  Some (Some [97; 37; 101; 116; 104; 49; 58; 50; 50; 48; 0; 7], Some 10%nat) /\
  expands (map in_conv [conv_I; conv_C; conv_T]) C49_ex_fmt [97; 37; 101; 116; 104; 49; 58; 50; 50; 48] /\
  fits [conv_I; conv_C; conv_T].
Proof.
  split; [vm_compute; reflexivity|]. split.
  - apply ex_char; [discriminate|]. apply ex_percent.
    apply (ex_conv _ 73 (in_conv conv_I) [] [in_conv conv_C; in_conv conv_T] [101; 116; 104]); try reflexivity; try discriminate.
    { intros ? []. }
    apply (ex_conv_opt _ 67 (in_conv conv_C) [in_conv conv_I] [in_conv conv_T] 58 [49; 58; 50]); try reflexivity; try discriminate.
    { intros ? [<-|[]]. discriminate. }
    apply ex_unknown; [discriminate|intros cv [<-|[<-|[<-|[]]]]; discriminate|].
    apply (ex_conv_opt _ 84 (in_conv conv_T) [in_conv conv_I; in_conv conv_C] [] 100 [50; 48] [] []); try reflexivity; try discriminate.
    { intros ? [<-|[<-|[]]]; discriminate. }
    apply ex_end.
  - intros w o t [<-|[<-|[<-|[]]]] L H; try discriminate.
    cbn in H. destruct (o =? 100); injection H as <-; cbn; lia.
Qed.
