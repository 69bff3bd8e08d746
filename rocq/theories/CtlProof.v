(** Proofs about the control socket (C64). *)
Require Import ZArith List Bool String QArith Lia.
Require Import Verif.Base Verif.ListLib Verif.CevSpec Verif.CevModel Verif.CtlSpec Verif.CtlModel.
Import ListNotations.
Open Scope Z_scope.

Lemma streq_iff : forall a b, streq a b = true <-> a = b.
Proof. intros. unfold streq. destruct (list_eq_dec Z.eq_dec a b); split; congruence. Qed.
Lemma streq_refl : forall a, streq a a = true.
Proof. intros. apply streq_iff. reflexivity. Qed.

Lemma upto_no : forall t, ~ In 0 t -> upto t = t.
Proof.
  induction t as [|c t IH]; intros N; [reflexivity|]. cbn [upto]. destruct (c =? 0) eqn:C; [exfalso; apply N; left; lia|].
  rewrite IH; [reflexivity|]. intros X. apply N. right. exact X.
Qed.
Lemma upto_app : forall t r, ~ In 0 t -> upto (t ++ 0 :: r) = t.
Proof.
  induction t as [|c t IH]; intros r N; [reflexivity|]. cbn [upto app]. destruct (c =? 0) eqn:C; [exfalso; apply N; left; lia|].
  rewrite IH; [reflexivity|]. intros X. apply N. right. exact X.
Qed.
Lemma text_of_upto : forall m t, text_of m t <-> t = upto m.
Proof.
  intros m t. split.
  - intros [N [->|[r ->]]]; symmetry; [apply upto_no|apply upto_app]; exact N.
  - intros ->. induction m as [|c m IH]; [split; [intros []|left; reflexivity]|]. cbn [upto].
    destruct (c =? 0) eqn:C.
    + split; [intros []|]. right. exists m. cbn. f_equal. lia.
    + destruct IH as [N D]. split; [intros [X|X]; [lia|exact (N X)]|].
      destruct D as [D|[r D]]; [left; cbn; congruence|right; exists r; cbn; congruence].
Qed.
Lemma upto_cut : forall m t, text_of m t -> (List.length t <= 127)%nat -> upto (firstn 127 m) = t.
Proof.
  intros m t [N [->|[r ->]]] L.
  - rewrite firstn_all2 by exact L. apply upto_no, N.
  - rewrite firstn_app, firstn_all2 by exact L. destruct (127 - List.length t)%nat; cbn [firstn]; [rewrite app_nil_r; apply upto_no, N|].
    apply upto_app, N.
Qed.

Lemma strsep_app : forall c w r, ~ In c w -> strsep c (w ++ c :: r) = (w, Some r).
Proof.
  induction w as [|x w IH]; intros r N; cbn [app strsep]; [rewrite Z.eqb_refl; reflexivity|].
  destruct (x =? c) eqn:E; [exfalso; apply N; left; lia|]. rewrite IH; [reflexivity|]. intros X. apply N. right. exact X.
Qed.
Lemma strsep_all : forall c w, ~ In c w -> strsep c w = (w, None).
Proof.
  induction w as [|x w IH]; intros N; cbn [strsep]; [reflexivity|].
  destruct (x =? c) eqn:E; [exfalso; apply N; left; lia|]. rewrite IH; [reflexivity|]. intros X. apply N. right. exact X.
Qed.
Lemma strsep_inv : forall c s t o, strsep c s = (t, o) ->
  ~ In c t /\ match o with None => s = t | Some r => s = t ++ c :: r end.
Proof.
  induction s as [|x s IH]; intros t o H; cbn [strsep] in H.
  - injection H as <- <-. split; [intros []|reflexivity].
  - destruct (x =? c) eqn:E.
    + injection H as <- <-. split; [intros []|]. cbn. f_equal. lia.
    + destruct (strsep c s) as [t' o'] eqn:S. injection H as <- <-. destruct (IH t' o' eq_refl) as [N D].
      split; [intros [X|X]; [lia|exact (N X)]|]. destruct o'; cbn; congruence.
Qed.

Lemma split_app : forall c w r, ~ In c w -> split c (w ++ c :: r) = w :: split c r.
Proof.
  induction w as [|x w IH]; intros r N; cbn [app split]; [rewrite Z.eqb_refl; reflexivity|].
  destruct (x =? c) eqn:E; [exfalso; apply N; left; lia|]. rewrite IH; [reflexivity|]. intros X. apply N. right. exact X.
Qed.
Lemma split_one : forall c w, ~ In c w -> split c w = [w].
Proof.
  induction w as [|x w IH]; intros N; cbn [split]; [reflexivity|].
  destruct (x =? c) eqn:E; [exfalso; apply N; left; lia|]. rewrite IH; [reflexivity|]. intros X. apply N. right. exact X.
Qed.
Lemma split_join : forall c ts, ts <> [] -> (forall t, In t ts -> ~ In c t) -> split c (join c ts) = ts.
Proof.
  intros c. induction ts as [|t ts IH]; intros N H; [congruence|]. destruct ts as [|u ts].
  - cbn [join]. apply split_one, H. left. reflexivity.
  - change (join c (t :: u :: ts)) with (t ++ c :: join c (u :: ts)). rewrite split_app by (apply H; left; reflexivity).
    rewrite IH; [reflexivity|discriminate|]. intros x X. apply H. right. exact X.
Qed.

(** ** Numbers *)

Lemma dig_some : forall base c d, digit_char c d -> d < base -> dig base c = Some d.
Proof.
  intros base c d H L. unfold dig. destruct H as [[-> R]|[[->| ->] R]].
  - replace (48 <=? 48 + d) with true by lia. replace (48 + d <=? 57) with true by lia. cbn [andb].
    replace (48 + d - 48) with d by lia. replace (d <? base) with true by lia. reflexivity.
  - replace (87 + d <=? 57) with false by lia. rewrite andb_false_r.
    replace (97 <=? 87 + d) with true by lia. replace (87 + d <=? 122) with true by lia. cbn [andb].
    replace (87 + d - 87) with d by lia. replace (d <? base) with true by lia. reflexivity.
  - replace (55 + d <=? 57) with false by lia. rewrite andb_false_r.
    replace (97 <=? 55 + d) with false by lia. cbn [andb].
    replace (65 <=? 55 + d) with true by lia. replace (55 + d <=? 90) with true by lia. cbn [andb].
    replace (55 + d - 55) with d by lia. replace (d <? base) with true by lia. reflexivity.
Qed.

Definition stops (base : Z) (r : list Z) : Prop := match r with [] => True | c :: _ => dig base c = None end.

Lemma digits_numeral : forall base t ds r, numeral base t ds -> stops base r -> digits_of base (t ++ r) = (ds, r).
Proof.
  intros base t ds r H S. induction H as [|c d t ds [H1 H2] H IH]; cbn [app digits_of].
  - destruct r as [|c r]; [reflexivity|]. cbn in S. cbn [digits_of]. rewrite S. reflexivity.
  - rewrite (dig_some base c d H1 H2), IH. reflexivity.
Qed.
Lemma digits_numeral_all : forall base t ds, numeral base t ds -> digits_of base t = (ds, []).
Proof. intros. rewrite <- (app_nil_r t). apply digits_numeral; [assumption|exact I]. Qed.

Lemma numeral_char : forall base t ds c, numeral base t ds -> base <= 36 -> In c t -> 48 <= c <= 57 \/ 65 <= c <= 90 \/ 97 <= c <= 122.
Proof.
  intros base t ds c H L I. induction H as [|x d t ds [H1 H2] H IH]; [destruct I|].
  destruct I as [->|I]; [|apply IH, I]. unfold digit_char in H1. lia.
Qed.
Lemma numeral10_char : forall t ds c, numeral 10 t ds -> In c t -> 48 <= c <= 57.
Proof.
  intros t ds c H I. induction H as [|x d t ds [H1 H2] H IH]; [destruct I|].
  destruct I as [->|I]; [|apply IH, I]. unfold digit_char in H1. lia.
Qed.
Lemma numeral8_char : forall t ds c, numeral 8 t ds -> In c t -> 48 <= c <= 55.
Proof.
  intros t ds c H I. induction H as [|x d t ds [H1 H2] H IH]; [destruct I|].
  destruct I as [->|I]; [|apply IH, I]. unfold digit_char in H1. lia.
Qed.

Lemma take_sign_ok : forall sg s b, sign sg s -> hd 0 b <> 45 -> hd 0 b <> 43 -> take_sign (sg ++ b) = (s, b).
Proof.
  intros sg s b [[-> ->]|[[-> ->]|[-> ->]]] H1 H2; [|reflexivity|reflexivity].
  cbn [app]. unfold take_sign. destruct b as [|c b]; [reflexivity|]. cbn [hd] in *.
  destruct (c =? 45) eqn:E1; [lia|]. destruct (c =? 43) eqn:E2; [lia|]. reflexivity.
Qed.
Lemma skip_sign : forall sg s b, sign sg s -> (forall c b', b = c :: b' -> isspace c = false) -> skip_space (sg ++ b) = sg ++ b.
Proof.
  intros sg s b [[-> ->]|[[-> ->]|[-> ->]]] H; [|reflexivity|reflexivity].
  cbn [app]. destruct b as [|c b]; [reflexivity|]. cbn [skip_space]. rewrite (H c b eq_refl). reflexivity.
Qed.

Lemma value_same : forall b ds, value_of b ds = value b ds. Proof. reflexivity. Qed.

Lemma strtol_integer : forall t z, integer t z -> - 2 ^ 63 <= z < 2 ^ 63 -> strtol t = (z, false).
Proof.
  intros t z [sg [s [body [ds [base [-> [S [-> D]]]]]]]] R. unfold strtol.
  assert (BH : body <> [] /\ (48 <= hd 0 body <= 57)).
  { destruct D as [[-> [N [B _]]]|[[-> [b [-> N]]]|[-> [x [b [-> [X [B N]]]]]]]].
    - split; [exact B|]. destruct body as [|c body]; [congruence|]. apply (numeral10_char _ _ c N). left. reflexivity.
    - split; [discriminate|cbn; lia].
    - split; [discriminate|cbn; lia]. }
  destruct BH as [B1 B2].
  rewrite (skip_sign sg s body S).
  2:{ intros c b' ->. cbn in B2. unfold isspace. lia. }
  rewrite (take_sign_ok sg s body S) by lia.
  assert (K : let (bs, r') := base_of body in s * value_of bs (fst (digits_of bs r')) = s * value base ds).
  { destruct D as [[-> [N [B H]]]|[[-> [b [-> N]]]|[-> [x [b [-> [X [B N]]]]]]]].
    - unfold base_of. destruct body as [|c body]; [congruence|]. cbn in H. destruct (c =? 48) eqn:E; [lia|].
      rewrite (digits_numeral_all _ _ _ N). reflexivity.
    - assert (Q : base_of (48 :: b) = (8, 48 :: b)).
      { unfold base_of. cbn [Z.eqb Pos.eqb]. destruct b as [|x [|c b]]; try reflexivity.
        assert (48 <= x <= 55) by (apply (numeral8_char _ _ x N); left; reflexivity).
        replace (x =? 120) with false by lia. replace (x =? 88) with false by lia. reflexivity. }
      rewrite Q. cbn [digits_of]. change (dig 8 48) with (Some 0). rewrite (digits_numeral_all _ _ _ N). reflexivity.
    - assert (Q : base_of (48 :: x :: b) = (16, b)).
      { unfold base_of. cbn [Z.eqb Pos.eqb]. destruct b as [|c b]; [congruence|].
        inversion N as [|c' d t' ds' [N1 N2] N3]; subst. rewrite (dig_some _ _ _ N1 N2).
        destruct X as [->| ->]; reflexivity. }
      rewrite Q, (digits_numeral_all _ _ _ N). reflexivity. }
  destruct (base_of body) as [bs r']. rewrite K. unfold LONG_MAX, LONG_MIN.
  destruct (2 ^ 63 - 1 <? s * value base ds) eqn:E1; [lia|]. destruct (s * value base ds <? - 2 ^ 63) eqn:E2; [lia|]. reflexivity.
Qed.

Lemma exponent_ok : forall ex e, exponent ex e -> exponent_of 101 69 ex = e /\ stops 10 ex /\
  (forall c r, ex = c :: r -> c = 101 \/ c = 69).
Proof.
  intros ex e [[-> ->]|[x [sg [s [b [ds [-> [X [S [B [N ->]]]]]]]]]]].
  - split; [reflexivity|]. split; [exact I|]. intros; discriminate.
  - split; [|split].
    + unfold exponent_of. replace ((x =? 101) || (x =? 69)) with true by (destruct X as [->| ->]; reflexivity).
      assert (48 <= hd 0 b <= 57) by (destruct b as [|c b]; [congruence|]; apply (numeral10_char _ _ c N); left; reflexivity).
      rewrite (take_sign_ok sg s b S) by lia. rewrite (digits_numeral_all _ _ _ N). reflexivity.
    + destruct X as [->| ->]; reflexivity.
    + intros c r E. injection E as <- _. exact X.
Qed.

Lemma starts_ci_digit : forall w c l, In w [txt "inf"; txt "nan"] -> c <= 57 -> starts_ci w (c :: l) = false.
Proof.
  intros w c l W C. unfold starts_ci. destruct (streq _ w) eqn:E; [|reflexivity]. exfalso. apply streq_iff in E.
  assert (L : lower c = c) by (unfold lower; replace (65 <=? c) with false by lia; reflexivity).
  destruct W as [<-|[<-|[]]]; cbn in E; injection E as E1 _; rewrite L in E1; lia.
Qed.

Lemma strtod_real : forall t q, real t q -> strtod t = Fin q.
Proof.
  intros t q [sg [s [ip [fp [ids [fds [ex [e [T [NE [S [N1 [N2 [X ->]]]]]]]]]]]]]].
  destruct (exponent_ok _ _ X) as [X1 [X2 X3]].
  assert (LF : List.length fp = List.length fds) by (clear - N2; induction N2; cbn; congruence).
  (* the text after the sign *)
  assert (exists b, t = sg ++ b /\ mantissa 10 b = (ids, fds, ex) /\ (exists c r, b = c :: r /\ 46 <= c <= 57) /\
          (forall c x r, b = c :: x :: r -> x <> 120 /\ x <> 88)) as [b [-> [M [[c [r [B C]]] H2]]]].
  { destruct T as [[-> ->]| ->].
    - exists (ip ++ ex). split; [reflexivity|]. inversion N2; subst. split; [|split].
      + unfold mantissa. rewrite (digits_numeral _ _ _ _ N1 X2). destruct ex as [|c ex]; [reflexivity|].
        destruct (X3 c ex eq_refl) as [->| ->]; reflexivity.
      + rewrite app_nil_r in NE. destruct ip as [|c ip]; [congruence|]. exists c, (ip ++ ex). split; [reflexivity|].
        pose proof (numeral10_char _ _ c N1 (or_introl eq_refl)). lia.
      + intros c x r E. rewrite app_nil_r in NE. destruct ip as [|c' ip]; [congruence|]. injection E as <- E.
        destruct ip as [|y ip]; cbn [app] in E.
        * destruct (X3 x r E) as [->| ->]; split; discriminate.
        * injection E as <- _. pose proof (numeral10_char _ _ y N1 (or_intror (or_introl eq_refl))). lia.
    - exists (ip ++ 46 :: fp ++ ex). split; [reflexivity|]. split; [|split].
      + unfold mantissa. rewrite (digits_numeral _ _ _ (46 :: fp ++ ex) N1); [|reflexivity]. cbn [Z.eqb Pos.eqb].
        rewrite (digits_numeral _ _ _ _ N2 X2). reflexivity.
      + destruct ip as [|c ip]; [exists 46, (fp ++ ex); split; [reflexivity|lia]|]. exists c, (ip ++ 46 :: fp ++ ex). split; [reflexivity|].
        pose proof (numeral10_char _ _ c N1 (or_introl eq_refl)). lia.
      + intros c x r E. destruct ip as [|c' ip]; cbn [app] in E.
        * injection E as _ E. cbn [app] in NE. destruct fp as [|y fp]; [congruence|]. injection E as <- _.
          pose proof (numeral10_char _ _ y N2 (or_introl eq_refl)). lia.
        * injection E as _ E. destruct ip as [|y ip]; cbn [app] in E; injection E as <- _; [split; discriminate|].
          pose proof (numeral10_char _ _ y N1 (or_intror (or_introl eq_refl))). lia. }
  unfold strtod. rewrite (skip_sign sg s b S).
  2:{ intros c' b' E. rewrite B in E. injection E as <- _. unfold isspace. lia. }
  rewrite (take_sign_ok sg s b S); [|rewrite B; cbn; lia|rewrite B; cbn; lia].
  assert (SI : starts_ci (txt "inf") b = false) by (rewrite B; apply starts_ci_digit; [left; reflexivity|lia]).
  assert (SN : starts_ci (txt "nan") b = false) by (rewrite B; apply starts_ci_digit; [right; left; reflexivity|lia]).
  rewrite SI, SN.
  assert (HP : hex_prefix b = None).
  { rewrite B in *. unfold hex_prefix. destruct r as [|x r]; [reflexivity|]. destruct (H2 c x r eq_refl) as [H3 H4].
    replace (x =? 120) with false by lia. replace (x =? 88) with false by lia. rewrite andb_false_r. reflexivity. }
  rewrite HP, M. destruct (ids ++ fds) as [|d dd] eqn:DE.
  - exfalso. apply app_eq_nil in DE. destruct DE as [-> ->]. inversion N1. inversion N2. subst. apply NE. reflexivity.
  - rewrite X1. reflexivity.
Qed.

(** ** The characters of numbers *)

Lemma sign_char : forall sg s c, sign sg s -> In c sg -> c = 43 \/ c = 45.
Proof. intros sg s c [[-> _]|[[-> _]|[-> _]]] I; cbn in I; intuition lia. Qed.

Lemma integer_char : forall t z c, integer t z -> In c t -> c <> 44 /\ c <> 0.
Proof.
  intros t z c [sg [s [body [ds [base [-> [S [-> D]]]]]]]] I. apply in_app_or in I. destruct I as [I|I].
  - pose proof (sign_char _ _ _ S I). lia.
  - destruct D as [[-> [N _]]|[[-> [b [-> N]]]|[-> [x [b [-> [X [B N]]]]]]]].
    + pose proof (numeral10_char _ _ _ N I). lia.
    + destruct I as [<-|I]; [lia|]. pose proof (numeral8_char _ _ _ N I). lia.
    + destruct I as [<-|[<-|I]]; [lia|lia|]. pose proof (numeral_char 16 _ _ _ N ltac:(lia) I). lia.
Qed.

Lemma real_char : forall t q c, real t q -> In c t -> c <> 44 /\ c <> 0.
Proof.
  intros t q c [sg [s [ip [fp [ids [fds [ex [e [T [NE [S [N1 [N2 [X _]]]]]]]]]]]]]] I.
  assert (XC : In c ex -> c <> 44 /\ c <> 0).
  { intros J. destruct X as [[-> _]|[x [sg' [s' [b [ds [-> [Y [S' [B [N _]]]]]]]]]]]; [destruct J|].
    destruct J as [<-|J]; [lia|]. apply in_app_or in J. destruct J as [J|J]; [pose proof (sign_char _ _ _ S' J); lia|].
    pose proof (numeral10_char _ _ _ N J). lia. }
  assert (A : In c sg \/ In c ip \/ c = 46 \/ In c fp \/ In c ex).
  { destruct T as [[-> ->]| ->]; repeat (rewrite in_app_iff in I); cbn [In] in I; rewrite ?in_app_iff in I; intuition. }
  destruct A as [A|[A|[A|[A|A]]]]; [pose proof (sign_char _ _ _ S A)|pose proof (numeral10_char _ _ _ N1 A)| |pose proof (numeral10_char _ _ _ N2 A)|exact (XC A)]; lia.
Qed.

Lemma gain_char : forall t v c, gain t v -> In c t -> c <> 44 /\ c <> 0.
Proof. intros t v c [[-> _]|[q [R _]]] I; [destruct I|apply (real_char _ _ _ R I)]. Qed.

Lemma real_nonempty : forall t q, real t q -> t <> [].
Proof.
  intros t q [sg [s [ip [fp [ids [fds [ex [e [T [NE _]]]]]]]]]] ->. destruct T as [[T ->]|T].
  - symmetry in T. apply app_eq_nil in T. destruct T as [_ T]. apply app_eq_nil in T. destruct T as [-> _]. apply NE. reflexivity.
  - symmetry in T. apply app_eq_nil in T. destruct T as [_ T]. apply app_eq_nil in T. destruct T as [_ T]. discriminate T.
Qed.

Lemma gain_of_ok : forall t v, gain t v -> gain_of (Some t) = v.
Proof.
  intros t v [[-> ->]|[q [R ->]]]; [reflexivity|]. pose proof (real_nonempty _ _ R). destruct t as [|c t]; [congruence|].
  exact (strtod_real _ _ R).
Qed.

(** ** Test modes *)

Lemma find_mode_ok : forall n id, In (n, id) tests -> find_mode n test_modes 0 = Some id /\ ~ In 44 n.
Proof.
  intros n id H. cbn [tests In] in H. repeat (destruct H as [H|H]; [injection H as <- <-; split; [vm_compute; reflexivity|vm_compute; intuition lia]|]).
  destruct H.
Qed.

Lemma find_mode_range : forall t l i id, find_mode t l i = Some id -> i <= id < i + Z.of_nat (List.length l).
Proof.
  induction l as [|m l IH]; intros i id H; cbn [find_mode] in H; [discriminate|]. cbn [List.length].
  destruct (streq t m); [injection H as <-; lia|]. apply IH in H. lia.
Qed.

Lemma to_int_range : forall z, int_range (to_int z).
Proof. intros z. unfold int_range, to_int. pose proof (Z.mod_pos_bound (z + 2 ^ 31) (2 ^ 32) ltac:(lia)). lia. Qed.
Lemma to_int_same : forall z, int_range z -> to_int z = z.
Proof. intros z R. unfold to_int, int_range in *. rewrite Z.mod_small by lia. lia. Qed.

Lemma int_strtol : forall t z, integer t z -> int_range z -> strtol t = (z, false).
Proof. intros t z I R. apply strtol_integer; [exact I|]. unfold int_range in R. lia. Qed.

Lemma test_params_ok : forall ps zs, (List.length ps <= 3)%nat -> Forall2 integer ps zs ->
  (forall z, In z zs -> int_range z) -> test_params 3 ps = Some [nth 0 zs 0; nth 1 zs 0; nth 2 zs 0].
Proof.
  intros ps zs L F R.
  assert (A : forall t z, In z zs -> integer t z -> strtol t = (z, false) /\ to_int z = z).
  { intros t z I J. specialize (R z I). split; [apply int_strtol; assumption|apply to_int_same, R]. }
  destruct F as [|p1 z1 ps zs F1 F]; [reflexivity|].
  destruct (A p1 z1 (or_introl eq_refl) F1) as [E1 T1].
  destruct F as [|p2 z2 ps zs F2 F]; [cbn [test_params]; rewrite E1; cbn; rewrite T1; reflexivity|].
  destruct (A p2 z2 (or_intror (or_introl eq_refl)) F2) as [E2 T2].
  destruct F as [|p3 z3 ps zs F3 F]; [cbn [test_params]; rewrite E1, E2; cbn; rewrite T1, T2; reflexivity|].
  destruct (A p3 z3 (or_intror (or_intror (or_introl eq_refl))) F3) as [E3 T3].
  destruct F; [|cbn in L; lia]. cbn [test_params]. rewrite E1, E2, E3. cbn. rewrite T1, T2, T3. reflexivity.
Qed.

Lemma test_params_shape : forall n ts l, test_params n ts = Some l -> List.length l = n /\ (forall z, In z l -> int_range z).
Proof.
  induction n as [|n IH]; intros ts l H; cbn [test_params] in H; [injection H as <-; split; [reflexivity|intros z []]|].
  destruct ts as [|t ts].
  - injection H as <-. split; [cbn [List.length]; rewrite repeat_length; reflexivity|].
    intros z Z0. change (0 :: repeat 0 n) with (repeat 0 (S n)) in Z0. apply repeat_spec in Z0. subst z. unfold int_range. lia.
  - destruct (strtol t) as [v e]. destruct e; [discriminate|]. destruct (test_params n ts) as [r|] eqn:T; [|discriminate].
    cbn in H. injection H as <-. destruct (IH _ _ T) as [L R]. split; [cbn; congruence|].
    intros z [<-|I]; [apply to_int_range|apply R, I].
Qed.

(** ** Types of servo *)

Lemma eight : forall x, 0 <= x < 8 -> x = 0 \/ x = 1 \/ x = 2 \/ x = 3 \/ x = 4 \/ x = 5 \/ x = 6 \/ x = 7.
Proof. intros. lia. Qed.

Lemma lor_range : forall m f, 0 <= m < 8 -> In f [1; 2; 4] -> 0 <= Z.lor m f < 8 /\ Z.lor m f <> 0.
Proof.
  intros m f M F. apply eight in M. cbn in F.
  repeat (destruct M as [->|M]); try subst m; destruct F as [<-|[<-|[<-|[]]]]; cbn; lia.
Qed.

Definition rst (ks : list (list Z)) : bool :=
  existsb (fun k => if list_eq_dec Z.eq_dec k RESET then true else false) ks.

Lemma keywords_ok : forall ks m r, (forall k, In k ks -> In k [LOCAL; PTP; PPS; RESET]) -> 0 <= m < 8 ->
  exists m', keywords ks m r = Some (m', r || rst ks) /\ 0 <= m' < 8 /\
    (Z.testbit m' 0 = true <-> Z.testbit m 0 = true \/ In LOCAL ks) /\
    (Z.testbit m' 1 = true <-> Z.testbit m 1 = true \/ In PTP ks) /\
    (Z.testbit m' 2 = true <-> Z.testbit m 2 = true \/ In PPS ks).
Proof.
  induction ks as [|k ks IH]; intros m r H M.
  - exists m. cbn [keywords rst existsb]. rewrite orb_false_r. split; [reflexivity|]. split; [exact M|]. cbn [In]. tauto.
  - assert (H' : forall x, In x ks -> In x [LOCAL; PTP; PPS; RESET]) by (intros x X; apply H; right; exact X).
    assert (T : forall f i w, In f [1; 2; 4] -> type_flag k = f -> rst [k] = false -> k = w ->
      In (i, w) [(0, LOCAL); (1, PTP); (2, PPS)] -> (forall j, In j [0; 1; 2] -> Z.testbit f j = true <-> j = i) ->
      exists m', keywords (k :: ks) m r = Some (m', r || rst (k :: ks)) /\ 0 <= m' < 8 /\
      (Z.testbit m' 0 = true <-> Z.testbit m 0 = true \/ In LOCAL (k :: ks)) /\
      (Z.testbit m' 1 = true <-> Z.testbit m 1 = true \/ In PTP (k :: ks)) /\
      (Z.testbit m' 2 = true <-> Z.testbit m 2 = true \/ In PPS (k :: ks))).
    { intros f i w F TF RK -> W B. destruct (lor_range m f M F) as [LR _].
      destruct (IH (Z.lor m f) r H' LR) as [m' [E1 [E2 [E3 [E4 E5]]]]]. exists m'. cbn [keywords]. rewrite TF.
      assert (F0 : f =? 0 = false) by (cbn in F; lia). rewrite F0. cbn [negb]. rewrite E1.
      assert (RS : rst (w :: ks) = rst ks) by (unfold rst in *; cbn [existsb] in *; rewrite orb_false_r in RK; rewrite RK; reflexivity).
      rewrite RS. split; [reflexivity|]. split; [exact E2|].
      rewrite E3, E4, E5, !Z.lor_spec, !orb_true_iff.
      rewrite (B 0), (B 1), (B 2) by (cbn; auto). cbn [In] in W |- *.
      assert (LP : LOCAL <> PTP) by (vm_compute; congruence). assert (LQ : LOCAL <> PPS) by (vm_compute; congruence). assert (PQ : PTP <> PPS) by (vm_compute; congruence).
      destruct W as [W|[W|[W|[]]]]; injection W as <- <-; intuition (try congruence). }
    destruct (H k (or_introl eq_refl)) as [K|[K|[K|[K|[]]]]].
    + apply (T 1 0 LOCAL); subst k; cbn; auto. intros j [<-|[<-|[<-|[]]]]; cbn; split; congruence.
    + apply (T 2 1 PTP); subst k; cbn; auto. intros j [<-|[<-|[<-|[]]]]; cbn; split; congruence.
    + apply (T 4 2 PPS); subst k; cbn; auto. intros j [<-|[<-|[<-|[]]]]; cbn; split; congruence.
    + subst k. destruct (IH m true H' M) as [m' [E1 [E2 [E3 [E4 E5]]]]]. exists m'. cbn [keywords].
      change (type_flag RESET) with 0. change (streq RESET (txt "reset")) with true. cbn [negb Z.eqb]. rewrite E1.
      change (rst (RESET :: ks)) with true. rewrite orb_true_r. split; [reflexivity|]. split; [exact E2|].
      assert (LP : RESET <> LOCAL) by (vm_compute; congruence). assert (LQ : RESET <> PTP) by (vm_compute; congruence). assert (PQ : RESET <> PPS) by (vm_compute; congruence).
      cbn [In]. rewrite E3, E4, E5. intuition (try congruence).
Qed.

Lemma types_unique : forall ks a b, types_of ks a -> types_of ks b -> a = b.
Proof.
  intros ks a b [A0 [A1 [A2 A3]]] [B0 [B1 [B2 B3]]].
  assert (E : forall i, In i [0; 1; 2] -> Z.testbit a i = Z.testbit b i).
  { intros i [<-|[<-|[<-|[]]]].
    - destruct (Z.testbit a 0), (Z.testbit b 0); try reflexivity; exfalso; intuition congruence.
    - destruct (Z.testbit a 1), (Z.testbit b 1); try reflexivity; exfalso; intuition congruence.
    - destruct (Z.testbit a 2), (Z.testbit b 2); try reflexivity; exfalso; intuition congruence. }
  pose proof (E 0 ltac:(cbn; auto)) as E0. pose proof (E 1 ltac:(cbn; auto)) as E1. pose proof (E 2 ltac:(cbn; auto)) as E2. clear E.
  apply eight in A0, B0.
  repeat (destruct A0 as [->|A0]); try subst a; repeat (destruct B0 as [->|B0]); try subst b; cbn in E0, E1, E2; congruence.
Qed.

Lemma keywords_types : forall ks types, (forall k, In k ks -> In k [LOCAL; PTP; PPS; RESET]) -> types_of ks types ->
  exists m, keywords ks 0 false = Some (m, rst ks) /\ (if m =? 0 then 7 else m) = types.
Proof.
  intros ks types H T. destruct (keywords_ok ks 0 false H ltac:(lia)) as [m [E [R [B0 [B1 B2]]]]].
  exists m. split; [exact E|]. apply (types_unique ks); [|exact T].
  rewrite !Z.bits_0 in *. unfold types_of, named. destruct (m =? 0) eqn:M0.
  - apply Z.eqb_eq in M0. subst m. cbn in B0, B1, B2. split; [lia|]. cbn. intuition congruence.
  - apply Z.eqb_neq in M0. split; [exact R|].
    assert (NZ : In LOCAL ks \/ In PTP ks \/ In PPS ks).
    { apply eight in R. repeat (destruct R as [->|R]); try subst m; cbn in B0, B1, B2; intuition congruence. }
    rewrite B0, B1, B2. intuition congruence.
Qed.

Lemma keywords_range : forall ts m r m' r', 0 <= m < 8 -> keywords ts m r = Some (m', r') -> 0 <= m' < 8.
Proof.
  induction ts as [|t ts IH]; intros m r m' r' M H; cbn [keywords] in H; [injection H as <- <-; exact M|].
  destruct (type_flag t =? 0) eqn:F; cbn [negb] in H.
  - destruct (streq t (txt "reset")); [|discriminate]. apply (IH _ _ _ _ M H).
  - apply (IH (Z.lor m (type_flag t)) r m' r'); [|exact H]. apply lor_range; [exact M|].
    unfold type_flag in *. destruct (streq t (txt "local")); [cbn; auto|]. destruct (streq t (txt "ptp")); [cbn; auto|].
    destruct (streq t (txt "pps")); [cbn; auto|]. discriminate F.
Qed.

(** ** Commands *)

Lemma Forall2_in_l_ex : forall A B (R : A -> B -> Prop) la lb a, Forall2 R la lb -> In a la -> exists b, R a b.
Proof. intros A B R la lb a F I. induction F as [|x y la lb H F IH]; [destruct I|]. destruct I as [<-|I]; [exists y; exact H|apply IH, I]. Qed.

Lemma fd_text : forall m t, text_of m t -> (List.length t <= 127)%nat -> get_action (Some m) = get_action (Some t).
Proof.
  intros m t T L. unfold get_action. rewrite (upto_cut m t T L), (upto_cut t t); [reflexivity| |exact L].
  split; [apply T|left; reflexivity].
Qed.

Lemma join_no : forall c d ts, c <> d -> (forall t, In t ts -> ~ In c t) -> ~ In c (join d ts).
Proof.
  intros c d. induction ts as [|t ts IH]; intros N H I; [destruct I|]. destruct ts as [|u ts].
  - exact (H t (or_introl eq_refl) I).
  - change (join d (t :: u :: ts)) with (t ++ d :: join d (u :: ts)) in I. rewrite in_app_iff in I. cbn [In] in I.
    destruct I as [I|[I|I]]; [exact (H t (or_introl eq_refl) I)|congruence|]. apply IH in I; [exact I|exact N|].
    intros x X. apply H. right. exact X.
Qed.

Lemma gains_ok : forall gs vs ks, gs <> [] -> (List.length gs <= 3)%nat -> (ks = [] \/ List.length gs = 3%nat) ->
  Forall2 gain gs vs ->
  gain_of (nth_error (gs ++ ks) 0) = nth 0 vs NaN /\ gain_of (nth_error (gs ++ ks) 1) = nth 1 vs NaN /\
  gain_of (nth_error (gs ++ ks) 2) = nth 2 vs NaN /\ skipn 3 (gs ++ ks) = ks.
Proof.
  intros gs vs ks NE L K F.
  destruct F as [|g1 v1 gs vs F1 F]; [congruence|]. apply gain_of_ok in F1.
  destruct F as [|g2 v2 gs vs F2 F].
  { destruct K as [->|K]; [|discriminate K]. cbn [app nth_error nth skipn]. rewrite F1. auto. }
  apply gain_of_ok in F2.
  destruct F as [|g3 v3 gs vs F3 F].
  { destruct K as [->|K]; [|discriminate K]. cbn [app nth_error nth skipn]. rewrite F1, F2. auto. }
  apply gain_of_ok in F3. destruct F; [|cbn in L; lia]. cbn [app nth_error nth skipn]. rewrite F1, F2, F3. auto.
Qed.

Theorem documented : forall t e, asks t e -> ~ In 0 t -> (List.length t <= 127)%nat -> on_control_socket_fd (Some t) = Some [e].
Proof.
  intros t e A Z L. unfold on_control_socket_fd, get_action. rewrite (upto_cut t t (conj Z (or_introl eq_refl)) L).
  destruct A as [| | | |n LN N|name id ps zs T LP F R|gs vs ks types NE LG K F KS T].
  - reflexivity.
  - reflexivity.
  - reflexivity.
  - reflexivity.
  - change (txt "selectinstance=" ++ n) with (txt "selectinstance" ++ 61 :: n).
    rewrite strsep_app by (vm_compute; intuition lia).
    change (streq (txt "selectinstance") (txt "exit")) with false. change (streq (txt "selectinstance") (txt "logrotate")) with false.
    change (streq (txt "selectinstance") (txt "stepclocks")) with false. change (streq (txt "selectinstance") (txt "dumptables")) with false.
    rewrite streq_refl. rewrite (strsep_all 61 n N). cbn [fst]. rewrite firstn_all2 by exact LN. reflexivity.
  - change (txt "testmode=" ++ join 44 (name :: ps)) with (txt "testmode" ++ 61 :: join 44 (name :: ps)).
    rewrite strsep_app by (vm_compute; intuition lia).
    change (streq (txt "testmode") (txt "exit")) with false. change (streq (txt "testmode") (txt "logrotate")) with false.
    change (streq (txt "testmode") (txt "stepclocks")) with false. change (streq (txt "testmode") (txt "dumptables")) with false.
    change (streq (txt "testmode") (txt "selectinstance")) with false.
    rewrite streq_refl. destruct (find_mode_ok _ _ T) as [T1 T2]. unfold tokens. rewrite split_join.
    + rewrite T1, (test_params_ok ps zs LP F R). reflexivity.
    + discriminate.
    + intros x [<-|X]; [exact T2|]. intros C. destruct (Forall2_in_l_ex _ _ _ _ _ _ F X) as [z Hz]. destruct (integer_char _ _ _ Hz C). congruence.
  - change (txt "pid_adjust=" ++ join 44 (gs ++ ks)) with (txt "pid_adjust" ++ 61 :: join 44 (gs ++ ks)).
    rewrite strsep_app by (vm_compute; intuition lia).
    change (streq (txt "pid_adjust") (txt "exit")) with false. change (streq (txt "pid_adjust") (txt "logrotate")) with false.
    change (streq (txt "pid_adjust") (txt "stepclocks")) with false. change (streq (txt "pid_adjust") (txt "dumptables")) with false.
    change (streq (txt "pid_adjust") (txt "selectinstance")) with false. change (streq (txt "pid_adjust") (txt "testmode")) with false.
    rewrite streq_refl. unfold tokens. rewrite split_join.
    + cbv zeta. destruct (gains_ok gs vs ks NE LG K F) as [G0 [G1 [G2 G3]]]. rewrite G3.
      destruct (keywords_types ks types KS T) as [m [E M]]. rewrite E, G0, G1, G2, M. reflexivity.
    + intros X. apply app_eq_nil in X. destruct X. congruence.
    + intros x X C. rewrite in_app_iff in X. destruct X as [X|X].
      * destruct (Forall2_in_l_ex _ _ _ _ _ _ F X) as [v Hv]. destruct (gain_char _ _ _ Hv C). congruence.
      * apply KS in X. cbn [In] in X. destruct X as [<-|[<-|[<-|[<-|[]]]]]; vm_compute in C; intuition lia.
Qed.

Lemma strsep_word : forall c s w o, strsep c s = (w, o) -> s = w \/ exists r, s = w ++ c :: r.
Proof. intros c s w o H. destruct (strsep_inv _ _ _ _ H) as [_ D]. destruct o; [right; eexists; exact D|left; exact D]. Qed.

Lemma find_mode_tests : forall t id, find_mode t test_modes 0 = Some id -> In (t, id) tests.
Proof.
  intros t id H. unfold test_modes in H. cbn [find_mode] in H.
  repeat match type of H with
  | (if streq ?a ?b then _ else _) = _ =>
      let E := fresh in destruct (streq a b) eqn:E; [apply streq_iff in E; injection H as <-; subst a; vm_compute; tauto|clear E]
  end. discriminate.
Qed.

Lemma split_nonempty : forall c s, split c s <> [].
Proof.
  intros c s. destruct s as [|y s]; [discriminate|]. cbn [split]. destruct (y =? c); [discriminate|].
  destruct (split c s); discriminate.
Qed.

Lemma split_head : forall c s t ts, split c s = t :: ts -> exists r, (r = [] \/ hd 0 r = c) /\ s = t ++ r.
Proof.
  induction s as [|x s IH]; intros t ts H; cbn [split] in H.
  - injection H as <- <-. exists []. auto.
  - destruct (x =? c) eqn:E.
    + injection H as <- <-. exists (x :: s). split; [right; cbn; lia|reflexivity].
    + destruct (split c s) as [|t' ts'] eqn:S.
      * exfalso. exact (split_nonempty c s S).
      * injection H as <- <-. destruct (IH t' ts' eq_refl) as [r [R ->]]. exists r. split; [exact R|reflexivity].
Qed.

Theorem only : forall m, exists es, on_control_socket_fd m = Some es /\
  forall e, In e es -> es = [e] /\ exists d t, m = Some d /\ text_of (firstn 127 d) t /\ commanded t (word e) /\ fits t e.
Proof.
  intros [d|]; [|exists []; split; [reflexivity|intros e []]].
  set (t := upto (firstn 127 d)). assert (T : text_of (firstn 127 d) t) by (apply text_of_upto; reflexivity).
  assert (K : forall e, commanded t (word e) -> fits t e -> forall e', In e' [e] -> [e] = [e'] /\ exists d0 t0, Some d = Some d0 /\ text_of (firstn 127 d0) t0 /\ commanded t0 (word e') /\ fits t0 e').
  { intros e C Ft e' [<-|[]]. split; [reflexivity|]. exists d, t. auto. }
  unfold on_control_socket_fd, get_action. fold t.
  destruct (strsep 61 t) as [w o] eqn:S. pose proof (strsep_word _ _ _ _ S) as W.
  pose proof (proj2 (strsep_inv _ _ _ _ S)) as V.
  destruct (streq w (txt "exit")) eqn:E; [apply streq_iff in E; subst w; exists [Exit]; split; [reflexivity|apply K; [exact W|exact I]]|clear E].
  destruct (streq w (txt "logrotate")) eqn:E; [apply streq_iff in E; subst w; exists [LogRotate]; split; [reflexivity|apply K; [exact W|exact I]]|clear E].
  destruct (streq w (txt "stepclocks")) eqn:E; [apply streq_iff in E; subst w; exists [StepClocks]; split; [reflexivity|apply K; [exact W|exact I]]|clear E].
  destruct (streq w (txt "dumptables")) eqn:E; [apply streq_iff in E; subst w; exists [DumpTables]; split; [reflexivity|apply K; [exact W|exact I]]|clear E].
  destruct (streq w (txt "selectinstance")) eqn:E.
  { apply streq_iff in E. subst w. destruct o as [o|]; [|exists []; split; [reflexivity|intros e []]].
    eexists. split; [reflexivity|]. apply K; [exact W|]. destruct (strsep 61 o) as [n o'] eqn:S2. cbn [fst].
    assert (exists r, o = n ++ r) as [r R].
    { destruct (strsep_word _ _ _ _ S2) as [X|[r X]]; [exists []; rewrite app_nil_r; exact X|eexists; exact X]. }
    split; [rewrite firstn_length; lia|]. exists (skipn 63 n ++ r). rewrite (app_assoc (firstn 63 n)), firstn_skipn, <- R. exact V. }
  clear E. destruct (streq w (txt "testmode")) eqn:E.
  { apply streq_iff in E. subst w. destruct o as [o|]; cbn [tokens]; [|exists []; split; [reflexivity|intros e []]].
    destruct (split 44 o) as [|n ts] eqn:SP; [exists []; split; [reflexivity|intros e []]|].
    destruct (find_mode n test_modes 0) as [id|] eqn:FM; [|exists []; split; [reflexivity|intros e []]].
    destruct (test_params 3 ts) as [ps|] eqn:TP; [|exists []; split; [reflexivity|intros e []]].
    destruct (test_params_shape _ _ _ TP) as [PL PR].
    destruct ps as [|p0 [|p1 [|p2 [|]]]]; try discriminate PL. exists [TestMode id p0 p1 p2]. split; [reflexivity|].
    apply K; [exact W|]. cbn [fits]. split; [|repeat split; apply PR; cbn; auto].
    destruct (split_head _ _ _ _ SP) as [r [R1 R2]]. exists n, r. split; [apply find_mode_tests, FM|]. split; [exact R1|].
    rewrite <- R2. exact V. }
  clear E. destruct (streq w (txt "pid_adjust")) eqn:E; [|exists []; split; [reflexivity|intros e []]].
  apply streq_iff in E. subst w. cbv zeta.
  destruct (keywords (skipn 3 (tokens 44 o)) 0 false) as [[mask reset]|] eqn:KW; [|exists []; split; [reflexivity|intros e []]].
  apply keywords_range in KW; [|lia]. eexists. split; [reflexivity|]. apply K; [exact W|]. cbn [fits].
  destruct (mask =? 0) eqn:M; lia.
Qed.
