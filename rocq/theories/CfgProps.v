(** C35: the scope of options in configuration files. *)
Require Import ZArith Lia List Bool Arith.
Require Import Verif.Base Verif.ListLib Verif.StrSpec Verif.TokSpec Verif.TokModel Verif.TokProof Verif.CfgSpec Verif.CfgModel Verif.CfgProof.
Import ListNotations.
Open Scope Z_scope.

(** If a file is accepted, then every line reads as an entry, every option stands in a
    section that has it, every section named exists, and
    - the settings of a global section are the built-in ones and then its options in order,
    - those of an instance are the built-in ones and then the options of its global section
      and its own in the order of the file, wherever in the file the instance was declared,
    - the instances are those declared, or crny0 made because a general section ended before
      any declaration of crny. *)
Theorem C35_settings : forall S table valid implicit (boot : list (section S)) ls c, boot_ok boot ->
  parse_tokens S table valid implicit boot ls = Some (c, 0) ->
  exists es, Forall2 reads ls es /\ inside false es /\
    (forall n, In (Section n) es -> exists x, In x (c_secs S c) /\ s_name x = n) /\
    NoDup (map s_name (c_secs S c)) /\
    (forall st, In st (stanzas None es) -> exists x, In x (c_secs S c) /\ s_name x = st_sec st /\ allowed table x st) /\
    (forall g, In g boot -> exists x, In x (c_secs S c) /\ s_name x = s_name g /\ s_cat x = s_cat g /\ s_global x = true) /\
    (forall x, In x (c_secs S c) -> s_global x = true -> (exists g, In g boot /\ s_name g = s_name x) /\ settings table boot (stanzas None es) x) /\
    (forall x, In x (c_secs S c) -> s_global x = false ->
       (settings table boot (stanzas None es) x /\
        exists g ns, In g boot /\ s_cat g = s_cat x /\ s_allows g = true /\ In (s_name x) ns /\ declared table (c_secs S c) (stanzas None es) g ns) \/
       (s_cat x = CRNY /\ s_name x = crny0_name /\
        exists g s1 s2, In g boot /\ s_cat g = CRNY /\ stanzas None es = s1 ++ s2 /\
          (forall ns, ~ declared table (c_secs S c) s1 g ns) /\
          s_set x = effective (options table CRNY) (s_name g) (s_name x) s2
                      (implicit (effective (options table CRNY) (s_name g) (s_name g) s1 (s_set g))))).
Proof.
  intros S table valid implicit boot ls c HB H. destruct (tokens_ok S table valid implicit boot HB ls c H) as [es [A [B [I [D F]]]]].
  exists es. split; [assumption|]. split; [assumption|]. split; [intros n Hn; apply D in Hn; apply in_map_iff in Hn as [x [E1 E2]]; exists x; split; assumption|].
  split; [apply (i_names _ _ _ _ _ _ I)|]. split; [exact (i_stanzas _ _ _ _ _ _ I)|].
  split; [intros g Hg; destruct (boot_global S table implicit boot HB c _ g I Hg) as [x [X1 [[X2 [X3 [X4 X5]]] X6]]]; exists x; repeat split; congruence|].
  split.
  - intros x Hx Hg. split; [|exact (i_global _ _ _ _ _ _ I x Hx Hg)].
    destruct (global_boot S table implicit boot c _ x I Hx Hg) as [g [G1 [_ [_ [_ G2]]]]]. exists g. split; assumption.
  - intros x Hx Hg. destruct (i_inst _ _ _ _ _ _ I x Hx Hg) as [P|[P1 [P2 [P3 P4]]]]; [left; exact P|right]. split; [assumption|]. split; [assumption|]. exact P4.
Qed.
Print Assumptions C35_settings.

(** Every declared instance exists in the accepted configuration; and once a general section
    has been closed, there is a declaration of crny or an instance crny0 of it. *)
Theorem C35_instances : forall S table valid implicit (boot : list (section S)) ls es c, boot_ok boot ->
  parse_tokens S table valid implicit boot ls = Some (c, 0) -> Forall2 reads ls es ->
  (forall g ns n, In g boot -> declared table (c_secs S c) (stanzas None es) g ns -> In n ns ->
     exists x, In x (c_secs S c) /\ s_name x = n /\ s_cat x = s_cat g /\ s_global x = false) /\
  (forall n x, In (Section n) es -> In x (c_secs S c) -> s_name x = n -> valid (s_cat x) = VGeneral S ->
     (exists g ns, In g boot /\ s_name g = crny_name /\ declared table (c_secs S c) (stanzas None es) g ns) \/
     (exists y, In y (c_secs S c) /\ s_name y = crny0_name /\ s_cat y = CRNY /\ s_global y = false)).
Proof.
  intros S table valid implicit boot ls es c HB H R. destruct (tokens_ok S table valid implicit boot HB ls c H) as [es' [A [B [I [D F]]]]].
  assert (es' = es). { clear - A R. revert es R. induction A as [|l e ls es' H A IH]; intros es R; inversion R; subst; [reflexivity|]. f_equal; [eapply reads_fun; eassumption|apply IH; assumption]. }
  subst es'. split; [exact (i_made _ _ _ _ _ _ I)|]. intros n x Hn Hx En Hv.
  destruct (F n x Hn Hx En Hv) as [g [G1 [G2 [G3 [Hd|[j [y [Y1 [Y2 [Y3 Y4]]]]]]]]]].
  - left. rewrite <- G3 in Hd. apply (i_decl _ _ _ _ _ _ I g G1) in Hd as [ns Hd]. exists g, ns. repeat (split; [assumption|]). exact Hd.
  - right. exists y. split; [eapply nth_error_In; eassumption|]. repeat split; assumption.
Qed.
Print Assumptions C35_instances.

(** Lines that must be rejected are, with the right code, wherever they are in the file. *)
Lemma parse_lines_app : forall S table valid implicit pre c cur l,
  parse_lines S table valid implicit c cur (pre ++ l) =
  (do r <- parse_lines S table valid implicit c cur pre;
   let '((c', cur'), rc) := r in if negb (rc =? 0) then Some ((c', cur'), rc) else parse_lines S table valid implicit c' cur' l).
Proof.
  induction pre as [|p pre IH]; intros c cur l; [reflexivity|]. cbn [app parse_lines].
  destruct (parse_line S table valid implicit c cur p) as [[[c1 cur1] rc]|]; [|reflexivity]. cbn [bind].
  destruct (negb (rc =? 0)) eqn:E; [cbn [bind]; rewrite E; reflexivity|apply IH].
Qed.
Lemma current_last : forall es cn, last_section cn es = current cn es.
Proof. induction es as [|[| |] es IH]; intros; cbn; auto. Qed.

Section Rejects.
Variables (S : Type) (table : nat -> option (list (opt S))) (valid : nat -> validator S) (implicit : S -> S) (boot : list (section S)).
Hypothesis HB : boot_ok boot.
Variables (pre : list (list word)) (es : list entry) (c : cfg S) (cur : option nat).
Hypothesis Hpre : parse_lines S table valid implicit (mkCfg S boot []) None pre = Some ((c, cur), 0).
Hypothesis Hes : Forall2 reads pre es.

Lemma rejects_step : forall l post c' cur' rc, parse_line S table valid implicit c cur l = Some ((c', cur'), rc) -> rc <> 0 ->
  parse_tokens S table valid implicit boot (pre ++ l :: post) = Some (c', rc).
Proof.
  intros l post c' cur' rc H Hrc. apply Z.eqb_neq in Hrc. unfold parse_tokens. rewrite parse_lines_app, Hpre. cbn [bind negb Z.eqb parse_lines]. rewrite H. cbn [bind]. rewrite Hrc. cbn [negb bind]. rewrite Hrc. reflexivity.
Qed.

Lemma cur_of : forall n x, current None es = Some n -> In x (c_secs S c) -> s_name x = n -> exists i, cur = Some i /\ nth_error (c_secs S c) i = Some x.
Proof.
  intros n x En Hx Hn. destruct (lines_ok S table valid implicit boot HB pre (mkCfg S boot []) None [] None c cur (inv_boot S table implicit boot HB) I Hpre) as [es' [A [B [C _]]]].
  assert (es' = es). { revert A Hes. clear. intros A. revert es. induction A as [|l e ls es' H A IH]; intros es R; inversion R; subst; [reflexivity|]. f_equal; [eapply reads_fun; eassumption|apply IH; assumption]. }
  subst es'. rewrite current_last, En in C. destruct cur as [i|]; [|destruct C]. destruct C as [y [Hy Hyn]]. exists i. split; [reflexivity|].
  replace x with y; [assumption|]. apply (In_name_eq S (c_secs S c)); [apply (i_names _ _ _ _ _ _ B)|eapply nth_error_In; eassumption|assumption|congruence].
Qed.
Lemma cur_none : current None es = None -> cur = None.
Proof.
  intros En. destruct (lines_ok S table valid implicit boot HB pre (mkCfg S boot []) None [] None c cur (inv_boot S table implicit boot HB) I Hpre) as [es' [A [B [C _]]]].
  assert (es' = es). { revert A Hes. clear. intros A. revert es. induction A as [|l e ls es' H A IH]; intros es R; inversion R; subst; [reflexivity|]. f_equal; [eapply reads_fun; eassumption|apply IH; assumption]. }
  subst es'. rewrite current_last, En in C. destruct cur; [destruct C|reflexivity].
Qed.

Theorem C35_rejects_sec :
  (forall l post, (forall e, ~ reads l e) -> parse_tokens S table valid implicit boot (pre ++ l :: post) = Some (c, EINVAL)) /\
  (forall l post n ps, reads l (Stanza n ps) -> current None es = None ->
     parse_tokens S table valid implicit boot (pre ++ l :: post) = Some (c, EINVAL)) /\
  (forall l post n, reads l (Section n) -> ~ In n (map s_name (c_secs S c)) ->
     (forall m x, current None es = Some m -> In x (c_secs S c) -> s_name x = m -> valid (s_cat x) = VNone S /\ table (s_cat x) <> None) ->
     parse_tokens S table valid implicit boot (pre ++ l :: post) = Some (c, ENOENT)) /\
  (forall l post n ps m x t, reads l (Stanza n ps) -> current None es = Some m -> In x (c_secs S c) -> s_name x = m -> table (s_cat x) = Some t ->
     (lookup t n = None -> parse_tokens S table valid implicit boot (pre ++ l :: post) = Some (c, ENOENT)) /\
     (forall o, lookup t n = Some o -> o_global_only o = true -> s_global x = false ->
        parse_tokens S table valid implicit boot (pre ++ l :: post) = Some (c, EINVAL)) /\
     (forall o, lookup t n = Some o -> ~ arity_ok (o_arity o) (length ps) ->
        parse_tokens S table valid implicit boot (pre ++ l :: post) = Some (c, EINVAL)) /\
     (forall o f, lookup t n = Some o -> o_parse o = Some f -> snd (f (s_set x) ps) <> 0 -> (o_global_only o = true -> s_global x = true) ->
        arity_ok (o_arity o) (length ps) ->
        exists c', parse_tokens S table valid implicit boot (pre ++ l :: post) = Some (c', snd (f (s_set x) ps)))).
Proof.
  split; [|split; [|split]].
  - intros l post Hl. destruct l as [|w ps]; [exfalso; apply (Hl Blank); constructor|].
    apply (rejects_step _ _ c cur EINVAL); [|discriminate]. cbn [parse_line]. rewrite convert_dashes_eq. cbv zeta.
    destruct (line_cases w ps) as [[Bad _]|[_ [[n [_ Hr]]|[_ Hr]]]]; [rewrite Bad; reflexivity|exfalso; eapply Hl; eassumption|exfalso; eapply Hl; eassumption].
  - intros l post n ps Hl Hn. apply cur_none in Hn. apply (rejects_step _ _ c cur EINVAL); [|discriminate].
    rewrite Hn. destruct l as [|w qs]; [inversion Hl|]. cbn [parse_line]. rewrite convert_dashes_eq. cbv zeta.
    destruct (line_cases w qs) as [[_ Bad]|[Ok [[m [_ Hr]]|[En Hr]]]]; [exfalso; eapply Bad; eassumption|pose proof (reads_fun _ _ _ Hl Hr); discriminate|].
    rewrite Ok, En. reflexivity.
  - intros l post n Hl Hn Hv. assert (V : match cur with Some i => validate S table valid implicit c i | None => Some (c, 0) end = Some (c, 0)).
    { destruct (current None es) as [m|] eqn:Em.
      - destruct (lines_ok S table valid implicit boot HB pre (mkCfg S boot []) None [] None c cur (inv_boot S table implicit boot HB) I Hpre) as [es' [A [B [C _]]]].
        assert (es' = es). { revert A Hes. clear. intros A. revert es. induction A as [|l e ls es' H A IH]; intros es R; inversion R; subst; [reflexivity|]. f_equal; [eapply reads_fun; eassumption|apply IH; assumption]. }
        subst es'. rewrite current_last, Em in C. destruct cur as [i|]; [|destruct C]. destruct C as [y [Hy Hyn]].
        destruct (Hv m y eq_refl ltac:(eapply nth_error_In; eassumption) Hyn) as [V1 V2]. unfold validate. rewrite Hy. cbn [bind].
        destruct (table (s_cat y)); [|contradiction]. cbn [bind]. rewrite V1. reflexivity.
      - rewrite (cur_none Em). reflexivity. }
    apply (rejects_step _ _ c None ENOENT); [|discriminate]. destruct l as [|w qs]; [inversion Hl|]. cbn [parse_line]. rewrite convert_dashes_eq. cbv zeta.
    destruct (line_cases w qs) as [[_ Bad]|[Ok [[m [En Hr]]|[_ Hr]]]]; [exfalso; eapply Bad; eassumption| |pose proof (reads_fun _ _ _ Hl Hr); discriminate].
    rewrite Ok, En, V. cbn [bind negb Z.eqb]. pose proof (reads_fun _ _ _ Hl Hr) as E. inversion E; subst m.
    unfold cfg_find. destruct (find_from S 0 (c_secs S c) n) as [k|] eqn:Ef; [|reflexivity].
    destruct (cfg_find_some S table valid c n k Ef) as [y [Hy Hyn]]. exfalso. apply Hn. apply in_map_iff. exists y. split; [assumption|eapply nth_error_In; eassumption].
  - intros l post n ps m x t Hl Em Hx Hxn Ht. destruct (cur_of m x Em Hx Hxn) as [i [Ecur Hi]].
    assert (P : forall c' rc, parse_option S table c i n ps = Some (c', rc) -> rc <> 0 ->
       parse_tokens S table valid implicit boot (pre ++ l :: post) = Some (c', rc)).
    { intros c' rc Ho Hrc. apply (rejects_step _ _ c' cur rc); [|assumption]. rewrite Ecur. destruct l as [|w qs]; [inversion Hl|]. cbn [parse_line]. rewrite convert_dashes_eq. cbv zeta.
      destruct (line_cases w qs) as [[_ Bad]|[Ok [[m' [_ Hr]]|[En Hr]]]]; [exfalso; eapply Bad; eassumption|pose proof (reads_fun _ _ _ Hl Hr); discriminate|].
      rewrite Ok, En. pose proof (reads_fun _ _ _ Hl Hr) as E. inversion E; subst. rewrite Ho. reflexivity. }
    unfold parse_option in P. rewrite Hi in P. cbn [bind] in P. rewrite Ht, opt_find_lookup in P.
    split; [|split; [|split]].
    + intros Hlk. apply P; [rewrite Hlk; reflexivity|discriminate].
    + intros o Hlk Hg Hsg. apply P; [rewrite Hlk, Hg, Hsg; reflexivity|discriminate].
    + intros o Hlk Ha. apply P; [rewrite Hlk|discriminate]. destruct (o_global_only o && negb (s_global x)); [reflexivity|].
      destruct (bad_arity (o_arity o) (length ps)) eqn:Eb; [reflexivity|]. exfalso. apply Ha. apply (proj1 (bad_arity_false S table valid _ _)). assumption.
    + intros o f Hlk Hf Hrc Hg Ha. rewrite Hlk in P. replace (o_global_only o && negb (s_global x)) with false in P
        by (destruct (o_global_only o); [rewrite (Hg eq_refl)|]; reflexivity).
      apply (proj2 (bad_arity_false S table valid _ _)) in Ha. rewrite Ha, Hf in P. destruct (f (s_set x) ps) as [v rc]. cbn [snd] in *.
      eexists. apply P; [|assumption]. apply Z.eqb_neq in Hrc. rewrite Hrc. reflexivity.
Qed.
End Rejects.

(** Whatever follows: a line that is no entry, an option outside any section, an unknown
    section or option, an instance-level use of a global option, a wrong number of
    parameters, and parameters an option refuses, stop the parsing with an error. *)
Theorem C35_rejects : forall S table valid implicit (boot : list (section S)) pre es c cur,
  boot_ok boot -> parse_lines S table valid implicit (mkCfg S boot []) None pre = Some ((c, cur), 0) -> Forall2 reads pre es ->
  (forall l post, (forall e, ~ reads l e) -> parse_tokens S table valid implicit boot (pre ++ l :: post) = Some (c, EINVAL)) /\
  (forall l post n ps, reads l (Stanza n ps) -> current None es = None ->
     parse_tokens S table valid implicit boot (pre ++ l :: post) = Some (c, EINVAL)) /\
  (forall l post n, reads l (Section n) -> ~ In n (map s_name (c_secs S c)) ->
     (forall m x, current None es = Some m -> In x (c_secs S c) -> s_name x = m -> valid (s_cat x) = VNone S /\ table (s_cat x) <> None) ->
     parse_tokens S table valid implicit boot (pre ++ l :: post) = Some (c, ENOENT)) /\
  (forall l post n ps m x t, reads l (Stanza n ps) -> current None es = Some m -> In x (c_secs S c) -> s_name x = m -> table (s_cat x) = Some t ->
     (lookup t n = None -> parse_tokens S table valid implicit boot (pre ++ l :: post) = Some (c, ENOENT)) /\
     (forall o, lookup t n = Some o -> o_global_only o = true -> s_global x = false ->
        parse_tokens S table valid implicit boot (pre ++ l :: post) = Some (c, EINVAL)) /\
     (forall o, lookup t n = Some o -> ~ arity_ok (o_arity o) (length ps) ->
        parse_tokens S table valid implicit boot (pre ++ l :: post) = Some (c, EINVAL)) /\
     (forall o f, lookup t n = Some o -> o_parse o = Some f -> snd (f (s_set x) ps) <> 0 -> (o_global_only o = true -> s_global x = true) ->
        arity_ok (o_arity o) (length ps) ->
        exists c', parse_tokens S table valid implicit boot (pre ++ l :: post) = Some (c', snd (f (s_set x) ps)))).
Proof. intros S table valid implicit boot pre es c cur HB Hp He. exact (C35_rejects_sec S table valid implicit boot HB pre es c cur Hp He). Qed.
Print Assumptions C35_rejects.

(** A file of ordinary lines is parsed as the words its lines spell. *)
Theorem C35_text : forall S table valid implicit (boot : list (section S)) ls wss,
  Forall2 (fun l ws => is_string l /\ line l ws /\ (length ws <= 64)%nat /\ (length l < 1024)%nat /\ exists b, l = b ++ [10] /\ ~ In 10 b) ls wss ->
  parse_file S table valid implicit boot (concat ls) = parse_tokens S table valid implicit boot wss.
Proof.
  intros S table valid implicit boot ls wss F. unfold parse_file. change (1024 - 2)%nat with 1022%nat. rewrite fgets_all.
  - replace (all_tokens ls) with (Some wss); [reflexivity|]. symmetry.
    induction F as [|l ws ls wss [A [B [C _]]] F IH]; [reflexivity|]. cbn [all_tokens]. rewrite (line_tokens_line l ws A B C). cbn [bind]. rewrite IH. reflexivity.
  - induction F as [|l ws ls wss [A [B [C [D [b [E G]]]]]] F IH]; constructor; [exists b; repeat split; assumption|assumption].
Qed.
Print Assumptions C35_text.

(** Splitting a file into lines and words never fails, whatever the bytes. *)
Theorem C35_tokenized : forall f, exists wss, all_tokens (fgets_lines 1022 1024 [] f) = Some wss.
Proof. intros f. destruct (all_tokens_total (fgets_lines 1022 1024 [] f)) as [w [A _]]. exists w. assumption. Qed.
Print Assumptions C35_tokenized.

(** No file makes the parser abort, provided that whether an option accepts its parameters
    does not depend on earlier settings; there is some section or option; the general section
    appears once; and no option names crny0.  (The other conditions are of the program's
    tables.)  All are needed: see below. *)
Theorem C35_no_abort_partial : forall S table valid implicit (boot : list (section S)) gen crny ls, boot_ok boot ->
  (forall k t o f, table k = Some t -> lookup t (o_name o) = Some o -> o_parse o = Some f -> forall s s' ps, snd (f s ps) = snd (f s' ps)) ->
  (forall b, In b boot -> table (s_cat b) <> None) ->
  (forall k t o, table k = Some t -> lookup t (o_name o) = Some o -> o_parse o = None -> ~ arity_ok (o_arity o) 0) ->
  (In gen boot /\ s_allows gen = false /\ s_cat gen <> CRNY /\ (forall k, valid k = VGeneral S -> k = s_cat gen)) ->
  (In crny boot /\ s_name crny = crny_name /\ s_cat crny = CRNY) ->
  ~ In crny0_name (map s_name boot) ->
  (length (filter (is_header (s_name gen)) ls) <= 1)%nat ->
  (forall l, In l ls -> ~ In crny0_name (tl l)) ->
  (exists l, In l ls /\ l <> []) ->
  parse_tokens S table valid implicit boot ls <> None.
Proof.
  intros S table valid implicit boot gen crny ls HB H1 H2 H3 H4 H5 H6 H7 H8 H9.
  exact (tokens_total S table valid implicit boot HB H1 H2 H3 gen crny H4 H5 H6 ls H7 H8 H9).
Qed.
Print Assumptions C35_no_abort_partial.

(** *** A small program: general, ptp and crny; the settings are the values given. *)
Definition vals := list (list word).
Definition w_general : word := [103;101;110;101;114;97;108].
Definition w_ptp : word := [112;116;112].
Definition w_ptp1 : word := [112;116;112;49].
Definition w_iface : word := [105;110;116;101;114;102;97;99;101].
Definition w_sync : word := [115;121;110;99;95;109;111;100;117;108;101].
Definition w_mon : word := [109;111;110].
Definition hdr (n : word) : list word := [OPEN :: n ++ [CLOSE]].
Definition set_val (s : vals) (ps : list word) : vals * Z := (s ++ [ps], 0).
(** Like mon_monitor_address: at most two values are kept. *)
Definition set_two (s : vals) (ps : list word) : vals * Z := if (length s <? 2)%nat then (s ++ [ps], 0) else (s, 7).
Definition ex_boot : list (section vals) :=
  [mkSec 0%nat true false w_general []; mkSec 2%nat true true w_ptp []; mkSec CRNY true true crny_name []].
Definition ex_table (k : nat) : option (list (opt vals)) :=
  if (k =? 0)%nat then Some [mkOpt w_sync true (-2) None]
  else if (k =? 2)%nat then Some [mkOpt w_iface false 1 (Some set_val)]
  else if (k =? CRNY)%nat then Some [] else None.
Definition ex_table2 (k : nat) : option (list (opt vals)) :=
  if (k =? 2)%nat then Some [mkOpt w_mon false (-2) (Some set_two)] else ex_table k.
Definition ex_valid (k : nat) : validator vals := if (k =? 0)%nat then VGeneral vals else VNone vals.
Definition ex_parse := parse_tokens vals ex_table ex_valid (fun s => s) ex_boot.
Definition eth (n : Z) : word := [101;116;104;n].
Definition ex_file : list (list word) :=
  [hdr w_general; [w_sync; w_ptp; w_ptp1]; hdr w_ptp; [w_iface; eth 48]; []; hdr w_ptp1; [w_iface; eth 49]; hdr w_ptp; [w_iface; eth 50]].

Example C35_ex : exists c, ex_parse ex_file = Some (c, 0) /\
  map (fun x => (s_name x, s_set x)) (c_secs vals c) =
  [(w_general, []); (w_ptp, [[eth 48]; [eth 50]]); (crny_name, []); (w_ptp1, [[eth 48]; [eth 49]; [eth 50]]); (crny0_name, [])].
Proof. eexists. split; [vm_compute; reflexivity|vm_compute; reflexivity]. Qed.
Example C35_boot_ex : boot_ok ex_boot.
Proof. repeat split; repeat constructor; cbn; intuition discriminate. Qed.
Example C35_reject_ex : ex_parse [hdr w_ptp; [w_sync; w_ptp; w_ptp1]] = Some (mkCfg vals ex_boot [], ENOENT) /\
  ex_parse [[w_iface; eth 48]] = Some (mkCfg vals ex_boot [], EINVAL) /\ ex_parse [hdr w_ptp1] = Some (mkCfg vals ex_boot [], ENOENT) /\
  ex_parse [hdr w_ptp; [w_iface]] = Some (mkCfg vals ex_boot [], EINVAL).
Proof. repeat split. Qed.
Example C35_no_abort_ex : ex_parse ex_file <> None.
Proof.
  apply (C35_no_abort_partial vals ex_table ex_valid (fun s => s) ex_boot (mkSec 0%nat true false w_general []) (mkSec CRNY true true crny_name []) ex_file C35_boot_ex).
  - intros k t o f Ht Hl Hf s s' ps. unfold ex_table in Ht. destruct (k =? 0)%nat; [|destruct (k =? 2)%nat; [|destruct (k =? CRNY)%nat; [|discriminate]]]; inversion Ht; subst t; clear Ht.
    + unfold lookup in Hl. cbn [find] in Hl. destruct (word_dec _ _); [|discriminate]. injection Hl as Hl; subst o. discriminate.
    + unfold lookup in Hl. cbn [find] in Hl. destruct (word_dec _ _); [|discriminate]. injection Hl as Hl; subst o. inversion Hf. reflexivity.
    + discriminate.
  - intros b [<-|[<-|[<-|[]]]]; discriminate.
  - intros k t o Ht Hl Hf. unfold ex_table in Ht. destruct (k =? 0)%nat; [|destruct (k =? 2)%nat; [|destruct (k =? CRNY)%nat; [|discriminate]]]; inversion Ht; subst t; clear Ht.
    + unfold lookup in Hl. cbn [find] in Hl. destruct (word_dec _ _); [|discriminate]. injection Hl as Hl; subst o. intros [_ H]. cbn in H. lia.
    + unfold lookup in Hl. cbn [find] in Hl. destruct (word_dec _ _); [|discriminate]. injection Hl as Hl; subst o. discriminate.
    + discriminate.
  - split; [left; reflexivity|]. split; [reflexivity|]. split; [discriminate|]. intros k. unfold ex_valid. destruct (k =? 0)%nat eqn:E; [|discriminate]. intros _. apply Nat.eqb_eq in E. assumption.
  - split; [right; right; left; reflexivity|]. split; reflexivity.
  - cbn. intuition discriminate.
  - vm_compute. repeat constructor.
  - intros l Hl. cbn in Hl. repeat (destruct Hl as [<-|Hl]; [cbn; intuition discriminate|]). destruct Hl.
  - exists (hdr w_ptp). split; [right; right; left; reflexivity|discriminate].
Qed.

(** *** What is false.  "Every file is either accepted or refused with an error". *)
(** A file with no section at all (an empty one, or comments only) dereferences null,
    sfptpd_config.c:891. *)
Theorem C35_empty_refuted : forall S table valid implicit (boot : list (section S)) ls, Forall (fun l => l = []) ls ->
  parse_tokens S table valid implicit boot ls = None.
Proof.
  intros S table valid implicit boot ls H. unfold parse_tokens.
  assert (E : parse_lines S table valid implicit (mkCfg S boot []) None ls = Some ((mkCfg S boot [], None), 0)).
  { induction H as [|l ls -> H IH]; [reflexivity|exact IH]. }
  rewrite E. reflexivity.
Qed.
Print Assumptions C35_empty_refuted.
(** Two general sections, or an instance of another module named crny0, without a
    declaration of crny: assertion failure, sfptpd_config.c:537. *)
Theorem C35_general_twice_refuted : exists ls, ls = [hdr w_general; hdr w_ptp; hdr w_general] /\ ex_parse ls = None.
Proof. eexists. split; [reflexivity|reflexivity]. Qed.
Print Assumptions C35_general_twice_refuted.
Theorem C35_crny0_refuted : exists ls, ls = [hdr w_general; [w_sync; w_ptp; crny0_name]] /\ ex_parse ls = None.
Proof. eexists. split; [reflexivity|reflexivity]. Qed.
Print Assumptions C35_crny0_refuted.
(** An option that keeps a bounded number of values (mon_monitor_address keeps six,
    ptp/sfptpd_ptp_config.c:1104-1175): the instance fills up, and the same option in the
    global section then fails the assertion that it applies to the instance, line 389. *)
Theorem C35_bounded_option_refuted : exists ls,
  ls = [hdr w_general; [w_sync; w_ptp; w_ptp1]; hdr w_ptp1; [w_mon; eth 48]; [w_mon; eth 49]; hdr w_ptp; [w_mon; eth 50]] /\
  parse_tokens vals ex_table2 ex_valid (fun s => s) ex_boot ls = None.
Proof. eexists. split; [reflexivity|reflexivity]. Qed.
Print Assumptions C35_bounded_option_refuted.
(** An instance whose name has a dash can be declared but never configured: the name in the
    section header has its dashes changed, the declared one does not. *)
Theorem C35_dash_refuted :
  (exists c, ex_parse [hdr w_general; [w_sync; w_ptp; [97; DASH; 98]]] = Some (c, 0) /\ In [97; DASH; 98] (map s_name (c_secs vals c))) /\
  forall l n, reads l (Section n) -> ~ In DASH n.
Proof.
  split; [eexists; split; [vm_compute; reflexivity|right; right; right; left; reflexivity]|].
  intros l n H Hin. inversion H as [|w' n' ps' E _ _|]; subst. assert (D : In DASH (underscored w')).
  { rewrite E. right. apply in_or_app. left. assumption. }
  unfold underscored in D. apply in_map_iff in D as [x [E2 _]]. destruct (x =? DASH) eqn:Ex; [discriminate|]. apply Z.eqb_neq in Ex. congruence.
Qed.
Print Assumptions C35_dash_refuted.
(** The tail of a comment longer than the line buffer is read as a new line. *)
Theorem C35_long_comment_refuted : exists f w, f = 35 :: repeat 120 1022 ++ w ++ [10] /\ ~ In 10 w /\
  exists wss, all_tokens (fgets_lines 1022 1024 [] f) = Some ([] :: wss) /\ wss = [[w]].
Proof.
  eexists. exists (OPEN :: w_ptp ++ [CLOSE]). split; [reflexivity|]. split; [cbn; intuition discriminate|].
  eexists. split; [vm_compute; reflexivity|reflexivity].
Qed.
Print Assumptions C35_long_comment_refuted.
