(** C62: taking the clock away from chronyd and giving it back edits its environment files
    and nothing else in them.  Vocabulary in CevSpec.v. *)
Require Import ZArith List Bool String Lia.
Require Import Verif.Base Verif.ListLib Verif.CevSpec Verif.CevModel Verif.CevProof Verif.CevProof2.
Import ListNotations.
Open Scope Z_scope.

(** Every file has exactly one reading: which lines are outside sfptpd's sections, and which
    value of the options is in force there. *)
Theorem C62_readings :
  (forall ls, exists u, outside ls u /\ forall w, outside ls w -> w = u) /\
  (forall key u, KEYS key -> exists v, in_force key u v /\ forall w, in_force key u w -> w = v).
Proof.
  split.
  - intros ls. exists (go None ls). split; [apply go_outside|]. intros w W. symmetry. apply outside_go, W.
  - intros key u K. exists (val_after key None u). split; [apply in_force_val; [apply keys_ok, K|reflexivity]|].
    intros w W. apply in_force_val in W; [exact W|apply keys_ok, K].
Qed.
Print Assumptions C62_readings.

Definition ex_lines : list line :=
  [txt "# Command-line options"; txt "OPTIONS=""-F 2"" # seccomp"; txt "OTHER=1"].

Lemma ex_ok : forall ls : list line,
  forallb (forallb (fun c => negb (c =? 0) && negb (c =? 10))) ls = true -> Forall line_ok ls.
Proof.
  intros ls H. apply Forall_forall. intros l L c C. rewrite forallb_forall in H. specialize (H l L).
  rewrite forallb_forall in H. specialize (H c C). unfold NEWLINE. lia.
Qed.

Lemma ex_clean : forall ls : list line, forallb (fun l => negb (starts START l)) ls = true -> clean ls.
Proof.
  intros ls H l L. apply starts_false. rewrite forallb_forall in H. specialize (H l L). destruct (starts START l); [discriminate|reflexivity].
Qed.

Example C62_readings_ex :
  in_force (txt "OPTIONS") ex_lines (Some (txt "-F 2")) /\ outside ex_lines ex_lines /\
  outside (ex_lines ++ section (txt "OPTIONS") None ++ [txt "X=2"]) (ex_lines ++ [txt "X=2"]).
Proof.
  split; [apply in_force_val; [apply keys_ok; left; reflexivity|vm_compute; reflexivity]|].
  split.
  - assert (E : go None ex_lines = ex_lines) by (vm_compute; reflexivity). rewrite <- E at 2. apply go_outside.
  - assert (E : go None (ex_lines ++ section (txt "OPTIONS") None ++ [txt "X=2"]) = ex_lines ++ [txt "X=2"]) by (vm_compute; reflexivity).
    rewrite <- E. apply go_outside.
Qed.

(** A request leaves the lines outside sfptpd's sections as they are, removes all sections,
    and, if it takes the clock away, adds one section that sets the options to the value in
    force and -x. *)
Theorem C62_edits : forall key op ls u v,
  KEYS key -> Forall line_ok ls -> outside ls u -> in_force key u v ->
  edit_text key op (text ls) = Some (text (result key op u v)).
Proof.
  intros key op ls u v K L O V. pose proof (keys_ok _ K) as KO. rewrite edit_lines by assumption.
  rewrite (outside_go _ _ O). apply in_force_val in V; [|exact KO]. rewrite <- V. reflexivity.
Qed.
Print Assumptions C62_edits.
Example C62_edits_ex :
  edit_text (txt "OPTIONS") DISABLE (text ex_lines) = Some (txt "# Command-line options
OPTIONS=""-F 2"" # seccomp
OTHER=1
### BEGIN sfptpd ###
OPTIONS=""-F 2 -x""
### END sfptpd ###
") /\ Forall line_ok ex_lines.
Proof. split; [vm_compute; reflexivity|apply ex_ok; vm_compute; reflexivity]. Qed.

(** However often the clock is taken away and given back, the file is the user's, with at
    most one section, as the last request that edits says. *)
Theorem C62_history : forall key ls u v ops,
  KEYS key -> Forall line_ok ls -> outside ls u -> clean u -> in_force key u v ->
  exists f, requests key ops (text ls) = Some f /\
    ((forall op, In op ops -> edits op = false) -> f = text ls) /\
    (forall a op b, ops = a ++ op :: b -> edits op = true -> (forall x, In x b -> edits x = false) ->
       f = text (result key op u v)).
Proof.
  intros key ls u v ops K L O C V.
  assert (U : forall l, In l u -> line_ok l).
  { intros l X. rewrite <- (outside_go _ _ O) in X. rewrite Forall_forall in L. apply L, (proj1 (go_in ls)), X. }
  rewrite (requests_steady key u v K U C V ops ls L O). eexists. split; [reflexivity|].
  assert (NO : forall b w, (forall x, In x b -> edits x = false) ->
    fold_left (fun ls op => if edits op then result key op u v else ls) b w = w).
  { induction b as [|x b IH]; intros w H; [reflexivity|]. cbn [fold_left]. rewrite (H x (or_introl eq_refl)).
    apply IH. intros y Y. apply H. right. exact Y. }
  split.
  - intros H. rewrite NO by exact H. reflexivity.
  - intros a op b -> E H. rewrite fold_left_app. cbn [fold_left]. rewrite E, NO by exact H. reflexivity.
Qed.
Print Assumptions C62_history.
Example C62_history_ex :
  requests (txt "OPTIONS") [SAVE; DISABLE; DISABLE; ENABLE; DISABLE; RESTORE; NOP] (text ex_lines) = Some (text ex_lines) /\
  clean ex_lines.
Proof. split; [vm_compute; reflexivity|apply ex_clean; vm_compute; reflexivity]. Qed.

(** Both files are edited, each with its own key; a file that cannot be opened is left out.
    chronyd is restarted if a file was edited and the request asks for it. *)
Theorem C62_control : forall op f1 f2 g1 g2 sys,
  edits op = true -> edited (txt "OPTIONS") op f1 g1 -> edited (txt "DAEMON_OPTS") op f2 g2 ->
  exists cmds rc, control op f1 f2 sys = Some (g1, g2, cmds, rc) /\
    (cmds = [] <-> op = RESTORENORESTART \/ (missing f1 /\ missing f2)) /\
    (cmds <> [] -> hd NOP (map (fun c => match c with SYSTEMCTL_CHRONYD => ENABLE | _ => NOP end) cmds) = ENABLE /\
                   rc = sys (last cmds SYSTEMCTL_CHRONYD)) /\
    (missing f1 /\ missing f2 -> f2 = OpenFails rc /\ rc > 0) /\
    (cmds = [] -> ~ (missing f1 /\ missing f2) -> rc = 0).
Proof.
  intros op f1 f2 g1 g2 sys E H1 H2.
  assert (ED : forall key f g rc n, KEYS key -> edited key op f g ->
    edit_one key op f rc n = Some (match f with OpenFails e => (g, e, n) | _ => (g, 0, S n) end)).
  { intros key f g rc n K H. destruct H as [ls u v L O V|e P]; cbn [edit_one]; [|reflexivity].
    rewrite (C62_edits key op ls u v K); [reflexivity|apply Forall_forall, L|exact O|exact V]. }
  assert (EE : edit_env op f1 f2 = Some (g1, g2, match f1, f2 with OpenFails _, OpenFails e => e | _, _ => 0 end)).
  { unfold edit_env. change KEY_SYSCONFIG with (txt "OPTIONS"). change KEY_DEFAULT with (txt "DAEMON_OPTS").
    rewrite (ED _ f1 g1 ENOENT 0%nat (or_introl eq_refl) H1).
    destruct H1; cbn [bind]; rewrite (ED _ f2 g2 _ _ (or_intror eq_refl) H2); destruct H2; reflexivity. }
  assert (M1 : missing f1 <-> match f1 with OpenFails _ => True | _ => False end).
  { unfold missing. destruct f1; split; try (intros [x X]; discriminate X); try tauto. intros _. eexists. reflexivity. }
  assert (M2 : missing f2 <-> match f2 with OpenFails _ => True | _ => False end).
  { unfold missing. destruct f2; split; try (intros [x X]; discriminate X); try tauto. intros _. eexists. reflexivity. }
  unfold control. rewrite EE. cbn [bind].
  set (rc0 := match f1, f2 with OpenFails _, OpenFails e => e | _, _ => 0 end).
  assert (R0 : (missing f1 /\ missing f2 /\ f2 = OpenFails rc0 /\ rc0 > 0) \/ (~ (missing f1 /\ missing f2) /\ rc0 = 0)).
  { rewrite M1, M2. unfold rc0. destruct H1, H2; cbn; tauto. }
  clearbody rc0. clear M1 M2 EE ED H1 H2.
  destruct op; try discriminate E.
  all: try (destruct R0 as [[A [B [C D]]]|[A ->]];
    [ replace (rc0 =? 0) with false by lia; cbn [negb];
      exists [], rc0; split; [reflexivity|]; split; [split; [intros _; right; tauto|reflexivity]|];
      split; [congruence|]; split; [intros _; split; assumption|intros _ X; tauto]
    | cbn [Z.eqb negb];
      destruct (sys SYSTEMCTL_CHRONYD =? 127) eqn:C1;
        [destruct (sys SERVICE_CHRONYD =? 4) eqn:C2 | destruct (4 <=? sys SYSTEMCTL_CHRONYD) eqn:C2];
        eexists; eexists; (split; [reflexivity|]);
        (split; [split; [discriminate|intros [X|X]; [discriminate X|tauto]]|]);
        (split; [intros _; split; reflexivity|]); (split; [tauto|discriminate]) ]).
  exists [], rc0. split; [reflexivity|]. split; [split; [intros _; left; reflexivity|reflexivity]|]. split; [congruence|].
  destruct R0 as [[A [B [C D]]]|[A ->]]; (split; [tauto|tauto]).
Qed.
Print Assumptions C62_control.
Example C62_control_ex :
  edited (txt "OPTIONS") DISABLE (OpenFails 2) (OpenFails 2) /\
  edited (txt "DAEMON_OPTS") DISABLE (Present (text [txt "DAEMON_OPTS=-4"]))
    (Present (text ([txt "DAEMON_OPTS=-4"] ++ section (txt "DAEMON_OPTS") (Some (txt "-4"))))) /\
  control DISABLE (OpenFails 2) (Present (text [txt "DAEMON_OPTS=-4"])) (fun _ => 0) =
    Some (OpenFails 2, Present (text ([txt "DAEMON_OPTS=-4"] ++ section (txt "DAEMON_OPTS") (Some (txt "-4")))), [SYSTEMCTL_CHRONYD], 0).
Proof.
  split; [constructor; lia|]. split; [|vm_compute; reflexivity].
  apply (ed_there _ DISABLE [txt "DAEMON_OPTS=-4"] [txt "DAEMON_OPTS=-4"]).
  - apply Forall_forall, ex_ok. vm_compute. reflexivity.
  - apply clean_outside, ex_clean. vm_compute. reflexivity.
  - apply in_force_val; [apply keys_ok; right; reflexivity|vm_compute; reflexivity].
Qed.

(** Requests that ask for nothing do nothing. *)
Theorem C62_idle : forall op f1 f2 sys, edits op = false -> control op f1 f2 sys = Some (f1, f2, [], 0).
Proof. intros op f1 f2 sys E. destruct op; try discriminate E; reflexivity. Qed.
Print Assumptions C62_idle.
Example C62_idle_ex : control SAVE (Present [65]) (OpenFails 2) (fun _ => 1) = Some (Present [65], OpenFails 2, [], 0).
Proof. reflexivity. Qed.

(** If chronyd's service cannot be restarted under one name, the other is tried. *)
Theorem C62_fallback : forall op f1 f2 g1 g2 cmds rc sys,
  control op f1 f2 sys = Some (g1, g2, cmds, rc) -> cmds <> [] ->
  (forall c, exists n, 0 <= n <= 255 /\ sys c = exit_status n) ->
  cmds = if sys SYSTEMCTL_CHRONYD =? exit_status 0 then [SYSTEMCTL_CHRONYD] else [SYSTEMCTL_CHRONYD; SYSTEMCTL_CHRONY].
Proof.
  intros op f1 f2 g1 g2 cmds rc sys H NE X. unfold control in H. destruct (X SYSTEMCTL_CHRONYD) as [n [N1 N2]]. unfold exit_status in *.
  destruct op; try (injection H as _ _ H _; congruence);
    (destruct (edit_env _ f1 f2) as [[[a b] c]|]; [cbn [bind] in H|discriminate H]);
    try (injection H as _ _ H _; congruence);
    (destruct (negb (c =? 0)); [injection H as _ _ H _; congruence|]);
    (destruct (sys SYSTEMCTL_CHRONYD =? 127) eqn:C1; [lia|]);
    (destruct (4 <=? sys SYSTEMCTL_CHRONYD) eqn:C2; injection H as _ _ H _; subst cmds;
     destruct (sys SYSTEMCTL_CHRONYD =? 0 * 256) eqn:C3; try reflexivity; lia).
Qed.
Print Assumptions C62_fallback.
Example C62_fallback_ex : exists g1 g2 rc,
  control ENABLE (Present [65; 10]) (OpenFails 2) (fun c => match c with SYSTEMCTL_CHRONYD => exit_status 5 | _ => 0 end)
  = Some (g1, g2, [SYSTEMCTL_CHRONYD; SYSTEMCTL_CHRONY], rc) /\ rc = 0.
Proof. eexists _, _, _. split; [vm_compute; reflexivity|reflexivity]. Qed.

(** "Without systemctl, chronyd is restarted with service" is false: a shell that does not
    find a command exits with status 127, for which system(3) returns 127 * 256, and the code
    compares with 127 (lines 381-388). *)
Theorem C62_service_refuted : forall op f1 f2 g1 g2 cmds rc sys,
  control op f1 f2 sys = Some (g1, g2, cmds, rc) ->
  (forall c, exists n, 0 <= n <= 255 /\ sys c = exit_status n) -> sys SYSTEMCTL_CHRONYD = exit_status 127 ->
  ~ In SERVICE_CHRONYD cmds /\ ~ In SERVICE_CHRONY cmds.
Proof.
  intros op f1 f2 g1 g2 cmds rc sys H X S. destruct cmds as [|c0 cmds0] eqn:C; [split; intros []|]. rewrite <- C in *.
  assert (NE : cmds <> []) by (rewrite C; discriminate).
  rewrite (C62_fallback _ _ _ _ _ _ _ _ H NE X), S. cbn. split; intros [K|[K|[]]]; discriminate K.
Qed.
Print Assumptions C62_service_refuted.
Example C62_service_ex : exists g1 g2 rc,
  control ENABLE (Present [65; 10]) (OpenFails 2) (fun _ => exit_status 127) = Some (g1, g2, [SYSTEMCTL_CHRONYD; SYSTEMCTL_CHRONY], rc).
Proof. eexists _, _, _. vm_compute. reflexivity. Qed.

(** If sfptpd or the machine stops while the file is being overwritten: giving the clock back
    leaves the old file, section and all (or the new one, after the truncation); taking it
    away leaves at least all of the user's text. *)
Theorem C62_crash : forall key u v w f new,
  KEYS key -> Forall line_ok u -> clean u -> in_force key u v -> (forall x, w = Some x -> line_ok x) ->
  (edit_text key ENABLE (text (u ++ section key w)) = Some new ->
   partway (text (u ++ section key w)) new f -> f = text (u ++ section key w)) /\
  (edit_text key DISABLE (text u) = Some new -> partway (text u) new f ->
   exists j, f = text u ++ firstn j (text (section key v))).
Proof.
  intros key u v w f new K U C V W.
  assert (O1 : outside (u ++ section key w) u).
  { rewrite <- (app_nil_r u) at 2. apply app_outside; [exact C|apply section_outside, K]. }
  assert (L1 : Forall line_ok (u ++ section key w)).
  { apply Forall_app. split; [exact U|]. apply Forall_forall. apply section_ok; assumption. }
  split; intros E [k [KL ->]].
  - rewrite (C62_edits key ENABLE _ u v K L1 O1 V) in E. injection E as <-. cbn [result] in *. rewrite text_app.
    rewrite skipn_app, app_assoc, firstn_skipn. replace (k - List.length (text u))%nat with 0%nat by lia. reflexivity.
  - rewrite (C62_edits key DISABLE _ u v K U (clean_outside u C) V) in E. injection E as <-. cbn [result]. rewrite text_app.
    exists (k - List.length (text u))%nat. rewrite firstn_app, <- app_assoc.
    destruct (Nat.le_gt_cases k (List.length (text u))) as [L|L].
    + replace (k - List.length (text u))%nat with 0%nat by lia. cbn [firstn app]. rewrite app_nil_r. apply firstn_skipn.
    + rewrite firstn_all2 by lia. rewrite (skipn_all2 (text u)) by lia. rewrite app_nil_r. reflexivity.
Qed.
Print Assumptions C62_crash.
Example C62_crash_ex : exists new,
  edit_text (txt "OPTIONS") DISABLE (text ex_lines) = Some new /\ partway (text ex_lines) new (firstn 70 new).
Proof.
  eexists. split; [vm_compute; reflexivity|]. exists 70%nat. split; [cbn; lia|]. vm_compute. reflexivity.
Qed.

(** "A crash leaves the old file or the new one" is false if the user added lines after the
    section: between the flush and the truncation the file holds their lines and then the
    end of the old file. *)
Theorem C62_crash_refuted : exists ls new f,
  Forall line_ok ls /\ edit_text (txt "OPTIONS") ENABLE (text ls) = Some new /\
  partway (text ls) new f /\ f <> text ls /\ f <> new /\
  f = new ++ txt "IN sfptpd ###
OPTIONS=""-x""
### END sfptpd ###
LANG=C
".
Proof.
  exists (section (txt "OPTIONS") None ++ [txt "LANG=C"]), (text [txt "LANG=C"]). eexists.
  split; [apply ex_ok; vm_compute; reflexivity|]. split; [vm_compute; reflexivity|].
  split; [exists 7%nat; split; [cbn; lia|reflexivity]|]. vm_compute. split; [discriminate|]. split; [discriminate|reflexivity].
Qed.
Print Assumptions C62_crash_refuted.

(** A file whose last line has no newline: nothing of it is lost, a newline is added and
    then the section if there is one.  Missing compared with C62_edits: old sections are not
    removed and the value in force is not found (see the refutation), and the file must not
    fill its last page. *)
Theorem C62_unterminated_partial : forall key op f, KEYS key ->
  f <> [] -> ~ In 0 f -> last f 0 <> NEWLINE -> Z.of_nat (List.length f) mod 4096 <> 0 ->
  exists v, edit_text key op f = Some (f ++ [NEWLINE] ++ text (result key op [] v)).
Proof.
  intros key op f K NE Z L P. rewrite edit_unterminated; [|exact NE|intros c C ->; exact (Z C)|exact L].
  destruct (List.length f mod PAGE =? 0)%nat eqn:M; [|eexists; reflexivity].
  exfalso. apply P. apply Nat.eqb_eq in M. change 4096 with (Z.of_nat PAGE). rewrite <- Nat2Z.inj_mod, M. reflexivity.
Qed.
Print Assumptions C62_unterminated_partial.
Example C62_unterminated_ex :
  edit_text (txt "OPTIONS") DISABLE (txt "OPTIONS=-4") = Some (txt "OPTIONS=-4
### BEGIN sfptpd ###
OPTIONS=""-4 -x""
### END sfptpd ###
").
Proof. vm_compute. reflexivity. Qed.

(** "Giving the clock back removes sfptpd's section, and taking it away keeps the user's
    options" is false of a file whose last line has no newline: line 268 looks for a zero
    byte instead of a newline, so the whole file is taken for one line.  In the first case
    the user has added a line without a newline after the section: chronyd stays without
    the clock.  In the second the user's options are not found, and chronyd is run without
    them. *)
Theorem C62_unterminated_refuted :
  (exists ls l, Forall line_ok (ls ++ [l]) /\ outside (ls ++ [l]) [l] /\
     edit_text (txt "OPTIONS") ENABLE (text ls ++ l) = Some (text (ls ++ [l])) /\ ls = section (txt "OPTIONS") None) /\
  (exists ls l, Forall line_ok (ls ++ [l]) /\ clean (ls ++ [l]) /\
     in_force (txt "OPTIONS") (ls ++ [l]) (Some (txt "-4 -u ntp")) /\
     edit_text (txt "OPTIONS") DISABLE (text ls ++ l) = Some (text (ls ++ [l] ++ section (txt "OPTIONS") None))).
Proof.
  split.
  - exists (section (txt "OPTIONS") None), (txt "LANG=C"). split; [apply ex_ok; vm_compute; reflexivity|].
    split; [|split; [vm_compute; reflexivity|reflexivity]].
    assert (E : go None (section (txt "OPTIONS") None ++ [txt "LANG=C"]) = [txt "LANG=C"]) by (vm_compute; reflexivity).
    rewrite <- E at 2. apply go_outside.
  - exists [txt "# options of chronyd"], (txt "OPTIONS=-4 -u ntp"). split; [apply ex_ok; vm_compute; reflexivity|].
    split; [apply ex_clean; vm_compute; reflexivity|].
    split; [apply in_force_val; [apply keys_ok; left; reflexivity|vm_compute; reflexivity]|vm_compute; reflexivity].
Qed.
Print Assumptions C62_unterminated_refuted.

(** "Any file can be edited" is false.  A file without a newline at its end that exactly
    fills its last page is read beyond the mapping (regexec on a string without a
    terminator); a zero byte in the file makes strsep return NULL (line 271). *)
Theorem C62_page_refuted : forall key op f, KEYS key ->
  f <> [] -> ~ In 0 f -> last f 0 <> NEWLINE -> Z.of_nat (List.length f) mod 4096 = 0 ->
  edit_text key op f = None.
Proof.
  intros key op f K NE Z L P. rewrite edit_unterminated; [|exact NE|intros c C ->; exact (Z C)|exact L].
  change 4096 with (Z.of_nat PAGE) in P. rewrite <- Nat2Z.inj_mod in P.
  destruct (List.length f mod PAGE =? 0)%nat eqn:M; [reflexivity|]. apply Nat.eqb_neq in M. lia.
Qed.
Print Assumptions C62_page_refuted.
Example C62_page_ex : edit_text (txt "OPTIONS") ENABLE (repeat 65 4096) = None.
Proof. vm_compute. reflexivity. Qed.

Theorem C62_zero_refuted : forall key op l r, KEYS key -> line_ok l -> last r 0 = NEWLINE ->
  edit_text key op (l ++ 0 :: r) = None.
Proof.
  intros key op l r K L E. unfold edit_text. destruct (l ++ 0 :: r) as [|c0 f0] eqn:F; [destruct l; discriminate F|]. rewrite <- F. cbv zeta.
  assert (LST : last (l ++ 0 :: r) 0 = NEWLINE).
  { assert (NR : r <> []) by (intros ->; discriminate E).
    destruct (exists_last NR) as [a [y Y]]. rewrite Y in *. rewrite last_last in E. subst y.
    change (0 :: a ++ [NEWLINE]) with ((0 :: a) ++ [NEWLINE]). rewrite app_assoc. apply last_last. }
  rewrite LST, Z.eqb_refl. cbn [negb].
  assert (P : (0 <? List.length (l ++ 0%Z :: r))%nat = true) by (apply Nat.ltb_lt; rewrite app_length; cbn; lia).
  cbn [edit_loop e_ptr e_end]. rewrite P. unfold edit_step. cbn [skipn bind]. rewrite <- app_assoc. cbn [app].
  rewrite find_newline_zero; [reflexivity|]. intros c C. apply L, C.
Qed.
Print Assumptions C62_zero_refuted.
Example C62_zero_ex : edit_text (txt "OPTIONS") ENABLE ([65; 0] ++ txt "
") = None.
Proof. vm_compute. reflexivity. Qed.

(** "Giving the clock back always removes what taking it away added" is false if the file
    ends in a line that begins a section: that line is kept the first time and removed with
    the section the second time. *)
Theorem C62_lone_refuted : exists ls, Forall line_ok ls /\ ls <> [] /\
  edit_text (txt "OPTIONS") ENABLE (text ls) = Some (text ls) /\
  requests (txt "OPTIONS") [DISABLE; ENABLE] (text ls) = Some [].
Proof.
  exists [START]. split; [apply ex_ok; vm_compute; reflexivity|]. split; [discriminate|]. split; vm_compute; reflexivity.
Qed.
Print Assumptions C62_lone_refuted.

(** When neither file could be edited the request fails, and chronyd is not restarted. *)
Definition fails (f : efile) : Prop :=
  (exists e, e > 0 /\ f = OpenFails e) \/ (exists e t, e > 0 /\ f = StatFails e t) \/
  (exists e t, e > 0 /\ t <> [] /\ f = MapFails e t) \/ exists t, f = TruncateFails t.
Theorem C62_failures : forall op f1 f2 g1 g2 cmds rc sys, edits op = true -> fails f1 -> fails f2 ->
  control op f1 f2 sys = Some (g1, g2, cmds, rc) -> rc <> 0 /\ cmds = [].
Proof.
  intros op f1 f2 g1 g2 cmds rc sys ED F1 F2 C.
  assert (ONE : forall key f rc0 n r, fails f -> edit_one key op f rc0 n = Some r -> snd r = n /\ snd (fst r) <> 0).
  { intros key f rc0 n r F E. destruct F as [(e & P & ->)|[(e & t & P & ->)|[(e & t & P & N & ->)|(t & ->)]]]; cbn [edit_one] in E.
    - injection E as <-. cbn. split; [reflexivity|lia].
    - injection E as <-. cbn. split; [reflexivity|lia].
    - destruct t; [congruence|]. injection E as <-. cbn. split; [reflexivity|lia].
    - destruct (edit_text key op t); cbn [bind] in E; [|discriminate]. injection E as <-. cbn. split; [reflexivity|lia]. }
  assert (EE : forall h1 h2 r, edit_env op f1 f2 = Some (h1, h2, r) -> r <> 0).
  { intros h1 h2 r E. unfold edit_env in E. destruct (edit_one KEY_SYSCONFIG op f1 ENOENT 0) as [[[a b] c]|] eqn:E1; cbn [bind] in E; [|discriminate].
    destruct (ONE _ _ _ _ _ F1 E1) as [X _]. cbn in X. subst c.
    destruct (edit_one KEY_DEFAULT op f2 b 0) as [[[a2 b2] c2]|] eqn:E2; cbn [bind] in E; [|discriminate].
    destruct (ONE _ _ _ _ _ F2 E2) as [X Y]. cbn in X, Y. subst c2. injection E as _ _ <-. exact Y. }
  destruct op; try discriminate ED; cbn [control] in C;
    (destruct (edit_env _ f1 f2) as [[[h1 h2] r]|] eqn:E; cbn [bind] in C; [|discriminate]; pose proof (EE _ _ _ eq_refl) as NZ);
    try (replace (r =? 0) with false in C by (symmetry; apply Z.eqb_neq; exact NZ); cbn [negb] in C);
    injection C as _ _ <- <-; auto.
Qed.
Print Assumptions C62_failures.
Example C62_failures_ex : exists g1 g2, control ENABLE (OpenFails 2) (TruncateFails (txt "A" ++ [10])) (fun _ => 0) = Some (g1, g2, [], -1) /\
  fails (OpenFails 2) /\ fails (TruncateFails (txt "A" ++ [10])).
Proof.
  eexists _, _. split; [vm_compute; reflexivity|]. split; [left; exists 2; split; [lia|reflexivity]|]. right; right; right. eexists. reflexivity.
Qed.

(** The full statement, "a request that changed neither file fails", is false: when the file has
    text but cannot be opened as a stream the error is not set, and chronyd is restarted. *)
Theorem C62_stream_refuted : forall op e t sys, edits op = true -> op <> RESTORENORESTART -> e > 0 -> t <> [] ->
  edit_text KEY_DEFAULT op t <> None -> (forall c, sys c = 0) ->
  control op (OpenFails e) (StreamFails t) sys = Some (OpenFails e, StreamFails t, [SYSTEMCTL_CHRONYD], 0).
Proof.
  intros op e t sys ED NR P N DF SY. assert (EE : edit_env op (OpenFails e) (StreamFails t) = Some (OpenFails e, StreamFails t, 0)).
  { unfold edit_env. cbn [edit_one bind]. destruct (edit_text KEY_DEFAULT op t); [|congruence]. cbn [bind]. destruct t; [congruence|reflexivity]. }
  destruct op; try discriminate ED; try congruence; cbn [control]; rewrite EE; cbn [bind Z.eqb negb]; rewrite SY; reflexivity.
Qed.
Print Assumptions C62_stream_refuted.
Example C62_stream_ex : edit_text KEY_DEFAULT ENABLE (txt "A" ++ [10]) <> None /\
  control ENABLE (OpenFails 2) (StreamFails (txt "A" ++ [10])) (fun _ => 0) = Some (OpenFails 2, StreamFails (txt "A" ++ [10]), [SYSTEMCTL_CHRONYD], 0).
Proof. split; [vm_compute; discriminate|vm_compute; reflexivity]. Qed.
