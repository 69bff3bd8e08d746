(** Model of src/sfptpd_bic.c and of the selection-policy parsers of
    src/sfptpd_general_config.c. *)
Require Import ZArith QArith String List Bool.
Require Import Verif.Base Verif.ListLib Verif.FilterModel Verif.BicSpec.
Import ListNotations.
Open Scope Z_scope.

(** sfptpd_state_priorities, src/sfptpd_bic.c:87-95. *)
Definition state_priority (s : istate) : Z :=
  match s with
  | Listening => 1 | Slave => 0 | Master => 2 | Passive => 2 | Disabled => 3 | Faulty => 3
  | Selection => 1
  end.

(** ext_constraint_priority, lines 120-128; the flag bits are
    src/include/sfptpd_sync_module.h:150-160. *)
Definition ext_constraint_priority (c : Z) : Z :=
  if negb (Z.land c 1 =? 0) then -1 else if negb (Z.land c 2 =? 0) then 1 else 0.

(** The C operator < on floating-point numbers. *)
Definition fl_ltb (a b : fl) : bool :=
  match a, b with
  | Fin x, Fin y => Qlt_bool x y
  | Fin _, PInf | NInf, Fin _ | NInf, PInf => true
  | _, _ => false
  end.

Definition by_order (lt gt : bool) : option bool :=
  if lt then Some true else if gt then Some false else None.

(** One iteration of the loop of sfptpd_bic_select, lines 175-317: [Some true] chooses the
    first record, [Some false] the second, [None] goes on.  The pointer comparison of the
    tie-break is on positions in the array.  [rd] rounds a long double sum to double
    (lines 149-150, 268-269). *)
Definition rule_choice (rd : fl -> fl) (r : rule) (a b : cand) : option bool :=
  let x := snd a in let y := snd b in
  match r with
  | Manual => if i_selected x then Some true else if i_selected y then Some false else None
  | ExtConstraints =>
      let d := ext_constraint_priority (i_constraints x) - ext_constraint_priority (i_constraints y) in
      by_order (d <? 0) (0 <? d)
  | State => by_order (state_priority (i_state x) <? state_priority (i_state y))
                      (state_priority (i_state y) <? state_priority (i_state x))
  | NoAlarms => by_order ((i_alarms x =? 0) && negb (i_alarms y =? 0))
                         (negb (i_alarms x =? 0) && (i_alarms y =? 0))
  | UserPriority => by_order (i_priority x <? i_priority y) (i_priority y <? i_priority x)
  | Clustering => by_order (i_cluster y <? i_cluster x) (i_cluster x <? i_cluster y)
  | ClockClass => by_order (i_class x <? i_class y) (i_class y <? i_class x)
  | TotalAccuracy =>
      let ta := rd (fl_plus (i_accuracy x) (i_local x)) in
      let tb := rd (fl_plus (i_accuracy y) (i_local y)) in
      by_order (fl_ltb ta tb) (fl_ltb tb ta)
  | AllanVariance => by_order (fl_ltb (i_variance x) (i_variance y)) (fl_ltb (i_variance y) (i_variance x))
  | StepsRemoved => by_order (i_steps x <? i_steps y) (i_steps y <? i_steps x)
  | TieBreak => Some (fst a <? fst b)%nat
  end.

(** sfptpd_bic_select, lines 141-337: whether the first record is chosen, and the index of
    the decisive rule; [None] is running off the end of the rule array. *)
Fixpoint select (rd : fl -> fl) (policy : list rule) (n : nat) (a b : cand) : option (bool * nat) :=
  match policy with
  | [] => None
  | r :: rest => match rule_choice rd r a b with
                 | Some c => Some (c, n)
                 | None => select rd rest (S n) a b
                 end
  end.

(** ordered_instance_compar, lines 340-350: negative, i.e. "a before b". *)
Definition compar rd policy (recs : list inst) (i j : nat) : bool :=
  match nth_error recs i, nth_error recs j with
  | Some x, Some y => match select rd policy 0 (i, x) (j, y) with Some (c, _) => c | None => false end
  | _, _ => false
  end.

(** Ranks: the record at position k of the sorted list gets rank k + 1 (lines 386-410). *)
Fixpoint assign_ranks (order : list nat) (k : nat) (ranks : list Z) : list Z :=
  match order with
  | [] => ranks
  | i :: rest => assign_ranks rest (S k) (set_nth i (Z.of_nat k + 1) ranks)
  end.

(** sfptpd_bic_choose, lines 357-416: the chosen record and the ranks afterwards.  [sort] is
    qsort_r.  [None]: the rule array has no terminator, so a comparison may run off it.
    The logging and the recording of decisive rules are left out. *)
Definition has_tie_break (policy : list rule) : bool :=
  existsb (fun r => match r with TieBreak => true | _ => false end) policy.
Definition choose rd (sort : (nat -> nat -> bool) -> list nat -> list nat)
  (policy : list rule) (recs : list inst) (ranks : list Z) : option (option nat * list Z) :=
  match length recs with
  | O => Some (None, ranks)
  | S O => Some (Some 0%nat, ranks)
  | n => if has_tie_break policy then
           let order := sort (compar rd policy recs) (seq 0 n) in
           do best <- hd_error order;
           Some (Some best, assign_ranks order 0 ranks)
         else None
  end.

(** sfptpd_bic_select_instance, lines 418-428; [None] is a NULL selection. *)
Definition select_instance (recs : list inst) (sel : option nat) : list inst :=
  map (fun p => let '(i, x) := p in
    mkInst (match sel with Some k => (k =? i)%nat | None => false end) (i_constraints x) (i_state x)
           (i_alarms x) (i_priority x) (i_cluster x) (i_class x) (i_accuracy x) (i_local x)
           (i_variance x) (i_steps x)) (combine (seq 0 (length recs)) recs).

(** sfptpd_default_selection_policy, lines 52-69. *)
Definition default_policy : list rule :=
  [Manual; ExtConstraints; State; NoAlarms; UserPriority; Clustering; ClockClass; TotalAccuracy;
   AllanVariance; StepsRemoved; TieBreak].

(** ** Configuration of the policy *)

(** enum sfptpd_selection_rule in numeric order, src/include/sfptpd_bic.h:23-44 and the names,
    src/sfptpd_bic.c:71-83. *)
Definition rule_table : list (rule * string) :=
  [(TieBreak, "tie-break"); (Manual, "manual"); (ExtConstraints, "ext-constraints");
   (State, "state"); (NoAlarms, "no-alarms"); (UserPriority, "user-priority");
   (Clustering, "clustering"); (ClockClass, "clock-class"); (TotalAccuracy, "total-accuracy");
   (AllanVariance, "allan-variance"); (StepsRemoved, "steps-removed")]%string.
Definition RULE_MAX : nat := 11.

Definition rule_eqb (a b : rule) : bool :=
  match a, b with
  | TieBreak, TieBreak | Manual, Manual | ExtConstraints, ExtConstraints | State, State
  | NoAlarms, NoAlarms | UserPriority, UserPriority | Clustering, Clustering
  | ClockClass, ClockClass | TotalAccuracy, TotalAccuracy | AllanVariance, AllanVariance
  | StepsRemoved, StepsRemoved => true
  | _, _ => false
  end.
Definition rule_named (s : string) : option rule :=
  option_map fst (find (fun p => String.eqb s (snd p)) rule_table).

(** parse_selection_policy_rules, src/sfptpd_general_config.c:507-544.  The rule array has
    RULE_MAX entries; [inl] is EINVAL with the array as left behind. *)
Fixpoint parse_rules_loop (arr : list rule) (i : nat) (params : list string) : list rule + list rule :=
  match params with
  | [] => inr (set_nth i TieBreak arr)
  | p :: rest =>
      match rule_named p with
      | None => inl arr
      | Some r => if existsb (rule_eqb r) (firstn i arr) then inl arr
                  else parse_rules_loop (set_nth i r arr) (S i) rest
      end
  end.
Definition parse_rules (arr : list rule) (params : list string) : list rule + list rule :=
  if (RULE_MAX <=? length params)%nat then inl arr else parse_rules_loop arr 0 params.

(** parse_phc_pps_methods, lines 587-625: the method list and the selection rules are both in
    the general configuration; line 622 stores SFPTPD_PPS_METHOD_MAX (2) into the selection
    rules.  Methods are numbers 0 (devptp), 1 (devpps). *)
Definition METHOD_MAX : nat := 2.
Definition method_named (s : string) : option nat :=
  if String.eqb s "devptp" then Some 0%nat else if String.eqb s "devpps" then Some 1%nat else None.
Fixpoint parse_methods_loop (arr : list nat) (i : nat) (params : list string) : option (list nat * nat) :=
  match params with
  | [] => Some (arr, i)
  | p :: rest =>
      match method_named p with
      | None => None
      | Some m => if existsb (Nat.eqb m) (firstn i arr) then None
                  else parse_methods_loop (set_nth i m arr) (S i) rest
      end
  end.
(** [None] is EINVAL. *)
Definition parse_phc_pps_methods (rules : list rule) (methods : list nat) (params : list string) :
  option (list rule * list nat) :=
  if (METHOD_MAX <? length params)%nat then None else
  do r <- parse_methods_loop methods 0 params;
  let '(methods', i) := r in
  Some (if (i <? METHOD_MAX)%nat then set_nth i (fst (nth METHOD_MAX rule_table (TieBreak, ""%string))) rules
        else rules, methods').
