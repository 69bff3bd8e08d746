(** Specification vocabulary for best-instance selection (C11-C13, C52). *)
Require Import ZArith QArith String List Bool Permutation Sorted.
Import ListNotations.
Open Scope Z_scope.

(** ** Floating-point values: finite (as exact rationals), infinite, or not a number. *)
Inductive fl := Fin (q : Q) | PInf | NInf | NaN.
Definition fl_lt (a b : fl) : Prop :=
  match a, b with
  | Fin x, Fin y => (x < y)%Q
  | Fin _, PInf | NInf, Fin _ | NInf, PInf => True
  | _, _ => False
  end.
Definition fl_plus (a b : fl) : fl :=
  match a, b with
  | Fin x, Fin y => Fin (x + y)%Q
  | NaN, _ | _, NaN | PInf, NInf | NInf, PInf => NaN
  | PInf, _ | _, PInf => PInf
  | NInf, _ | _, NInf => NInf
  end.

(** ** Synchronisation instances *)
Inductive istate := Listening | Slave | Master | Passive | Disabled | Faulty | Selection.
Record inst := mkInst {
  i_selected : bool;      (* manually selected *)
  i_constraints : Z;      (* bit 0: must be selected, bit 1: cannot be selected *)
  i_state : istate;
  i_alarms : Z;           (* bit mask *)
  i_priority : Z;         (* user priority *)
  i_cluster : Z;          (* clustering score *)
  i_class : Z;            (* clock class, 0 = locked *)
  i_accuracy : fl; i_local : fl; i_variance : fl;
  i_steps : Z }.

Inductive rule := TieBreak | Manual | ExtConstraints | State | NoAlarms | UserPriority |
  Clustering | ClockClass | TotalAccuracy | AllanVariance | StepsRemoved.

(** The documented names of the rules. *)
Definition rule_name (r : rule) : string :=
  match r with
  | TieBreak => "tie-break" | Manual => "manual" | ExtConstraints => "ext-constraints"
  | State => "state" | NoAlarms => "no-alarms" | UserPriority => "user-priority"
  | Clustering => "clustering" | ClockClass => "clock-class" | TotalAccuracy => "total-accuracy"
  | AllanVariance => "allan-variance" | StepsRemoved => "steps-removed"
  end.

(** A candidate is an instance and its position in the table of instances. *)
Definition cand : Type := nat * inst.

Definition must (x : inst) : Prop := Z.testbit (i_constraints x) 0 = true.
Definition cannot (x : inst) : Prop := Z.testbit (i_constraints x) 1 = true.

(** How good a state is: slave first, then listening/selecting, then master/passive, then
    disabled/faulty. *)
Definition state_tier (s : istate) : Z :=
  match s with
  | Slave => 0 | Listening | Selection => 1 | Master | Passive => 2 | Disabled | Faulty => 3
  end.

(** [rule_better rd r a b]: rule [r] on its own prefers [a] to [b].  [rd] is the rounding
    of the total accuracy to double precision (any function). *)
Definition rule_better (rd : fl -> fl) (r : rule) (a b : cand) : Prop :=
  let x := snd a in let y := snd b in
  match r with
  | Manual => i_selected x = true /\ i_selected y = false
  | ExtConstraints =>
      (* must-be-selected beats the rest; cannot-be-selected loses to the rest *)
      (must x /\ ~ must y) \/ (~ must x /\ ~ must y /\ ~ cannot x /\ cannot y)
  | State => state_tier (i_state x) < state_tier (i_state y)
  | NoAlarms => i_alarms x = 0 /\ i_alarms y <> 0
  | UserPriority => i_priority x < i_priority y
  | Clustering => i_cluster y < i_cluster x
  | ClockClass => i_class x < i_class y
  | TotalAccuracy => fl_lt (rd (fl_plus (i_accuracy x) (i_local x)))
                           (rd (fl_plus (i_accuracy y) (i_local y)))
  | AllanVariance => fl_lt (i_variance x) (i_variance y)
  | StepsRemoved => i_steps x < i_steps y
  | TieBreak => (fst a < fst b)%nat
  end.

Definition distinguishes rd r a b : Prop := rule_better rd r a b \/ rule_better rd r b a.

(** [a] is preferred to [b] by rule number [n] of the list: no earlier rule
    distinguishes them and this one prefers [a]. *)
Definition preferred_by rd (policy : list rule) (a b : cand) (n : nat) : Prop :=
  exists before r after, policy = before ++ r :: after /\ length before = n /\
    (forall r', In r' before -> ~ distinguishes rd r' a b) /\ rule_better rd r a b.
Definition preferred rd policy a b : Prop := exists n, preferred_by rd policy a b n.

(** No NaN among the values compared. *)
Definition numeric (rd : fl -> fl) (x : inst) : Prop :=
  i_variance x <> NaN /\ rd (fl_plus (i_accuracy x) (i_local x)) <> NaN.
(** At most one instance is manually selected. *)
Definition one_selected (l : list inst) : Prop :=
  forall i j x y, nth_error l i = Some x -> nth_error l j = Some y ->
    i_selected x = true -> i_selected y = true -> i = j.

(** ** What the C library promises about qsort_r: if the comparison function orders the
    elements consistently (a strict total order on the elements of the array), the result
    is a sorted permutation.  Nothing is promised otherwise. *)
Definition strict_total_on {A} (lt : A -> A -> bool) (l : list A) : Prop :=
  (forall x y, In x l -> In y l -> x <> y -> lt x y = negb (lt y x)) /\
  (forall x y z, In x l -> In y l -> In z l -> x <> y -> y <> z -> x <> z ->
     lt x y = true -> lt y z = true -> lt x z = true).
Definition qsort_contract (sort : (nat -> nat -> bool) -> list nat -> list nat) : Prop :=
  forall lt l, NoDup l -> strict_total_on lt l ->
    Permutation l (sort lt l) /\ StronglySorted (fun x y => lt x y = true) (sort lt l).
