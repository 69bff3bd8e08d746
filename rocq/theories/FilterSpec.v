(** Specification vocabulary for the filters. *)
Require Import ZArith QArith List.
Require Import Verif.TimeSpec Verif.QLib Verif.ListLib.
Import ListNotations.
Open Scope Q_scope.

(** ** Filters over a history of samples and resets (oldest first). *)
Inductive rop (A : Type) := Push (a : A) | Reset.
Arguments Push {A} a. Arguments Reset {A}.

(** The samples supplied since the last reset, oldest first. *)
Definition since_reset {A} (ops : list (rop A)) : list A :=
  fold_left (fun acc o => match o with Push x => acc ++ [x] | Reset => [] end) ops [].

(** ** Running statistics: operations and the samples that remain. *)
Inductive sdop := SdAdd (x : Q) | SdRemove (x : Q).

(** Remove one sample numerically equal to [x]. *)
Fixpoint remove_one (x : Q) (l : list Q) : option (list Q) :=
  match l with
  | [] => None
  | y :: l' => if Qeq_bool x y then Some l'
               else match remove_one x l' with Some r => Some (y :: r) | None => None end
  end.

(** Samples remaining after the operations (oldest operation first); [None] if some
    operation removes a sample that is not there. *)
Fixpoint remaining (ops : list sdop) (acc : list Q) : option (list Q) :=
  match ops with
  | [] => Some acc
  | SdAdd x :: r => remaining r (x :: acc)
  | SdRemove x :: r => match remove_one x acc with Some a => remaining r a | None => None end
  end.

(** ** Peirce filter: what the filter must decide about sample [x] given the window
    [w] of stored samples and the criterion [c] for that many samples: outlier iff
    |x - mean| > c * sd, i.e. (x - mean)^2 > c^2 * variance (c >= 0). *)
Definition is_outlier (c : Q) (w : list Q) (x : Q) : Prop :=
  c * c * Qvar w < (x - Qmean w) * (x - Qmean w).

(** ** Smallest filter: a sample has a monotonic time stamp and a path delay. *)
Record sample := mkSample { s_mono : ts; s_delay : Q }.

(** Age in units of 2^-32 ns at time [now]. *)
Definition age (now : ts) (s : sample) : Z := (instant now - instant (s_mono s))%Z.
Definition secs_of (x : Z) : Q := inject_Z x / inject_Z s_unit.

Definition aged_delay (coeff : Q) (now : ts) (s : sample) : Q :=
  s_delay s + coeff * secs_of (age now s).

(** Usable: not older than the timeout and not a negative path delay. *)
Definition eligible (timeout : Z) (now : ts) (s : sample) : Prop :=
  (age now s <= timeout * s_unit)%Z /\ 0 <= s_delay s.

(** The verdict [out] on sample [x] after stored history [h], and the value [y] that is
    stored for it.  [table] gives the criterion for each number of samples. *)
Definition verdict_ok (table : list Q) (min max : nat) (weight : Q) (h : list Q) (x : Q) (out : bool) (y : Q) : Prop :=
  let w := lastn max h in
  (out = true <-> ((min <= length w)%nat /\
      exists c, nth_error table (length w - 1) = Some c /\ is_outlier c w x)) /\
  (y == if out then Qmean w + weight * (x - Qmean w) else x).

(** What an update with [s] after history [h] must return: the eligible sample of the
    window with least aged delay, or [s] itself when no sample is eligible. *)
Definition picks (max : nat) (coeff : Q) (timeout : Z) (h : list sample) (s r : sample) : Prop :=
  let w := lastn max (h ++ [s]) in
  (In r w /\ eligible timeout (s_mono s) r /\
   forall x, In x w -> eligible timeout (s_mono s) x ->
     aged_delay coeff (s_mono s) r <= aged_delay coeff (s_mono s) x) \/
  (r = s /\ forall x, In x w -> ~ eligible timeout (s_mono s) x).

(** Histories whose monotonic time stamps never go backwards. *)
Definition pushes (ops : list (rop sample)) : list sample :=
  flat_map (fun o => match o with Push s => [s] | Reset => [] end) ops.

Definition nondecreasing (l : list sample) : Prop :=
  forall l1 a l2 b l3, l = l1 ++ a :: l2 ++ b :: l3 ->
    (instant (s_mono a) <= instant (s_mono b))%Z.

Definition sane_sample (s : sample) : Prop :=
  normal (s_mono s) /\ (- 2^60 < sec (s_mono s) < 2^60)%Z.

