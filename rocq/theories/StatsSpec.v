(** Specification vocabulary for the statistics measures (C31-C33, C51). *)
Require Import ZArith QArith Qabs List Bool.
Require Import Verif.Base Verif.TimeSpec Verif.QLib.
Import ListNotations.
Open Scope Z_scope.

(** ** Samples *)
Record rsample := mkRs { r_val : Q; r_time : ts; r_qual : bool }.

(** Only qualified samples contribute values. *)
Definition qualified_samples (l : list rsample) : list rsample := filter r_qual l.

(** [s] is the first sample of [l] attaining the minimum (maximum). *)
Definition first_min (l : list rsample) (s : rsample) : Prop :=
  exists a b, l = a ++ s :: b /\
    (forall x, In x a -> (r_val s < r_val x)%Q) /\ (forall x, In x b -> (r_val s <= r_val x)%Q).
Definition first_max (l : list rsample) (s : rsample) : Prop :=
  exists a b, l = a ++ s :: b /\
    (forall x, In x a -> (r_val x < r_val s)%Q) /\ (forall x, In x b -> (r_val x <= r_val s)%Q).

Definition limit : Q := inject_Z (10 ^ 100).
Definition in_limits (s : rsample) : Prop := (Qabs (r_val s) < limit)%Q.

(** ** Histories of one statistic: samples and one-minute ticks, oldest first. *)
Inductive hop (S : Type) := Sample (s : S) | Tick (t : ts).
Arguments Sample {S} s. Arguments Tick {S} t.

(** Completed minutes (oldest first) and the samples of the minute in progress. *)
Definition minutes {S} (ops : list (hop S)) : list (list S) * list S :=
  fold_left (fun mc o => match o with
    | Sample s => (fst mc, snd mc ++ [s])
    | Tick _ => (fst mc ++ [snd mc], [])
    end) ops ([], []).

(** Times of the ticks, oldest first. *)
Definition ticks {S} (ops : list (hop S)) : list ts :=
  flat_map (fun o => match o with Sample _ => [] | Tick t => [t] end) ops.

(** Length in minutes of the minute, ten-minute, hour, day and week periods. *)
Definition period_minutes : list nat := [1; 10; 60; 60 * 24; 60 * 24 * 7]%nat.

(** The samples of the [j]-th most recent interval ([j] = 0 is the one in progress) of
    a period of [len] minutes; minutes are counted from the creation of the collection. *)
Definition interval_samples {S} (M : list (list S)) (len j : nat) : list S :=
  concat (firstn len (skipn ((length M / len - j) * len) M)).

(** ** Convergence histories *)
Inductive cop := CReset | CUpdate (t : Z) (x : Q).

Definition in_range (max : Q) (x : Q) : bool := Qle_bool (Qabs x) max.

(** The run of in-range samples at the end of the history: everything since the last
    reset or out-of-range sample. *)
Definition run_of (max : Q) (ops : list cop) : list (Z * Q) :=
  fold_left (fun r o => match o with
    | CReset => []
    | CUpdate t x => if in_range max x then r ++ [(t, x)] else []
    end) ops [].

(** ** What a range record must say about the samples [l] it stands for. *)
Definition range_summary (l : list rsample) (num : Z) (total squares min max : Q)
           (qual : bool) (min_time max_time : ts) : Prop :=
  let ql := qualified_samples l in
  num = Z.of_nat (length ql) mod 2^64 /\
  (total == Qsum (map r_val ql))%Q /\
  (squares == Qsum (map (fun s => r_val s * r_val s) ql))%Q /\
  (qual = true <-> forall s, In s l -> r_qual s = true) /\
  (ql <> [] -> exists lo hi, first_min ql lo /\ first_max ql hi /\
     min = r_val lo /\ min_time = r_time lo /\ max = r_val hi /\ max_time = r_time hi).

(** ** Operations on a collection of statistics. *)
Inductive kop := KRange (id : Z) (s : rsample) | KCount (id : Z) (x : Z) | KTick (t : ts).

(** What happened to statistic [id], read as a range or as a count. *)
Definition range_history (id : Z) (ops : list kop) : list (hop rsample) :=
  flat_map (fun o => match o with
    | KRange i s => if i =? id then [Sample s] else []
    | KCount _ _ => []
    | KTick t => [Tick t] end) ops.
Definition count_history (id : Z) (ops : list kop) : list (hop Z) :=
  flat_map (fun o => match o with
    | KCount i x => if i =? id then [Sample x] else []
    | KRange _ _ => []
    | KTick t => [Tick t] end) ops.
Definition tick_times (ops : list kop) : list ts :=
  flat_map (fun o => match o with KTick t => [t] | _ => [] end) ops.

Definition op_id_ok (o : kop) : Prop :=
  match o with KRange i _ | KCount i _ => 0 <= i < 256 | KTick _ => True end.
