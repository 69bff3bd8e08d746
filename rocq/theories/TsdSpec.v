(** Vocabulary for the PTP timestamp data set: the history of operations and
    which measurement is the current one.  Independent of the implementation. *)
Require Import ZArith QArith List.
Require Import Verif.TimeSpec.
Import ListNotations.
Open Scope Z_scope.

(** A one-way measurement: transmit time, receive time, correction field. *)
Record meas := mkMeas { m_tx : ts; m_rx : ts; m_corr : ts }.

(** Calls made by the PTP engine.  [now] is what the monotonic clock read. *)
Inductive op :=
| SetM2S (m : meas) (now : ts)
| SetS2M (m : meas) (now : ts)
| SetP2P (s2p_tx s2p_rx p2s_tx p2s_rx corr : ts) (now : ts)
| ClearM2S | ClearS2M | ClearP2P.

(** Histories are lists with the most recent operation first.
    The current master-to-slave measurement. *)
Fixpoint latest_m2s (h : list op) : option meas :=
  match h with
  | [] => None
  | SetM2S m _ :: _ => Some m
  | ClearM2S :: _ => None
  | _ :: h' => latest_m2s h'
  end.

(** The current slave-to-master measurement; switching to peer delay discards it. *)
Fixpoint latest_s2m (h : list op) : option meas :=
  match h with
  | [] => None
  | SetS2M m _ :: _ => Some m
  | SetP2P _ _ _ _ _ _ :: _ | ClearS2M :: _ => None
  | _ :: h' => latest_s2m h'
  end.

(** The current peer delay measurement (request leg, response leg); switching to
    end-to-end discards it. *)
Fixpoint latest_p2p (h : list op) : option (meas * meas) :=
  match h with
  | [] => None
  | SetP2P a b c d k _ :: _ => Some (mkMeas a b (mkTs 0 0 0), mkMeas c d k)
  | SetS2M _ _ :: _ | ClearP2P :: _ => None
  | _ :: h' => latest_p2p h'
  end.

(** Units of 2^-32 ns as a rational number of nanoseconds. *)
Definition ns_of (x : Z) : Q := x # 4294967296.

(** Timestamps that can be subtracted and added without overflow: normalised and
    within 2^60 seconds (3.6e10 years) of the epoch. *)
Definition sane (t : ts) : Prop := normal t /\ - 2^60 < sec t < 2^60.
Definition sane_meas (m : meas) : Prop := sane (m_tx m) /\ sane (m_rx m) /\ sane (m_corr m).
Definition sane_op (o : op) : Prop :=
  match o with
  | SetM2S m n | SetS2M m n => sane_meas m /\ sane n
  | SetP2P a b c d k n => sane a /\ sane b /\ sane c /\ sane d /\ sane k /\ sane n
  | _ => True
  end.

(** Apparent transit time of a measurement, correction removed (2^-32 ns). *)
Definition transit (m : meas) : Z := instant (m_rx m) - instant (m_tx m) - instant (m_corr m).
