(** Model of src/ptp/sfptpd_ptp_timestamp_dataset.c.  long double values are exact
    rationals (rounding of long double arithmetic is not modelled).  [None] is
    undefined behaviour: signed overflow in the timestamp arithmetic. *)
Require Import ZArith QArith List Bool.
Require Import Verif.Base Verif.TimeSpec Verif.TimeModel Verif.TsdSpec.
Import ListNotations.
Open Scope Z_scope.

(** sfptpd_time_timespec_to_float_ns, src/include/sfptpd_time.h:130-136. *)
Definition to_float_ns (t : ts) : Q :=
  (inject_Z (sec t) * inject_Z 1000000000 + inject_Z (nsec t)
   + inject_Z (frac t) / inject_Z (2^32))%Q.

(** struct sfptpd_ptp_delay_data, src/include/sfptpd_ptp_timestamp_dataset.h:20-25. *)
Record delay_data := mkDD { dd_valid : bool; dd_m : meas }.

(** struct sfptpd_ptp_tsd, src/include/sfptpd_ptp_timestamp_dataset.h:38-51. *)
Record tsd := mkTsd {
  complete : bool; time_monotonic : ts; time_protocol : ts;
  path_delay : Q; offset_from_master : Q;
  s2m : delay_data; m2s : delay_data; s2p : delay_data; p2s : delay_data }.

Definition dd0 : delay_data :=
  mkDD false (mkMeas null_time null_time null_time).

(** sfptpd_ptp_tsd_init, lines 107-117. *)
Definition tsd_init : tsd := mkTsd false null_time null_time 0 0 dd0 dd0 dd0 dd0.

(** sfptpd_ptp_tsd_update, lines 37-100: end-to-end branch of the path delay. *)
Definition e2e_delay (t : tsd) : option Q :=
  do a <- subtract (m_rx (dd_m (s2m t))) (m_tx (dd_m (s2m t)));
  do b <- subtract (m_rx (dd_m (m2s t))) (m_tx (dd_m (m2s t)));
  do c <- add a b;
  Some ((to_float_ns c - to_float_ns (m_corr (dd_m (s2m t)))
         - to_float_ns (m_corr (dd_m (m2s t)))) / inject_Z 2)%Q.

(** ... peer delay branch of the path delay (lines 62-78). *)
Definition p2p_delay (t : tsd) : option Q :=
  do a <- subtract (m_rx (dd_m (s2p t))) (m_tx (dd_m (s2p t)));
  do b <- subtract (m_rx (dd_m (p2s t))) (m_tx (dd_m (p2s t)));
  do c <- add a b;
  Some ((to_float_ns c - to_float_ns (m_corr (dd_m (p2s t)))) / inject_Z 2)%Q.

(** ... the offset and completion (lines 85-99). *)
Definition finish (t : tsd) (pd : Q) : option tsd :=
  do b <- subtract (m_rx (dd_m (m2s t))) (m_tx (dd_m (m2s t)));
  Some (mkTsd true (time_monotonic t) (time_protocol t) pd
        (to_float_ns b - to_float_ns (m_corr (dd_m (m2s t))) - pd)%Q
        (s2m t) (m2s t) (s2p t) (p2s t)).

Definition tsd_update (t : tsd) : option tsd :=
  if dd_valid (m2s t) && dd_valid (s2m t) then
    do pd <- e2e_delay t; finish t pd
  else if dd_valid (m2s t) && dd_valid (s2p t) && dd_valid (p2s t) then
    do pd <- p2p_delay t; finish t pd
  else Some (mkTsd false (time_monotonic t) (time_protocol t) (path_delay t)
                   (offset_from_master t) (s2m t) (m2s t) (s2p t) (p2s t)).

Definition invalidate (d : delay_data) : delay_data := mkDD false (dd_m d).

(** The public operations, lines 119-219.  The return value of the set functions is
    the [complete] field of the result. *)
Definition step (t : tsd) (o : op) : option tsd :=
  match o with
  | ClearM2S => Some (mkTsd false (time_monotonic t) (time_protocol t) (path_delay t)
                     (offset_from_master t) (s2m t) (invalidate (m2s t)) (s2p t) (p2s t))
  | ClearS2M => Some (mkTsd false (time_monotonic t) (time_protocol t) (path_delay t)
                     (offset_from_master t) (invalidate (s2m t)) (m2s t) (s2p t) (p2s t))
  | ClearP2P => Some (mkTsd false (time_monotonic t) (time_protocol t) (path_delay t)
                     (offset_from_master t) (s2m t) (m2s t) (invalidate (s2p t)) (invalidate (p2s t)))
  | SetM2S m now =>
      tsd_update (mkTsd (complete t) now (m_rx m) (path_delay t) (offset_from_master t)
                        (s2m t) (mkDD true m) (s2p t) (p2s t))
  | SetS2M m now =>
      tsd_update (mkTsd (complete t) now (m_rx m) (path_delay t) (offset_from_master t)
                        (mkDD true m) (m2s t) (invalidate (s2p t)) (invalidate (p2s t)))
  | SetP2P a b c d k now =>
      tsd_update (mkTsd (complete t) now d (path_delay t) (offset_from_master t)
                        (invalidate (s2m t)) (m2s t)
                        (mkDD true (mkMeas a b null_time)) (mkDD true (mkMeas c d k)))
  end.

(** Run a history (most recent first). *)
Fixpoint run (h : list op) : option tsd :=
  match h with
  | [] => Some tsd_init
  | o :: h' => do t <- run h'; step t o
  end.

(** sfptpd_ptp_tsd_get_offset_from_master / get_path_delay (lines 221-233): assert
    complete; [None] is the assertion failure. *)
Definition get_offset (t : tsd) : option Q := if complete t then Some (offset_from_master t) else None.
Definition get_path_delay (t : tsd) : option Q := if complete t then Some (path_delay t) else None.
