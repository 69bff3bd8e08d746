(** Specification vocabulary for the privileged helper (C63).  Text as in CevSpec.v. *)
Require Import ZArith List Bool String.
Require Import Verif.CevSpec.
Import ListNotations.
Open Scope Z_scope.

(** Error numbers. *)
Definition EPERM := 1. Definition EINVAL := 22. Definition ENAMETOOLONG := 36.
Definition ENOTCONN := 107. Definition EINPROGRESS := 115. Definition ENOENT := 2. Definition ENOMEM := 12.

(** The requests, include/sfptpd_priv_ops.h: the path of a device is a buffer of 128 bytes. *)
Inductive req := Close | Sync | OpenChrony | OpenDev (buf : list Z) | Control (op : cop) | Unknown (n : Z).

Inductive kind := KOk | KChrony | KDev | KControl.

(** A response: its kind and the members of the union, which start with the same [rc]. *)
Record resp := mkResp { r_kind : kind; r_rc : Z; r_step : list Z }.

(** What the system does for one request: open(2) of a path and connecting to chronyd give an
    error or a descriptor, and the request to chronyd gives a result. *)
Record os := mkOs { o_open : list Z -> Z + Z; o_sock : Z; o_fail : nat -> option Z; o_ctl : cop -> Z }.

(** What the helper does with its privileges. *)
Inductive act := Opened (path : list Z) | Connected | Controlled (op : cop).

(** The devices it may open: /dev/pps and /dev/ptp with a number. *)
Definition device (p : list Z) : Prop :=
  exists k ds, p = txt "/dev/" ++ k ++ ds /\ (k = txt "pps" \/ k = txt "ptp") /\
    ds <> [] /\ (forall c, In c ds -> 48 <= c <= 57).

(** The string in a buffer. *)
Definition holds (buf p : list Z) : Prop := exists r, buf = p ++ 0 :: r /\ ~ In 0 p.

(** What can happen to the helper's read of the next request. *)
Inductive input := Msg (r : req) (o : os) | Interrupted | RecvError (e : Z) | EndOfFile.

Definition requests_of (l : list input) : list req :=
  flat_map (fun i => match i with Msg r _ => [r] | _ => [] end) l.

(** The descriptor that goes with a response. *)
Definition reply := (resp * option Z)%type.

Definition kind_of (r : req) : kind :=
  match r with OpenChrony => KChrony | OpenDev _ => KDev | Control _ => KControl | _ => KOk end.

(** What is in an answer from the helper: the response and the ancillary data. *)
Inductive ancillary := NoAnc | Fds (l : list Z) | OtherAnc.

(** One exchange with the helper as the daemon sees it: the request could not be sent, no
    answer could be read, the answer ([None]: end of file, nothing was stored). *)
Inductive exchange := NotSent | NotReceived | Received (r : option resp) (a : ancillary).
