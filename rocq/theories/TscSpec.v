(** Vocabulary for C58: transmit packets that wait for a timestamp. *)
Require Import ZArith List Bool.
Import ListNotations.
From Verif Require Import Base TimeSpec.
Open Scope Z_scope.

(** On whose behalf a packet was sent: port, kind of message, sequence number (struct sfptpd_ts_user). *)
Definition user := (Z * Z * Z)%type.
Definition port_of (u : user) : Z := fst (fst u).
(** Ticket: sequence number and slot. *)
Definition ticket := (Z * Z)%type.

(** A request for a transmit timestamp: its ticket, the octets of the packet, the number of octets the
    network appends to it, on whose behalf and when it was sent. *)
Record request := mkReq { q_ticket : ticket; q_data : list Z; q_trailer : nat; q_user : user; q_sent : ts }.

(** The octets [seen] end with the packet and its trailer (any headers come before). *)
Definition ends_with (q : request) (seen : list Z) : Prop :=
  exists headers trailer, seen = headers ++ q_data q ++ trailer /\ length trailer = q_trailer q.

(** What happens to the cache of requests, and what the caller is told. *)
Inductive op :=
| OExpect (u : user) (data : list Z) (trailer : nat) (now : ts)   (** a packet has been sent *)
| OMatch (seen : list Z)                                        (** a packet comes back with its timestamp *)
| OCheck (port : Z) (now : ts).                                 (** periodic check for one port *)
Inductive answer :=
| Ticket (tk : ticket)
| Found (tk : ticket) (u : user)
| NotFound
| Alarm (change : Z).                                           (** 0 on, 1 off, 2 no change *)

Definition is_expect (o : op) : bool := match o with OExpect _ _ _ _ => true | _ => false end.
Definition count (h : list op) : Z := Z.of_nat (length (filter is_expect h)).

(** Waiting for at least a second or ten. *)
Definition waited (seconds : Z) (now : ts) (q : request) : Prop := seconds * s_unit <= instant now - instant (q_sent q).
