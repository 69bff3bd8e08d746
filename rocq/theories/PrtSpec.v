(** Vocabulary for C43, C44, C45, C56 and C57: the messages a PTP port receives, the transmit
    timestamps it is told, and the measurements it hands to its servo. *)
Require Import ZArith List Bool.
Import ListNotations.
From Verif Require Import Base TimeSpec.
Open Scope Z_scope.

(** A port identity: clock identity (as a number) and port number. *)
Definition ident := (Z * Z)%type.
Definition same_ident (a b : ident) : bool := (fst a =? fst b) && (snd a =? snd b).

(** ptpd_state_e, constants.h:418-429. *)
Inductive pstate := Uninitialized | Initializing | Faulty | Disabled | Listening | PreMaster | Master
                  | Passive | Uncalibrated | Slave.
Definition pstate_eqb (a b : pstate) : bool :=
  match a, b with
  | Uninitialized, Uninitialized | Initializing, Initializing | Faulty, Faulty | Disabled, Disabled
  | Listening, Listening | PreMaster, PreMaster | Master, Master | Passive, Passive
  | Uncalibrated, Uncalibrated | Slave, Slave => true
  | _, _ => false
  end.

(** constants.h:196-198. *)
Inductive mechanism := E2E | P2P | NoDelay.

(** A time on the wire: seconds and nanoseconds. *)
Definition wtime := (Z * Z)%type.
Definition time_of (w : wtime) : ts := mkTs (fst w) (snd w) 0.

(** The messages, as far as the pairing is concerned.  Lengths are in octets. *)
Record sync_msg := mkSync { sy_src : ident; sy_seq : Z; sy_two : bool; sy_origin : wtime; sy_corr : Z; sy_len : Z }.
Record fu_msg := mkFu { fu_src : ident; fu_seq : Z; fu_origin : wtime; fu_corr : Z; fu_len : Z }.
Record dr_msg := mkDr { dr_src : ident; dr_seq : Z; dr_to : ident; dr_time : wtime; dr_corr : Z; dr_len : Z }.
Record pr_msg := mkPr { pr_src : ident; pr_seq : Z; pr_to : ident; pr_two : bool; pr_time : wtime; pr_corr : Z; pr_len : Z }.
Record pf_msg := mkPf { pf_src : ident; pf_seq : Z; pf_to : ident; pf_time : wtime; pf_corr : Z; pf_len : Z }.
Record pq_msg := mkPq { pq_src : ident; pq_seq : Z; pq_len : Z }.

(** A ticket for a transmit timestamp: sequence number and slot. *)
Definition ticket := (Z * Z)%type.

(** What became of an attempt to send a request. *)
Inductive sending := Sent (tk : ticket) | NotPossible | Failed.

(** The kinds of message whose transmit timestamp is waited for. *)
Inductive txkind := TxSync | TxDelayReq | TxPDelayReq | TxPDelayResp.

(** What happens to a port. *)
Inductive op :=
| OSync (m : sync_msg) (rx : option ts)      (** a Sync and, if there is one, its receive timestamp *)
| OFollow (m : fu_msg)
| ODelayResp (m : dr_msg)
| OPResp (m : pr_msg) (rx : option ts)
| OPFollow (m : pf_msg)
| OPReq (m : pq_msg) (rx : option ts) (s : sending)   (** a peer delay request; how answering it went *)
| OOther (left : ident)                      (** any other message, and what it leaves in the buffer where the
                                                 requesting port identity of a Delay_Resp is read *)
| OAskDelay (s : sending)                    (** time to send a delay request; how that went *)
| OAskPeer (s : sending)                     (** time to send a peer delay request *)
| OSendSync (s : sending)                    (** time to send a Sync *)
| OTx (k : txkind) (tk : ticket) (seq : Z) (t : ts) (sent : bool)
                                             (** a transmit timestamp for the packet with this ticket; whether
                                                 a follow-up, if one is due, can be sent *)
| OBest (s : pstate) (p : ident)             (** outcome of the best master clock algorithm *)
| OState (s : pstate)                        (** another change of state *)
| OMech (m : mechanism).                     (** the delay mechanism is changed *)

(** What a port does that is observable here. *)
Inductive out :=
| GiveM2S (send recv corr : ts)              (** measurements given to the servo *)
| GiveS2M (send recv corr : ts)
| GiveP2P (t1 t2 t3 t4 corr : ts)
| MissM2S                                    (** the servo is told a measurement is missing *)
| SendFollow (seq : Z) (t : ts)              (** a FollowUp is sent for the Sync with this number *)
| SendPFollow (to : ident) (seq : Z) (t : ts).   (** a PDelay_Resp_Follow_Up is sent *)

Definition is_ask_delay (o : op) : bool := match o with OAskDelay _ => true | _ => false end.
Definition is_ask_peer (o : op) : bool := match o with OAskPeer _ => true | _ => false end.
Definition is_send_sync (o : op) : bool := match o with OSendSync _ => true | _ => false end.
Definition count (f : op -> bool) (h : list op) : Z := Z.of_nat (length (filter f h)).

(** The parent is not changed from [p] by any of these. *)
Definition keeps_parent (p : ident) (o : op) : Prop := match o with OBest _ q => q = p | _ => True end.
