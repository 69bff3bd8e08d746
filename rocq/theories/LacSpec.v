(** Specification side of the sockets for reaching every link of a bond (C76). *)
Require Import ZArith List Bool.
Import ListNotations.
Open Scope Z_scope.

(** What the system does with the socket number [i] of a pool: result of socket() (negative if it
    fails), the descriptor it hands out given those that are open, results of bind(), of
    setsockopt() and of adding it to the set of the thread. *)
Record sys := mkSys {
  y_sock : nat -> Z; y_fd : nat -> list Z -> Z; y_bind : nat -> Z; y_opt : nat -> Z; y_epoll : nat -> Z }.
(** A new descriptor is positive and not one that is open. *)
Definition sound (y : sys) : Prop := forall i l, 0 < y_fd y i l /\ ~ In (y_fd y i l) l.
Definition works (y : sys) (i : nat) : Prop := 0 <= y_sock y i /\ 0 <= y_bind y i /\ 0 <= y_opt y i /\ y_epoll y i = 0.

(** The bond: LACP or not, number of physical interfaces, size of the local address. *)
Record bond := mkBond { b_lacp : bool; b_n : Z; b_len : Z }.

(** The operations: initialisation of the network (after a shutdown of it), a socket option with
    the result for each socket, probing, a packet that came back on the error queue of the event
    socket or of a socket of the pool with the interface it left by, shutdown. *)
Inductive op := Init (b : bond) (y : sys) | Setopt (rc : nat -> Z) | Probe | Tx (k : option nat) (ifindex : Z) | Shutdown.

(** Bypass by sockets and by ancillary data, sfptpd_lacp.h:73-74. *)
Definition USE_SOCKPOOL := 1.
Definition USE_CMSG := 2.

(** A descriptor that is ready, with the flags for reading and for errors. *)
Record ready := mkReady { r_fd : Z; r_rd : bool; r_err : bool }.

(** What the sockets are made for: with LACP at most 7 links and an IPv4 address. *)
Definition fine (o : op) : Prop :=
  match o with Init b y => sound y /\ (b_lacp b = true -> b_n b <= 7 /\ b_len b <= 16) | _ => True end.
(** No socket option fails. *)
Definition calm (o : op) : Prop := match o with Setopt rc => forall i, 0 <= rc i | _ => True end.
(** The socket for messages to an interface according to the observations [m] (socket, interface). *)
Definition recorded (m : list (Z * Z)) (ifindex fd : Z) : Prop := In (fd, ifindex) m.
