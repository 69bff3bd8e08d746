(** Model of src/ptp/ptpd2/sfptpd_lacp.c and of the uses of its sockets in dep/net.c, protocol.c
    and src/ptp/sfptpd_ptp_module.c.  [None] is undefined behaviour or a failed assertion: here a
    shift of the int 1 by 31 or more, a copy that is larger than its target, and (added) closing
    a descriptor that is not open.  Left out: the reasons for which a socket is invalid, which
    only go into a log, the addresses, the contents of messages, and the life of the event and
    general sockets, which stay the same. *)
Require Import ZArith List Bool Arith.
From Verif Require Import Base LacSpec.
Import ListNotations.
Open Scope Z_scope.

(** struct ptpd_transport, datatypes.h:645-673, and the descriptors open in the process. *)
Record trans := mkT {
  t_event : Z; t_general : Z; t_socks : nat -> Z; t_mask : Z; t_created : Z; t_map : list (Z * Z); t_open : list Z }.
Definition set_mask (t : trans) (m : Z) := mkT (t_event t) (t_general t) (t_socks t) m (t_created t) (t_map t) (t_open t).
Definition set_sock (t : trans) (i : nat) (fd : Z) :=
  mkT (t_event t) (t_general t) (fun k => if Nat.eqb k i then fd else t_socks t k) (t_mask t) (t_created t) (t_map t) (t_open t).
Definition set_created (t : trans) (n : Z) := mkT (t_event t) (t_general t) (t_socks t) (t_mask t) n (t_map t) (t_open t).
Definition set_map (t : trans) (m : list (Z * Z)) := mkT (t_event t) (t_general t) (t_socks t) (t_mask t) (t_created t) m (t_open t).
Definition set_open (t : trans) (l : list Z) := mkT (t_event t) (t_general t) (t_socks t) (t_mask t) (t_created t) (t_map t) l.

Definition close (fd : Z) (t : trans) : option trans :=
  if existsb (Z.eqb fd) (t_open t) then Some (set_open t (filter (fun x => negb (fd =? x)) (t_open t))) else None.
(** 1 << i *)
Definition shl (i : nat) : option Z := if (i <? 31)%nat then Some (2 ^ Z.of_nat i) else None.
(** __builtin_ffsll(m) - 1 for m other than 0 *)
Definition lowest (m : Z) : option nat := find (fun i => Z.testbit m (Z.of_nat i)) (seq 0 64).
(** FOR_EACH_MASK_IDX, sfptpd_lacp.h:68-71: at most 64 turns. *)
Fixpoint each {A} (fuel : nat) (msk : Z) (body : nat -> A -> option A) (a : A) : option A :=
  if msk =? 0 then Some a else
  match fuel with
  | O => None
  | Datatypes.S f =>
      do i <- lowest msk;
      do a <- body i a;
      do b <- shl i;
      each f (Z.land msk (Z.lnot b)) body a
  end.
Definition for_each {A} := @each A 64.

(** invalidateBondBypassSocket, sfptpd_lacp.c:20-25 *)
Definition invalidate (i : nat) (t : trans) : option trans :=
  do b <- shl i;
  do t <- close (t_socks t i) (set_mask t (Z.land (t_mask t) (Z.lnot b)));
  Some (set_sock t i 0).

(** createBondSocks, sfptpd_lacp.c:27-113: sizeof(struct sockaddr_in) is 16, there are at most 64
    sockets, 4 for each interface. *)
Definition create_one (y : sys) (i : nat) (t : trans) : option trans :=
  if negb (t_socks t i =? 0) then None else
  if y_sock y i <? 0 then Some t else
  let fd := y_fd y i (t_open t) in
  let t := set_open t (fd :: t_open t) in
  if y_bind y i <? 0 then close fd t else
  if y_opt y i <? 0 then close fd t else
  if negb (y_epoll y i =? 0) then close fd t else
  do b <- shl i;
  Some (set_mask (set_sock t i fd) (Z.lor (t_mask t) b)).
Fixpoint create_loop (y : sys) (l : list nat) (t : trans) : option trans :=
  match l with [] => Some t | i :: r => do t <- create_one y i t; create_loop y r t end.
Definition create (b : bond) (y : sys) (t : trans) : option trans :=
  if negb (b_lacp b) || (b_n b <=? 1) then Some t else
  if 16 <? b_len b then None else
  if negb (t_mask t =? 0) then None else
  if 64 <? b_n b * 4 then None else
  do t <- create_loop y (seq 0 (Z.to_nat (b_n b * 4))) t;
  Some (set_created t (b_n b * 4)).

(** destroyBondSocks, lines 115-130 *)
Definition destroy (t : trans) : option trans :=
  do t <- for_each (t_mask t) invalidate t;
  Some (set_map (set_mask t 0) []).

(** probeBondSocks, lines 132-163: the sockets that an empty packet was sent over. *)
Definition probe (t : trans) : option (trans * list Z) :=
  let t := set_map t [] in
  do l <- for_each (t_mask t) (fun i l => Some (l ++ [t_socks t i])) [];
  Some (t, l).

(** bondSockFindMulticastMappingByFd, lines 204-214 *)
Definition mapping (fd : Z) (t : trans) : option (Z * Z) := find (fun x => fst x =? fd) (t_map t).
(** bondSocksOnTxIfindex, lines 165-201 *)
Definition on_tx (fd ifindex : Z) (t : trans) : option (trans * list Z) :=
  do x <- match mapping fd t with
          | Some m => if negb (snd m =? ifindex) then probe (set_map t []) else Some (t, [])
          | None => Some (t, [])
          end;
  let '(t, sent) := x in
  if existsb (fun m => snd m =? ifindex) (t_map t) || (16 <=? Z.of_nat (List.length (t_map t))) then Some (t, sent) else
  Some (set_map t (t_map t ++ [(fd, ifindex)]), sent).

(** bondSockFdIndexInSockPool, lines 216-223 *)
Fixpoint index_loop (fuel : nat) (msk fd : Z) (t : trans) : option Z :=
  if msk =? 0 then Some (-1) else
  match fuel with
  | O => None
  | Datatypes.S f =>
      do i <- lowest msk;
      if t_socks t i =? fd then Some (Z.of_nat i) else
      do b <- shl i;
      index_loop f (Z.land msk (Z.lnot b)) fd t
  end.
Definition pool_index (fd : Z) (t : trans) : option Z := index_loop 64 (t_mask t) fd t.

(** setBondSockopt, lines 225-244 *)
Definition setopt (rc : nat -> Z) (t : trans) : option trans :=
  for_each (t_mask t) (fun i t => if rc i <? 0 then invalidate i t else Some t) t.

(** prepareSendMessage, net.c:2174-2233: the socket; the ancillary data is added for the second
    kind of bypass with the Onload extensions. *)
Definition choose (request bypass : Z) (multicast : bool) (t : trans) : Z :=
  let fd := if (0 <? request) && negb (Z.land bypass USE_SOCKPOOL =? 0) && multicast
            then fold_left (fun fd m => if snd m =? request then fst m else fd) (t_map t) 0 else 0 in
  if fd <=? 0 then t_event t else fd.

(** The loop over the events in ptp_on_user_fds, sfptpd_ptp_module.c:4123-4148, for one interface:
    the flags for events, general messages and errors. *)
Fixpoint flags (l : list ready) (t : trans) (f : bool * bool * bool) : option (bool * bool * bool) :=
  match l with
  | [] => Some f
  | r :: l =>
      let mark (f : bool * bool * bool) := let '(e, g, x) := f in (e || r_rd r, g, x || r_err r) in
      let f := if r_fd r =? t_event t then mark f else f in
      let f := if r_fd r =? t_general t then let '(e, g, x) := f in (e, true, x) else f in
      do f <- for_each (t_mask t) (fun i f => Some (if r_fd r =? t_socks t i then mark f else f)) f;
      flags l t f
  end.
(** doHandleSockets, protocol.c:1695-1730: the sockets read for errors and for event messages. *)
Definition handled (flag : bool) (t : trans) : option (list Z) :=
  if flag then for_each (t_mask t) (fun i l => Some (l ++ [t_socks t i])) [t_event t] else Some [].

(** One operation, with the sockets probed by it.  netInit follows netShutdown: protocol.c:570-573,
    ptpd_lib.c:618-641. *)
Definition step (o : op) (t : trans) : option (trans * list Z) :=
  match o with
  | Init b y => do t <- destroy t; do t <- create b y t; Some (t, [])
  | Setopt rc => do t <- setopt rc t; Some (t, [])
  | Probe => probe t
  | Tx None x => on_tx (t_event t) x t
  | Tx (Some i) x => if Z.testbit (t_mask t) (Z.of_nat i) then on_tx (t_socks t i) x t else Some (t, [])
  | Shutdown => do t <- destroy t; Some (t, [])
  end.
Fixpoint run (l : list op) (t : trans) : option trans :=
  match l with [] => Some t | o :: r => do x <- step o t; run r (fst x) end.
(** No socket yet: [others] are the descriptors open besides. *)
Definition start (event general : Z) (others : list Z) : trans := mkT event general (fun _ => 0) 0 0 [] (event :: general :: others).
