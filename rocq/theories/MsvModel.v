(** C79, model: mode7_check_response_part1, mode7_response and mode7_query of ntp/sfptpd_ntpd_client_mode7.c.
    [want] is required_item_size (not negative).  The clock and the socket are events.  The time left is not computed: an
    event says that it is over.  Forming a pointer behind the buffer (line 1141) is taken to be harmless. *)
Require Import ZArith List Bool Lia.
Require Import Verif.Base Verif.MsvSpec.
Import ListNotations.
Open Scope Z_scope.

Definition ETIMEDOUT := 110. Definition ENOSPC := 28. Definition EMSGSIZE := 90. Definition ENOSYS := 38.
Definition EBADMSG := 74. Definition ENODATA := 61. Definition EIO := 5. Definition EACCES := 13. Definition INT_MAX := 2^31 - 1.
(** buffer, line 721; struct ntp_response_pkt, lines 315-323. *)
Definition BUFFER : Z := 4096. Definition HEADER : Z := 8. Definition RECORD : nat := 508.
Definition oct (l : list Z) (i : nat) : Z := nth i l 0.
(** ntohs. *)
Definition ntohs (l : list Z) (i : nat) : Z := 256 * oct l i + oct l (S i).

(** mode7_check_response_part1, lines 938-989: true if it returns 0. *)
Definition check (l : list Z) (req : Z) : bool :=
  negb (Z.of_nat (length l) <? HEADER) &&
  negb ((4 <? Z.land (Z.shiftr (oct l 0) 3) 7) || (Z.land (Z.shiftr (oct l 0) 3) 7 <? 1)) &&
  (Z.land (oct l 0) 7 =? 7) &&
  (Z.land (oct l 1) 128 =? 0) &&
  negb (Z.land (oct l 0) 128 =? 0) &&
  (Z.land (Z.shiftr (ntohs l 6) 12) 15 =? 0) &&
  ((oct l 2 =? 3) && (oct l 3 =? req)).
(** mode7_error_to_errno, lines 754-764; [None]: a read behind the table. *)
Definition errno_of (e : Z) : option Z := nth_error [0; EMSGSIZE; ENOSYS; EBADMSG; ENODATA; EIO; EIO; EACCES] (Z.to_nat e).

(** last_seq_num, pkts_received, have_seq, *total_items, and what is before write_ptr. *)
Record rst := mkS { s_last : Z; s_pkts : Z; s_have : list bool; s_total : Z; s_buf : list Z }.
Definition start : rst := mkS INT_MAX 0 (repeat false 128) 0 [].
Inductive next := Go (s : rst) | Ret (rc : Z).
(** The copy of items, lines 1149-1158; [None]: a read behind the packet. *)
Fixpoint items (n : nat) (size pad : nat) (l : list Z) : option (list Z) :=
  match n with
  | O => Some []
  | S k => if (size <=? length l)%nat then do r <- items k size pad (skipn size l); Some (firstn size l ++ repeat 0 pad ++ r) else None
  end.
(** A packet, lines 1064-1164; more than the record is cut off by recv.  The error is looked up for the trace message before
    it is compared with the size of the table (lines 1083-1087); TRACE is a call of a function, so its arguments are always
    evaluated (include/sfptpd_logging.h line 46). *)
Definition packet (want req : Z) (s : rst) (all : list Z) : option next :=
  let l := firstn RECORD all in
  if negb (check l req) then Some (Go s) else
  let err := Z.land (Z.shiftr (ntohs l 4) 12) 15 in
  if negb (err =? 0) then do c <- errno_of err; Some (Ret (if err <? 8 then c else EIO)) else
  let n := Z.land (ntohs l 4) 4095 in
  let size := Z.land (ntohs l 6) 4095 in
  if Z.of_nat (length l) - HEADER <? n * size then Some (Go s) else
  if negb (s_pkts s =? 0) && (want <? size) then Some (Go s) else
  let seq := Z.land (oct l 1) 127 in
  if nth (Z.to_nat seq) (s_have s) false then Some (Go s) else
  let more := negb (Z.land (oct l 0) 64 =? 0) in
  if negb more && (s_last s <=? 127) then Some (Go s) else
  let last := if more then s_last s else seq in
  let pad := if size <? want then want - size else 0 in
  if BUFFER <? Z.of_nat (length (s_buf s)) + n * (size + pad) then Some (Ret ENOSPC) else
  do d <- items (Z.to_nat n) (Z.to_nat size) (Z.to_nat pad) (skipn 8 l);
  Some (Go (mkS last (s_pkts s + 1) (s_have s) (s_total s + n) (s_buf s ++ d))).
(** The end of the loop: still waiting, or what is returned with the number of items and the data. *)
Inductive outcome := Waiting (s : rst) | Returned (rc : Z) (n : Z) (buf : list Z).
(** The loop, lines 1037-1170. *)
Fixpoint response (want req : Z) (s : rst) (l : list event) : option outcome :=
  if s_pkts s <=? s_last s then
    match l with
    | [] => Some (Waiting s)
    | Late :: _ | Nothing :: _ => Some (Returned ETIMEDOUT (s_total s) (s_buf s))
    | SelectFails e :: _ | ReadFails e :: _ => Some (Returned e (s_total s) (s_buf s))
    | Packet p :: r =>
        do x <- packet want req s p;
        match x with Go s1 => response want req s1 r | Ret rc => Some (Returned rc (s_total s) (s_buf s)) end
    end
  else Some (Returned 0 (s_total s) (s_buf s)).

(** ntp_legacy_pkt_sizes, lines 770-775 (REQ_LEN_NOMAC: 8 + 176 + 4). *)
Definition sizes : list Z := [188; 160; 48].
(** What sending a request gives (0 or errno) and what then comes from the socket. *)
Record attempt := mkA { a_send : Z; a_evs : list event }.
(** mode7_query, lines 1168-1208.  [mode] is legacy_mode; the size of the packet is always the entry of the table for it (set
    together at lines 1206-1207 and 1237-1238; [None] if there is no such entry).  The result: the sizes sent, the new mode,
    and what is returned if the last attempt has ended.  The requests themselves and emptying the socket are not modelled. *)
Fixpoint query (want req : Z) (mode : nat) (l : list attempt) : option (list Z * nat * option outcome) :=
  match l with
  | [] => Some ([], mode, None)
  | a :: r =>
      do z <- nth_error sizes mode;
      if negb (a_send a =? 0) then Some ([z], mode, Some (Returned (a_send a) 0 [])) else
      do o <- response want req start (a_evs a);
      match o with
      | Waiting _ => Some ([z], mode, None)
      | Returned rc n buf =>
          if (rc =? EMSGSIZE) && (mode <? 2)%nat
          then do x <- query want req (S mode) r; let '(zs, m, p) := x in Some (z :: zs, m, p)
          else Some ([z], mode, Some o)
      end
  end.
