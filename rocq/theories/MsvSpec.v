(** C79, specification: the packets of an answer of the NTP daemon (private mode, mode 7). *)
Require Import ZArith List Bool.
Import ListNotations.
Open Scope Z_scope.

(** A packet of an answer: more to follow, its number, the request answered, an error, the size of an item and the items. *)
Record reply := mkReply { r_more : bool; r_seq : Z; r_req : Z; r_err : Z; r_size : Z; r_items : list (list Z) }.
Definition octet (x : Z) : Prop := 0 <= x < 256.
Definition count (r : reply) : Z := Z.of_nat (length (r_items r)).
Definition reply_ok (r : reply) : Prop :=
  0 <= r_seq r < 128 /\ octet (r_req r) /\ 0 <= r_err r < 16 /\ 0 <= r_size r < 4096 /\ Forall (fun i => Z.of_nat (length i) = r_size r) (r_items r) /\
  count r < 4096 /\ count r * r_size r <= 500.
Definition be16 (x : Z) : list Z := [x / 256; x mod 256].
(** The packet: response, version 4, mode 7, implementation 3. *)
Definition encode (r : reply) : list Z :=
  [128 + (if r_more r then 64 else 0) + 4 * 8 + 7; r_seq r; 3; r_req r] ++ be16 (r_err r * 4096 + count r) ++ be16 (r_size r) ++ concat (r_items r).
(** An item brought to the size wanted. *)
Definition sized (want : Z) (i : list Z) : list Z := i ++ repeat 0 (Z.to_nat want - length i).
(** What is wanted of an answer. *)
Definition data (want : Z) (l : list reply) : list Z := flat_map (fun r => flat_map (sized want) (r_items r)) l.
Definition total (l : list reply) : Z := fold_right (fun r n => count r + n) 0 l.
(** A whole answer in packets: numbered from [i], the last one says so. *)
Fixpoint sequence (i : Z) (l : list reply) : Prop :=
  match l with [] => False | r :: t => r_seq r = i /\ (if r_more r then sequence (i + 1) t else t = []) end.

(** What comes from the socket. *)
Inductive event :=
| Late                       (** the time is over *)
| SelectFails (e : Z) | Nothing | ReadFails (e : Z)
| Packet (octets : list Z).
(** A packet that is none for us: too short, a request, authenticated, of other version, mode, implementation, or for another request. *)
Definition bit (x n : Z) : bool := Z.odd (x / 2^n).
Definition stranger (req : Z) (l : list Z) : Prop :=
  match l with
  | a :: b :: c :: d :: _ :: _ :: g :: _ :: _ => a mod 8 <> 7 \/ a / 8 mod 8 = 0 \/ 4 < a / 8 mod 8 \/ bit a 7 = false \/ bit b 7 = true \/ c <> 3 \/ d <> req \/ 16 <= g
  | _ => True
  end.
(** The packets [l] come in this order, with packets of others between; what comes after the last one is left open. *)
Inductive delivered (req : Z) : list reply -> list event -> Prop :=
| D_end : forall evs, delivered req [] evs
| D_other : forall p l evs, Forall octet p -> stranger req p -> delivered req l evs -> delivered req l (Packet p :: evs)
| D_one : forall r l evs, delivered req l evs -> delivered req (r :: l) (Packet (encode r) :: evs).
(** The packets of an answer to [req] without error, with items no larger than wanted. *)
Definition plain (want req : Z) (r : reply) : Prop := reply_ok r /\ r_req r = req /\ r_err r = 0 /\ r_size r <= want.
(** The error codes of the daemon and the error returned to the caller: EMSGSIZE, ENOSYS, EBADMSG, ENODATA, EACCES, else EIO. *)
Definition caller_error (e : Z) : Z :=
  if e =? 1 then 90 else if e =? 2 then 38 else if e =? 3 then 74 else if e =? 4 then 61 else if e =? 7 then 13 else 5.
(** The error in a packet is one the protocol knows (0 to 7). *)
Definition known_error (l : list Z) : Prop := nth 4 l 0 / 16 < 8.
(** Says that it is the last one. *)
Definition final (l : list Z) : Prop := match l with a :: _ => bit a 6 = false | [] => False end.
(** As [delivered], and nothing else comes. *)
Inductive only (req : Z) : list reply -> list event -> Prop :=
| O_end : only req [] []
| O_other : forall p l evs, Forall octet p -> stranger req p -> only req l evs -> only req l (Packet p :: evs)
| O_one : forall r l evs, only req l evs -> only req (r :: l) (Packet (encode r) :: evs).
