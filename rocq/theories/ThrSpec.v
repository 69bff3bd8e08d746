(** Vocabulary for C23: messages that travel between threads. *)
Require Import ZArith List Bool.
Import ListNotations.
Open Scope Z_scope.

(** The pools a message can come from: a thread's own, the global one, the one for real-time statistics. *)
Inductive pool := PLocal (t : Z) | PGlobal | PStats.
(** Where a message can be: free in a pool, queued for a thread, queued as the reply a thread waits for, or
    in the hands of a thread. *)
Inductive place := Free (p : pool) | General (t : Z) | Replies (t : Z) | Held (t : Z).

(** What a message says: where the reply is to go, its pool (none for a message that is a local or static variable of a
    thread), its kind and its payload. *)
Record hdr := mkHdr { h_reply : option place; h_home : option pool; h_id : Z; h_data : list Z }.

(** What threads do.  The first thread named is the one that acts; [ok] says whether the write to the pipe of the queue succeeds. *)
Inductive op :=
| OPool (t : Z) (p : pool) (ms : list Z)                     (** set up a pool of these messages *)
| OLocal (t m : Z)                                           (** make a message of one's own *)
| OGone (t m : Z)                                            (** and drop it *)
| OFill (t m : Z) (data : list Z)                            (** write the payload *)
| OAlloc (t : Z) (p : pool)                                  (** allocate, do not wait *)
| OAllocWait (t : Z) (p : pool)                              (** allocate, wait: begin to wait *)
| OWake (t : Z)                                              (** the wait is over when the pool is not empty *)
| ORead (t : Z)                                              (** and the message is read *)
| OFree (t m : Z)
| OSend (t m to id : Z) (needs_reply ok : bool)
| OSendWait (t m to id : Z) (ok : bool)                      (** send and wait for the reply *)
| OStart (t child m : Z)                                     (** start a thread and wait for its status message *)
| OReplied (t : Z)                                           (** the reply is read *)
| OReply (t m : Z) (ok : bool)
| OReceive (t : Z).                                          (** take the next message of one's queue *)

(** What is seen to happen. *)
Inductive event :=
| Posted (q : place) (m : Z) (h : hdr)                       (** put in a queue *)
| Got (q : place) (m : Z) (h : hdr)                          (** taken from a queue *)
| Allocated (t : Z) (p : pool) (m : Z)
| NoMessage (t : Z) (p : pool)                               (** the allocation failed *)
| Returned (t m r : Z).                                      (** a wait for the reply to [m] ended with [r] *)

(** The messages put in, and taken from, a queue, in that order. *)
Definition pool_eqb (a b : pool) : bool :=
  match a, b with PLocal t, PLocal u => t =? u | PGlobal, PGlobal | PStats, PStats => true | _, _ => false end.
Definition place_eqb (a b : place) : bool :=
  match a, b with
  | Free p, Free q => pool_eqb p q
  | General t, General u | Replies t, Replies u | Held t, Held u => t =? u
  | _, _ => false
  end.
Definition posted (q : place) (e : event) : list (Z * hdr) :=
  match e with Posted q' m h => if place_eqb q q' then [(m, h)] else [] | _ => [] end.
Definition got (q : place) (e : event) : list (Z * hdr) :=
  match e with Got q' m h => if place_eqb q q' then [(m, h)] else [] | _ => [] end.

(** The messages of a pool: those it was first set up with. *)
Fixpoint made (p : pool) (h : list op) : list Z :=
  match h with
  | [] => []
  | OPool _ p' ms :: h' => if pool_eqb p p' then ms else made p h'
  | _ :: h' => made p h'
  end.
Definition sends_ok (o : op) : Prop := match o with OSend _ _ _ _ _ ok => ok = true | _ => True end.
