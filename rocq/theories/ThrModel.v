(** Transcription of the message part of src/sfptpd_thread.c.

    A queue is a pipe of pointers: reads and writes of one pointer are atomic and in order.  A write
    that finds a pipe full blocks, so it takes place later; the pipe of a pool has room for all of its messages
    (pool_allocate, 572-577).  The destruction of threads is left out. *)
Require Import ZArith List Bool.
Import ListNotations.
From Verif Require Import Base ThrSpec.
Open Scope Z_scope.

(** What a thread does: it runs, waits for a reply in a send-wait, or waits (select) for a pool to have
    a message and has or has not been woken up. *)
Inductive activity := Runs | WaitsReply (m : Z) | Selects (p : pool) | Woken (p : pool).

(** Headers (message.h:60-68), queues, what threads do, and the statistics of pools (thread.c:130-146).  The places
    [Held t] are no part of the program: they say who has the pointer. *)
Record state := mkSt { hdrs : Z -> hdr; at_ : place -> list Z; does : Z -> activity;
                       set_up : pool -> bool; free_count : pool -> Z; used_count : pool -> Z }.

Definition no_hdr : hdr := mkHdr None None 0 [].
Definition start : state := mkSt (fun _ => no_hdr) (fun _ => []) (fun _ => Runs) (fun _ => false) (fun _ => 0) (fun _ => 0).

Definition updz {A} (f : Z -> A) (k : Z) (v : A) : Z -> A := fun x => if x =? k then v else f x.
Definition updp {A} (f : pool -> A) (k : pool) (v : A) : pool -> A := fun x => if pool_eqb x k then v else f x.
Definition updq {A} (f : place -> A) (k : place) (v : A) : place -> A := fun x => if place_eqb x k then v else f x.

Definition with_hdr (s : state) (m : Z) (h : hdr) : state :=
  mkSt (updz (hdrs s) m h) (at_ s) (does s) (set_up s) (free_count s) (used_count s).
Definition with_at (s : state) (q : place) (l : list Z) : state :=
  mkSt (hdrs s) (updq (at_ s) q l) (does s) (set_up s) (free_count s) (used_count s).
Definition with_does (s : state) (t : Z) (a : activity) : state :=
  mkSt (hdrs s) (at_ s) (updz (does s) t a) (set_up s) (free_count s) (used_count s).
Definition count_free (s : state) (p : pool) (n : Z) : state :=
  mkSt (hdrs s) (at_ s) (does s) (set_up s) (updp (free_count s) p (free_count s p + n)) (updp (used_count s) p (used_count s p - n)).

(** pipe_write / pipe_read of one pointer, 393-412, 416-467. *)
Definition write (s : state) (q : place) (m : Z) : state := with_at s q (at_ s q ++ [m]).
Definition drop (s : state) (q : place) (m : Z) : state := with_at s q (filter (fun x => negb (x =? m)) (at_ s q)).
(** From the hands of a thread into a queue, or back. *)
Definition hand_over (s : state) (t : Z) (q : place) (m : Z) : state := write (drop s (Held t) m) q m.
Definition take (s : state) (q : place) (t m : Z) (rest : list Z) : state := write (with_at s q rest) (Held t) m.

Definition set_reply (h : hdr) (r : option place) : hdr := mkHdr r (h_home h) (h_id h) (h_data h).
Definition set_id (h : hdr) (i : Z) : hdr := mkHdr (h_reply h) (h_home h) i (h_data h).
Definition set_data (h : hdr) (d : list Z) : hdr := mkHdr (h_reply h) (h_home h) (h_id h) d.

(** pool_allocate, 558-613: each message is initialised (sfptpd_msg_init, 1030-1040) and written to the free queue. *)
Fixpoint put_all (s : state) (p : pool) (ms : list Z) : state :=
  match ms with
  | [] => s
  | m :: ms => put_all (mkSt (updz (hdrs s) m (mkHdr None (Some p) 0 (h_data (hdrs s m))))
                             (updq (at_ s) (Free p) (at_ s (Free p) ++ [m])) (does s) (set_up s)
                             (updp (free_count s) p (free_count s p + 1)) (used_count s)) p ms
  end.
Definition pool_allocate (s : state) (p : pool) (ms : list Z) : state :=
  if set_up s p then s
  else put_all (mkSt (hdrs s) (at_ s) (does s) (updp (set_up s) p true) (free_count s) (used_count s)) p ms.

(** The read from the pool and what follows, sfptpd_msg_alloc, 1056-1069. *)
Definition pool_receive (s : state) (t : Z) (p : pool) : state * list event :=
  match at_ s (Free p) with
  | [] => (s, [NoMessage t p])
  | m :: rest => (count_free (take s (Free p) t m rest) p (-1), [Allocated t p m])
  end.

(** sfptpd_msg_free, 1078-1106. *)
Definition msg_free (s : state) (t m : Z) : state :=
  match h_home (hdrs s m) with
  | None => s
  | Some p => hand_over (count_free (with_hdr s m (set_id (set_reply (hdrs s m) None) 0)) p 1) t (Free p) m
  end.

(** sfptpd_msg_send, 1108-1152: the assertion is that the message comes from a pool. *)
Definition msg_send (s : state) (t m to id : Z) (needs_reply ok : bool) : option (state * list event) :=
  do p <- h_home (hdrs s m);
  let h := set_reply (set_id (hdrs s m) id) (if needs_reply then Some (General t) else None) in
  if ok then Some (hand_over (with_hdr s m h) t (General to) m, [Posted (General to) m h])
  else Some (hand_over (with_hdr s m (set_reply h None)) t (Free p) m, []).

(** sfptpd_msg_send_wait, 1155-1199, up to the wait. *)
Definition msg_send_wait (s : state) (t m to id : Z) (ok : bool) : state * list event :=
  let h := set_reply (set_id (hdrs s m) id) (Some (Replies t)) in
  if ok then (with_does (hand_over (with_hdr s m h) t (General to) m) t (WaitsReply m), [Posted (General to) m h])
  else (with_hdr s m (set_reply h None), []).

(** thread_create, 1764-1793: the status message of the new thread is in that thread's hands from the start.
    (SFPTPD_MSG_ID_THREAD_STARTUP_STATUS = 1, message.h:88.) *)
Definition thread_start (s : state) (t child m : Z) : state :=
  with_does (hand_over (with_hdr s m (mkHdr (Some (Replies t)) None 1 (h_data (hdrs s m)))) t (Held child) m) t (WaitsReply m).

(** The end of the wait, 1184-1198 (the reply of the message sent is cleared, whichever message was read).  While there is nothing
    to read the thread stays where it is. *)
Definition replied (s : state) (t : Z) : option (state * list event) :=
  match does s t with
  | WaitsReply m =>
      match at_ s (Replies t) with
      | [] => Some (s, [])
      | r :: rest =>
          let s1 := with_does (take s (Replies t) t r rest) t Runs in
          Some (with_hdr s1 m (set_reply (hdrs s1 m) None), [Got (Replies t) r (hdrs s r); Returned t m r])
      end
  | _ => None
  end.

(** sfptpd_msg_reply, 1202-1229. *)
Definition msg_reply (s : state) (t m : Z) (ok : bool) : state * list event :=
  match h_reply (hdrs s m) with
  | None => (match h_home (hdrs s m) with Some _ => msg_free s t m | None => s end, [])
  | Some q =>
      let h := set_reply (hdrs s m) None in
      if ok then (hand_over (with_hdr s m h) t q m, [Posted q m h])
      else (with_hdr s m (set_reply h (Some q)), [])
  end.

(** One message of thread_on_message_event, 1360-1373. *)
Definition receive (s : state) (t : Z) : state * list event :=
  match at_ s (General t) with
  | [] => (s, [])
  | m :: rest => (take s (General t) t m rest, [Got (General t) m (hdrs s m)])
  end.

Definition step (o : op) (s : state) : option (state * list event) :=
  match o with
  | OPool t p ms => Some (pool_allocate s p ms, [])
  | OLocal t m => Some (write (with_hdr s m (mkHdr None None 0 (h_data (hdrs s m)))) (Held t) m, [])
  | OGone t m => Some (drop s (Held t) m, [])
  | OFill t m d => Some (with_hdr s m (set_data (hdrs s m) d), [])
  | OAlloc t p => Some (pool_receive s t p)
  | OAllocWait t p => Some (with_does s t (Selects p), [])
  | OWake t => match does s t with
               | Selects p => Some (match at_ s (Free p) with [] => s | _ => with_does s t (Woken p) end, [])
               | _ => None
               end
  | ORead t => match does s t with Woken p => Some (pool_receive (with_does s t Runs) t p) | _ => None end
  | OFree t m => Some (msg_free s t m, [])
  | OSend t m to id r ok => msg_send s t m to id r ok
  | OSendWait t m to id ok => Some (msg_send_wait s t m to id ok)
  | OStart t child m => Some (thread_start s t child m, [])
  | OReplied t => replied s t
  | OReply t m ok => Some (msg_reply s t m ok)
  | OReceive t => Some (receive s t)
  end.
Fixpoint run (h : list op) (s : state) : option (state * list event) :=
  match h with
  | [] => Some (s, [])
  | o :: h' => do r <- step o s; do r' <- run h' (fst r); Some (fst r', snd r ++ snd r')
  end.

(** What a thread may do: only a thread that runs acts, and only on a message it holds; a message or pool it makes is
    made of memory in which there is no message; a message of a pool is not dropped; only messages that come from
    a pool are sent without waiting. *)
Definition nowhere (s : state) (m : Z) : Prop := forall q, ~ In m (at_ s q).
Definition has (s : state) (t m : Z) : Prop := does s t = Runs /\ In m (at_ s (Held t)).
Definition allowed (o : op) (s : state) : Prop :=
  match o with
  | OPool t p ms => does s t = Runs /\ NoDup ms /\ Forall (nowhere s) ms
  | OLocal t m => does s t = Runs /\ nowhere s m
  | OGone t m => has s t m /\ h_home (hdrs s m) = None
  | OFill t m _ | OFree t m | OSendWait t m _ _ _ | OReply t m _ => has s t m
  | OAlloc t _ | OAllocWait t _ | OReceive t => does s t = Runs
  | OWake t => exists p, does s t = Selects p
  | ORead t => exists p, does s t = Woken p
  | OSend t m _ _ _ _ => has s t m /\ h_home (hdrs s m) <> None
  | OStart t child m => has s t m /\ h_home (hdrs s m) = None /\ child <> t
  | OReplied t => exists m, does s t = WaitsReply m
  end.
(** A history in which every thread keeps to that. *)
Inductive history : list op -> state -> list event -> Prop :=
| h_start : history [] start []
| h_step : forall h s es o s' es', history h s es -> allowed o s -> step o s = Some (s', es') -> history (h ++ [o]) s' (es ++ es').
