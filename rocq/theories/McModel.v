(** Transcription of src/sfptpd_multicast.c. *)
Require Import ZArith List Bool.
Import ListNotations.
From Verif Require Import Base McSpec.
Open Scope Z_scope.

(** struct multicast_group, multicast.c:57-72, and where it is in memory.  Memory that was freed is not used again. *)
Record group := mkGroup { g_addr : Z; g_id : Z; g_subs : list member; g_pubs : list member }.

(** Where a thread is in sfptpd_multicast_send. *)
Inductive sender := Idle | FoundAt (addr id : Z) (data : list Z) | Posting (id : Z) (data : list Z) (dests : list Z).

(** struct sfptpd_multicast, 76-86; the state of the threads that send, and the writers that are open. *)
Record state := mkSt { groups : list group; next_addr : Z; sending : Z -> sender; writers : list Z }.
Definition start : state := mkSt [] 0 (fun _ => Idle) [].

Definition find_group (s : state) (id : Z) : option group := find (fun g => g_id g =? id) (groups s).
Definition users (r : role) (g : group) : list member := match r with Subscriber => g_subs g | Publisher => g_pubs g end.
Definition with_users (r : role) (g : group) (l : list member) : group :=
  match r with
  | Subscriber => mkGroup (g_addr g) (g_id g) l (g_pubs g)
  | Publisher => mkGroup (g_addr g) (g_id g) (g_subs g) l
  end.
Definition with_groups (s : state) (gs : list group) : state := mkSt gs (next_addr s) (sending s) (writers s).
Definition with_sending (s : state) (t : Z) (x : sender) : state :=
  mkSt (groups s) (next_addr s) (fun u => if u =? t then x else sending s u) (writers s).
Definition put_group (s : state) (g : group) : state :=
  with_groups s (map (fun x => if g_addr x =? g_addr g then g else x) (groups s)).

(** multicast_user_finit, 162-170: closes the writer. *)
Fixpoint close (w : Z) (ws : list Z) : list Z := match ws with [] => [] | x :: ws => if x =? w then ws else x :: close w ws end.
Definition finit (s : state) (u : member) : state :=
  match snd u with
  | ByMessage => s
  | ByEvent w => mkSt (groups s) (next_addr s) (sending s) (close w (writers s))
  end.

(** multicast_add_user, 172-220. *)
Definition add_user (s : state) (r : role) (u : member) (id : Z) (user_mem group_mem : bool) : state * list out :=
  if negb user_mem then (finit s u, [Fails])
  else
    match find_group s id with
    | Some g => (put_group s (with_users r g (u :: users r g)), [Done])
    | None =>
        if negb group_mem then (finit s u, [Fails])
        else
          let g := mkGroup (next_addr s) id [] [] in
          (mkSt (with_users r g [u] :: groups s) (next_addr s + 1) (sending s) (writers s), [Done])
    end.

(** multicast_remove_user, 222-279. *)
Fixpoint take_user (t : Z) (l : list member) : option (member * list member) :=
  match l with
  | [] => None
  | u :: l => if fst u =? t then Some (u, l) else do r <- take_user t l; Some (fst r, u :: snd r)
  end.
Definition is_empty (g : group) : bool := match g_subs g, g_pubs g with [], [] => true | _, _ => false end.
Definition remove_group (s : state) (g : group) : state :=
  with_groups s (filter (fun x => negb (g_addr x =? g_addr g)) (groups s)).
Definition remove_user (s : state) (r : role) (t id : Z) : state * list out :=
  match find_group s id with
  | None => (s, [Fails])
  | Some g =>
      match take_user t (users r g) with
      | None => (if is_empty g then remove_group s g else s, [Fails])
      | Some (u, l) =>
          let g' := with_users r g l in
          let s1 := finit (put_group s g') u in
          (if is_empty g' then remove_group s1 g' else s1, [Done])
      end
  end.

(** sfptpd_multicast_send, 380-475, in the steps between which other threads can act.  The group is found without
    the lock (398-406). *)
Definition send_find (s : state) (t id : Z) (data : list Z) : state * list out :=
  match find_group s id with
  | None => (with_sending s t Idle, [Fails])
  | Some g => (with_sending s t (FoundAt (g_addr g) id data), [])
  end.
(** With the lock, 408-448: the use of a group that was freed is undefined. *)
Definition send_copy (s : state) (addr id : Z) (data : list Z) (t : Z) (buffers : nat) : option (state * list out) :=
  do g <- find (fun g => g_addr g =? addr) (groups s);
  let signals := map Signal (by_event (g_subs g)) in
  let dests := by_message (g_subs g) in
  if Nat.leb (length dests) buffers then
    Some (with_sending s t (match dests with [] => Idle | _ => Posting id data dests end), signals ++ [Take (length dests)])
  else Some (with_sending s t Idle, signals ++ [Take buffers; Give buffers; Fails]).
(** Without the lock, 453-469; a copy that cannot be posted is freed by sfptpd_msg_send. *)
Definition send_post (s : state) (id : Z) (data : list Z) (dests : list Z) (t : Z) (ok : bool) : state * list out :=
  match dests with
  | [] => (with_sending s t Idle, [])
  | d :: rest => (with_sending s t (match rest with [] => Idle | _ => Posting id data rest end), [if ok then Copy d id data else Give 1])
  end.

Definition step (o : op) (s : state) : option (state * list out) :=
  match o with
  | OSubscribe t id u g => Some (add_user s Subscriber (t, ByMessage) id u g)
  | OSubscribeEvent t id None _ _ => Some (s, [Fails])
  | OSubscribeEvent t id (Some w) u g =>
      Some (add_user (mkSt (groups s) (next_addr s) (sending s) (w :: writers s)) Subscriber (t, ByEvent w) id u g)
  | OPublish t id u g => Some (add_user s Publisher (t, ByMessage) id u g)
  | OUnsubscribe t id => Some (remove_user s Subscriber t id)
  | OUnpublish t id => Some (remove_user s Publisher t id)
  | OFind t id data => Some (send_find s t id data)
  | OCopy t buffers => match sending s t with FoundAt a id d => send_copy s a id d t buffers | _ => None end
  | OPost t ok => match sending s t with Posting id d ds => Some (send_post s id d ds t ok) | _ => None end
  end.

(** A thread takes the steps of a send one after the other. *)
Definition in_turn (o : op) (s : state) : Prop :=
  match o with
  | OCopy t _ => exists a id d, sending s t = FoundAt a id d
  | OPost t _ => exists id d ds, sending s t = Posting id d ds
  | OSubscribe t _ _ _ | OSubscribeEvent t _ _ _ _ | OPublish t _ _ _ | OUnsubscribe t _ | OUnpublish t _ | OFind t _ _ => sending s t = Idle
  end.
Inductive history : log -> state -> Prop :=
| h_start : history [] start
| h_step : forall l s o s' os, history l s -> in_turn o s -> step o s = Some (s', os) -> history (l ++ [(o, os)]) s'.
