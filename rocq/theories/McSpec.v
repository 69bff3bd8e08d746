(** Vocabulary for C46: multicast groups. *)
Require Import ZArith List Bool.
Import ListNotations.
Open Scope Z_scope.

(** A subscription is for copies of the message, or for an event that is signalled through a writer of its own. *)
Inductive kind := ByMessage | ByEvent (writer : Z).
Inductive role := Subscriber | Publisher.
Definition member := (Z * kind)%type.

(** What threads do; the first argument is the thread.  [user] and [group]: whether memory for these can be had; [writer]: the
    writer made for the event, if that succeeded. *)
Inductive op :=
| OSubscribe (t id : Z) (user group : bool)
| OSubscribeEvent (t id : Z) (writer : option Z) (user group : bool)
| OPublish (t id : Z) (user group : bool)
| OUnsubscribe (t id : Z)
| OUnpublish (t id : Z)
| OFind (t id : Z) (data : list Z)                 (** send: look for the group *)
| OCopy (t : Z) (buffers : nat)                    (** send: signal events and take buffers, of which there are so many *)
| OPost (t : Z) (ok : bool).                       (** send: the next copy is made and posted *)

Inductive out :=
| Done                                             (** success *)
| Fails                                            (** an error is returned *)
| Signal (writer : Z)                              (** an event is signalled *)
| Take (n : nat)                                   (** buffers taken *)
| Give (n : nat)                                   (** and given back *)
| Copy (to id : Z) (data : list Z).                (** a copy is posted to this thread *)

Definition log := list (op * list out).

Definition role_eqb (a b : role) : bool := match a, b with Subscriber, Subscriber | Publisher, Publisher => true | _, _ => false end.

(** One membership of a thread ends: the most recent. *)
Fixpoint leave (t : Z) (l : list member) : list member :=
  match l with
  | [] => []
  | u :: l => if fst u =? t then l else u :: leave t l
  end.
(** The members of a group, most recent first, as far as the calls that succeeded say. *)
Definition joins (e : op * list out) : option (role * Z * member) :=
  match e with
  | (OSubscribe t id _ _, [Done]) => Some (Subscriber, id, (t, ByMessage))
  | (OSubscribeEvent t id (Some w) _ _, [Done]) => Some (Subscriber, id, (t, ByEvent w))
  | (OPublish t id _ _, [Done]) => Some (Publisher, id, (t, ByMessage))
  | _ => None
  end.
Definition leaves (e : op * list out) : option (role * Z * Z) :=
  match e with
  | (OUnsubscribe t id, [Done]) => Some (Subscriber, id, t)
  | (OUnpublish t id, [Done]) => Some (Publisher, id, t)
  | _ => None
  end.
Definition member_step (r : role) (id : Z) (l : list member) (e : op * list out) : list member :=
  match joins e with
  | Some (r', i, u) => if role_eqb r r' && (id =? i) then u :: l else l
  | None => match leaves e with
            | Some (r', i, t) => if role_eqb r r' && (id =? i) then leave t l else l
            | None => l
            end
  end.
Definition members (r : role) (id : Z) (lg : log) : list member := fold_left (member_step r id) lg [].

(** Those of them that get copies, and those that are signalled. *)
Definition by_message (l : list member) : list Z := map fst (filter (fun u => match snd u with ByMessage => true | _ => false end) l).
Definition by_event (l : list member) : list Z := flat_map (fun u => match snd u with ByEvent w => [w] | ByMessage => [] end) l.

(** The copies that the calls of one thread posted. *)
Definition copies_of (t : Z) (e : op * list out) : list out :=
  match e with (OPost t' _, os) => if t' =? t then os else [] | _ => [] end.
Definition copies (t : Z) (lg : log) : list out := flat_map (copies_of t) lg.
Definition finds (t : Z) (e : op * list out) : bool := match fst e with OFind t' _ _ => t' =? t | _ => false end.

(** What a thread last asked to be sent, and to which group. *)
Definition asked_step (t : Z) (a : option (Z * list Z)) (e : op * list out) : option (Z * list Z) :=
  match fst e with OFind t' id d => if t' =? t then Some (id, d) else a | _ => a end.
Definition asked (t : Z) (lg : log) : option (Z * list Z) := fold_left (asked_step t) lg None.
(** Which of the posts of a thread succeed. *)
Definition posts (t : Z) (lg : log) : list bool := flat_map (fun e => match fst e with OPost t' ok => if t' =? t then [ok] else [] | _ => [] end) lg.
(** A copy for each destination, or its buffer back where posting fails. *)
Definition delivery (id : Z) (data : list Z) (p : bool * Z) : out := if fst p then Copy (snd p) id data else Give 1.
(** Some member stays through [l2]. *)
Definition never_empty (id : Z) (l l2 : log) : Prop :=
  forall a b, l2 = a ++ b -> members Subscriber id (l ++ a) <> [] \/ members Publisher id (l ++ a) <> [].
(** The group a call names. *)
Definition about (o : op) : option Z :=
  match o with
  | OSubscribe _ id _ _ | OSubscribeEvent _ id _ _ _ | OPublish _ id _ _ | OUnsubscribe _ id | OUnpublish _ id => Some id
  | _ => None
  end.
