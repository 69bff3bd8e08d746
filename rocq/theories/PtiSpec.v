(** Specification vocabulary for the interfaces of a PTP instance: links, the physical interfaces behind a
    link, the one that is used, hardware and software timestamps. *)
Require Import ZArith List Bool Permutation Sorted.
Require Import Verif.Base.
Import ListNotations.
Open Scope Z_scope.

(** A link of the machine: number, name (octets), kind, the link below (VLAN, macvlan), the group it belongs
    to, for a group its mode and its active member (0: none); up or down. *)
Inductive kind := Plain | Vlan | Macvlan | Bond | Team | Bridge.
Inductive mode := NoMode | ActiveBackup | Lacp | OtherMode.
Record link := mkL { l_index : Z; l_name : list Z; l_kind : kind; l_under : Z; l_slave : bool; l_master : Z;
  l_mode : mode; l_active : Z; l_up : bool }.

(** What the daemon knows of physical interfaces, which are numbered in some way of their own: that of a link
    number or a name, is it deleted, name, link number, clock (0: the system clock), can it make hardware
    timestamps of packets, does it have a PTP clock, is there a link (None: cannot be told). *)
Record world := mkW { w_index : Z -> option nat; w_name : list Z -> option nat; w_deleted : nat -> bool; w_text : nat -> list Z;
  w_ifindex : nat -> Z; w_clock : nat -> nat; w_hw : nat -> bool; w_ptp : nat -> bool; w_link : nat -> option bool }.

(** A physical interface of an instance, with what was noted of it. *)
Record phys := mkP { p_intf : option nat; p_up : bool; p_primary : bool; p_hwts : bool }.

(** The link of a number: the last in the table.  The link of a name: the last. *)
Definition last_such {A} (P : A -> Prop) (l : list A) (x : A) : Prop := exists a b, l = a ++ x :: b /\ P x /\ forall y, In y b -> ~ P y.
Definition first_such {A} (P : A -> Prop) (l : list A) (x : A) : Prop := exists a b, l = a ++ x :: b /\ P x /\ forall y, In y a -> ~ P y.
Definition numbered (t : list link) (i : Z) (l : link) : Prop := last_such (fun x => l_index x = i) t l.
Definition named (t : list link) (n : list Z) (l : link) : Prop := last_such (fun x => l_name x = n) t l.

(** Through VLANs to what they are on. *)
Inductive base (t : list link) : link -> link -> Prop :=
| Bself : forall l, l_kind l <> Vlan -> base t l l
| Bvlan : forall l i b, l_kind l = Vlan -> 0 < l_under l -> numbered t (l_under l) i -> base t i b -> base t l b.
(** A VLAN, at some depth, on a link that is not there. *)
Inductive broken (t : list link) : link -> Prop :=
| Xhere : forall l, l_kind l = Vlan -> l_under l <= 0 \/ (forall x, In x t -> l_index x <> l_under l) -> broken t l
| Xbelow : forall l i, l_kind l = Vlan -> 0 < l_under l -> numbered t (l_under l) i -> broken t i -> broken t l.

(** Members of a group. *)
Definition member (b m : link) : Prop := l_slave m = true /\ l_master m = l_index b.
Definition members (t : list link) (b : link) : list link := filter (fun m => l_slave m && (l_master m =? l_index b)) t.
Definition is_group (k : kind) : Prop := k = Bond \/ k = Team.
Definition noted (w : world) (m : link) (i : nat) : phys := mkP (Some i) (l_up m) (l_active m =? l_index m) (w_hw w i).

(** Names in the order of strcmp. *)
Inductive name_le : list Z -> list Z -> Prop :=
| NLnil : forall b, name_le [] b
| NLlt : forall x y a b, x < y -> name_le (x :: a) (y :: b)
| NLeq : forall x a b, name_le a b -> name_le (x :: a) (x :: b).
Definition text_of (w : world) (p : phys) : list Z := match p_intf p with Some i => w_text w i | None => [] end.
Definition by_name (w : world) (a b : phys) : Prop := name_le (text_of w a) (text_of w b).
Definition sorted (w : world) (l : list phys) : Prop := Sorted (by_name w) l.

(** The interfaces of members that are interfaces. *)
Fixpoint direct (w : world) (l : list link) : list phys :=
  match l with
  | [] => []
  | m :: r => match w_index w (l_index m) with Some i => noted w m i :: direct w r | None => direct w r end
  end.
(** What is behind members of a group: interfaces, and those of a group in the group (those of a team by name). *)
Inductive behind (w : world) (t : list link) : list link -> list phys -> Prop :=
| Hnil : behind w t [] []
| Hintf : forall m r i L, w_index w (l_index m) = Some i -> behind w t r L -> behind w t (m :: r) (noted w m i :: L)
| Hskip : forall m r L, w_index w (l_index m) = None -> ~ is_group (l_kind m) -> behind w t r L -> behind w t (m :: r) L
| Hbond : forall m r L, w_index w (l_index m) = None -> l_kind m = Bond -> behind w t r L -> behind w t (m :: r) (direct w (members t m) ++ L)
| Hteam : forall m r T L, w_index w (l_index m) = None -> l_kind m = Team -> Permutation (direct w (members t m)) T -> sorted w T ->
    behind w t r L -> behind w t (m :: r) (T ++ L).

(** ** The set of an instance *)
(** SFPTP_MAX_PHYSICAL_IFS, src/include/sfptpd_constants.h:127 *)
Definition MAX_IFS : nat := 16.
(** A name that fits in the 16 octets of an interface name. *)
Definition short (n : list Z) : Prop := (List.length n < 16)%nat.
(** Where an entry of the set comes from: a member, or a member of a group that is a member. *)
Definition source (w : world) (t : list link) (b : link) (p : phys) : Prop :=
  exists m i, In m t /\ w_index w (l_index m) = Some i /\ p = noted w m i /\
    (member b m \/ exists g, In g t /\ member b g /\ is_group (l_kind g) /\ w_index w (l_index g) = None /\ member g m).
(** The set found in a group: what is behind its members if that fits, always part of it. *)
Definition found (w : world) (t : list link) (b : link) (S : list phys) : Prop :=
  (List.length S <= MAX_IFS)%nat /\ (forall p, In p S -> source w t b p) /\
  exists T, behind w t (members t b) T /\ ((List.length T <= MAX_IFS)%nat -> if match l_kind b with Team => true | _ => false end then Permutation T S /\ sorted w S else S = T).
(** A group in the group. *)
Definition hidden (w : world) (t : list link) (b : link) : Prop :=
  exists g, In g t /\ member b g /\ is_group (l_kind g) /\ w_index w (l_index g) = None.
Definition supported (m : mode) : Prop := m = ActiveBackup \/ m = Lacp.
(** There is a link; it can be told whether there is one. *)
Definition linked (w : world) (p : phys) : Prop := exists i, p_intf p = Some i /\ w_link w i = Some true.
Definition told (w : world) (p : phys) : Prop := exists i b, p_intf p = Some i /\ w_link w i = Some b.
(** An interface is known and was not deleted.  It has a PTP clock. *)
Definition usable (w : world) (o : option nat) (i : nat) : Prop := o = Some i /\ w_deleted w i = false.
Definition stamps (w : world) (o : option nat) : Prop := exists i, o = Some i /\ w_ptp w i = true.

(** ** Which interface of the set is used *)
Definition ifindex_of (w : world) (p : phys) : Z := match p_intf p with Some i => w_ifindex w i | None => 0 end.
Definition clock_of (w : world) (p : phys) : nat := match p_intf p with Some i => w_clock w i | None => 0%nat end.
(** The one, of those that are up, on which the last Sync came; else one with hardware timestamps, of those
    the first that has the clock in use; else the last that is up; if none is up the first. *)
Definition got_sync (w : world) (last : Z) (p : phys) : Prop := p_up p = true /\ ifindex_of w p = last.
Definition hard (p : phys) : Prop := p_up p = true /\ p_hwts p = true.
Definition in_use (w : world) (clk : nat) (p : phys) : Prop := hard p /\ clock_of w p = clk.
Definition none_of {A} (P : A -> Prop) (l : list A) : Prop := forall y, In y l -> ~ P y.
Definition preferred (w : world) (last : Z) (clk : nat) (l : list phys) (x : phys) : Prop :=
  last_such (got_sync w last) l x \/
  none_of (got_sync w last) l /\
    (first_such (in_use w clk) l x \/
     none_of (in_use w clk) l /\
       (first_such hard l x \/
        none_of hard l /\
          (last_such (fun p => p_up p = true) l x \/
           none_of (fun p => p_up p = true) l /\ hd_error l = Some x))).

(** ** Timestamps *)
Inductive tstype := Sw | Hw.
Inductive pref := Auto | WantSw | WantHw.
