(** Specification side of the creation, start and end of the PTP module (C75): the configuration
    of the instances, what the system returns, what can be observed. *)
Require Import ZArith List Bool.
Import ListNotations.
Open Scope Z_scope.

Definition EBUSY := 16.
Definition EINVAL := 22.
Definition ENOENT := 2.
Definition ENOTSUP := 95.
Definition EREPORTED := 1001.

(** PTP profiles, src/include/sfptpd_constants.h:115-120. *)
Inductive profile := UNDEF | DEFAULT_E2E | DEFAULT_P2P | ENTERPRISE.

(** One configured PTP instance: interface, transport, domain, profile, delay mechanism, minor
    version, communication capabilities TLV, whether it takes Sync and DelayResp by multicast;
    [f_needed] is multicast_needed of its interface options, false until the module starts. *)
Record conf := mkConf {
  f_if : Z; f_af : Z; f_dom : Z; f_prof : profile; f_p2p : bool; f_minor : Z; f_tlv : bool;
  f_sync_mc : bool; f_resp_mc : bool; f_needed : bool }.

(** Two instances share an interface: same name, same transport. *)
Definition same_if (c d : conf) : bool := (f_if c =? f_if d) && (f_af c =? f_af d).
(** No two instances use the same domain on the same interface. *)
Definition no_clash (l : list conf) : Prop :=
  forall i j c d, nth_error l i = Some c -> nth_error l j = Some d ->
    f_if c = f_if d -> f_af c = f_af d -> f_dom c = f_dom d -> i = j.
(** The instance takes multicast messages. *)
Definition wants_multicast (c : conf) : bool := f_sync_mc c || f_resp_mc c.

(** The objects whose life is followed, by the position of the instance in the configuration: an
    instance, an interface (by the first instance on it), the protocol engine's context of an
    interface, of a port, and its global context. *)
Inductive obj := OInst (i : nat) | OIntf (i : nat) | OCtx (i : nat) | OPort (i : nat) | OGlob.

(** What is observed: the context of an interface comes up with the options of this instance,
    joined to the multicast groups or not; a port comes up with this number. *)
Inductive ev := Up (i : nat) (options : nat) (multicast : bool) | Port (i : nat) (number : Z).

(** What the start meets, as errno or 0, by interface (topology, number of physical interfaces,
    context, whether timestamps are by software) or by instance. *)
Record env := mkEnv {
  e_table : Z; e_thread : Z; e_sub1 : Z; e_sub2 : Z; e_topo : nat -> Z; e_phys : nat -> Z; e_stats : nat -> Z;
  e_ts : nat -> Z; e_init : Z; e_ctx : nat -> Z; e_soft : nat -> bool; e_port : nat -> Z; e_clock : nat -> Z;
  e_snap : nat -> Z; e_timer : Z }.

(** The instances [i] and [j] are configured and share an interface; [i] is the first on it. *)
Definition shares (l : list conf) (i j : nat) : Prop :=
  exists c d, nth_error l i = Some c /\ nth_error l j = Some d /\ f_if c = f_if d /\ f_af c = f_af d.
Definition first (l : list conf) (i : nat) : Prop := (i < length l)%nat /\ forall j, (j < i)%nat -> ~ shares l j i.
(** What comes up: interfaces, and ports with their numbers. *)
Definition ups_of (t : list ev) : list nat := flat_map (fun x => match x with Up i _ _ => [i] | Port _ _ => [] end) t.
Definition ports_of (t : list ev) : list (nat * Z) := flat_map (fun x => match x with Up _ _ _ => [] | Port i n => [(i, n)] end) t.
(** Everything that has to work does: in general, for the first instance of every interface, for
    every instance; and at most one instance is on an interface that timestamps by software. *)
Definition works (l : list conf) (e : env) : Prop :=
  e_sub1 e = 0 /\ e_sub2 e = 0 /\ e_init e = 0 /\ e_timer e = 0 /\
  (forall i, first l i -> e_topo e i = 0 /\ e_ctx e i = 0) /\
  (forall i, (i < length l)%nat -> e_stats e i = 0 /\ e_ts e i = 0 /\ e_port e i = 0 /\ e_clock e i = 0 /\ e_snap e i = 0) /\
  (forall i j a b, first l a -> first l b -> shares l a i -> shares l b j -> e_soft e a = true -> e_soft e b = true -> i = j).
(** Each port that comes up, with the interface that came up last before it. *)
Fixpoint ports_on (cur : option nat) (t : list ev) : list (nat * option nat) :=
  match t with
  | [] => []
  | Up i _ _ :: r => ports_on (Some i) r
  | Port i _ :: r => (i, cur) :: ports_on cur r
  end.
