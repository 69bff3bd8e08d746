(** Specification vocabulary for the freerun module: network links, the NICs with a clock behind a
    link, what instances are given and asked. *)
Require Import ZArith QArith List Bool.
Require Import Verif.Base Verif.TimeSpec.
Import ListNotations.
Open Scope Z_scope.

(** A link of the machine: number, name (octets), is it a VLAN and then of which link, and the number of
    the bond, team or bridge it belongs to (0: none). *)
Record link := mkL { l_index : Z; l_name : list Z; l_vlan : bool; l_inner : Z; l_master : Z }.
Definition clk := nat.
(** The system clock is number 0. *)
Definition SYSTEM : clk := 0%nat.
(** What is known of a clock: holdover, accuracy (ppb), stratum. *)
Record spec := mkSpec { s_hold : Q; s_acc : Q; s_strat : Z }.
(** Better: less holdover drift; if equal, less inaccuracy; if equal, a lower stratum. *)
Definition better (a b : spec) : Prop :=
  (s_hold a < s_hold b)%Q \/ (s_hold a == s_hold b)%Q /\ ((s_acc a < s_acc b)%Q \/ (s_acc a == s_acc b)%Q /\ s_strat a < s_strat b).

Section World.
(** The interface with a number: the clock it has, if the daemon knows the interface and it has one. *)
Variable iface : Z -> option (option clk).
Variable specs : clk -> spec.

Definition hw (i : Z) : option clk :=
  match iface i with Some (Some (S c)) => Some (S c) | _ => None end.
(** The link with a number: the last with that number in the table. *)
Definition numbered (t : list link) (i : Z) (l : link) : Prop :=
  l_index l = i /\ exists a b, t = a ++ l :: b /\ forall x, In x b -> l_index x <> i.
(** The NICs with a clock of their own behind a link, in the order of the table: the NIC itself, or those
    behind the link a VLAN is on, or those behind the members of a bond. *)
Inductive nics (t : list link) : link -> list (link * clk) -> Prop :=
| Nvlan : forall l i L, l_vlan l = true -> numbered t (l_inner l) i -> nics t i L -> nics t l L
| Nnic : forall l c, l_vlan l = false -> hw (l_index l) = Some c -> nics t l [(l, c)]
| Ngroup : forall l L, l_vlan l = false -> hw (l_index l) = None ->
    nics_of t (filter (fun x => l_master x =? l_index l) t) L -> nics t l L
with nics_of (t : list link) : list link -> list (link * clk) -> Prop :=
| Nnil : nics_of t [] []
| Ncons : forall l r L1 L2, nics t l L1 -> nics_of t r L2 -> nics_of t (l :: r) (L1 ++ L2).
(** The first of the best. *)
Definition first_best (L : list (link * clk)) (r : option (link * clk)) : Prop :=
  match r with
  | None => L = []
  | Some x => exists a b, L = a ++ x :: b /\ (forall y, In y a -> better (specs (snd x)) (specs (snd y))) /\
                          (forall y, In y b -> ~ better (specs (snd y)) (specs (snd x)))
  end.
End World.

(** ** Instances *)
Inductive class := Locked | Holdover | Freerunning.
(** Configuration of an instance; accuracy in ns, None: unknown. *)
Record conf := mkConf { c_name : list Z; c_prio : Z; c_class : class; c_acc : option Q; c_time : bool; c_freq : bool }.
(** The name of the system clock. *)
Definition sys_name : list Z := [115; 121; 115; 116; 101; 109].
(** The link of a name: the last of that name in the table. *)
Definition named (t : list link) (n : list Z) (l : link) : Prop :=
  l_name l = n /\ exists a b, t = a ++ l :: b /\ forall x, In x b -> l_name x <> n.
(** The clock a configuration asks for: the system clock, or that of the first best NIC behind the link. *)
Definition asks (iface : Z -> option (option clk)) (specs : clk -> spec) (t : list link) (c : conf) (k : clk) : Prop :=
  c_name c = sys_name /\ k = SYSTEM \/
  c_name c <> sys_name /\ c_name c <> [] /\ exists l L x, named t (c_name c) l /\ nics iface t l L /\ first_best specs L (Some (x, k)).
(** It asks for a clock there is not: no link of the name, or no NIC with a clock behind it. *)
Definition asks_none (iface : Z -> option (option clk)) (t : list link) (c : conf) : Prop :=
  c_name c <> sys_name /\ c_name c <> [] /\ ((forall l, In l t -> l_name l <> c_name c) \/ exists l, named t (c_name c) l /\ nics iface t l []).
(** Names of at most 15 octets, as the system has. *)
Definition short (n : list Z) : Prop := (List.length n < 16)%nat.

(** What an instance says of itself. *)
Inductive state := Slave | Other.
Record status := mkStatus { t_state : state; t_alarms : Z; t_clock : clk; t_off : ts; t_prio : Z; t_class : class; t_acc : option Q;
  t_remote : bool; t_steps : Z; t_time : bool; t_freq : bool }.
(** What the engine asks of instance [i]. *)
Inductive op := GetStatus (i : nat) | Control (i : nat) (mask flags : Z) | StepClock (i : nat) (offset : ts) | SaveState | Topology (i : nat) | Other_message.
(** What is seen. *)
Inductive out := Reply (s : status) | Adjust (c : clk) (d : ts) | State (c : clk) (flags : Z) | Drawn (c : clk).
Definition SELECTED := 0. Definition TIMESTAMPS := 1.

(** A control flag of instance [n] after a history: the last setting of it. *)
Fixpoint flag_after (n : nat) (b : Z) (v : bool) (l : list op) : bool :=
  match l with
  | [] => v
  | Control m mask flags :: r => flag_after n b (if (m =? n)%nat && Z.testbit mask b then Z.testbit flags b else v) r
  | _ :: r => flag_after n b v r
  end.
