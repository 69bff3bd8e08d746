(** Specification side of the collection of what other slaves report (C77). *)
Require Import ZArith List Bool.
Import ListNotations.
Open Scope Z_scope.

(** Who reports: its port, the port it refers to, its address and domain. *)
Record stats := mkStats { s_port : Z; s_ref : Z; s_addr : Z; s_dom : Z }.
(** One element: sequence number, contents, and the time of the monitor's clock if it is read. *)
Record elt := mkElt { e_seq : Z; e_data : Z; e_now : Z }.
(** The reports: timing data of Syncs, data computed from Syncs, times of messages sent of a type,
    a status with its grandmaster; and the periodic output, with whether the text log and the JSON
    stream can be written. *)
Inductive op := Timing (s : stats) (l : list elt) | Computed (s : stats) (l : list elt) | Sent (s : stats) (type : Z) (l : list elt)
  | Status (s : stats) (data gm now : Z) | Flush (text json : bool).

(** What is collected. *)
Record node := mkNode { n_port : Z; n_addr : Z; n_dom : Z }.
Record rx := mkRx { x_port : Z; x_ref : Z; x_seq : Z; x_id : Z; x_time : Z; x_timing : option Z; x_comp : option Z }.
Record tx := mkTx { t_port : Z; t_ref : Z; t_seq : Z; t_id : Z; t_time : Z; t_data : Z; t_type : Z }.
Record status := mkSt { z_port : Z; z_ref : Z; z_id : Z; z_time : Z; z_data : Z; z_gm : Z }.

(** The Syncs reported by a list of operations: timing data or not, who, what. *)
Definition syncs (l : list op) : list (bool * stats * elt) :=
  flat_map (fun o => match o with Timing s l => map (fun e => (true, s, e)) l | Computed s l => map (fun e => (false, s, e)) l | _ => [] end) l.
Definition key (r : bool * stats * elt) : Z * Z * Z := let '(_, s, e) := r in (s_port s, s_ref s, e_seq e).
Definition same (a b : Z * Z * Z) : bool := let '(p, q, r) := a in let '(x, y, z) := b in (p =? x) && (q =? y) && (r =? z).
(** The keys in the order in which they are first met; the last contents of a kind for a key;
    when it was first met. *)
Definition firsts (l : list (bool * stats * elt)) : list (Z * Z * Z) :=
  fold_left (fun ks r => if existsb (same (key r)) ks then ks else ks ++ [key r]) l [].
Definition last_of (timing : bool) (k : Z * Z * Z) (l : list (bool * stats * elt)) : option Z :=
  fold_left (fun a r => if same (key r) k && Bool.eqb (fst (fst r)) timing then Some (e_data (snd r)) else a) l None.
Definition first_time (k : Z * Z * Z) (l : list (bool * stats * elt)) : option Z :=
  option_map (fun r => e_now (snd r)) (find (fun r => same (key r) k) l).
(** The messages sent and the statuses, numbered from [n]. *)
Fixpoint number {A B} (f : Z -> A -> B) (n : Z) (l : list A) : list B := match l with [] => [] | a :: r => f n a :: number f (n + 1) r end.
Definition sents (l : list op) : list (stats * Z * elt) := flat_map (fun o => match o with Sent s t l => map (fun e => (s, t, e)) l | _ => [] end) l.
Definition mk_tx (n : Z) (x : stats * Z * elt) : tx := let '(s, t, e) := x in mkTx (s_port s) (s_ref s) (e_seq e) n (e_now e) (e_data e) t.
Definition statuses (l : list op) : list (stats * Z * Z * Z) := flat_map (fun o => match o with Status s d g now => [(s, d, g, now)] | _ => [] end) l.
Definition mk_st (n : Z) (x : stats * Z * Z * Z) : status := let '(s, d, g, now) := x in mkSt (s_port s) 0 n now d g.
(** Who has reported. *)
Definition reporters (l : list op) : list stats := flat_map (fun o => match o with Timing s _ | Computed s _ | Sent s _ _ | Status s _ _ _ => [s] | Flush _ _ => [] end) l.
Definition quiet (o : op) : bool := match o with Flush _ _ => false | _ => true end.
(** The operations since the last output; no more of a kind than an int can count. *)
Definition since_flush (l : list op) : list op := fold_left (fun r o => if quiet o then r ++ [o] else []) l [].
Definition small (l : list op) : Prop := forall n, n = List.length (syncs l) \/ n = List.length (sents l) \/ n = List.length (statuses l) -> Z.of_nat n <= 2147483647.
Definition all_json (l : list op) : Prop := Forall (fun o => match o with Flush _ j => j = true | _ => True end) l.
