(** Specification vocabulary for the NTP synchronisation module: what it asks the NTP
    daemon, what it is answered, what it tells the engine, and what an observer who sees
    only that knows. *)
Require Import ZArith QArith List Bool.
Require Import Verif.Base Verif.TimeSpec Verif.QLib Verif.StatsSpec Verif.Nm6Spec.
Import ListNotations.
Open Scope Z_scope.

(** The states of the NTP instance. *)
Inductive st := LISTENING | SLAVE | DISABLED | FAULTY | SELECTION.
Definition st_eqb (a b : st) : bool :=
  match a, b with
  | LISTENING, LISTENING | SLAVE, SLAVE | DISABLED, DISABLED | FAULTY, FAULTY | SELECTION, SELECTION => true
  | _, _ => false
  end.
(** A peer of the daemon, with addresses given by numbers. *)
Definition npeer := peer Z.

(** ** The daemon *)
(** The peer the daemon follows, and whether there are others it might follow.  The local
    host as a peer does not count. *)
Definition chosen (l : list npeer) : option npeer := find (fun p => negb (p_self p) && p_selected p) l.
Definition hopeful (l : list npeer) : bool := existsb (fun p => negb (p_self p) && (p_candidate p || p_shortlist p)) l.
(** What identifies a measurement of the daemon: the peer and how many packets it has sent. *)
Definition ident (l : list npeer) : option (Z * Z) :=
  match chosen l with
  | Some p => match p_remote p with Some a => Some (a, p_received p) | None => None end
  | None => None
  end.
Definition id_eqb (a b : option (Z * Z)) : bool :=
  match a, b with
  | None, None => true
  | Some (x, n), Some (y, m) => (x =? y) && (n =? m)
  | _, _ => false
  end.

Definition EAGAIN := 11. Definition ENOPROTOOPT := 92.
(** The state as documented: from the outcome of asking the daemon, its peers, and whether its
    offset is in doubt since the clock was stepped. *)
Definition documented (rc : Z) (doubt : bool) (l : list npeer) : st :=
  if rc =? 0 then
    match chosen l, doubt with
    | Some _, false => SLAVE
    | _, _ => if hopeful l then SELECTION else LISTENING
    end
  else if rc =? ENOPROTOOPT then DISABLED
  else if rc =? EAGAIN then LISTENING
  else FAULTY.

(** ** What happens to the module, and what it does *)
(** The outcome of asking the daemon for its system information: an error, and whether the daemon
    controls the clock, if the protocol tells. *)
Definition sys_ans := (Z * option bool)%type.
(** The outcome of asking for the peers: an error, their number, the array of 32. *)
Record peer_ans := mkPA { pa_rc : Z; pa_num : nat; pa_arr : list npeer }.
Definition listed_peers (a : peer_ans) : list npeer := if pa_rc a =? 0 then firstn (pa_num a) (pa_arr a) else [].

(** One firing of the poll timer: the monotonic time, the answers of the daemon if it is asked,
    its answer to a clock control command if one is sent, the monotonic time for the
    convergence measure if it can be read, the clustering score of an offset. *)
Record tick := mkTick {
  k_now : ts; k_sys : sys_ans; k_peers : peer_ans; k_ctl : Z; k_conv : option ts; k_score : Q -> Z }.

Inductive op :=
| Tick (k : tick)
| Control (mask flags : Z) (ctl : Z)     (** new control flags; the daemon's answer to a command *)
| StepClock
| LogStats
| SaveState
| Topology
| GetStatus.

(** The status of an instance: state, constraints, offset, accuracy of the master (None: infinite),
    steps removed, whether there is a remote clock, clustering score. *)
Record status := mkStatus {
  s_state : st; s_must : bool; s_cannot : bool; s_offset : Q; s_acc : option Q; s_steps : Z; s_remote : bool; s_score : Z }.

Inductive out :=
| AskSys | AskPeers                                       (** requests to the daemon *)
| Command (enable : bool)                                 (** clock control command to the daemon *)
| Told (s : status)                                       (** status message to the engine *)
| Reply (s : status)                                      (** reply to a request for the status *)
| Report (offset : Q) (disciplining synced : bool)        (** real time statistics *)
| Cluster (offset : Q) (valid : bool)                     (** input for clustering *)
| History (offset : option Q) (synced : bool)             (** long term statistics *)
| Saved (s : st) (must cannot : bool) (flags : Z) (detail : option (Q * bool * option Z * Z)) (num cand : nat)
| Drawn (s : st) (detail : option (option Z * Q)).        (** topology *)

(** The last status the engine was told. *)
Definition told (d : option status) (l : list out) : option status :=
  fold_left (fun acc o => match o with Told s => Some s | _ => acc end) l d.

(** Control flags. *)
Definition SELECTED := 0. Definition TIMESTAMPS := 1. Definition CLOCK_CTRL := 2. Definition DETERMINANT := 4.
Definition wants (flags : Z) : bool := Z.testbit flags CLOCK_CTRL.
(** A control message replaces the flags in its mask. *)
Definition new_flags (old mask flags : Z) : Z := Z.lor (Z.ldiff old mask) (Z.land flags mask).

(** Configuration: is there an NTP instance (active) or is the daemon only watched; is there a
    key; is a clock control conflict to be ignored; may the system clock be adjusted; is
    timesyncd running; the poll interval in seconds; convergence. *)
Record conf := mkConf {
  g_active : bool; g_key : bool; g_ignore : bool; g_writable : bool; g_timesyncd : bool;
  g_interval : Z; g_min : Z; g_max : Q }.
(** The start: the outcome of creating the client, answers of the daemon, score. *)
Record boot := mkBoot { b_create : Z; b_sys : sys_ans; b_peers : peer_ans; b_ctl : Z; b_score : Q -> Z }.

(** ** An observer *)
(** The peers last heard of, the outcome of the last question, whether the offset was in doubt when it was
    asked, whether it is now, and the identity of the measurement. *)
Record view := mkView { v_peers : list npeer; v_rc : Z; v_was : bool; v_doubt : bool }.
Definition after_query (v : view) (rc : Z) (l : list npeer) : view :=
  mkView l rc (v_doubt v)
    (* the code's rule: the doubt ends when there is no measurement any more *)
    (if negb (id_eqb (ident l) (ident (v_peers v))) && match ident l with None => true | _ => false end then false else v_doubt v).
Definition asks_sys (l : list out) : bool := existsb (fun o => match o with AskSys => true | _ => false end) l.
Definition asks_peers (l : list out) : bool := existsb (fun o => match o with AskPeers => true | _ => false end) l.
Definition see (v : view) (e : op * list out) : view :=
  match fst e with
  | Tick k =>
      if asks_sys (snd e) then after_query v (fst (k_sys k)) (if fst (k_sys k) =? 0 then v_peers v else [])
      else if asks_peers (snd e) then after_query v (pa_rc (k_peers k)) (listed_peers (k_peers k))
      else v
  | StepClock => mkView (v_peers v) (v_rc v) (v_was v) true
  | _ => v
  end.
Definition seen (v : view) (log : list (op * list out)) : view := fold_left see log v.

(** The control flags after a history; only an active instance is controlled. *)
Definition flags_after (active : bool) (f : Z) (log : list (op * list out)) : Z :=
  fold_left (fun f e => match fst e with Control mask flags _ => if active then new_flags f mask flags else f | _ => f end) log f.

(** The offset, accuracy and steps of a state. *)
Definition of_chosen (s : st) (l : list npeer) (off : Q) (acc : option Q) (steps : Z) : Prop :=
  match s with
  | SLAVE => exists p, chosen l = Some p /\ off = p_offset p /\ acc = Some (p_rootdisp p) /\ steps = p_stratum p
  | _ => off = 0%Q /\ acc = None /\ steps = 0
  end.

(** The answers are of the right shape. *)
Definition ans_ok (a : peer_ans) : Prop := List.length (pa_arr a) = 32%nat /\ (pa_num a <= 32)%nat.
Definition sane (t : ts) : Prop := normal t /\ - 2^61 < sec t < 2^61.
Definition op_ok (o : op) : Prop :=
  match o with
  | Tick k => ans_ok (k_peers k) /\ sane (k_now k) /\ match k_conv k with Some t => sane t | None => True end
  | _ => True
  end.

(** ** The daemon's clock control *)
(** Whether the daemon disciplines the clock, after it answered a command. *)
Definition obeys (d : bool) (e : op * list out) : bool :=
  let ctl := match fst e with Tick k => k_ctl k | Control _ _ c => c | _ => 0 end in
  fold_left (fun d o => match o with Command b => if ctl =? 0 then b else d | _ => d end) (snd e) d.

(** ** Convergence *)
(** The measurements that count, from the statistics written: see StatsSpec.v. *)
Definition written (l : list out) : option (option Q) :=
  fold_left (fun acc o => match o with History x _ => Some x | _ => acc end) l None.
Definition measure (f : Z) (e : op * list out) : list cop :=
  match fst e, written (snd e) with
  | Tick k, Some x =>
      match k_conv k, x with
      | Some t, Some off => if Z.testbit f TIMESTAMPS then [CUpdate (sec t) off] else []
      | _, _ => [CReset]
      end
  | _, _ => []
  end.
Fixpoint measures (active : bool) (f : Z) (log : list (op * list out)) : list cop :=
  match log with
  | [] => []
  | e :: r => measure f e ++ measures active (flags_after active f [e]) r
  end.

(** ** What an observer expects *)
Definition state_of (v : view) : st := documented (v_rc v) (v_was v) (v_peers v).

(** The commands sent. *)
Definition commands (l : list out) : list bool := flat_map (fun o => match o with Command b => [b] | _ => [] end) l.
(** What an answer says about whether the daemon disciplines the clock; after a failure the module
    takes it that the daemon does not. *)
Definition learned (bl : bool) (e : op * list out) : bool :=
  match fst e with
  | Tick k =>
      if asks_sys (snd e) then if fst (k_sys k) =? 0 then match snd (k_sys k) with Some x => x | None => bl end else false
      else if asks_peers (snd e) then if pa_rc (k_peers k) =? 0 then bl else false
      else bl
  | _ => bl
  end.
Definition gone (e : op * list out) : bool :=
  match fst e with
  | Tick k => if asks_sys (snd e) then fst (k_sys k) =? ENOPROTOOPT else pa_rc (k_peers k) =? ENOPROTOOPT
  | _ => false
  end.
(** The commands expected: when control of the clock is granted or withdrawn, and when the daemon
    is found to do other than believed. *)
Definition expects (active : bool) (f : Z) (bl : bool) (e : op * list out) : list bool :=
  if negb active then [] else
  match fst e with
  | Tick _ => if negb (Bool.eqb (learned bl e) bl) && negb (gone e) then [wants f] else []
  | Control mask flags _ => if Bool.eqb (wants (new_flags f mask flags)) (wants f) then [] else [wants (new_flags f mask flags)]
  | _ => []
  end.
Definition belief (bl : bool) (e : op * list out) : bool := obeys (learned bl e) e.
Definition belief_after (bl : bool) (log : list (op * list out)) : bool := fold_left belief log bl.
Definition truth_after (d : bool) (log : list (op * list out)) : bool := fold_left obeys log d.

(** What is said is true: [v] and [v'] are the view before and after, [f] the flags before. *)
Definition truthful (active : bool) (v v' : view) (f : Z) (bl : bool) (o : out) : Prop :=
  match o with
  | AskSys | AskPeers => True
  | Command _ => active = true
  | Told s => active = true /\ s_state s = state_of v' /\ s_remote s = st_eqb (s_state s) SLAVE /\
              (v_rc v' = 0 -> of_chosen (s_state s) (v_peers v') (s_offset s) (s_acc s) (s_steps s))
  | Reply s => s_state s = state_of v /\ s_remote s = st_eqb (s_state s) SLAVE /\
               (s_state s <> SLAVE -> s_acc s = None /\ s_steps s = 0) /\
               (v_rc v = 0 -> of_chosen (s_state s) (v_peers v) (s_offset s) (s_acc s) (s_steps s))
  | Report off d _ => active = true /\ state_of v = SLAVE /\ (exists p, chosen (v_peers v) = Some p /\ off = p_offset p) /\
                      d = Z.testbit f SELECTED && bl
  | Cluster off valid => Z.testbit f DETERMINANT = true /\
      match chosen (v_peers v) with
      | Some p => off = p_offset p /\ (valid = true <-> ~ (off == 0)%Q /\ state_of v = SLAVE)
      | None => off = 0%Q /\ valid = false
      end
  | History (Some off) _ => state_of v' = SLAVE /\ exists p, chosen (v_peers v') = Some p /\ off = p_offset p
  | History None _ => state_of v' <> SLAVE
  | Saved s _ _ fl d num cand => s = state_of v /\ fl = f /\ num = List.length (v_peers v) /\ cand = List.length (filter p_candidate (v_peers v)) /\
      match d with
      | Some (off, _, addr, _) => s = SLAVE /\ exists p, chosen (v_peers v) = Some p /\ off = p_offset p /\ addr = p_remote p
      | None => s <> SLAVE
      end
  | Drawn s d => s = state_of v /\ Z.testbit f SELECTED = true /\
      match d with
      | Some (addr, off) => s = SLAVE /\ exists p, chosen (v_peers v) = Some p /\ off = p_offset p /\ addr = p_remote p
      | None => s <> SLAVE
      end
  end.

(** What is believed after the start: without a word of the daemon, that it controls the clock. *)
Definition first_belief (g : conf) (b : boot) : bool :=
  if b_create b =? ENOPROTOOPT then false
  else if fst (b_sys b) =? 0 then
    let x := match snd (b_sys b) with Some x => x | None => true end in
    if g_active g && x && (b_ctl b =? 0) then false else x
  else false.
(** What the observer knows after the start; nothing asked counts as try again. *)
Definition first_view (b : boot) : view :=
  if b_create b =? ENOPROTOOPT then mkView [] EAGAIN false false
  else if fst (b_sys b) =? 0 then mkView (listed_peers (b_peers b)) 0 false false
  else mkView [] (fst (b_sys b)) false false.
Definition boot_ok (b : boot) : Prop := ans_ok (b_peers b).

(** ** Cadence *)
(** How often the daemon was asked for its system information. *)
Definition asked (log : list (op * list out)) : Z := fold_left (fun n e => if asks_sys (snd e) then n + 1 else n) log 0.

(** ** An honest daemon *)
(** [d] is whether the daemon disciplines the clock: it answers every question, and truly if it tells. *)
Definition honest (d : bool) (e : op * list out) : Prop :=
  match fst e with
  | Tick k => (asks_sys (snd e) = true -> fst (k_sys k) = 0 /\ (snd (k_sys k) = None \/ snd (k_sys k) = Some d)) /\
              (asks_peers (snd e) = true -> pa_rc (k_peers k) = 0)
  | _ => True
  end.
Fixpoint honest_all (d : bool) (log : list (op * list out)) : Prop :=
  match log with [] => True | e :: r => honest d e /\ honest_all (obeys d e) r end.

(** ** Doubt *)
(** Every answer shows a measurement that can be told from others. *)
Definition identified (e : op * list out) : Prop :=
  match fst e with
  | Tick k => (asks_sys (snd e) = true -> fst (k_sys k) = 0) /\
              (asks_peers (snd e) = true -> ident (listed_peers (k_peers k)) <> None)
  | _ => True
  end.
Definition asks (e : op * list out) : bool := match fst e with Tick _ => asks_sys (snd e) || asks_peers (snd e) | _ => false end.

(** ** Hypotheses of theorems *)
(** The message does not touch control of the clock. *)
Definition quiet (o : op) : Prop := match o with Control mask _ _ => Z.testbit mask CLOCK_CTRL = false | _ => True end.
(** Whether the last long term statistics said synchronised. *)
Definition synced (y : bool) (l : list out) : bool := fold_left (fun y o => match o with History _ z => z | _ => y end) l y.
(** The message neither makes the instance the clustering determinant nor asks for the topology. *)
Definition safe (o : op) : Prop :=
  match o with Control mask flags _ => Z.testbit mask DETERMINANT && Z.testbit flags DETERMINANT = false | Topology => False | _ => True end.
Definition conf_ok (g : conf) : Prop := 0 <= g_interval g < 2^32 /\ 0 <= g_min g < 2^32 /\ (0 < g_max g)%Q.
(** When the [n]-th poll after the first is due: [i] seconds apart, in units of 2^-32 ns. *)
Definition due (now : ts) (i : Z) (n : Z) : Z := instant now + i * n * s_unit.
(** The poll timer fired in second [t] or later. *)
Definition late (log : list (op * list out)) (t : Z) : Prop := exists k outs, In (Tick k, outs) log /\ t <= sec (k_now k).
