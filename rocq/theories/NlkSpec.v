(** Vocabulary for C47: link tables. *)
Require Import ZArith List Bool.
Import ListNotations.
Open Scope Z_scope.

(** What is known of a network interface.  [r_rest] stands for what is kept but never compared. *)
Record row := mkRow {
  r_index : Z; r_type : Z; r_iftype : Z; r_family : Z; r_flags : Z; r_name : list Z;
  r_master : Z; r_mode : Z; r_active : Z; r_policy : Z; r_slave : bool; r_vlan : Z; r_ts : Z; r_stats : Z; r_rest : Z }.
Definition TEAM : Z := 3.
Inductive event := NoEvent | Up | Change.
Definition table := list (row * event).

(** What the kernel reports: an interface is there, is gone, or more is known about it. *)
Inductive msg := New (r : row) | Del (i : Z) | Amend (r : row).
(** How the reading of a batch ends. *)
Inductive ending := Quiet | Broken (ms : list msg).

(** Calls.  [consumers]: how many will release a new version; [rounds]: what is read, in rounds; [coalescing]: more is to be collected first. *)
Inductive op :=
| OService (consumers : Z) (coalescing : bool) (rounds : list (list msg)) (e : ending)
| OGet (v : Z)
| ORelease (v : Z) (consumers : Z) (rounds : list (list msg)) (e : ending).
Inductive out := Version (v : Z) | Nothing | Again | Error | Freed | Table (t : table) | Fatal.
Definition log := list (op * list out).

(** ** What is known after some messages. *)
(** A newer report keeps what is learnt by other means. *)
Definition merge (old new : row) : row :=
  let team := r_type new =? TEAM in
  mkRow (r_index new) (r_type new) (r_iftype new) (r_family new) (r_flags new) (r_name new)
        (if team then r_master old else r_master new) (if team then r_mode old else r_mode new)
        (if team then r_active old else r_active new) (if team then r_policy old else r_policy new)
        (r_slave new) (r_vlan new) (r_ts old) (r_stats old) (r_rest new).
Definition knowledge := Z -> option row.
Definition learn (k : knowledge) (m : msg) : knowledge :=
  fun i =>
    match m with
    | New r => if i =? r_index r then Some (match k i with Some old => merge old r | None => r end) else k i
    | Del j => if i =? j then None else k i
    | Amend r => if i =? r_index r then match k i with Some _ => Some r | None => None end else k i
    end.

(** What an entry of the log brought. *)
Definition brought (rounds : list (list msg)) (e : ending) : list msg := concat rounds ++ match e with Quiet => [] | Broken ms => ms end.
Definition heard (e : op * list out) : list msg :=
  match e with
  | (OService _ _ rs en, [Again]) => []
  | (OService _ _ rs en, _) => brought rs en
  | (ORelease _ _ rs en, [Freed; Again]) => []
  | (ORelease _ _ rs en, [Freed; _]) => brought rs en
  | _ => []
  end.
Definition publishes (e : op * list out) : option (Z * Z) :=        (** version, consumers *)
  match e with
  | (OService c _ _ _, [Version v]) => Some (v, c)
  | (ORelease _ c _ _, [Freed; Version v]) => Some (v, c)
  | _ => None
  end.
(** What is known now, and what the last version said. *)
Definition view_step (x : knowledge * knowledge) (e : op * list out) : knowledge * knowledge :=
  let k := fold_left learn (heard e) (fst x) in
  (k, match publishes e with Some _ => k | None => snd x end).
Definition view (lg : log) : knowledge * knowledge := fold_left view_step lg (fun _ => None, fun _ => None).
Definition now (lg : log) : knowledge := fst (view lg).
Definition last (lg : log) : knowledge := snd (view lg).

(** ** Which changes matter. *)
Definition significant_flags : Z := 1 + 8 + 64 + 128 + 1024 + 2048 + 4096 + 65536.
Fixpoint zlist_eqb (a b : list Z) : bool :=
  match a, b with [], [] => true | x :: a, y :: b => (x =? y) && zlist_eqb a b | _, _ => false end.
Definition same (a b : row) : bool :=
  (r_type a =? r_type b) && (r_iftype a =? r_iftype b) && (r_family a =? r_family b) &&
  (Z.land (r_flags a) significant_flags =? Z.land (r_flags b) significant_flags) &&
  (r_master a =? r_master b) && (r_mode a =? r_mode b) && (r_active a =? r_active b) && Bool.eqb (r_slave a) (r_slave b) &&
  (r_vlan a =? r_vlan b) && zlist_eqb (r_name a) (r_name b) && (r_ts a =? r_ts b).
(** What a version says of an interface, given what the one before said. *)
Definition event_of (before : option row) (r : row) : event :=
  match before with None => Up | Some a => if same a r then NoEvent else Change end.
Definition differs (before after : option row) : bool :=
  match before, after with
  | None, None => false
  | Some a, Some b => negb (same a b)
  | _, _ => true
  end.

(** ** Who still holds a version. *)
Definition owed_step (v : Z) (n : Z) (e : op * list out) : Z :=
  let n := match e with (ORelease w _ _ _, Freed :: _) => if w =? v then n - 1 else n | _ => n end in
  match publishes e with Some (w, c) => if w =? v then n + c else n | None => n end.
Definition owed (v : Z) (lg : log) : Z := fold_left (owed_step v) lg 0.
(** How many versions there have been. *)
Definition versions (lg : log) : Z := fold_left (fun n e => match publishes e with Some _ => n + 1 | None => n end) lg 0.
(** Whether reading was put off. *)
Definition postponed_step (b : bool) (e : op * list out) : bool :=
  match e with
  | (OService _ _ _ _, os) => match os with [Again] => true | _ => b end
  | (ORelease _ _ _ _, os) => match os with [Freed; Again] => true | _ => false end
  | _ => b
  end.
Definition postponed (lg : log) : bool := fold_left postponed_step lg false.

(** Consumers use a version until they have released it, and only then; a version has at least one consumer; interfaces have positive numbers. *)
Definition proper_msg (m : msg) : Prop := match m with New r | Amend r => 0 < r_index r | Del _ => True end.
Definition allowed (o : op) (lg : log) : Prop :=
  match o with
  | OService c _ rs e => 0 < c /\ Forall proper_msg (brought rs e)
  | OGet v => 0 < owed v lg
  | ORelease v c rs e => 0 < owed v lg /\ 0 < c /\ Forall proper_msg (brought rs e)
  end.
(** Reading never broke off before anything complete had been read. *)
Definition whole (e : op * list out) : Prop :=
  match e with
  | (OService _ _ [] (Broken _), os) => os = [Again]
  | (ORelease _ _ [] (Broken _), os) => os = [Freed] \/ os = [Freed; Again]
  | _ => True
  end.
Definition find_row (t : table) (i : Z) : option (row * event) := find (fun x => r_index (fst x) =? i) t.
Fixpoint ascending (lo : Z) (t : table) : Prop := match t with [] => True | x :: t => lo < r_index (fst x) /\ ascending (r_index (fst x)) t end.
