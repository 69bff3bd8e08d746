(** Vocabulary for C59: event monitoring. *)
Require Import ZArith List Bool.
Import ListNotations.
Open Scope Z_scope.

(** What is recorded of an event; the port identity of a master. *)
Notation rec := (list Z).
Definition identity := Z.
Inductive sent := DelayReq | PDelayReq | PDelayResp.
(** Kinds of reports. *)
Inductive kind := Timing | Computed | Tx (t : sent) | Status.
(** What happens at a port: a Sync is complete (with what is to be recorded of its times, and of what was computed), an event message is
    sent, or the state is to be reported; [p] is the parent of the moment. *)
Inductive event :=
| SyncDone (p : identity) (timing computed : rec)
| MsgSent (t : sent) (p : identity) (r : rec)
| StatusDue (r : rec).
(** Options: which kinds are on, how many events to skip between two that are recorded, how many destinations are named, the port's identity. *)
Record config := mkCfg { on_timing : bool; on_computed : bool; on_tx : bool; on_status : bool; skip_timing : Z; skip_computed : Z; skip_tx : Z; named : nat; own : identity }.
Definition on (c : config) (k : kind) : bool := match k with Timing => on_timing c | Computed => on_computed c | Tx _ => on_tx c | Status => on_status c end.
Definition skip (c : config) (k : kind) : Z := match k with Timing => skip_timing c | Computed => skip_computed c | Tx _ => skip_tx c | Status => 0 end.
Definition proper (c : config) : Prop := 0 <= skip_timing c < 32768 /\ 0 <= skip_computed c < 32768 /\ 0 <= skip_tx c < 32768.
(** With no destination named there is one, the multicast address. *)
Definition destinations (c : config) : list nat := match named c with O => [O] | n => seq 0 n end.

(** A message: its destination, its number, the kind of report, whose events they are and the records. *)
Inductive out := Report (dest : nat) (number : Z) (k : kind) (source : identity) (rs : list rec).

Definition sent_eqb (a b : sent) : bool := match a, b with DelayReq, DelayReq | PDelayReq, PDelayReq | PDelayResp, PDelayResp => true | _, _ => false end.
Definition kind_eqb (a b : kind) : bool := match a, b with Timing, Timing | Computed, Computed | Status, Status => true | Tx a, Tx b => sent_eqb a b | _, _ => false end.

(** The events that concern a kind, with the parent of the moment. *)
Definition concerns (k : kind) (e : event) : option (identity * rec) :=
  match k, e with
  | Timing, SyncDone p r _ => Some (p, r)
  | Computed, SyncDone p _ r => Some (p, r)
  | Tx t, MsgSent t' p r => if sent_eqb t t' then Some (p, r) else None
  | _, _ => None
  end.
Definition occurrences (k : kind) (es : list event) : list (identity * rec) := flat_map (fun e => match concerns k e with Some x => [x] | None => [] end) es.
(** The first, and then one after every [n] others. *)
Definition sampled {A : Type} (n : Z) (l : list A) : list A := map snd (filter (fun x : nat * A => Z.of_nat (fst x) mod (n + 1) =? 0) (combine (seq 0 (length l)) l)).

(** How they are to be grouped: eight together, but never events under different parents.  With each group: whether it was begun because the parent changed while others were waiting. *)
Definition PER : nat := 8.
Record group := mkG { g_source : identity; g_recs : list rec; g_interrupting : bool }.
Definition group_step (x : list group * group) (e : identity * rec) : list group * group :=
  let done := fst x in let g := snd x in
  let '(done, g) :=
    if fst e =? g_source g then (done, g)
    else match g_recs g with
         | [] => (done, mkG (fst e) [] false)
         | _ => (done ++ [g], mkG (fst e) [] true)
         end in
  let g := mkG (g_source g) (g_recs g ++ [snd e]) (g_interrupting g) in
  if Nat.eqb (length (g_recs g)) PER then (done ++ [g], mkG (g_source g) [] false) else (done, g).
Definition grouping (l : list (identity * rec)) : list group * group := fold_left group_step l ([], mkG 0 [] false).
(** The groups to be reported, and those not yet complete. *)
Definition groups (l : list (identity * rec)) : list group := fst (grouping l).
Definition waiting (l : list (identity * rec)) : group := snd (grouping l).

(** The reports sent: each goes to every destination, and they are numbered from [n] on. *)
Definition report := (kind * identity * list rec)%type.
Fixpoint messages (c : config) (n : Z) (rs : list report) : list out :=
  match rs with
  | [] => []
  | (k, s, r) :: rs => map (fun d => Report d (n mod 65536) k s r) (destinations c) ++ messages c (n + 1) rs
  end.
(** Those of a kind. *)
Definition of_kind (k : kind) (rs : list report) : list (identity * list rec) :=
  flat_map (fun x => match x with (k', s, r) => if kind_eqb k k' then [(s, r)] else [] end) rs.
(** Whose events a report claims them to be: the master's, or for messages sent the port's own. *)
Definition source_of (c : config) (k : kind) (g : group) : identity := match k with Timing | Computed => g_source g | _ => own c end.
(** What should be reported of a kind. *)
Definition due (c : config) (k : kind) (es : list event) : list group := if on c k then groups (sampled (skip c k) (occurrences k es)) else [].
Definition statuses (es : list event) : list rec := flat_map (fun e => match e with StatusDue r => [r] | _ => [] end) es.
(** Only one kind of event message is sent. *)
Definition only (t : sent) (es : list event) : Prop := forall t' p r, In (MsgSent t' p r) es -> t' = t.
