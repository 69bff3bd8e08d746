(** Model of the selection of synchronisation instances and the table of slave servos in
    src/sfptpd_engine.c. *)
Require Import ZArith List Bool.
Import ListNotations.
From Verif Require Import Base ListLib BicSpec BicModel EngSpec.
Open Scope Z_scope.

(** Comparison of pointers to records and to clocks. *)
Definition same (a b : option nat) : bool :=
  match a, b with
  | Some x, Some y => (x =? y)%nat
  | None, None => true
  | _, _ => false
  end.

(** The loop of reconfigure_servos, src/sfptpd_engine.c:441-453: [idx] servos are in use so
    far.  [None] is the failing assertion at line 447. *)
Fixpoint assign_servos (lrc : nat) (tbl : list (nat * bool)) (idx : nat)
  (servos : list (option (nat * nat))) {struct tbl} : option (list (option (nat * nat)) * nat) :=
  match tbl with
  | [] => Some (servos, idx)
  | (clock, discipline) :: rest =>
      if discipline && negb (clock =? lrc)%nat then
        if (idx <? length servos)%nat
        then assign_servos lrc rest (S idx) (set_nth idx (Some (lrc, clock)) servos)
        else None
      else assign_servos lrc rest idx servos
  end.

(** reconfigure_servos, src/sfptpd_engine.c:423-460.  [clk] is the clock in the status
    passed; [None] as the result is a failing assertion. *)
Definition reconfigure (e : eng) (clk : option nat) (tbl : list (nat * bool)) : option eng :=
  do lrc <- clk;
  do r <- assign_servos lrc tbl 0 (e_servos e);
  Some (mkEng (e_recs e) (e_clks e) (e_ranks e) (e_flags e) (e_sel e) (e_cand e) (e_timer e)
              (Some lrc) (fst r) (snd r)).

Definition with_sel (e : eng) (flags : list bool) (sel : option nat) : eng :=
  mkEng (e_recs e) (e_clks e) (e_ranks e) flags sel (e_cand e) (e_timer e) (e_lrc e)
        (e_servos e) (e_active e).
Definition with_cand (e : eng) (cand : option nat) (timer : option Z) : eng :=
  mkEng (e_recs e) (e_clks e) (e_ranks e) (e_flags e) (e_sel e) cand timer (e_lrc e)
        (e_servos e) (e_active e).
Definition with_recs (e : eng) (recs : list inst) (clks : list (option nat)) (ranks : list Z) : eng :=
  mkEng recs clks ranks (e_flags e) (e_sel e) (e_cand e) (e_timer e) (e_lrc e)
        (e_servos e) (e_active e).

(** select_sync_instance, src/sfptpd_engine.c:850-940: the state afterwards and whether it
    succeeded.  A control message that fails has not reached the instance
    (sfptpd_sync_module_control, src/sfptpd_sync_module.c:375-393).  Left out: logging, the
    files written, the time of the change, and passing on the grandmaster information. *)
Definition select_sync (e : eng) (new : nat) (v : env) : option (eng * bool) :=
  if same (Some new) (e_sel e) then Some (e, true) else
  do clk <- nth_error (e_clks e) new;
  let lrc_change := negb (same clk (e_lrc e)) in
  if match e_sel e with Some _ => negb (deselect_ok v) | None => false end then Some (e, false) else
  let flags := match e_sel e with Some old => set_nth old false (e_flags e) | None => e_flags e end in
  if negb (select_ok v) then Some (with_sel e flags (Some new), false) else
  let e1 := with_sel e (set_nth new true flags) (Some new) in
  if lrc_change then do e2 <- reconfigure e1 clk (clocks v); Some (e2, true) else Some (e1, true).

(** instance_record->status = *status, line 1989; the manual-selection mark is not part of
    the status. *)
Definition store (x : inst) (r : inst) : inst :=
  mkInst (i_selected x) (i_constraints r) (i_state r) (i_alarms r) (i_priority r) (i_cluster r)
         (i_class r) (i_accuracy r) (i_local r) (i_variance r) (i_steps r).

(** Stopping and restarting the hold-off timer, lines 2014-2028. *)
Definition restart (cf : config) (now : Z) (t : option Z) (v : env) : option Z :=
  let stopped := if stop_ok v then None else t in
  if start_ok v then Some (now + holdoff_ns cf) else stopped.

(** on_sync_instance_state_changed, src/sfptpd_engine.c:1923-2053, without the logging, the
    files written and the grandmaster information. *)
Definition on_report (cf : config) (e : eng) (now : Z) (i : nat) (r : report) (v : env) : option eng :=
  do x <- nth_error (e_recs e) i;
  do e1 <- (if same (Some i) (e_sel e) && negb (same (r_clock r) (e_lrc e))
            then reconfigure e (r_clock r) (clocks v) else Some e);
  let recs := set_nth i (store x (r_inst r)) (e_recs e1) in
  do ch <- choose (cf_rd cf) (cf_sort cf) (cf_policy cf) recs (e_ranks e1);
  let e2 := with_recs e1 recs (set_nth i (r_clock r) (e_clks e1)) (snd ch) in
  do new <- fst ch;
  if same (Some new) (e_sel e2) && same (e_cand e2) None then Some e2 else
  if same (Some new) (e_cand e2) then Some e2 else
  if cf_holdoff cf =? 0 then do r <- select_sync e2 new v; Some (fst r) else
  let timer := if same (e_cand e2) None || same (e_sel e2) (Some new)
               then restart cf now (e_timer e2) v else e_timer e2 in
  Some (with_cand e2 (Some new) timer).

(** on_selection_holdoff_timer, src/sfptpd_engine.c:1826-1835. *)
Definition on_holdoff (e : eng) (v : env) : option eng :=
  match e_cand e with
  | Some c => do r <- select_sync e c v; Some (with_cand (fst r) None (e_timer (fst r)))
  | None => Some e
  end.

(** on_select_instance, src/sfptpd_engine.c:2056-2080. *)
Definition on_select (cf : config) (e : eng) (i : option nat) (v : env) : option eng :=
  match cf_strategy cf, i with
  | ManualChoice, Some k =>
      let e1 := with_recs e (select_instance (e_recs e) (Some k)) (e_clks e) (e_ranks e) in
      do r <- select_sync e1 k v; Some (fst r)
  | _, _ => Some e
  end.

(** One event.  The timer is a one-shot timerfd on the monotonic clock: it is handled only
    once it has expired (src/sfptpd_thread.c:884-992) and is then disarmed.  Hot-plugging
    ends in reconfigure_servos with the status of the selected instance
    (engine_handle_new_link_table, src/sfptpd_engine.c:1570-1573). *)
Definition step (cf : config) (e : eng) (ev : event) : option eng :=
  let v := ev_env ev in
  match ev_act ev with
  | Report i r => on_report cf e (ev_time ev) i r v
  | HoldoffExpiry =>
      match e_timer e with
      | Some d => if d <=? ev_time ev then on_holdoff (with_cand e (e_cand e) None) v else Some e
      | None => Some e
      end
  | UserSelect i => on_select cf e i v
  | Hotplug => do s <- e_sel e; do clk <- nth_error (e_clks e) s; reconfigure e clk (clocks v)
  end.

Fixpoint run (cf : config) (e : eng) (evs : list event) : option trace :=
  match evs with
  | [] => Some []
  | ev :: rest => do e' <- step cf e ev; do tr <- run cf e' rest; Some ((ev, e') :: tr)
  end.

(** engine_on_startup, src/sfptpd_engine.c:2452-2523, from the point where every instance
    has given its first status (a clustering discriminator's score is already overridden in
    it), and on_run/create_timers, lines 583-600.  [None]: the engine does not start.
    [total] is the number of servos created; [initial] the configured initial instance,
    if there is one of that name. *)
Definition startup (cf : config) (reports : list report) (initial : option nat) (total : nat)
  (now : Z) (v : env) : option eng :=
  let unmarked (r : report) := store (mkInst false 0 Listening 0 0 0 0 NaN NaN NaN 0) (r_inst r) in
  let recs := map unmarked reports in
  do ch <- choose (cf_rd cf) (cf_sort cf) (cf_policy cf) recs (map (fun _ => 0) recs);
  do bic <- fst ch;
  let e0 := mkEng recs (map r_clock reports) (snd ch) (map (fun _ => false) reports)
                  None None None None (repeat None total) 0 in
  do e1 <- (match cf_strategy cf with
            | Automatic => do r <- select_sync e0 bic v; if snd r then Some (fst r) else None
            | ManualChoice =>
                do k <- initial;
                do r <- select_sync (with_recs e0 (select_instance recs (Some k)) (e_clks e0) (e_ranks e0)) k v;
                if snd r then Some (fst r) else None
            | ManualStartup =>
                do k <- initial;
                do r <- select_sync e0 k v;
                if snd r then Some (if (bic =? k)%nat then fst r
                                    else with_cand (fst r) (Some bic) (e_timer (fst r))) else None
            end);
  match cf_strategy cf with
  | ManualStartup =>
      if negb (cf_holdoff cf =? 0) && negb (same (e_cand e1) (e_sel e1))
      then if start_ok v then Some (with_cand e1 (e_cand e1) (Some (now + holdoff_ns cf))) else None
      else Some e1
  | _ => Some e1
  end.

(** The instance the rules rate best in a state. *)
Definition best (cf : config) (e : eng) : option nat :=
  match choose (cf_rd cf) (cf_sort cf) (cf_policy cf) (e_recs e) (e_ranks e) with
  | Some (Some b, _) => Some b
  | _ => None
  end.
