(** Model of src/ntp/sfptpd_ntp_module.c: start, polling the NTP daemon, deriving the state, clock
    control, messages of the engine.

    The client of the daemon (src/ntp/sfptpd_ntpd_client.c and below; mode 6 is modelled in
    Nm6Model.v) is an input: its answers are part of the operations.  long double is exact
    rationals, infinity is None.  The alarms of the instance are never set by this module and
    left out.  None is undefined behaviour: an index outside an array, a failed assertion,
    overflow. *)
Require Import ZArith QArith List Bool.
Require Import Verif.Base Verif.TimeSpec Verif.TimeModel Verif.QLib Verif.ListLib Verif.StatsModel Verif.Nm6Spec Verif.NtpSpec.
Import ListNotations.
Open Scope Z_scope.

(** struct ntp_state, lines 79-118.  The offset identity is None if not valid. *)
Record nst := mkN {
  n_state : st; n_must : bool; n_cannot : bool; n_id : option (Z * Z); n_idx : Z; n_cc : bool;
  n_num : nat; n_arr : list npeer; n_off : Q; n_disp : option Q; n_strat : Z; n_score : Z }.
Inductive qst := QSys | QPeer | QSleep.
(** struct sfptpd_ntp_module, lines 120-165. *)
Record nm := mkM {
  m_flags : Z; m_q : qst; m_next : ts; m_unsafe : bool; m_st : nst; m_sync : bool; m_conv : conv }.

(** calloc. *)
Definition zero_peer : npeer := mkPeer None None 0 false 0 0 0 0 false false false.
Definition zero_state : nst := mkN LISTENING false false None 0 false 0 (repeat zero_peer 32) 0 (Some 0%Q) 0 0.

(** peers[selected_peer_idx]. *)
Definition peer_at (s : nst) : option npeer := if n_idx s <? 0 then None else nth_error (n_arr s) (Z.to_nat (n_idx s)).

(** set_offset_id, reset_offset_id, lines 393-413. *)
Definition id_of (p : npeer) : option (Z * Z) := match p_remote p with Some a => Some (a, p_received p) | None => None end.

(** The loop of ntp_parse_state, lines 507-526: index of the selected peer, candidates. *)
Fixpoint scan (i : Z) (l : list npeer) (idx : Z) (cand : bool) : Z * bool :=
  match l with
  | [] => (idx, cand)
  | p :: r =>
      if p_self p then scan (i + 1) r idx cand
      else scan (i + 1) r (if p_selected p then (if negb (idx =? -1) then idx else i) else idx)
                (if p_candidate p || p_shortlist p then true else cand)
  end.

(** ntp_parse_state, lines 466-561. *)
Definition parse (s : nst) (rc : Z) (unsafe : bool) (score : Q -> Z) : option nst :=
  if negb (rc =? 0) then
    Some (mkN (if rc =? ENOPROTOOPT then DISABLED else if rc =? EAGAIN then LISTENING else FAULTY)
              false false None (-1) false 0 (n_arr s) (n_off s) (n_disp s) (n_strat s) (n_score s))
  else
    let (idx, cand) := scan 0 (firstn (n_num s) (n_arr s)) (-1) false in
    do id <- (if negb (idx =? -1) then do p <- nth_error (n_arr s) (Z.to_nat idx); Some (id_of p) else Some None);
    if negb (idx =? -1) && negb unsafe then
      do p <- nth_error (n_arr s) (Z.to_nat idx);
      Some (mkN SLAVE (n_must s) (n_cannot s) id idx (n_cc s) (n_num s) (n_arr s) (p_offset p) (Some (p_rootdisp p)) (p_stratum p) (score (p_offset p)))
    else
      Some (mkN (if cand then SELECTION else LISTENING) (n_must s) (n_cannot s) id idx (n_cc s) (n_num s) (n_arr s) 0 None 0 (score 0%Q)).

(** The answers of the client: sfptpd_ntpclient_get_sys_info and _get_peer_info. *)
Definition with_sys (s : nst) (a : sys_ans) : nst :=
  mkN (n_state s) (n_must s) (n_cannot s) (n_id s) (n_idx s) (match snd a with Some b => b | None => n_cc s end)
      (n_num s) (n_arr s) (n_off s) (n_disp s) (n_strat s) (n_score s).
Definition with_peers (s : nst) (a : peer_ans) : nst :=
  mkN (n_state s) (n_must s) (n_cannot s) (n_id s) (n_idx s) (n_cc s) (pa_num a) (pa_arr a) (n_off s) (n_disp s) (n_strat s) (n_score s).
Definition with_cc (s : nst) (must cannot cc : bool) : nst :=
  mkN (n_state s) must cannot (n_id s) (n_idx s) cc (n_num s) (n_arr s) (n_off s) (n_disp s) (n_strat s) (n_score s).

(** ntp_send_instance_status, lines 579-624. *)
Definition status_of (s : nst) : status :=
  mkStatus (n_state s) (n_must s) (n_cannot s) (n_off s) (n_disp s) (n_strat s) (st_eqb (n_state s) SLAVE) (n_score s).
(** ntp_on_get_status, lines 948-994. *)
Definition reply_of (s : nst) : status :=
  let sl := st_eqb (n_state s) SLAVE in
  mkStatus (n_state s) (n_must s) (n_cannot s) (n_off s) (if sl then n_disp s else None) (if sl then n_strat s else 0) sl (n_score s).

(** ntp_send_rt_stats_update, lines 627-648. *)
Definition rt_stats (active : bool) (m : nm) : option (list out) :=
  if active && st_eqb (n_state (m_st m)) SLAVE then
    do p <- peer_at (m_st m);
    Some [Report (p_offset p) (Z.testbit (m_flags m) SELECTED && n_cc (m_st m)) (m_sync m)]
  else Some [].
(** ntp_send_clustering_input, lines 900-914. *)
Definition clustering (m : nm) : option (list out) :=
  if Z.testbit (m_flags m) DETERMINANT then
    do p <- peer_at (m_st m);
    Some [Cluster (p_offset p) (negb (Qeq_bool (p_offset p) 0) && st_eqb (n_state (m_st m)) SLAVE)]
  else Some [].

Definition set_unsafe (m : nm) (b : bool) : nm := mkM (m_flags m) (m_q m) (m_next m) b (m_st m) (m_sync m) (m_conv m).
Definition set_st (m : nm) (s : nst) : nm := mkM (m_flags m) (m_q m) (m_next m) (m_unsafe m) s (m_sync m) (m_conv m).
Definition set_q (m : nm) (q : qst) (next : ts) : nm := mkM (m_flags m) q next (m_unsafe m) (m_st m) (m_sync m) (m_conv m).
Definition set_sync (m : nm) (b : bool) (c : conv) : nm := mkM (m_flags m) (m_q m) (m_next m) (m_unsafe m) (m_st m) b c.
Definition set_flags (m : nm) (f : Z) (s : nst) : nm := mkM f (m_q m) (m_next m) (m_unsafe m) s (m_sync m) (m_conv m).

(** ntp_on_offset_id_change, lines 651-667. *)
Definition id_change (active : bool) (m : nm) (new : nst) : option (nm * list out) :=
  let m1 := if m_unsafe m && negb (match n_id new with Some _ => true | None => false end) then set_unsafe m false else m in
  do a <- rt_stats active m1;
  do b <- clustering m1;
  Some (m1, a ++ b).

(** ntp_on_clock_control_change, lines 917-945. *)
Definition control_change (active : bool) (m : nm) (new : nst) (ctl : Z) : nst * list out :=
  let want := Z.testbit (m_flags m) CLOCK_CTRL in
  if active && negb (st_eqb (n_state new) DISABLED) then
    (if ctl =? 0 then with_cc new false false want
     else if want then with_cc new (n_must new) true (n_cc new) else with_cc new true (n_cannot new) (n_cc new),
     [Command want])
  else (new, []).

(** ntp_handle_state_change, lines 848-897.  The switch has no case that fails: PASSIVE is
    never a state. *)
Definition opt_eqb (a b : option Q) : bool :=
  match a, b with Some x, Some y => Qeq_bool x y | None, None => true | _, _ => false end.
Definition differs (a b : nst) : bool :=
  negb (st_eqb (n_state a) (n_state b)) || negb (Bool.eqb (n_must a) (n_must b)) || negb (Bool.eqb (n_cannot a) (n_cannot b)) ||
  negb (Qeq_bool (n_off a) (n_off b)) || negb (opt_eqb (n_disp a) (n_disp b)) || negb (n_strat a =? n_strat b).
Definition state_change (active : bool) (m : nm) (new : nst) : option (list out) :=
  do a <- clustering m;
  Some (a ++ if active && differs new (m_st m) then [Told (status_of new)] else []).

(** ntp_convergence_update, lines 353-390. *)
Definition converge (m : nm) (now : option ts) : option nm :=
  match now with
  | Some t =>
      if negb (st_eqb (n_state (m_st m)) SLAVE) then Some (set_sync m false (conv_reset (m_conv m)))
      else if negb (Z.testbit (m_flags m) TIMESTAMPS) then Some (set_sync m false (m_conv m))
      else if n_idx (m_st m) =? -1 then None
      else do p <- peer_at (m_st m);
           do r <- conv_update (m_conv m) (sec t) (p_offset p);
           Some (set_sync m (snd r) (fst r))
  | None => Some (set_sync m false (conv_reset (m_conv m)))
  end.
(** ntp_stats_update, lines 440-463. *)
Definition history (m : nm) : option (list out) :=
  if st_eqb (n_state (m_st m)) SLAVE then
    if n_idx (m_st m) =? -1 then None
    else do p <- peer_at (m_st m); Some [History (Some (p_offset p)) (m_sync m)]
  else Some [History None (m_sync m)].

(** ntp_state_machine, lines 800-845: the new state if the daemon was asked. *)
Definition machine (g : conf) (m : nm) (k : tick) : option (nm * option nst * list out) :=
  match m_q m with
  | QSys => do n <- parse (with_sys (m_st m) (k_sys k)) (fst (k_sys k)) (m_unsafe m) (k_score k);
            Some (set_q m QPeer (m_next m), Some n, [AskSys])
  | QPeer => do n <- parse (with_peers (m_st m) (k_peers k)) (pa_rc (k_peers k)) (m_unsafe m) (k_score k);
             Some (set_q m QSleep (m_next m), Some n, [AskPeers])
  | QSleep => do rest <- subtract (m_next m) (k_now k);
              if sec rest <? 0 then
                do s <- chk_s64 (sec (m_next m) + g_interval g);
                Some (set_q m QSys (mkTs s (nsec (m_next m)) (frac (m_next m))), None, [])
              else Some (m, None, [])
  end.

(** ntp_on_timer, lines 1288-1329. *)
Definition on_timer (g : conf) (m : nm) (k : tick) : option (nm * list out) :=
  do r <- machine g m k;
  let '(m1, upd, o1) := r in
  match upd with
  | None => Some (m1, o1)
  | Some new =>
      let (new2, o2) := if negb (Bool.eqb (n_cc new) (n_cc (m_st m1))) then control_change (g_active g) m1 new (k_ctl k) else (new, []) in
      do x <- (if negb (id_eqb (n_id new2) (n_id (m_st m1))) then id_change (g_active g) m1 new2 else Some (m1, []));
      do o4 <- state_change (g_active g) (fst x) new2;
      do m3 <- converge (set_st (fst x) new2) (k_conv k);
      do o5 <- history m3;
      Some (m3, o1 ++ o2 ++ snd x ++ o4 ++ o5)
  end.

(** ntp_on_control, lines 997-1049. *)
Definition on_control (g : conf) (m : nm) (mask flags ctl : Z) : nm * list out :=
  if negb (g_active g) then (m, []) else
  let f := Z.lor (Z.ldiff (m_flags m) mask) (Z.land flags mask) in
  let s := m_st m in
  if Z.testbit (Z.lxor f (m_flags m)) CLOCK_CTRL then
    let want := Z.testbit f CLOCK_CTRL in
    let s' := if ctl =? 0 then with_cc s false false want
              else if negb (Bool.eqb want (n_cc s)) then
                (if want then with_cc s (n_must s) true (n_cc s) else with_cc s true (n_cannot s) (n_cc s))
              else s in
    (set_flags m f s', [Command want])
  else (set_flags m f s, []).

(** ntp_on_save_state, lines 1077-1166. *)
Definition on_save (m : nm) : option (list out) :=
  let s := m_st m in
  let cand := List.length (filter p_candidate (firstn (n_num s) (n_arr s))) in
  do d <- (if st_eqb (n_state s) SLAVE then do p <- peer_at s; Some (Some (p_offset p, m_sync m, p_remote p, n_score s)) else Some None);
  Some [Saved (n_state s) (n_must s) (n_cannot s) (m_flags m) d (n_num s) cand].
(** ntp_on_write_topology, lines 1169-1230; asserts that the instance is selected. *)
Definition on_topology (m : nm) : option (list out) :=
  if negb (Z.testbit (m_flags m) SELECTED) then None else
  do p <- peer_at (m_st m);
  Some [Drawn (n_state (m_st m)) (if st_eqb (n_state (m_st m)) SLAVE then Some (p_remote p, p_offset p) else None)].

(** ntp_on_message, lines 1394-1456. *)
Definition step (g : conf) (m : nm) (o : op) : option (nm * list out) :=
  match o with
  | Tick k => on_timer g m k
  | Control mask flags ctl => Some (on_control g m mask flags ctl)
  | StepClock => Some (set_unsafe m true, [])
  | LogStats => do a <- rt_stats (g_active g) m; do b <- clustering m; Some (m, a ++ b)
  | SaveState => do a <- on_save m; Some (m, a)
  | Topology => do a <- on_topology m; Some (m, a)
  | GetStatus => Some (m, [Reply (reply_of (m_st m))])
  end.
Fixpoint run (g : conf) (m : nm) (l : list op) : option (nm * list (op * list out)) :=
  match l with
  | [] => Some (m, [])
  | o :: r => do x <- step g m o; do y <- run g (fst x) r; Some (fst y, (o, snd x) :: snd y)
  end.

(** ntp_configure_ntpd, lines 670-798, and ntp_handle_clock_control_conflict, lines 564-576: an error or
    the state. *)
Definition EINVAL := 22. Definition EBUSY := 16. Definition EPROTONOSUPPORT := 93.
Definition configure (g : conf) (b : boot) : option (Z + nst * list out) :=
  if g_active g && negb (g_key g) && negb (g_ignore g) then Some (inl EINVAL) else
  if g_timesyncd g then Some (inl EPROTONOSUPPORT) else
  if b_create b =? ENOPROTOOPT then Some (inr (zero_state, [])) else
  if negb (b_create b =? 0) then Some (inl (b_create b)) else
  let s1 := with_sys (with_cc zero_state false false true) (b_sys b) in
  if negb (fst (b_sys b) =? 0) then
    do s <- parse s1 (fst (b_sys b)) false (b_score b); Some (inr (s, [AskSys]))
  else if negb (pa_rc (b_peers b) =? 0) then Some (inl (pa_rc (b_peers b)))
  else
    let s2 := with_peers s1 (b_peers b) in
    let r := if g_active g && n_cc s2 then
               if negb (b_ctl b =? 0) then if g_ignore g then Some (with_cc s2 true (n_cannot s2) (n_cc s2), [Command false]) else None
               else Some (with_cc s2 (n_must s2) (n_cannot s2) false, [Command false])
             else Some (s2, []) in
    match r with
    | None => Some (inl EINVAL)
    | Some (s3, o) =>
        if negb (g_active g) && n_cc s3 && g_writable g && negb (g_ignore g) then Some (inl EBUSY)
        else
          let s4 := if negb (g_active g) && n_cc s3 && g_writable g then with_cc s3 true (n_cannot s3) (n_cc s3) else s3 in
          do s <- parse s4 0 false (b_score b);
          Some (inr (s, [AskSys; AskPeers] ++ o))
    end.
(** ntp_on_startup, lines 1332-1371, and ntp_convergence_init, lines 330-350. *)
Definition startup (g : conf) (b : boot) : option (Z + nm * list out) :=
  do c <- configure g b;
  match c with
  | inl e => Some (inl e)
  | inr (s, o) => do cv <- conv_init (g_min g) (g_max g);
                  Some (inr (mkM (2 ^ TIMESTAMPS) QSys (mkTs 0 0 0) false s false cv, o))
  end.
(** ntp_on_run, lines 1251-1285. *)
Definition on_run (g : conf) (m : nm) (now : ts) : option (nm * list out) :=
  let m1 := set_unsafe (set_q m QSys now) false in
  if g_active g then
    do x <- id_change true m1 (m_st m1);
    do h <- history (fst x);
    Some (fst x, snd x ++ Told (status_of (m_st m1)) :: h)
  else Some (m1, []).
(** The whole life: an error of the start, or the history after it. *)
Definition live (g : conf) (b : boot) (now : ts) (l : list op) : option (Z + nm * list out * list (op * list out)) :=
  do s <- startup g b;
  match s with
  | inl e => Some (inl e)
  | inr (m, o) => do r <- on_run g m now; do y <- run g (fst r) l; Some (inr (fst y, o ++ snd r, snd y))
  end.
