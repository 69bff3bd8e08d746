(** Model of src/ptp/sfptpd_ptp_module.c: creation, start, running and end of the PTP module and
    of its instances and interfaces, with the contexts of src/ptp/ptpd2/ptpd_lib.c.  [None] is a
    failed assertion, a NULL dereference, or a use of freed memory: the objects that are allocated
    are listed, and whatever is followed or freed must be among them.  Left out: the contents of
    the contexts, the clock, statistics and convergence of an instance (only whether setting them
    up works), the remote monitor, failures of calloc in the module (the code asserts them away,
    line 3570) and resources other than memory. *)
Require Import ZArith List Bool Arith.
From Verif Require Import Base PmcSpec.
Import ListNotations.
Open Scope Z_scope.

(** struct sfptpd_ptp_intf, lines 184-233, known by the position of its representative_config.
    [n_ctx] is ptpd_intf_private with the list of its ports (struct ptpd_intf_context). *)
Record intf := mkIntf {
  n_rep : nat; n_insts : list nat; n_att : bool; n_ok : bool; n_ctx : option (list nat) }.
(** struct sfptpd_ptp_module, lines 235-256; the configurations of the instances as they are now;
    instance->ptpd_port_private and the alarm NO_INTERFACE of the instances; the global context's
    list of interfaces and count of ports (struct ptpd_global_context); what is allocated. *)
Record world := mkWorld {
  w_conf : list conf; w_intfs : list intf; w_ports : list nat; w_alarm : list nat;
  w_ctxs : list nat; w_count : Z; w_live : list obj }.

Definition obj_eqb (a b : obj) : bool :=
  match a, b with
  | OInst i, OInst j | OIntf i, OIntf j | OCtx i, OCtx j | OPort i, OPort j => Nat.eqb i j
  | OGlob, OGlob => true
  | _, _ => false
  end.
Definition mem (i : nat) (l : list nat) : bool := existsb (Nat.eqb i) l.
Definition live (o : obj) (w : world) : bool := existsb (obj_eqb o) (w_live w).
Definition set_conf (w : world) (l : list conf) := mkWorld l (w_intfs w) (w_ports w) (w_alarm w) (w_ctxs w) (w_count w) (w_live w).
Definition set_intfs (w : world) (l : list intf) := mkWorld (w_conf w) l (w_ports w) (w_alarm w) (w_ctxs w) (w_count w) (w_live w).
Definition set_ports (w : world) (l : list nat) := mkWorld (w_conf w) (w_intfs w) l (w_alarm w) (w_ctxs w) (w_count w) (w_live w).
Definition set_alarm (w : world) (l : list nat) := mkWorld (w_conf w) (w_intfs w) (w_ports w) l (w_ctxs w) (w_count w) (w_live w).
Definition set_ctxs (w : world) (l : list nat) := mkWorld (w_conf w) (w_intfs w) (w_ports w) (w_alarm w) l (w_count w) (w_live w).
Definition set_count (w : world) (n : Z) := mkWorld (w_conf w) (w_intfs w) (w_ports w) (w_alarm w) (w_ctxs w) n (w_live w).
Definition set_live (w : world) (l : list obj) := mkWorld (w_conf w) (w_intfs w) (w_ports w) (w_alarm w) (w_ctxs w) (w_count w) l.
Definition alloc (o : obj) (w : world) : world := set_live w (o :: w_live w).
Definition free (o : obj) (w : world) : option world :=
  if live o w then Some (set_live w (filter (fun x => negb (obj_eqb o x)) (w_live w))) else None.

(** Finding and changing an interface by its identity, as a pointer to it would be followed. *)
Definition get (j : nat) (w : world) : option intf :=
  if live (OIntf j) w then find (fun n => Nat.eqb (n_rep n) j) (w_intfs w) else None.
Definition put (n : intf) (w : world) : world :=
  set_intfs w (map (fun m => if Nat.eqb (n_rep m) (n_rep n) then n else m) (w_intfs w)).
Definition with_insts (n : intf) (l : list nat) := mkIntf (n_rep n) l (n_att n) (n_ok n) (n_ctx n).
Definition with_start (n : intf) (att ok : bool) := mkIntf (n_rep n) (n_insts n) att ok (n_ctx n).
Definition with_ctx (n : intf) (c : option (list nat)) := mkIntf (n_rep n) (n_insts n) (n_att n) (n_ok n) c.

(** ptp_get_first_instance and ptp_get_next_instance, lines 2213-2236: the instances as a loop
    from one to the next visits them.  An interface without any would end the loop. *)
Fixpoint walk (l : list intf) : list nat :=
  match l with
  | [] => []
  | n :: r => match n_insts n with [] => [] | _ :: _ => n_insts n ++ walk r end
  end.
(** instance->intf. *)
Definition home (i : nat) (w : world) : option intf := find (fun n => mem i (n_insts n)) (w_intfs w).

(** ptp_find_interface_by_name_transport, lines 3414-3430. *)
Definition find_if (c : conf) (w : world) : option nat :=
  option_map n_rep (find (fun n => match nth_error (w_conf w) (n_rep n) with Some d => same_if d c | None => false end) (w_intfs w)).

(** Following a linked list up to the element to take out, as in ptpd_lib.c:344-349 and 382-387:
    the link in each element on the way is read; the end of the list is a NULL pointer. *)
Fixpoint unlink (o : nat -> obj) (i : nat) (l : list nat) (w : world) : option (list nat) :=
  match l with
  | [] => None
  | x :: r => if negb (live (o x) w) then None else
              if Nat.eqb x i then Some r else do r' <- unlink o i r w; Some (x :: r')
  end.

(** ptpd_port_destroy, ptpd_lib.c:337-360; [n] is the interface of the port. *)
Definition port_destroy (i : nat) (n : intf) (w : world) : option world :=
  match n_ctx n with
  | None => None
  | Some ports =>
      if negb (live (OPort i) w && live (OCtx (n_rep n)) w) then None else
      do l <- unlink OPort i ports w;
      free (OPort i) (put (with_ctx n (Some l)) w)
  end.
(** ptpd_interface_destroy, ptpd_lib.c:362-400: first the remaining ports, then the context. *)
Fixpoint ports_destroy (l : list nat) (j : nat) (w : world) : option world :=
  match l with
  | [] => Some w
  | i :: r => do n <- get j w; do w <- port_destroy i n w; ports_destroy r j w
  end.
Definition ctx_destroy (n : intf) (w : world) : option world :=
  match n_ctx n with
  | None => None
  | Some ports =>
      if negb (live (OCtx (n_rep n)) w && live OGlob w) then None else
      do w <- ports_destroy ports (n_rep n) w;
      do l <- unlink OCtx (n_rep n) (w_ctxs w) w;
      free (OCtx (n_rep n)) (set_ctxs w l)
  end.

(** ptp_destroy_interface, lines 3350-3373.  (The hardware filters are left out.) *)
Definition destroy_interface (j : nat) (w : world) : option world :=
  do n <- get j w;
  match n_insts n with
  | _ :: _ => None
  | [] =>
      do w <- (if n_ok n && match n_ctx n with None => false | _ => true end then ctx_destroy n w else Some w);
      free (OIntf j) (set_intfs w (filter (fun m => negb (Nat.eqb (n_rep m) j)) (w_intfs w)))
  end.

(** ptp_destroy_instance, lines 3377-3407. *)
Definition destroy_instance (i : nat) (w : world) : option world :=
  if negb (live (OInst i) w) then None else
  do n <- home i w;
  do w <- (if mem i (w_ports w) then port_destroy i n w else Some w);
  do n <- get (n_rep n) w;
  let n' := with_insts n (filter (fun k => negb (Nat.eqb i k)) (n_insts n)) in
  let w := put n' w in
  do w <- (match n_insts n' with [] => destroy_interface (n_rep n') w | _ :: _ => Some w end);
  free (OInst i) w.
(** ptp_destroy_instances, lines 3521-3531: the next instance is looked up before the present one
    goes, which changes nothing behind it, so the instances are those visited at the start. *)
Fixpoint destroy_all (l : list nat) (w : world) : option world :=
  match l with [] => Some w | i :: r => do w <- destroy_instance i w; destroy_all r w end.
Definition destroy_instances (w : world) : option world := destroy_all (walk (w_intfs w)) w.

(** The defaults of lines 3583-3595. *)
Definition defaults (c : conf) : conf :=
  mkConf (f_if c) (f_af c) (f_dom c)
    (match f_prof c with UNDEF => if f_p2p c then DEFAULT_P2P else DEFAULT_E2E | p => p end)
    (f_p2p c) (f_minor c) (if f_minor c <? 1 then false else f_tlv c) (f_sync_mc c) (f_resp_mc c) (f_needed c).
Fixpoint set_nth (i : nat) (c : conf) (l : list conf) {struct l} : list conf :=
  match l, i with
  | [], _ => []
  | _ :: r, O => c :: r
  | x :: r, Datatypes.S i => x :: set_nth i c r
  end.
Definition dom_of (w : world) (i : nat) : option Z := option_map f_dom (nth_error (w_conf w) i).

(** One turn of the loop of ptp_create_instances, lines 3554-3603, with
    ptp_ensure_interface_created, lines 3433-3482, and ptp_validate_new_instance, lines 3490-3515. *)
Definition create_one (i : nat) (w : world) : option (Z * world) :=
  do c <- nth_error (w_conf w) i;
  let w := alloc (OInst i) w in
  let '(j, w) := match find_if c w with
    | Some j => (j, w)
    | None => (i, alloc (OIntf i) (set_intfs w (mkIntf i [] false false None :: w_intfs w)))
    end in
  do n <- get j w;
  let n := with_insts n (i :: n_insts n) in
  let w := put n w in
  if existsb (fun k => negb (Nat.eqb k i) && match dom_of w k with Some d => d =? f_dom c | None => false end) (n_insts n)
  then Some (EBUSY, w)
  else Some (0, set_conf w (set_nth i (defaults c) (w_conf w))).
(** ptp_create_instances, lines 3535-3610. *)
Fixpoint create_loop (l : list nat) (w : world) : option (Z * world) :=
  match l with
  | [] => Some (0, w)
  | i :: r => do x <- create_one i w; let '(rc, w) := x in if rc =? 0 then create_loop r w else Some (rc, w)
  end.
Definition empty (l : list conf) : world := mkWorld l [] [] [] [] 0 [].
Definition create_instances (l : list conf) : option (Z * world) :=
  do x <- create_loop (seq 0 (List.length l)) (empty l);
  let '(rc, w) := x in
  if rc =? 0 then Some (0, w) else do w <- destroy_instances w; Some (rc, w).

(** ptp_start_instance, lines 3644-3717, with ptp_ensure_interface_started, lines 3613-3641, then
    the timestamp type, lines 3820-3831. *)
Definition start_instance (e : env) (i : nat) (w : world) : option (Z * world) :=
  do c <- nth_error (w_conf w) i;
  do j <- find_if c w;
  do n <- get j w;
  let '(rc, w) := if n_att n then (0, w) else
    if e_topo e j =? 0 then (0, put (with_start n true true) w) else (e_topo e j, put (with_start n true (n_ok n)) w) in
  if negb (rc =? 0) then Some (EREPORTED, w) else
  do h <- home i w;
  let w := if e_phys e (n_rep h) =? 0 then set_alarm w (i :: w_alarm w) else w in
  if negb (e_stats e i =? 0) then Some (e_stats e i, w) else Some (e_ts e i, w).
Fixpoint start_loop (e : env) (l : list nat) (w : world) : option (Z * world) :=
  match l with
  | [] => Some (0, w)
  | i :: r => do x <- start_instance e i w; let '(rc, w) := x in if rc =? 0 then start_loop e r w else Some (rc, w)
  end.

(** ptp_intf_aggregate_instance_requirements, lines 3757-3782: the result goes to the options of
    the first instance in the list. *)
Definition with_needed (c : conf) (b : bool) : conf :=
  mkConf (f_if c) (f_af c) (f_dom c) (f_prof c) (f_p2p c) (f_minor c) (f_tlv c) (f_sync_mc c) (f_resp_mc c) b.
Definition aggregate (n : intf) (w : world) : option world :=
  match n_insts n with
  | [] => Some w
  | h :: _ =>
      do c <- nth_error (w_conf w) h;
      Some (set_conf w (set_nth h (with_needed c
        (existsb (fun k => match nth_error (w_conf w) k with Some d => f_sync_mc d || f_resp_mc d | None => false end) (n_insts n)))
        (w_conf w)))
  end.

(** ptpd_create_interface, ptpd_lib.c:203-275: the new context goes into the list first; if it
    cannot be set up it is freed and stays in the list.  Its options are a copy of those of the
    representative configuration; it joins the groups if multicast_needed, net.c:1960-1963. *)
Definition create_ctx (e : env) (n : intf) (w : world) : option (Z * list ev * world) :=
  do c <- nth_error (w_conf w) (n_rep n);
  if negb (live OGlob w) then None else
  let w := set_ctxs w (n_rep n :: w_ctxs w) in
  if e_ctx e (n_rep n) =? 0
  then Some (0, [Up (n_rep n) (n_rep n) (f_needed c)], put (with_ctx n (Some [])) (alloc (OCtx (n_rep n)) w))
  else Some (e_ctx e (n_rep n), [], w).
(** ptpd_create_port, ptpd_lib.c:278-335: so too here. *)
Definition create_port (e : env) (i j : nat) (w : world) : option (Z * list ev * world) :=
  do n <- get j w;
  match n_ctx n with
  | None => None
  | Some ports =>
      if negb (live OGlob w && live (OCtx j) w) then None else
      let w := set_count (put (with_ctx n (Some (i :: ports))) w) (w_count w + 1) in
      if e_port e i =? 0
      then Some (0, [Port i (w_count w)], set_ports (alloc (OPort i) w) (i :: w_ports w))
      else Some (e_port e i, [], w)
  end.
(** The loop over the instances of an interface, lines 3862-3901; the second component says that
    ptp_on_startup returns at once, line 3878. *)
Fixpoint ports_loop (e : env) (l : list nat) (j : nat) (w : world) : option (Z * bool * list ev * world) :=
  match l with
  | [] => Some (0, false, [], w)
  | i :: r =>
      do x <- create_port e i j w;
      let '(rc, evs, w) := x in
      if negb (rc =? 0) then Some (rc, false, evs, w) else
      if negb (e_clock e i =? 0) then Some (EREPORTED, true, evs, w) else
      if negb (e_snap e i =? 0) then Some (e_snap e i, false, evs, w) else
      do y <- ports_loop e r j w;
      let '(rc, now, evs', w) := y in Some (rc, now, evs ++ evs', w)
  end.
(** The loop over the interfaces, lines 3842-3906, with the count of software timestamping. *)
Fixpoint ctx_loop (e : env) (l : list nat) (w : world) : option (Z * bool * Z * list ev * world) :=
  match l with
  | [] => Some (0, false, 0, [], w)
  | j :: r =>
      do n <- get j w;
      if negb (n_ok n) then ctx_loop e r w else
      do w <- aggregate n w;
      do x <- create_ctx e n w;
      let '(rc, evs, w) := x in
      if negb (rc =? 0) then Some (rc, false, 0, evs, w) else
      do y <- ports_loop e (n_insts n) j w;
      let '(rc, now, evs1, w) := y in
      if negb (rc =? 0) then Some (rc, now, 0, evs ++ evs1, w) else
      do z <- ctx_loop e r w;
      let '(rc, now, soft, evs2, w) := z in
      Some (rc, now, soft + (if e_soft e j then Z.of_nat (List.length (n_insts n)) else 0), evs ++ evs1 ++ evs2, w)
  end.
(** ptp_on_startup, lines 3785-3923. *)
Definition startup (e : env) (w : world) : option (Z * list ev * world) :=
  let failed rc evs w := do w <- destroy_instances w; Some (rc, evs, w) in
  match walk (w_intfs w) with [] => None | _ =>
    if negb (e_sub1 e =? 0) then Some (e_sub1 e, [], w) else
    if negb (e_sub2 e =? 0) then Some (e_sub2 e, [], w) else
    do x <- start_loop e (walk (w_intfs w)) w;
    let '(rc, w) := x in
    if negb (rc =? 0) then failed rc [] w else
    if negb (e_init e =? 0) then failed (e_init e) [] w else
    do y <- ctx_loop e (map n_rep (w_intfs w)) (alloc OGlob w);
    let '(rc, now, soft, evs, w) := y in
    if negb (rc =? 0) then (if now : bool then Some (rc, evs, w) else failed rc evs w) else
    if 1 <? soft then failed ENOTSUP evs w else
    if negb (e_timer e =? 0) then failed (e_timer e) evs w else
    Some (0, evs, w)
  end.

(** sfptpd_ptp_module_create, lines 4176-4250, with the start of its thread: src/sfptpd_thread.c:
    1388-1407 and 1795-1804.  The result has what was written to the buffer of [entries] entries:
    the instances; the remaining entries are zero. *)
Definition module_create (l : list conf) (e : env) (entries : nat) : option (Z * list ev * list (option nat) * world) :=
  let fail rc evs w := Some (if rc =? ENOENT then EINVAL else rc, evs, [], w) in
  if negb (e_table e =? 0) then fail (e_table e) [] (empty l) else
  do x <- create_instances l;
  let '(rc, w) := x in
  if negb (rc =? 0) then fail rc [] w else
  if negb (e_thread e =? 0) then do w <- destroy_instances w; fail (e_thread e) [] w else
  do y <- startup e w;
  let '(rc, evs, w) := y in
  if negb (rc =? 0) then do w <- destroy_instances w; fail rc evs w else
  let shown := firstn entries (walk (w_intfs w)) in
  Some (0, evs, map Some shown ++ repeat None (entries - List.length shown), w).

(** ptp_on_shutdown, lines 4010-4033, with ptpd_destroy, ptpd_lib.c:402-417: a context still in
    the list would be freed before its link is read. *)
Definition shutdown (w : world) : option world :=
  do w <- destroy_instances w;
  match w_ctxs w with [] => free OGlob w | _ => None end.

(** ptp_on_run, lines 3926-3973, after the start of the timer, with ptp_start_interface, lines
    3720-3753: [socks] are the event and general sockets of an interface, [add] the result of
    adding one to the thread.  After the loop over the instances their pointer is NULL and the
    messages of lines 3957 and 3966 use it. *)
Definition start_interface (add : Z -> Z) (socks : Z * Z) : Z * list Z :=
  let one fd := if fd =? -1 then (0, []) else (add fd, [fd]) in
  let '(rc, l) := one (fst socks) in
  if negb (rc =? 0) then (rc, l) else let '(rc, l') := one (snd socks) in (rc, l ++ l').
Fixpoint run_loop (add : Z -> Z) (socks : nat -> Z * Z) (l : list intf) : option (list Z) :=
  match l with
  | [] => Some []
  | n :: r =>
      if negb (n_ok n) then run_loop add socks r else
      match n_ctx n with
      | None => None
      | Some _ =>
          let '(rc, fds) := start_interface add (socks (n_rep n)) in
          if negb (rc =? 0) then None else do t <- run_loop add socks r; Some (fds ++ t)
      end
  end.
Definition on_run (add : Z -> Z) (socks : nat -> Z * Z) (w : world) : option (list Z) := run_loop add socks (w_intfs w).

(** on_servo_pid_adjust, lines 3976-3998: the instances adjusted and whether the message is freed. *)
Definition pid_adjust (mask : Z) (w : world) : option (list nat * bool) :=
  if Z.land mask 2 =? 0 then Some ([], false) else
  if forallb (fun i => mem i (w_ports w)) (walk (w_intfs w)) then Some (walk (w_intfs w), true) else None.
