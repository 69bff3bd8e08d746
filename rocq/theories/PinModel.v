(** Model of a running PTP instance: src/ptp/sfptpd_ptp_module.c.

    Offsets are rational numbers of nanoseconds; they are not converted to struct sfptpd_timespec.  The structures
    compared by memcmp (2017) are cleared before they are filled, so their padding is equal.  The choice of an
    interface (C70, C71), the clustering score (C39) and the time are what the environment says.  The data
    sets can always be read: the port exists.  Left out: the history of statistics (2091), the host name
    of the parent (1920-1953), trace levels (2054-2060), and log messages. *)
Require Import ZArith QArith Qabs List Bool.
Require Import Verif.Base Verif.QLib Verif.FilterModel Verif.StatsModel Verif.PinSpec.
Import ListNotations.
Open Scope Z_scope.

(** ptp_translate_state, lines 355-377 *)
Definition translate (p : pst) : sst :=
  match p with
  | Init => SListening | Faulty => SFaulty | Disabled => SDisabled | Listening => SListening
  | Master => SMaster | Passive => SPassive | Slave => SSlave
  | Uninit | PreMaster | Uncal => SFaulty
  end.

(** ptp_translate_clock_class_to_ieee1588, lines 403-417 *)
Definition class_to (c : cls) : Z :=
  match c with Locked => 6 | Holdover => 7 | Freerunning => 248 | UnknownClass => 255 end.
(** ptp_translate_clock_class_from_ieee1588, lines 420-441 *)
Definition class_from (z : Z) : cls :=
  if (z =? 6) || (z =? 13) then Locked
  else if (z =? 7) || (z =? 14) then Holdover
  else if (z =? 52) || (z =? 58) || (z =? 187) || (z =? 193) || (z =? 248) || (z =? 255) then Freerunning
  else UnknownClass.

(** ptp_accuracy_map, lines 299-320; [None] is INFINITY. *)
Definition accuracy_map : list (Z * option Z) :=
  [(32, Some 25); (33, Some 100); (34, Some 250); (35, Some 1000); (36, Some 2500); (37, Some 10000);
   (38, Some 25000); (39, Some 100000); (40, Some 250000); (41, Some 1000000); (42, Some 2500000);
   (43, Some 10000000); (44, Some 25000000); (45, Some 100000000); (46, Some 250000000); (47, Some 1000000000);
   (48, Some 10000000000); (254, None); (49, None)].
(** ptp_translate_accuracy_to_enum, lines 444-455; [None] is an infinity (NaN also gives 254). *)
Definition within (x : option Q) (b : option Z) : bool :=
  match x, b with
  | _, None => true
  | None, Some _ => false
  | Some q, Some z => Qle_bool (- inject_Z z) q && Qle_bool q (inject_Z z)
  end.
Definition acc_to (x : option Q) : Z :=
  match find (fun p => within x (snd p)) accuracy_map with Some p => fst p | None => 254 end.
(** ptp_translate_accuracy_to_float, lines 458-468 *)
Definition acc_from (z : Z) : option Z :=
  match find (fun p => fst p =? z) accuracy_map with Some p => snd p | None => None end.

(** ptpd_get_snapshot, src/ptp/ptpd2/ptpd_lib.c:666-766: what is not valid in a state is replaced.  DEFAULT_CLOCK_CLASS
    is 248, PTPD_ACCURACY_UNKNOWN 254, PTPD_TIME_SOURCE_INTERNAL_OSCILLATOR 160. *)
Definition no_parent : parent := mkPa (repeat 0 8) 0 (repeat 0 8) 248 254 0 0 0 160 [].
Definition is_slave (p : pst) : bool := match p with Slave => true | _ => false end.
Definition snap_of (d : data) : data :=
  let v := match d_state d with Master | Slave | Passive => true | _ => false end in
  mkD (d_state d) (d_alarms d) (d_last d) (if v then d_steps d else 0)
      (if is_slave (d_state d) then d_off d else 0) (if v then d_parent d else no_parent)
      (d_l59 d) (d_l61 d) (d_tt d) (d_ft d) (d_ann d).

(** struct sfptpd_ptp_instance, src/ptp/sfptpd_ptp_module.c:126-200: configured priority and threshold; synchronized and
    ctrl_flags with their snapshots; ptpd_port_snapshot; local_alarms and its snapshot; clustering score; the convergence measure; the
    clock of the port; bond_changed of the interface. *)
Record inst := mkN { n_prio : Z; n_thr : Q; n_syn : bool; n_syn0 : bool; n_flags : Z; n_flags0 : Z; n_snap : data;
  n_alarms : Z; n_alarms0 : Z; n_score : Z; n_conv : conv; n_clock : nat; n_bond : bool }.

(** ptp_get_alarms_snapshot, lines 534-539 *)
Definition alarms (i : inst) : Z := Z.lor (n_alarms0 i) (d_alarms (n_snap i)).
(** ptp_get_instance_accuracy, lines 891-906 *)
Definition accuracy (caps hw : bool) : Z := if caps && hw then 50 else 50000.

(** The report common to ptp_on_get_status (2372-2401) and ptp_update_instance_state (2112-2123), with
    ptp_translate_master_characteristics (489-507). *)
Definition report (i : inst) (score : Z) (off : Q) (hw caps : bool) : status :=
  let p := n_snap i in let t := translate (d_state p) in
  let remote := match t with SSlave => true | _ => false end in
  mkS t (alarms i) (n_clock i) (n_prio i) score off (accuracy caps hw)
      (pa_gm (d_parent p)) remote (class_from (pa_class (d_parent p))) (pa_src (d_parent p)) (acc_from (pa_acc (d_parent p)))
      (if remote then Some (pa_var (d_parent p)) else None) (d_tt p) (d_ft p) (d_steps p).
(** ptp_on_get_status; the message was cleared by sfptpd_sync_module_get_status (src/sfptpd_sync_module.c:359), and the score
    is not filled in. *)
Definition get_status (i : inst) (hw caps : bool) : status :=
  report i 0 (if is_slave (d_state (n_snap i)) then d_off (n_snap i) else 0) hw caps.

(** ptp_on_control, lines 2404-2427; the flags are an unsigned int. *)
Definition control (i : inst) (flags mask : Z) : inst * list out :=
  let f := Z.lor (Z.land (n_flags i) (u32 (Z.lnot mask))) (Z.land flags mask) in
  (mkN (n_prio i) (n_thr i) (n_syn i) (n_syn0 i) f (n_flags0 i) (n_snap i) (n_alarms i) (n_alarms0 i) (n_score i) (n_conv i) (n_clock i) (n_bond i),
   if f =? n_flags i then [] else [Ctl f]).

(** ptp_set_convergence_threshold, lines 1902-1919, with the assertion in sfptpd_stats_convergence_set_max_offset
    (src/sfptpd_statistics.c:132-138). *)
Definition set_thr (thr : Q) (hw : bool) (c : conv) : option conv :=
  let t := if Qeq_bool thr 0 then (if hw then 1000#1 else 100000#1) else thr in
  if Qlt_bool 0 t then Some (mkConv (c_min c) t (c_num c) (c_start c) (c_latest c)) else None.

(** ptp_convergence_update, lines 541-573; the arguments are the fields it reads. *)
Definition converge (c : conv) (state : pst) (al : Z) (flags : Z) (time : option Z) (off : Q) : option (conv * bool) :=
  match time with
  | Some t =>
    if is_slave state then
      if negb (al =? 0) || negb (Z.testbit flags TIMESTAMPS) then Some (c, false)
      else conv_update c t off
    else Some (conv_reset c, false)
  | None => Some (conv_reset c, false)
  end.

Definition eq_pst : forall a b : pst, {a = b} + {a <> b}. Proof. decide equality. Defined.
Definition eq_parent : forall a b : parent, {a = b} + {a <> b}.
Proof. decide equality; first [apply Z.eq_dec | apply list_eq_dec; apply Z.eq_dec]. Defined.

(** ptp_update_instance_state, lines 1957-2160: the instance, whether its state changed, what it tells. *)
Definition update (i : inst) (e : env) : option (inst * bool * list out) :=
  let bond := n_bond i in
  let ofm := d_off (n_snap i) in
  let instance_changed := negb (eqb (n_syn i) (n_syn0 i)) || negb (n_flags i =? n_flags0 i) in
  let old := n_snap i in
  let p := snap_of (k_data e) in
  let score := k_score e ofm (n_clock i) in
  let state_changed :=
    (if eq_pst (d_state p) (d_state old) then false else true) || negb (d_last p =? d_last old)
    || (if eq_parent (d_parent p) (d_parent old) then false else true) || negb (d_steps p =? d_steps old)
    || negb (n_score i =? score) || negb (Z.lor (d_alarms p) (n_alarms i) =? alarms i) in
  let leap_changed := negb (eqb (d_l59 p) (d_l59 old)) || negb (eqb (d_l61 p) (d_l61 old)) in
  let offset_changed := negb (Qeq_bool (d_off p) ofm) in
  let clock := if state_changed then match k_sel e with Some c => c | None => n_clock i end else n_clock i in
  do c1 <- (if bond then set_thr (n_thr i) (k_hw e) (n_conv i) else Some (n_conv i));
  do r <- converge c1 (d_state p) (Z.lor (n_alarms i) (d_alarms p)) (n_flags i) (k_time e) (d_off p);
  let i' := mkN (n_prio i) (n_thr i) (snd r) (n_syn i) (n_flags i) (n_flags i) p (n_alarms i) (n_alarms i) score (fst r) clock bond in
  Some (i', state_changed,
    (if Z.testbit (n_flags i) DETERMINANT && offset_changed
     then [Cluster clock ofm (negb (Qeq_bool ofm 0))] else []) ++
    (if state_changed || bond || instance_changed || offset_changed then [Rt] else []) ++
    (if state_changed || bond then [State (report i' score (d_off p) (k_hw e) (k_caps e))] else []) ++
    (if state_changed || bond || instance_changed
     then [Publish (alarms i') (Z.testbit (n_flags i) SELECTED) (snd r) bond] else []) ++
    (if Z.testbit (n_flags i) SELECTED && is_slave (d_state p) && leap_changed
     then [if d_l59 p then Leap59 (2 * d_ann p) else if d_l61 p then Leap61 (2 * d_ann p) else Cancel] else [])).

(** ptp_update_interface_state, lines 2164-2210, for an interface with one instance: bond_changed is cleared.  The
    sockets in the epoll set are left out. *)
Definition step (i : inst) (o : op) : option (inst * list out) :=
  match o with
  | Tick e =>
    do r <- update i e;
    let i' := fst (fst r) in
    Some (mkN (n_prio i') (n_thr i') (n_syn i') (n_syn0 i') (n_flags i') (n_flags0 i') (n_snap i') (n_alarms i') (n_alarms0 i')
              (n_score i') (n_conv i') (n_clock i') false, snd r)
  | Control f m => Some (control i f m)
  | Alarm a => Some (mkN (n_prio i) (n_thr i) (n_syn i) (n_syn0 i) (n_flags i) (n_flags0 i) (n_snap i) a (n_alarms0 i)
                         (n_score i) (n_conv i) (n_clock i) (n_bond i), [])
  | Link c => Some (mkN (n_prio i) (n_thr i) (n_syn i) (n_syn0 i) (n_flags i) (n_flags0 i) (n_snap i) (n_alarms i) (n_alarms0 i)
                        (n_score i) (n_conv i) (match c with Some k => k | None => n_clock i end) true, [])
  end.
Fixpoint run (i : inst) (l : list op) : option (inst * list out) :=
  match l with
  | [] => Some (i, [])
  | o :: r => do a <- step i o; do b <- run (fst a) r; Some (fst b, snd a ++ snd b)
  end.

(** The instance when its port has been made: calloc, ptp_start_instance (3643-3717) and the first snapshot (3879).
    The threshold is set while the interface still has the kind of timestamps of the default configuration, which is
    hardware (src/ptp/ptpd2/ptpd_lib.c:152; lines 854-864). *)
Definition start (prio : Z) (thr : Q) (d : data) (al : Z) (clock : nat) : option inst :=
  do c <- set_thr thr true (conv_reset (mkConv 60 (1000#1) 0 0 0));
  Some (mkN prio thr false false 2 0 (snap_of d) al 0 0 c clock false).

(** ptp_on_update_gm_info, lines 2430-2459, for instances in the order of their lists: those told of a change that came from [orig],
    and the class and accuracy they are told. *)
Definition update_gm (insts : list nat) (orig : option nat) (c : cls) (acc : option Q) : list (nat * Z * Z) :=
  map (fun j => (j, class_to c, acc_to acc))
      (filter (fun j => match orig with Some k => negb (j =? k)%nat | None => true end) insts).
(** ptp_on_update_leap_second, lines 2462-2479: SFPTPD_LEAP_SECOND_NONE, 61 and 59 are given as [None], [Some true]
    and [Some false]. *)
Definition update_leap (insts : list nat) (t : option bool) : list (nat * bool * bool) :=
  map (fun j => (j, match t with Some false => true | _ => false end, match t with Some true => true | _ => false end)) insts.

(** ptp_measure_offset_from_discriminator, lines 3262-3312.  The discriminator is another sync instance, in the same
    thread or not, or a clock.  [reply] is the status of that instance: offset and clock.  [cmp] is
    sfptpd_clock_compare with the clock of this instance: success, and the difference it leaves.  The outer [None]:
    the call does not return, because the request waits in the queue of the thread that waits for the reply. *)
Inductive disc := NoDisc | ByClock (c : nat) | ByInstance (same_thread : bool).
Definition measure (d : disc) (reply : option (Q * nat)) (cmp : nat -> bool * Q) : option (option Q) :=
  match d with
  | NoDisc => Some None
  | ByInstance true => None
  | ByInstance false =>
    match reply with
    | Some (off, c) => if Qeq_bool off 0 then Some None else Some (Some (snd (cmp c) - off)%Q)
    | None => Some None
    end
  | ByClock c => if fst (cmp c) then Some (Some (snd (cmp c))) else Some None
  end.
