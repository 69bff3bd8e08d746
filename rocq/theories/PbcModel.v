(** Model of changes of links under a running PTP interface: src/ptp/sfptpd_ptp_module.c, lines 854-886, 909-951,
    1005-1077, 1723-1870, 3222-3259 and ptpd_change_interface, src/ptp/ptpd2/ptpd_lib.c:598-663.

    Log messages and the warning about clocks that are not to be disciplined (1578-1603) are left out.  The padding
    of the array entries, which memcmp (1788) also compares, is taken to be equal.  Entries of a set always have
    an interface (C70); one without is skipped. *)
Require Import ZArith List Bool.
Require Import Verif.Base Verif.PtiSpec Verif.PtiModel Verif.PbcSpec.
Import ListNotations.
Open Scope Z_scope.

Definition EIO := 5.
(** Where transport.bond_info points: to the structure of the interface, or to one that is gone. *)
Inductive pointer := Own | Dead.
(** struct sfptpd_ptp_intf with its instances (src/ptp/sfptpd_ptp_module.c:60-135), ifOpts.timestampType *)
Record st := mkI { i_bond : binfo; i_ts : tstype; i_bp : pointer; i_ports : list port }.

Section Env.
(** The interfaces as they are now; can sockets be opened for port k; can timestamping be switched on. *)
Variable w : world.
Variable net : nat -> bool.
Variable en : nat -> bool.

(** sfptpd_interface_get_clock *)
Definition clock_at (o : option nat) : nat := match o with Some i => w_clock w i | None => 0%nat end.
Definition eqts (a b : tstype) : bool := match a, b with Sw, Sw | Hw, Hw => true | _, _ => false end.
(** ptpd_change_interface; [ts] is ifOpts.timestampType before. *)
Definition change (k : nat) (p : port) (a : option nat) (ts nts : tstype) : port * list eff * Z :=
  let rc := match a with None => ENOENT | Some _ => if net k then 0 else EIO end in
  (mkPt a (clock_at a) (pt_last p) (pt_pref p) (pt_alarm p),
   Down :: (match a with Some i => [Open i] | None => [] end)
        ++ (if eqo (pt_phys p) a then [] else [Steer k (clock_at a)])
        ++ (if eqts ts nts then [] else [Reset k])
        ++ (if rc =? 0 then [] else [Faulty]),
   rc).

Record loop := mkLp { lp_ports : list port; lp_ts : tstype; lp_rc : Z; lp_active : bool; lp_changed : bool; lp_effs : list eff }.
(** The loop of 1812-1849 over the instances.  The interface is chosen in the old set. *)
Fixpoint each (old : binfo) (nts : tstype) (tsch : bool) (k : nat) (ps : list port) (ts : tstype) (rc : Z) : loop :=
  match ps with
  | [] => mkLp [] ts rc false false []
  | p :: r =>
      let a := active_intf w (pt_last p) (pt_clock p) old in
      let ach := negb (eqo a (pt_phys p)) in
      if ach || tsch then
        let '(p', e, rc') := change k p a ts nts in
        let o := each old nts tsch (S k) r nts rc' in
        mkLp (p' :: lp_ports o) (lp_ts o) (lp_rc o) (ach || lp_active o) true (e ++ lp_effs o)
      else
        let o := each old nts tsch (S k) r ts 0 in
        mkLp (p :: lp_ports o) (lp_ts o) (lp_rc o) (lp_active o) (lp_changed o) (lp_effs o)
  end.

(** ptp_is_interface_hw_timestamping, 874-886, with 854-866 *)
Definition is_hw (ts : tstype) (i : nat) : bool := match ts with Hw => w_ptp w i | Sw => false end.
(** ptp_timestamp_filtering_configure_one, already checked, 922-951 *)
Definition configure (i : nat) : list eff := if en i then [On i] else [Off i].
(** ptp_timestamp_filtering_reconfigure_all, 1005-1077 *)
Definition reconfigure (ts nts : tstype) (old new : binfo) : list eff :=
  flat_map (fun p => match p_intf p with
     | Some i => if existsb (fun q => eqo (Some i) (p_intf q)) (set_of new) then [] else if w_deleted w i then []
                 else if is_hw ts i then [Off i] else []
     | None => [] end) (set_of old) ++
  flat_map (fun p => match p_intf p with
     | Some i => if is_hw (if eqo (Some i) (b_active new) then nts else ts) i then configure i else []
     | None => [] end) (set_of new).

Definition eqp (p q : phys) : bool :=
  eqo (p_intf p) (p_intf q) && Bool.eqb (p_up p) (p_up q) && Bool.eqb (p_primary p) (p_primary q) && Bool.eqb (p_hwts p) (p_hwts q).
Fixpoint eql (a b : list phys) : bool :=
  match a, b with [], [] => true | p :: a', q :: b' => eqp p q && eql a' b' | _, _ => false end.
(** 1787-1789 *)
Definition set_changed (new old : binfo) : bool :=
  negb (b_num new =? b_num old)%nat || negb (eql (firstn (b_num new) (b_arr new)) (firstn (b_num new) (b_arr old))).

(** 1861-1870 *)
Definition with_alarm (a : bool) (p : port) : port := mkPt (pt_phys p) (pt_clock p) (pt_last p) (pt_pref p) a.
Definition finish (rc : Z) (num : nat) (changed : bool) (e : list eff) (x : st) : Z * bool * list eff * st :=
  (if rc =? ENOENT then 0 else rc, changed, e,
   mkI (i_bond x) (i_ts x) (i_bp x) (map (with_alarm (negb ((rc =? 0) && negb (num =? 0)%nat))) (i_ports x))).
(** ptp_handle_bonding_interface_change, 1723-1870: result, did the bond change, what was done, state. *)
Definition handle (t : list link) (x : st) : option (Z * bool * list eff * st) :=
  match link_by_name t (b_bond (i_bond x)) with
  | None => Some (finish ENOENT 0 false [] x)
  | Some l =>
      do r <- probe w t l (i_bond x);
      let (rc, nb) := r in
      if negb (rc =? 0) && negb (rc =? ENOENT) && negb (rc =? ENODEV) then Some (finish EIO (b_num nb) false [] x) else
      let (rc2, nts) := determine w (map pt_pref (i_ports x)) (b_active nb) in
      if negb (rc2 =? 0) then Some (finish rc2 (b_num nb) false [] x) else
      let tsch := negb (eqts nts (i_ts x)) in
      let o := each (i_bond x) nts tsch 0 (i_ports x) (i_ts x) 0 in
      let e := if set_changed nb (i_bond x) || lp_active o || tsch then reconfigure (lp_ts o) nts (i_bond x) nb else [] in
      Some (finish (lp_rc o) (b_num nb) (lp_changed o) (lp_effs o ++ e)
              (mkI nb (lp_ts o) (if lp_changed o then Dead else i_bp x) (lp_ports o)))
  end.
End Env.

(** ptp_on_link_table, 3222-3259, after the copy of the table: the interfaces in order.  Result: the error for which
    the thread ends, was the table given back, what was done on each, states. *)
Fixpoint on_table (w : world) (net : nat -> nat -> bool) (en : nat -> bool) (t : list link) (k : nat) (l : list st) : option (Z * bool * list (bool * list eff) * list st) :=
  match l with
  | [] => Some (0, true, [], [])
  | x :: r =>
      do h <- handle w (net k) en t x;
      let '(rc, ch, e, y) := h in
      if negb (rc =? 0) then Some (rc, false, [(ch, e)], y :: r) else
      do q <- on_table w net en t (S k) r;
      let '(rc', rel, es, ys) := q in
      Some (rc', rel, (ch, e) :: es, y :: ys)
  end.

(** Any number of link tables, 3222-3259, for one interface, each with the interfaces as they are then. *)
Record env := mkEnv { v_w : world; v_net : nat -> bool; v_table : list link }.
Fixpoint run (en : nat -> bool) (h : list env) (x : st) : option (list eff * st) :=
  match h with
  | [] => Some ([], x)
  | v :: r => do q <- handle (v_w v) (v_net v) en (v_table v) x; let '(_, _, e, y) := q in do z <- run en r y; Some (e ++ fst z, snd z)
  end.
