(** Model of the interface topology of src/ptp/sfptpd_ptp_module.c, lines 587-649, 1148-1568, 1606-1671.

    None: undefined behaviour (a failed assertion, a write past the array) or, in [resolve], no answer with
    the fuel given.  Log messages are left out.  qsort is an insertion sort; interfaces with the same name,
    of which there are none, would keep their order. *)
Require Import ZArith List Bool.
Require Import Verif.Base Verif.ListLib Verif.PtiSpec.
Import ListNotations.
Open Scope Z_scope.

Definition ENOENT := 2. Definition EINVAL := 22. Definition ENODEV := 19. Definition ENOTSUP := 95.

(** struct sfptpd_ptp_bond_info, src/include/sfptpd_ptp_module.h:63-92; entries of the array behind the
    number in use keep what they held. *)
Record binfo := mkB { b_logical : list Z; b_bond : list Z; b_mode : mode; b_bridge : bool; b_num : nat; b_arr : list phys; b_active : option nat }.
Definition set_of (b : binfo) : list phys := firstn (b_num b) (b_arr b).
(** calloc *)
Definition zero_phys := mkP None false false false.
Definition zero_info := mkB [] [] NoMode false 0 (repeat zero_phys MAX_IFS) None.

(** sfptpd_link_by_if_index, src/sfptpd_link.c:128-147 *)
Definition by_index (t : list link) (i : Z) : option link := fold_left (fun acc l => if l_index l =? i then Some l else acc) t None.
(** sfptpd_link_by_name, src/sfptpd_link.c:106-125 *)
Definition same_name (a b : list Z) : bool := if list_eq_dec Z.eq_dec (firstn 16 a) (firstn 16 b) then true else false.
Definition link_by_name (t : list link) (n : list Z) : option link := fold_left (fun acc l => if same_name (l_name l) n then Some l else acc) t None.

(** The loop of lines 1554-1560 around ptp_is_interface_vlan, 1148-1186: an error or the link. *)
Fixpoint resolve (n : nat) (t : list link) (l : link) : option (Z + link) :=
  match n with
  | O => None
  | S n =>
      match l_kind l with
      | Vlan => if 0 <? l_under l then match by_index t (l_under l) with Some i => resolve n t i | None => Some (inl EINVAL) end
                else Some (inl EINVAL)
      | _ => Some (inr l)
      end
  end.

(** strcmp (a, b) <= 0 *)
Fixpoint leb (a b : list Z) : bool :=
  match a, b with
  | [], _ => true
  | _ :: _, [] => false
  | x :: a', y :: b' => if x <? y then true else if y <? x then false else leb a' b'
  end.
Section World.
Variable w : world.
(** qsort with qsort_intfnamecmp, 1190-1197 *)
Fixpoint insert (p : phys) (l : list phys) : list phys :=
  match l with
  | [] => [p]
  | q :: r => if leb (text_of w p) (text_of w q) then p :: l else q :: insert p r
  end.
Definition isort (l : list phys) : list phys := fold_right insert [] l.
Definition sort_from (first num : nat) (arr : list phys) : list phys :=
  firstn first arr ++ isort (firstn (num - first) (skipn first arr)) ++ skipn num arr.

(** The part of the structure that the parsers change: array, number, active interface. *)
Record acc := mkA { a_arr : list phys; a_num : nat; a_active : option nat }.
(** 1240-1248, 1306-1314 *)
Definition put (a : acc) (p : phys) : option acc :=
  if (a_num a <? List.length (a_arr a))%nat then Some (mkA (set_nth (a_num a) p (a_arr a)) (S (a_num a)) (a_active a)) else None.
Definition is_member (b m : link) : bool := l_slave m && (l_master m =? l_index b).
Definition note (m : link) (i : nat) : phys := mkP (Some i) (l_up m) (l_active m =? l_index m) (w_hw w i).
(** The loop of parse_nested_bond, 1224-1251 *)
Fixpoint nested_rows (b : link) (rows : list link) (a : acc) : option acc :=
  match rows with
  | [] => Some a
  | m :: r =>
      if (a_num a <? MAX_IFS)%nat then
        if is_member b m then
          match w_index w (l_index m) with
          | None => nested_rows b r a
          | Some i => do a' <- put a (note m i); nested_rows b r a'
          end
        else nested_rows b r a
      else Some a
  end.
Definition is_ab (m : mode) : bool := match m with ActiveBackup => true | _ => false end.
(** parse_nested_bond, 1201-1260 *)
Definition parse_nested (t : list link) (b : link) (a : acc) : option acc :=
  let first := a_num a in
  let a1 := if is_ab (l_mode b) && (0 <? l_active b) && (match a_active a with None => true | Some _ => false end)
            then mkA (a_arr a) (a_num a) (w_index w (l_active b)) else a in
  do a2 <- nested_rows b t a1;
  Some (match l_kind b with Team => mkA (sort_from first (a_num a2) (a_arr a2)) (a_num a2) (a_active a2) | _ => a2 end).
(** The loop of parse_bond, 1284-1317 *)
Fixpoint bond_rows (t : list link) (b : link) (rows : list link) (a : acc) : option acc :=
  match rows with
  | [] => Some a
  | m :: r =>
      if (a_num a <? MAX_IFS)%nat then
        if is_member b m then
          match w_index w (l_index m) with
          | None => match l_kind m with
                    | Bond | Team => do a' <- parse_nested t m a; bond_rows t b r a'
                    | _ => bond_rows t b r a
                    end
          | Some i => do a' <- put a (note m i); bond_rows t b r a'
          end
        else bond_rows t b r a
      else Some a
  end.
(** parse_bond, 1263-1340 *)
Definition parse_bond (t : list link) (b : link) (x : binfo) : option (Z * binfo) :=
  let act := if is_ab (l_mode b) && (0 <? l_active b) then w_index w (l_active b) else None in
  do a <- bond_rows t b t (mkA (b_arr x) (b_num x) act);
  let rc := match l_mode b with ActiveBackup | Lacp => 0 | _ => if b_bridge x then 0 else EINVAL end in
  Some (rc, mkB (b_logical x) (b_bond x) (l_mode b) (b_bridge x) (a_num a) (a_arr a) (a_active a)).
(** parse_team, 1343-1360 *)
Definition parse_team (t : list link) (b : link) (x : binfo) : option (Z * binfo) :=
  do r <- parse_bond t b x;
  let (rc, y) := r in
  Some (rc, if rc =? 0 then mkB (b_logical y) (b_bond y) (b_mode y) (b_bridge y) (b_num y) (sort_from 0 (b_num y) (b_arr y)) (b_active y) else y).

Definition eqo (a b : option nat) : bool := match a, b with Some x, Some y => (x =? y)%nat | None, None => true | _, _ => false end.
(** The loop of 1450-1464: the interface chosen, if any, and rc. *)
Fixpoint first_up (l : list phys) (rc : Z) : option (option nat) * Z :=
  match l with
  | [] => (None, rc)
  | p :: r => match p_intf p with
              | None => first_up r EINVAL
              | Some i => match w_link w i with
                          | Some true => (Some (Some i), 0)
                          | Some false => first_up r 0
                          | None => first_up r EINVAL
                          end
              end
  end.
Definition intf0 (x : binfo) : option nat := match b_arr x with p :: _ => p_intf p | [] => None end.
Definition with_active (x : binfo) (a : option nat) : binfo := mkB (b_logical x) (b_bond x) (b_mode x) (b_bridge x) (b_num x) (b_arr x) a.
(** 1492-1493, 1511-1512: only the pointer of the first entry is set. *)
Definition one_intf (x : binfo) (i : nat) : binfo :=
  mkB (b_logical x) (b_bond x) (b_mode x) (b_bridge x) 1
    (match b_arr x with p :: r => mkP (Some i) (p_up p) (p_primary p) (p_hwts p) :: r | [] => [] end) (Some i).
Definition no_intf (x : binfo) : binfo := mkB (b_logical x) (b_bond x) (b_mode x) (b_bridge x) 0 (b_arr x) (b_active x).
Definition live (o : option nat) : option nat := match o with Some i => if w_deleted w i then None else Some i | None => None end.
(** ptp_probe_bonding, 1366-1517 *)
Definition probe (t : list link) (l : link) (x : binfo) : option (Z * binfo) :=
  let x0 := mkB (b_logical x) (firstn 15 (l_name l)) NoMode (match l_kind l with Bridge => true | _ => false end) 0 (b_arr x) None in
  let found := match l_kind l with Bond | Team | Bridge => true | _ => false end in
  do r <- match l_kind l with
          | Bond | Bridge => parse_bond t l x0
          | Team => parse_team t l x0
          | _ => Some (0, x0)
          end;
  let (rc1, y) := r in
  let rc := if found && (b_num y =? 0)%nat then ENOENT else rc1 in
  if negb (rc =? 0) && negb (rc =? ENOENT) then Some (rc, y) else
  if is_ab (b_mode y) then
    match b_active y with
    | None => Some (ENOENT, y)
    | Some i => if existsb (fun p => eqo (Some i) (p_intf p)) (set_of y) then Some (rc, y) else Some (ENOENT, with_active y None)
    end
  else if (match b_mode y with Lacp => true | _ => false end) || b_bridge y then
    let (o, rc') := first_up (set_of y) rc in
    Some (rc', with_active y (match o with Some i => i | None => intf0 y end))
  else match l_kind l with
  | Macvlan =>
      match (match live (w_index w (l_under l)) with Some i => Some i | None => live (w_index w (l_index l)) end) with
      | None => Some (ENODEV, no_intf y)
      | Some i => Some (rc, one_intf y i)
      end
  | _ =>
      match b_mode y with
      | NoMode => match live (w_name w (l_name l)) with
                  | None => Some (ENODEV, no_intf y)
                  | Some i => Some (rc, one_intf y i)
                  end
      | _ => None                                                       (* the assertion of 1499 *)
      end
  end.
(** ptp_parse_interface_topology, 1520-1568 *)
Definition topology (n : nat) (t : list link) (name : list Z) (x : binfo) : option (Z * binfo) :=
  match name with
  | [] => Some (ENODEV, x)
  | _ :: _ =>
      match link_by_name t name with
      | None => Some (ENOENT, x)
      | Some l =>
          let x1 := mkB (firstn 15 name) (b_bond x) (b_mode x) (b_bridge x) (b_num x) (b_arr x) (b_active x) in
          do r <- resolve n t l;
          match r with
          | inl e => Some (e, x1)
          | inr b => do r <- probe t b x1; Some (if fst r =? ENOENT then 0 else fst r, snd r)
          end
      end
  end.

(** ptp_get_active_intf, 587-649: the loop, then the function.  [last] and [clk] are the interface of the
    last Sync and the clock of the port. *)
Fixpoint pick (last : Z) (clk : nat) (l : list phys) (best : phys) (sync cur : bool) : phys :=
  match l with
  | [] => best
  | p :: r =>
      let s := ifindex_of w p =? last in
      let c := (clock_of w p =? clk)%nat in
      if negb (p_up p) then pick last clk r best sync cur else
      let best := if s then p else best in
      let sync := sync || s in
      if sync then pick last clk r best sync cur else
      let best := if p_primary p then p else best in
      if p_primary best then pick last clk r best sync cur else
      if (p_hwts p || negb (p_hwts best)) && (negb (p_hwts best) || (c && negb cur))
      then pick last clk r p sync c
      else pick last clk r best sync cur
  end.
Definition active_intf (last : Z) (clk : nat) (b : binfo) : option nat :=
  match set_of b with
  | [] => None
  | p :: r => p_intf (pick last clk (p :: r) p false false)
  end.

(** ptp_determine_timestamp_type, 1606-1671, [prefs] being those of the instances on the interface. *)
Definition determine (prefs : list pref) (intf : option nat) : Z * tstype :=
  let t := match intf with None => Sw | Some i => if w_ptp w i then Hw else Sw end in
  let must_sw := existsb (fun p => match p with WantSw => true | _ => false end) prefs in
  let must_hw := existsb (fun p => match p with WantHw => true | _ => false end) prefs in
  if must_hw && must_sw then (EINVAL, t)
  else if must_hw && (match t with Sw => true | Hw => false end) then (ENOTSUP, t)
  else if must_sw && (match t with Hw => true | Sw => false end) then (0, Sw)
  else (0, t).
End World.
