(** Model of src/sfptpd_clock.c: the list of clocks, hot plug, configuration, comparison,
    corrections, leap seconds, status and lookup.  [None] is undefined behaviour or a failed
    assertion.  What the operating system and the devices return is a parameter.  A clock is
    known by its key (RegSpec.v); a pointer to a clock is its key.  Left out: locking, PPS input,
    the statistics other than sync-failures, the formatting of names ([x_names]), the accuracy
    class, and the PHC device itself (PhcModel.v: here only which device is open). *)
Require Import ZArith QArith List Bool String.
From Verif Require Import Base TimeSpec TimeModel RegSpec.
Import ListNotations.
Open Scope Z_scope.

(** struct sfptpd_clock, lines 181-245.  [k_phc] is u.nic.phc: the device it was opened on,
    [k_spec] says that spec is not NULL, [k_told] is stepped_since_sample of the PHC. *)
Record clk := mkClk {
  k_key : key; k_kind : kind; k_del : bool; k_phc : option Z; k_idx : Z; k_disc : bool; k_ro : bool;
  k_blk : Z; k_corr : Q; k_max : Q; k_spec : bool; k_good : Z; k_init : bool; k_sync : bool;
  k_status : Z; k_id : list Z; k_names : list string; k_told : bool }.

Definition set_dev (c : clk) (del : bool) (phc : option Z) (idx : Z) (sync : bool) : clk :=
  mkClk (k_key c) (k_kind c) del phc idx (k_disc c) (k_ro c) (k_blk c) (k_corr c) (k_max c) (k_spec c)
    (k_good c) (k_init c) sync (k_status c) (k_id c) (k_names c) (k_told c).
Definition set_id (c : clk) (id : list Z) (names : list string) : clk :=
  mkClk (k_key c) (k_kind c) (k_del c) (k_phc c) (k_idx c) (k_disc c) (k_ro c) (k_blk c) (k_corr c) (k_max c)
    (k_spec c) (k_good c) (k_init c) (k_sync c) (k_status c) id names (k_told c).
Definition set_names (c : clk) (names : list string) : clk := set_id c (k_id c) names.
Definition set_max (c : clk) (m : Q) : clk :=
  mkClk (k_key c) (k_kind c) (k_del c) (k_phc c) (k_idx c) (k_disc c) (k_ro c) (k_blk c) (k_corr c) m
    true (k_good c) (k_init c) (k_sync c) (k_status c) (k_id c) (k_names c) (k_told c).
Definition set_flags (c : clk) (disc ro : bool) : clk :=
  mkClk (k_key c) (k_kind c) (k_del c) (k_phc c) (k_idx c) disc ro (k_blk c) (k_corr c) (k_max c)
    (k_spec c) (k_good c) (k_init c) (k_sync c) (k_status c) (k_id c) (k_names c) (k_told c).
Definition set_blk (c : clk) (n : Z) : clk :=
  mkClk (k_key c) (k_kind c) (k_del c) (k_phc c) (k_idx c) (k_disc c) (k_ro c) n (k_corr c) (k_max c)
    (k_spec c) (k_good c) (k_init c) (k_sync c) (k_status c) (k_id c) (k_names c) (k_told c).
Definition set_corr (c : clk) (q : Q) : clk :=
  mkClk (k_key c) (k_kind c) (k_del c) (k_phc c) (k_idx c) (k_disc c) (k_ro c) (k_blk c) q (k_max c)
    (k_spec c) (k_good c) (k_init c) (k_sync c) (k_status c) (k_id c) (k_names c) (k_told c).
Definition set_good (c : clk) (n : Z) : clk :=
  mkClk (k_key c) (k_kind c) (k_del c) (k_phc c) (k_idx c) (k_disc c) (k_ro c) (k_blk c) (k_corr c) (k_max c)
    (k_spec c) n (k_init c) (k_sync c) (k_status c) (k_id c) (k_names c) (k_told c).
Definition set_init (c : clk) : clk :=
  mkClk (k_key c) (k_kind c) (k_del c) (k_phc c) (k_idx c) (k_disc c) (k_ro c) (k_blk c) (k_corr c) (k_max c)
    (k_spec c) (k_good c) true (k_sync c) (k_status c) (k_id c) (k_names c) (k_told c).
Definition set_sync (c : clk) (b : bool) : clk :=
  mkClk (k_key c) (k_kind c) (k_del c) (k_phc c) (k_idx c) (k_disc c) (k_ro c) (k_blk c) (k_corr c) (k_max c)
    (k_spec c) (k_good c) (k_init c) b (k_status c) (k_id c) (k_names c) (k_told c).
Definition set_status (c : clk) (z : Z) : clk :=
  mkClk (k_key c) (k_kind c) (k_del c) (k_phc c) (k_idx c) (k_disc c) (k_ro c) (k_blk c) (k_corr c) (k_max c)
    (k_spec c) (k_good c) (k_init c) (k_sync c) z (k_id c) (k_names c) (k_told c).
Definition set_told (c : clk) : clk :=
  mkClk (k_key c) (k_kind c) (k_del c) (k_phc c) (k_idx c) (k_disc c) (k_ro c) (k_blk c) (k_corr c) (k_max c)
    (k_spec c) (k_good c) (k_init c) (k_sync c) (k_status c) (k_id c) (k_names c) true.

Definition key_eqb (a b : key) : bool :=
  match a, b with None, None => true | Some x, Some y => x =? y | _, _ => false end.
(** clock->type == SFPTPD_CLOCK_TYPE_SYSTEM. *)
Definition is_sys (c : clk) : bool := match k_key c with None => true | Some _ => false end.

(** sfptpd_clock_list_head, and the clock each interface is linked to (sfptpd_interface_set_clock,
    src/sfptpd_interface.c:1695-1703), the latest link first. *)
Record world := mkWorld { w_clks : list clk; w_links : list (Z * key) }.
Definition get (k : key) (w : world) : option clk :=
  find (fun c => key_eqb (k_key c) k) (w_clks w).
Definition upd (k : key) (f : clk -> clk) (w : world) : world :=
  mkWorld (map (fun c => if key_eqb (k_key c) k then f c else c) (w_clks w)) (w_links w).

(** clock_record_step, lines 1091-1103: the assertion of sfptpd_phc_record_step,
    src/sfptpd_phc.c:1346-1351, fails for a clock without an open device. *)
Definition record_step (w : world) : option world :=
  if forallb (fun c => is_sys c || match k_phc c with Some _ => true | None => false end) (w_clks w)
  then Some (mkWorld (map (fun c => if is_sys c then c else set_told c) (w_clks w)) (w_links w))
  else None.

(** Whether the clock may be written to, and if not what is returned, lines 1762-1780 and
    1826-1844. *)
Definition refused (c : clk) : option Z :=
  if negb (is_sys c) && match k_phc c with None => true | Some _ => false end then Some ENODEV
  else if k_ro c then Some 0 else if 0 <? k_blk c then Some 0 else None.

Definition res := option (Z * list ev * world).

(** The status word that goes with a write to the system clock, lines 1795-1799 and 1896-1899. *)
Definition with_status (g : config) (c : clk) : list ev :=
  if is_sys c && g_rtc g then [Status (k_status c)] else [].
(** sfptpd_clock_adjust_time, lines 1751-1812; [os] is the errno of clock_adjtime. *)
Definition adjust_time (g : config) (k : key) (off : ts) (os : Z) (w : world) : res :=
  do c <- get k w;
  match refused c with
  | Some rc => Some (rc, [], w)
  | None =>
      let evs := Step k off :: with_status g c in
      if os =? 0 then do w' <- record_step w; Some (0, evs, w') else Some (os, evs, w)
  end.

(** sfptpd_clock_adjust_frequency, lines 1815-1920: what is written is in SrvModel.kernel_values. *)
Definition adjust_frequency (g : config) (k : key) (f : Q) (os : Z) (w : world) : res :=
  do c <- get k w;
  match refused c with
  | Some rc => Some (rc, [], w)
  | None => Some (os, Freq k f :: with_status g c, w)
  end.

(** CLOCK_BAD_COMPARE_WARN_THRESHOLD, line 112. *)
Definition WARN_THRESHOLD := 16.
(** The failure of one of the two comparisons, lines 2075-2089 and 2101-2120: the statistics are
    those of the first clock. *)
Definition cmp_fail (first k : key) (c : clk) (w : world) : list ev * world :=
  (SyncFail first 1 :: if k_good c <? WARN_THRESHOLD then [Warn k] else [],
   upd k (fun c => set_good c 0) w).
(** Lines 2134-2146: a comparison without any method ends the thread. *)
Definition cmp_end (rc : Z) (evs : list ev) (d : ts) (w : world) : option (Z * ts * list ev * world) :=
  if rc =? EOPNOTSUPP then Some (ENOTRECOVERABLE, d, evs ++ [Exit rc], w) else Some (rc, d, evs, w).
(** sfptpd_clock_compare, lines 2039-2146, called from a thread of the daemon.  [r1], [r2] are
    what sfptpd_phc_compare_to_sys_clk returns for the two clocks, with the difference. *)
Definition compare (a b : key) (r1 r2 : Z * ts) (w : world) : option (Z * ts * list ev * world) :=
  do ca <- get a w;
  do cb <- get b w;
  if k_del ca || k_del cb then Some (ENOENT, null_time, [], w) else
  let no_dev c := negb (is_sys c) && match k_phc c with None => true | Some _ => false end in
  if no_dev ca || no_dev cb then Some (ENOSYS, null_time, [], w) else
  let first := if is_sys ca then (0, null_time, [], w) else
    if fst r1 =? 0 then
      (0, snd r1, [SyncFail a 0], upd a (fun c => set_good c (u32 (k_good c + 1))) w)
    else let '(e, w') := cmp_fail a a ca w in (fst r1, snd r1, e, w') in
  let '(rc, d, evs, w) := first in
  if negb (rc =? 0) then cmp_end rc evs d w else
  if is_sys cb then cmp_end 0 evs d w else
  do cb <- get b w;
  if fst r2 =? 0 then
    do d' <- subtract d (snd r2);
    cmp_end 0 (evs ++ [SyncFail b 0]) d' (upd b (fun c => set_good c (u32 (k_good c + 1))) w)
  else let '(e, w') := cmp_fail a b cb w in cmp_end (fst r2) (evs ++ e) d w'.

(** sfptpd_clock_set_time, lines 2149-2183. *)
Definition set_time (g : config) (to from : key) (thr : option ts) (initial : bool) (r1 r2 : Z * ts) (os : Z) (w : world) : res :=
  do ct <- get to w;
  if key_eqb to from || (initial && k_init ct) then Some (0, [], w) else
  do x <- compare from to r1 r2 w;
  let '(rc, d, evs, w) := x in
  if (rc =? 0) && match thr with None => true | Some t => 0 <=? cmp d t end then
    do y <- adjust_time g to d os w;
    let '(rc, evs', w) := y in
    Some (rc, evs ++ evs', if (rc =? 0) && initial then upd to set_init w else w)
  else Some (rc, evs, w).

(** sfptpd_clock_load_freq_correction, lines 1425-1476: [file] is what the file held, if it could
    be read; [os] the errno of clock_adjtime. *)
Definition outside (m x : Q) : bool := negb (Qle_bool x m) || negb (Qle_bool (- m) x).
Definition load_correction (g : config) (k : key) (file : option Q) (os : Z) (w : world) : res :=
  do c <- get k w;
  if negb (k_spec c) then None else
  let '(rc, x) := if g_persistent g then match file with Some x => (0, x) | None => (ENODATA, 0%Q) end
                  else (0, 0%Q) in
  let '(rc, x, evs) := if outside (k_max c) x then (ENODATA, 0%Q, [Unlink k]) else (rc, x, []) in
  do y <- adjust_frequency g k x os (upd k (fun c => set_corr c x) w);
  let '(_, e, w) := y in Some (rc, evs ++ e, w).
(** sfptpd_clock_save_freq_correction, lines 1479-1511, with the file as it was and is: a file is
    written with "%Lf" ([six] is that rounding), src/sfptpd_logging.c:806-825. *)
Definition save_correction (six : Q -> Q) (k : key) (x : Q) (os : Z) (file : option Q) (w : world) :
  option (Z * option Q * world) :=
  do c <- get k w;
  if negb (k_spec c) then None else
  if outside (k_max c) x then Some (ERANGE, file, w)
  else Some (os, if os =? 0 then Some (six x) else file, upd k (fun c => set_corr c x) w).

(** What the outside world returns to sfptpd_clock_correct_new: the correction file, the results
    of clock_adjtime for frequency and step, the time of the device or an errno, the comparison. *)
Record cenv := mkCenv {
  x_file : option Q; x_osf : Z; x_time : Z + Z; x_cmp : Z * ts; x_oss : Z }.
(** sfptpd_clock_correct_new, lines 2333-2364, with sfptpd_clock_get_time, lines 2009-2036. *)
Definition correctable (g : config) (c : clk) : bool :=
  negb (is_sys c) && match k_kind c with OTHER => g_non_sfc g | _ => true end.
Definition correct_new (g : config) (k : key) (e : cenv) (w : world) : option (list ev * world) :=
  do y <- load_correction g k (x_file e) (x_osf e) w;
  let '(_, evs, w) := y in
  do c <- get k w;
  if correctable g c then
    match (match k_phc c with None => inl ENODEV | Some _ => x_time e end) with
    | inl _ => Some (evs, w)
    | inr s =>
        if (s <? VALID) || g_always g then
          do z <- set_time g k None None true (0, null_time) (x_cmp e) (x_oss e) w;
          let '(_, evs', w) := z in Some (evs ++ evs', w)
        else Some (evs, w)
    end
  else Some (evs, w).

(** check_clock_in_config, lines 450-458: [ifs] are the names of the interfaces whose clock has
    the device index of the clock (sfptpd_check_clock_interfaces, src/sfptpd_interface.c:444-449). *)
Definition in_config (ifs : Z -> list string) (c : clk) (name : string) : bool :=
  existsb (String.eqb name) (k_names c) || (negb (is_sys c) && existsb (String.eqb name) (ifs (k_idx c))).
(** configure_clock_readonly for all entries, lines 461-476. *)
Definition conf_readonly (g : config) (ifs : Z -> list string) (c : clk) : clk :=
  if existsb (in_config ifs c) (g_readonly g) then set_flags c false true else c.
(** configure_clock_list for all entries, lines 479-500: the clock and the result of the last
    entry. *)
Fixpoint conf_list (g : config) (ifs : Z -> list string) (l : list string) (rc : Z) (c : clk) : Z * clk :=
  match l with
  | [] => (rc, c)
  | n :: r =>
      if negb (k_ro c) && in_config ifs c n && negb (k_disc c) then
        if negb (is_sys c) && match k_kind c with OTHER => negb (g_non_sfc g) | _ => false end
        then conf_list g ifs r EINVAL c
        else conf_list g ifs r 0 (set_flags c true (k_ro c))
      else conf_list g ifs r 0 c
  end.
(** configure_new_clock, lines 502-529. *)
Definition configure_new (g : config) (ifs : Z -> list string) (c : clk) : Z * clk :=
  let c := conf_readonly g ifs c in
  if k_ro c then (0, c)
  else if g_all g then
    (0, if is_sys c || match k_kind c with OTHER => g_non_sfc g | _ => true end then set_flags c true false else c)
  else conf_list g ifs (g_list g) 0 c.

(** clock_init_common, lines 401-438, and the zeroed structure. *)
Definition fresh (g : config) (k : key) (kd : kind) : clk :=
  mkClk k kd false None 0 false (g_no_adjust g) 0 0 0 false 0 false false 0 [] [] false.
(** new_system_clock, lines 591-652, and sfptpd_clock_initialise, lines 1124-1153.  [maxf] is the
    limit the kernel gives. *)
Definition initialise (g : config) (maxf : Q) (e : cenv) : option (list ev * world) :=
  let c := set_status (set_max (set_id (fresh g None OTHER) (repeat 0 8) ["system"; "system"; "system"]%string) maxf) UNSYNC in
  let c := snd (configure_new g (fun _ => []) c) in
  correct_new g None e (mkWorld [c] []).

(** What the outside world returns in a rescan: opening a device (the errno of a failure), starting
    it, its largest frequency adjustment; the names of the clock of an adapter; the names of the
    interfaces with a clock device. *)
Record renv := mkRenv {
  x_open : Z -> option Z; x_start : Z -> Z; x_devmax : Z -> Z; x_names : Z -> list string;
  x_ifs : Z -> list string }.

(** The search of renew_clock, lines 764-781: up to the first interface of the adapter whose clock
    is a PHC device; else the last of its interfaces. *)
Fixpoint primary (nic : Z) (l : list intf) (found : option intf) : option intf :=
  match l with
  | [] => found
  | i :: r =>
      match found with
      | Some f => if i_phc f then found else primary nic r (if i_nic i =? nic then Some i else found)
      | None => primary nic r (if i_nic i =? nic then Some i else None)
      end
  end.
(** The identity, lines 877-887, for MAC addresses of at most eight bytes. *)
Definition hw_id (g : config) (mac : list Z) : list Z :=
  if g_legacy g && (List.length mac =? 6)%nat then firstn 3 mac ++ [255; 254] ++ firstn 3 (skipn 3 mac)
  else firstn 8 (mac ++ skipn (List.length mac) (g_unique g)).
(** clock_determine_max_freq_adj, lines 679-717. *)
Definition dev_max (g : config) (m : Z) : Q :=
  if negb (Qle_bool (inject_Z m) (g_limit g)) then g_limit g else inject_Z m.
(** renew_clock, lines 735-932.  The assertion phc_index >= 0 of sfptpd_phc_open is left out: an
    interface whose clock is a PHC device has its index (src/sfptpd_interface.c:784). *)
Definition renew (g : config) (e : renv) (snap : list intf) (c : clk) : Z * clk :=
  match k_key c with
  | None => (0, c)
  | Some nic =>
      match primary nic snap None with
      | Some i =>
          if i_phc i then
            let sync := negb (g_avoid_efx g) in
            let finish rc dev :=
              (rc, set_max (set_id (set_dev c false (Some dev) (i_dev i) sync) (hw_id g (i_mac i)) (x_names e nic))
                           (dev_max g (x_devmax e dev))) in
            match k_phc c with
            | Some dev => finish 0 dev
            | None =>
                match x_open e (i_dev i) with
                | Some err => (err, set_names (set_dev c false None (-1) sync) (firstn 1 (x_names e nic) ++ skipn 1 (k_names c)))
                | None => finish (x_start e (i_dev i)) (i_dev i)
                end
            end
          else (0, set_id (set_dev c true None (-1) false) (repeat 0 8) ["(deleted)"; "(deleted)"; "0000:0000:0000:0000"]%string)
      | None => (0, set_id (set_dev c true None (-1) false) (repeat 0 8) ["(deleted)"; "(deleted)"; "0000:0000:0000:0000"]%string)
      end
  end.

(** sfptpd_interface_supports_ptp, src/sfptpd_interface.c:1829-1852. *)
Definition supports_ptp (g : config) (i : intf) : bool :=
  match i_kind i with OTHER => g_non_sfc g | _ => true end && i_hw i && negb (i_dev i =? -1).
(** sfptpd_clock_init_interface, lines 1014-1088.  [None] also stands for line 1076: all clocks
    are freed although they are in use. *)
Definition init_interface (g : config) (e : renv) (ce : key -> cenv) (snap : list intf) (i : intf) (w : world) :
  option (list ev * world) :=
  let link k w := mkWorld (w_clks w) ((i_index i, k) :: w_links w) in
  if supports_ptp g i then
    match get (Some (i_nic i)) w with
    | None =>
        if i_dev i <? 0 then Some ([], link None w) else
        let '(rc, c) := renew g e snap (fresh g (Some (i_nic i)) (i_kind i)) in
        if negb (rc =? 0) then Some ([], w) else
        let '(rc, c) := configure_new g (x_ifs e) c in
        if negb (rc =? 0) then None else
        Some ([], link (Some (i_nic i)) (mkWorld (c :: w_clks w) (w_links w)))
    | Some c =>
        if k_del c then
          do y <- correct_new g (k_key c) (ce (k_key c)) w;
          let '(evs, w) := y in Some (evs, link (k_key c) w)
        else Some ([], link (k_key c) w)
    end
  else Some ([], link None w).
Fixpoint init_interfaces (g : config) (e : renv) (ce : key -> cenv) (snap : list intf) (l : list intf) (w : world) :
  option (list ev * world) :=
  match l with
  | [] => Some ([], w)
  | i :: r =>
      do y <- init_interface g e ce snap i w;
      do z <- init_interfaces g e ce snap r (snd y);
      Some (fst y ++ fst z, snd z)
  end.
(** sfptpd_clock_rescan_interfaces, lines 1156-1191: [e2] is what the renewal at the end meets. *)
Definition rescan (g : config) (e e2 : renv) (ce : key -> cenv) (snap : list intf) (w : world) :
  option (list ev * world) :=
  do y <- init_interfaces g e ce snap snap w;
  Some (fst y, mkWorld (map (fun c => snd (renew g e2 snap c)) (w_clks (snd y))) (w_links (snd y))).

(** fixup_readonly_and_clock_lists, lines 554-588, without its messages: fixup_clock, lines
    531-551, for the clocks that are not read-only. *)
Fixpoint fixup_all (g : config) (ifs : Z -> list string) (ce : key -> cenv) (l : list clk) (w : world) :
  option (list ev * world) :=
  match l with
  | [] => Some ([], w)
  | c :: r =>
      if k_ro c then fixup_all g ifs ce r w else
      let w := upd (k_key c) (fun c => snd (conf_list g ifs (g_list g) 0 (conf_readonly g ifs c))) w in
      do y <- correct_new g (k_key c) (ce (k_key c)) w;
      do z <- fixup_all g ifs ce r (snd y);
      Some (fst y ++ fst z, snd z)
  end.
Definition fixup (g : config) (ifs : Z -> list string) (ce : key -> cenv) (w : world) :=
  fixup_all g ifs ce (w_clks w) w.

(** sfptpd_clock_schedule_leap_second, lines 1923-1975: [os] is what adjtimex returns, a
    negative number for an error (minus the errno), else the state of the clock. *)
Definition leap_bits (t : leap) : Z := match t with L_NONE => 0 | L_59 => DEL | L_61 => INS end.
Definition schedule_leap (t : leap) (os : Z) (w : world) : res :=
  do c <- get None w;
  if k_ro c then Some (0, [], w) else
  let f := Z.lor (Z.land (k_status c) (Z.lnot (Z.lor DEL INS))) (leap_bits t) in
  Some (if os <? 0 then - os else os, [Status f], upd None (fun c => set_status c f) w).
(** sfptpd_clock_leap_second_now, lines 1978-2006. *)
Fixpoint leap_clocks (g : config) (step : ts) (os : key -> Z) (l : list clk) (w : world) : option (list ev * world) :=
  match l with
  | [] => Some ([], w)
  | c :: r =>
      if correctable g c then
        do y <- adjust_time g (k_key c) step (os (k_key c)) w;
        let '(_, evs, w) := y in
        do z <- leap_clocks g step os r w;
        Some (evs ++ fst z, snd z)
      else leap_clocks g step os r w
  end.
Definition leap_now (g : config) (t : leap) (os : key -> Z) (w : world) : res :=
  match t with
  | L_NONE => Some (EINVAL, [], w)
  | _ => do y <- leap_clocks g (mkTs (match t with L_59 => 1 | _ => -1 end) 0 0) os (w_clks w) w;
         Some (0, fst y, snd y)
  end.

(** sfptpd_clock_set_sync_status, lines 2186-2245: [os] is the result of the private ioctl. *)
Definition sync_status (g : config) (k : key) (in_sync : bool) (timeout os : Z) (w : world) : res :=
  do c <- get k w;
  if k_ro c then Some (0, [], w) else
  if is_sys c && g_rtc g then
    Some (0, [], upd k (fun c => set_status c (if in_sync then Z.land (k_status c) (Z.lnot UNSYNC)
                                                else Z.lor (k_status c) UNSYNC)) w)
  else if is_sys c || match k_kind c with OTHER => true | _ => false end then Some (ENOSYS, [], w)
  else if negb (k_sync c) then Some (EOPNOTSUPP, [], w)
  else Some (os, [SyncStatus k in_sync timeout],
             if os =? EOPNOTSUPP then upd k (fun c => set_sync c false) w else w).

(** sfptpd_clock_set_blocked and sfptpd_clock_is_writable, lines 1533-1548. *)
Definition set_blocked (k : key) (b : bool) (w : world) : option (bool * world) :=
  do c <- get k w;
  do n <- chk_s32 (k_blk c + if b then 1 else -1);
  Some (0 <? n, upd k (fun c => set_blk c n) w).
Definition writable (c : clk) : bool := k_disc c && negb (k_ro c) && (k_blk c <? 1).

(** sfptpd_clock_get_total, sfptpd_clock_first_active, sfptpd_clock_next_active, lines 1212-1320. *)
Definition total (w : world) : Z := Z.of_nat (List.length (w_clks w)).
Definition first_active (w : world) : option key := option_map k_key (find (fun c => negb (k_del c)) (w_clks w)).
Fixpoint next_active (k : key) (l : list clk) : option key :=
  match l with
  | [] => None
  | c :: r => if key_eqb (k_key c) k then option_map k_key (find (fun c => negb (k_del c)) r) else next_active k r
  end.
(** sfptpd_clock_get_active_snapshot, lines 1238-1278: qsort by address. *)
Fixpoint insert_at (addr : key -> Z) (k : key) (l : list key) : list key :=
  match l with
  | [] => [k]
  | x :: r => if addr k <=? addr x then k :: l else x :: insert_at addr k r
  end.
Definition snapshot (addr : key -> Z) (w : world) : list key :=
  fold_right (insert_at addr) [] (map k_key (filter (fun c => negb (k_del c)) (w_clks w))).
(** sfptpd_clock_find_by_name, lines 1322-1338. *)
Definition find_by_name (n : string) (w : world) : option key :=
  option_map k_key (find (fun c => existsb (String.eqb n) (k_names c)) (w_clks w)).
(** sfptpd_clock_find_by_hw_id, lines 1341-1355: the comparison is inside the arguments of memcmp,
    so that the length compared is zero and the result is never true. *)
Definition memcmp (a b : list Z) (n : nat) : bool := negb (if list_eq_dec Z.eq_dec (firstn n a) (firstn n b) then true else false).
Definition find_by_hw_id (id : list Z) (w : world) : option key :=
  option_map k_key (find (fun c => memcmp (k_id c) id (if (8 =? 0)%nat then 1 else 0)) (w_clks w)).

(** Histories: what the rest of the daemon does to the clocks, once they are initialised. *)
Inductive op :=
| ORescan (e e2 : renv) (ce : key -> cenv) (snap : list intf)
| OFixup (ifs : Z -> list string) (ce : key -> cenv)
| OCompare (a b : key) (r1 r2 : Z * ts)
| OSetTime (to from : key) (thr : option ts) (initial : bool) (r1 r2 : Z * ts) (os : Z)
| OStep (k : key) (t : ts) (os : Z)
| OFreq (k : key) (f : Q) (os : Z)
| OSave (six : Q -> Q) (k : key) (x : Q) (os : Z)
| OLeap (t : leap) (os : Z)
| OLeapNow (t : leap) (os : key -> Z)
| OSync (k : key) (b : bool) (timeout os : Z)
| OBlock (k : key) (b : bool).
Definition run_op (g : config) (o : op) (w : world) : option (list ev * world) :=
  let r (x : res) := match x with Some (_, e, w') => Some (e, w') | None => None end in
  match o with
  | ORescan e e2 ce snap => rescan g e e2 ce snap w
  | OFixup ifs ce => fixup g ifs ce w
  | OCompare a b r1 r2 => match compare a b r1 r2 w with Some (_, _, e, w') => Some (e, w') | None => None end
  | OSetTime t f thr i r1 r2 os => r (set_time g t f thr i r1 r2 os w)
  | OStep k t os => r (adjust_time g k t os w)
  | OFreq k f os => r (adjust_frequency g k f os w)
  | OSave six k x os => match save_correction six k x os None w with Some (_, _, w') => Some ([], w') | None => None end
  | OLeap t os => r (schedule_leap t os w)
  | OLeapNow t os => r (leap_now g t os w)
  | OSync k b t os => r (sync_status g k b t os w)
  | OBlock k b => match set_blocked k b w with Some (_, w') => Some ([], w') | None => None end
  end.
Fixpoint run (g : config) (l : list op) (w : world) : option (list ev * world) :=
  match l with
  | [] => Some ([], w)
  | o :: r => do y <- run_op g o w; do z <- run g r (snd y); Some (fst y ++ fst z, snd z)
  end.
