(** Model of src/sfptpd_phc.c and of parse_phc_diff_method_order in src/sfptpd_general_config.c.
    [None] is undefined behaviour or a failed assertion.  What the outside world returns (clock
    readings, ioctls, files) is a parameter.  Left out: sfptpd_phc_open's device and capability
    calls, closing, enabling of the external PPS input, and logging. *)
Require Import ZArith QArith List Bool String.
From Verif Require Import Base TimeSpec TimeModel FltModel PhcSpec.
Import ListNotations.
Open Scope Z_scope.

(** enum pps_state, src/sfptpd_phc.c:81-87. *)
Inductive pps_state := NOT_TRIED | INIT | NOT_READY | GOOD | BAD.

(** struct sfptpd_phc, lines 94-145, without the fields of the external PPS input (see
    [ext_pps] below).  [p_idx] is diff_method_index, [p_efx] says that the EFX method has a
    function, [c_cross] and [c_pps] are the capabilities. *)
Record phc := mkPhc {
  p_meth : method; p_idx : Z; p_fd : Z; p_prev : Z * Z; p_mono : ts; p_diff : ts;
  p_stepped : bool; p_state : pps_state; p_efx : bool; c_cross : bool; c_pps : bool }.

Definition set_meth (p : phc) (m : method) : phc :=
  mkPhc m (p_idx p) (p_fd p) (p_prev p) (p_mono p) (p_diff p) (p_stepped p) (p_state p)
    (p_efx p) (c_cross p) (c_pps p).
Definition set_idx (p : phc) (i : Z) : phc :=
  mkPhc (p_meth p) i (p_fd p) (p_prev p) (p_mono p) (p_diff p) (p_stepped p) (p_state p)
    (p_efx p) (c_cross p) (c_pps p).
Definition set_fd (p : phc) (fd : Z) : phc :=
  mkPhc (p_meth p) (p_idx p) fd (p_prev p) (p_mono p) (p_diff p) (p_stepped p) (p_state p)
    (p_efx p) (c_cross p) (c_pps p).
Definition set_prev (p : phc) (ev : Z * Z) : phc :=
  mkPhc (p_meth p) (p_idx p) (p_fd p) ev (p_mono p) (p_diff p) (p_stepped p) (p_state p)
    (p_efx p) (c_cross p) (c_pps p).
Definition set_mono (p : phc) (t : ts) : phc :=
  mkPhc (p_meth p) (p_idx p) (p_fd p) (p_prev p) t (p_diff p) (p_stepped p) (p_state p)
    (p_efx p) (c_cross p) (c_pps p).
Definition set_diff (p : phc) (t : ts) : phc :=
  mkPhc (p_meth p) (p_idx p) (p_fd p) (p_prev p) (p_mono p) t (p_stepped p) (p_state p)
    (p_efx p) (c_cross p) (c_pps p).
Definition set_stepped (p : phc) (b : bool) : phc :=
  mkPhc (p_meth p) (p_idx p) (p_fd p) (p_prev p) (p_mono p) (p_diff p) b (p_state p)
    (p_efx p) (c_cross p) (c_pps p).
Definition set_state (p : phc) (x : pps_state) : phc :=
  mkPhc (p_meth p) (p_idx p) (p_fd p) (p_prev p) (p_mono p) (p_diff p) (p_stepped p) x
    (p_efx p) (c_cross p) (c_pps p).

(** fscanf("%16s") into a char[16], lines 328 and 454: a token of 16 or more characters is cut
    to 16, and its terminator is written behind the buffer. *)
Definition fits16 (s : string) : bool := (String.length s <? 16)%nat.

(** The search of phc_configure_pps, lines 319-337. *)
Fixpoint find_pps (name : string) (l : list entry) : option (option string) :=
  match l with
  | [] => Some None
  | e :: r =>
      match en_name e with
      | Some (Some t) =>
          if fits16 t then if String.eqb t name then Some (Some (en_dev e)) else find_pps name r
          else None
      | _ => find_pps name r
      end
  end.

(** phc_configure_pps, lines 278-387.  fts_children gives NULL with errno 0 for an empty
    directory: the error [inl 0]. *)
Definition configure_pps (v : pps_env) (name : string) (p : phc) : option (Z * phc) :=
  let bad := set_state p BAD in
  match v_open v, v_read v, v_list v with
  | Some e, _, _ => Some (e, bad)
  | None, Some e, _ => Some (e, bad)
  | None, None, inl e => Some (e, bad)
  | None, None, inr l =>
      do r <- find_pps name l;
      match r with
      | None => Some (ENOENT, bad)
      | Some dev =>
          let fd := v_dev v dev in
          if fd <? 0 then Some (- fd, set_state (set_fd p (-1)) BAD)
          else if negb (v_enable v =? 0) then Some (v_enable v, set_state (set_fd p (-1)) BAD)
          else Some (0, set_state (set_prev (set_mono (set_fd p fd) null_time) (0, 0)) INIT)
      end
  end.

(** phc_update_smallest_window_diff, lines 257-275.  The smallest window is in nanoseconds,
    [None] is INFINITY. *)
Definition update (rd : Q -> Q) (window : ts) (smallest : option Q) (dev_start : ts) (diff : ts) :
  option (bool * option Q * ts) :=
  let w := to_float_ns window in
  let smaller := match smallest with None => true | Some s => if Qlt_le_dec w s then true else false end in
  if (if Qlt_le_dec 0 w then true else false) && smaller then
    do h <- of_float_ns rd (w / inject_Z 2)%Q;
    do d <- subtract dev_start h;
    Some (true, Some w, d)
  else Some (false, smallest, diff).

(** The body of the loops over readings, lines 545-551, 736-742, 783-789. *)
Definition sample (rd : Q -> Q) (x : tri) (st : Z * option Q * ts) : option (Z * option Q * ts) :=
  let '(rc, smallest, diff) := st in
  do window <- subtract (t_after x) (t_before x);
  do start <- subtract (t_dev x) (t_before x);
  do u <- update rd window smallest start diff;
  let '(upd, smallest', diff') := u in
  Some (if upd then 0 else rc, smallest', diff').

(** The loop of phc_compare_by_reading_time_n, lines 532-556, [n] samples from the [i]-th on. *)
Fixpoint read_loop (rd : Q -> Q) (f : nat -> Z + tri) (i n : nat) (st : Z * option Q * ts) :
  option (Z * option Q * ts + Z * ts) :=
  match n with
  | O => Some (inl st)
  | S n' =>
      match f i with
      | inl e => Some (inr (e, snd st))
      | inr x => do st' <- sample rd x st; read_loop rd f (S i) n' st'
      end
  end.
(** phc_compare_by_reading_time_n, lines 521-557. *)
Definition read_time_n (rd : Q -> Q) (f : nat -> Z + tri) (n : nat) (p : phc) (diff : ts) :
  option (Z * ts * phc) :=
  do r <- read_loop rd f 0 n (EAGAIN, None, diff);
  match r with
  | inr (e, d) => Some (e, d, p)
  | inl (rc, _, d) => Some (rc, d, if rc =? 0 then set_diff p d else p)
  end.

(** The loops over what the kernel read. *)
Fixpoint kernel_loop (rd : Q -> Q) (f : nat -> tri) (i n : nat) (st : Z * option Q * ts) :
  option (Z * option Q * ts) :=
  match n with
  | O => Some st
  | S n' => do st' <- sample rd (f i) st; kernel_loop rd f (S i) n' st'
  end.
Definition kernel_n (rd : Q -> Q) (f : nat -> tri) (n : nat) (p : phc) (diff : ts) :
  option (Z * ts * phc) :=
  do r <- kernel_loop rd f 0 n (EAGAIN, None, diff);
  let '(rc, _, d) := r in
  Some (rc, d, if rc =? 0 then set_diff p d else p).

(** phc_compare_using_extended_offset_n, lines 697-753, not in test mode. *)
Definition extended_n (rd : Q -> Q) (r : Z + (nat -> tri)) (n : nat) (p : phc) (diff : ts) :=
  match r with inl e => Some (e, diff, p) | inr f => kernel_n rd f n p diff end.
(** phc_compare_using_kernel_readings_n, lines 756-799: neighbouring readings share a system
    time. *)
Definition overlapping (f : nat -> ts) (i : nat) : tri :=
  mkTri (f (2 * i)%nat) (f (2 * i + 1)%nat) (f (2 * i + 2)%nat).
Definition sys_offset_n (rd : Q -> Q) (r : Z + (nat -> ts)) (n : nat) (p : phc) (diff : ts) :=
  match r with inl e => Some (e, diff, p) | inr f => kernel_n rd (overlapping f) n p diff end.
(** phc_compare_using_precise_offset, lines 664-694: (device, sys_realtime). *)
Definition precise (r : Z + (ts * ts)) (p : phc) (diff : ts) : option (Z * ts * phc) :=
  match r with
  | inl e => Some (e, diff, p)
  | inr (dev, sys) => do d <- subtract dev sys; Some (0, d, set_diff p d)
  end.
(** clock_compare_using_efx, src/sfptpd_clock.c:720-732: the PHC state is not touched. *)
Definition efx (r : Z + ts) (p : phc) (diff : ts) : option (Z * ts * phc) :=
  match r with inl e => Some (e, diff, p) | inr d => Some (0, d, p) end.

(** The loop of phc_set_fallback_diff_method, lines 813-893, over the entries from index [i]
    on.  Running out of entries makes the assertion of line 897 fail. *)
Fixpoint fallback_loop (e : env) (rest : list method) (i : Z) (p : phc) : option (Z * phc) :=
  match rest with
  | [] => None
  | m :: r =>
      let p := set_idx p i in
      let chosen (p : phc) := Some (0, set_meth p m) in
      let next (p : phc) := fallback_loop e r (i + 1) p in
      match m with
      | PRECISE => if c_cross p then chosen p else next p
      | EXT => if w_ext e =? 0 then chosen p else next p
      | MPPS =>
          if c_pps p then
            do x <- configure_pps (w_pps e) (w_name e) p;
            if fst x =? 0 then chosen (snd x) else next (snd x)
          else next p
      | SYS => if w_sys e =? EFAULT then chosen p else next p
      | READ => chosen p
      | MMAX => Some (EOPNOTSUPP, set_meth p MMAX)
      | EFX => if p_efx p && (w_efx e =? 0) then chosen p else next p
      end
  end.
(** phc_set_fallback_diff_method, lines 802-903; [order] is the array phc_diff_methods. *)
Definition fallback (order : list method) (e : env) (p : phc) : option (Z * phc) :=
  let i := p_idx p + 1 in
  fallback_loop e (skipn (Z.to_nat i) (firstn 6 order)) i p.

(** The number of samples, lines 73 and 76. *)
Definition SAMPLES := 4%nat.
(** ONE_BILLION * 0.9, line 577. *)
Definition ELAPSED : Q := inject_Z 900000000.

(** Whether the time since the last event is short, lines 573-577. *)
Definition too_soon (mono prev : ts) : bool :=
  if Qlt_le_dec (to_float_ns mono - to_float_ns prev)%Q ELAPSED then true else false.

(** Lines 597-603: the same event, no event ever. *)
Definition same_event (a b : Z * Z) : bool := (fst a =? fst b) && (snd a =? snd b).
Definition no_event (a : Z * Z) : bool := (fst a =? 0) && (snd a =? 0).

(** Lines 640-649: the seconds of the approximate difference, the nanoseconds of the event. *)
Definition pps_diff (approx : ts) (ns : Z) : ts :=
  let s := if 500000000 <=? nsec approx then sec approx + 1 else sec approx in
  let n := u32 (1000000000 - ns) in
  mkTs (if 500000000 <=? n then s - 1 else s) n 0.

(** phc_compare_using_pps, lines 560-661.  [rec] is sfptpd_phc_compare_to_sys_clk. *)
Definition compare_pps (rd : Q -> Q) (order : list method) (rec : phc -> ts -> option (Z * ts * phc))
  (e : env) (p : phc) (diff : ts) : option (Z * ts * phc) :=
  let cached := Some (if p_stepped p then EAGAIN else 0, p_diff p, p) in
  if too_soon (e_mono e) (p_mono p) then cached else
  match e_fetch e with
  | inl err => Some (err, diff, p)
  | inr ev =>
      if same_event ev (p_prev p) then
        if no_event ev then
          let p := match p_state p with
                   | INIT => set_state (set_mono p (e_mono e)) NOT_READY
                   | _ => set_state p BAD
                   end in
          do x <- fallback order e p;
          if negb (fst x =? 0) then Some (fst x, diff, snd x) else
          match p_meth (snd x) with
          | MPPS => None
          | _ => rec (snd x) diff
          end
        else cached
      else
        let p := set_state (set_mono p (e_mono e)) GOOD in
        do r <- read_time_n rd (e_read e) SAMPLES p null_time;
        let '(rc, approx, p) := r in
        if negb (rc =? 0) then Some (rc, diff, p) else
        let d := pps_diff approx (snd ev) in
        Some (0, d, set_stepped (set_diff (set_prev p ev) d) false)
  end.

(** SYNTH_PPS_RETRY_TIME, line 79, converted to a timestamp: 2.2 s, as a double. *)
Definition RETRY : ts := mkTs 2 200000000 763.

(** The position of the PPS method in the array, lines 1282-1290. *)
Fixpoint find_method (order : list method) (i : Z) : option Z :=
  match order with
  | [] => None
  | MPPS :: _ => Some i
  | _ :: r => find_method r (i + 1)
  end.

(** Lines 1269-1293: PPS is given a second chance. *)
Definition second_chance (order : list method) (now : ts) (p : phc) : option phc :=
  match p_state p with
  | NOT_READY =>
      do expiry <- add (p_mono p) RETRY;
      do due <- is_ge now expiry;
      if due then
        match find_method (firstn 6 order) 0 with
        | Some i => Some (set_meth (set_idx p i) MPPS)
        | None => Some p
        end
      else Some p
  | _ => Some p
  end.

(** sfptpd_phc_compare_to_sys_clk, lines 1261-1317.  The recursion through
    phc_compare_using_pps is on [fuel]; level [fuel] of the recursion meets [es fuel]. *)
Fixpoint compare (rd : Q -> Q) (order : list method) (es : nat -> env) (fuel : nat) (p : phc)
  (diff : ts) : option (Z * ts * phc) :=
  match fuel with
  | O => None
  | S f =>
      let e := es f in
      do p <- second_chance order (e_now e) p;
      match p_meth p with
      | MMAX => Some (EOPNOTSUPP, diff, p)
      | PRECISE => precise (e_precise e) p diff
      | EFX => if p_efx p then efx (e_efx e) p diff else Some (EOPNOTSUPP, diff, p)
      | MPPS => compare_pps rd order (compare rd order es f) e p diff
      | EXT => extended_n rd (e_ext e) SAMPLES p diff
      | SYS => sys_offset_n rd (e_sys e) SAMPLES p diff
      | READ => read_time_n rd (e_read e) SAMPLES p diff
      end
  end.

(** sfptpd_phc_open, lines 1143-1171, with the capabilities and sfptpd_phc_define_diff_method:
    a zeroed structure. *)
Definition phc_new (cross pps has_efx : bool) : phc :=
  mkPhc PRECISE 6 (-1) (0, 0) null_time null_time false NOT_TRIED has_efx cross pps.
(** sfptpd_phc_start, lines 1194-1199. *)
Definition start (order : list method) (e : env) (p : phc) : option (Z * phc) :=
  fallback order e (set_idx p (-1)).
(** sfptpd_phc_record_step, lines 1346-1351. *)
Definition record_step (p : phc) : phc := set_stepped p true.

(** sfptpd_phc_set_diff_methods, lines 1108-1124: [arr] is the array from index [i] on,
    [n] entries are left.  [None]: a read behind the end of the new list. *)
Fixpoint set_diff_methods (arr new : list method) (n : nat) : option (Z * list method) :=
  match n with
  | O => Some (ERANGE, arr)
  | S n' =>
      match arr, new with
      | _ :: ar, MMAX :: _ => Some (0, MMAX :: ar)
      | _ :: ar, m :: nr =>
          do r <- set_diff_methods ar nr n';
          if (fst r =? 0) then Some (0, m :: snd r)
          else Some (fst r, match n' with O => MMAX :: snd r | _ => m :: snd r end)
      | _, _ => None
      end
  end.
(** The array before configuration, lines 198-200: zero is the precise method. *)
Definition methods0 : list method := MMAX :: repeat PRECISE 6.
(** sfptpd_default_phc_diff_methods, lines 187-195. *)
Definition default_methods : list method := [PRECISE; EFX; MPPS; EXT; SYS; READ; MMAX].

(** sfptpd_phc_diff_method_text, lines 166-174. *)
Definition method_text (m : method) : string :=
  match m with
  | PRECISE => "sys-offset-precise" | EFX => "efx" | MPPS => "pps" | EXT => "sys-offset-ext"
  | SYS => "sys-offset" | READ => "read-time" | MMAX => "none"
  end.
(** parse_phc_diff_method_order, src/sfptpd_general_config.c:547-583.  The inner search finds
    the first method with the name; [done] is phc_diff_methods[0..i). *)
Definition method_of (s : string) : option method :=
  find (fun m => String.eqb s (method_text m)) [PRECISE; EFX; MPPS; EXT; SYS; READ].
Definition method_eqb (a b : method) : bool := String.eqb (method_text a) (method_text b).
Fixpoint parse_methods (done : list method) (params : list string) : option (list method) :=
  match params with
  | [] => Some done
  | s :: r =>
      match method_of s with
      | None => None
      | Some m => if existsb (method_eqb m) done then None else parse_methods (done ++ [m]) r
      end
  end.
(** The result: an errno, or the array of seven entries, [arr] being its content before. *)
Definition parse_diff_methods (arr : list method) (params : list string) : Z + list method :=
  if (6 <? List.length params)%nat then inl EINVAL else
  match parse_methods [] params with
  | None => inl EINVAL
  | Some l => inr (l ++ MMAX :: skipn (S (List.length l)) arr)
  end.

(** The external PPS input. *)

(** The states of phc_discover_devpps, lines 403-408. *)
Inductive dstate := SEARCHING | FOUND_INT | FOUND_EXT | NOTFOUND.
(** One entry of the listing, lines 444-471. *)
Definition dstep (name ext : string) (s : dstate) (en : entry) : option dstate :=
  match en_name en with
  | None => Some (match s with FOUND_INT => NOTFOUND | _ => s end)
  | Some None => Some (match s with FOUND_INT => SEARCHING | _ => s end)
  | Some (Some t) =>
      if fits16 t then
        if String.eqb t ext then Some FOUND_EXT else
        match s with
        | SEARCHING => Some (if String.eqb t name then FOUND_INT else SEARCHING)
        | FOUND_INT =>
            Some (if String.eqb t "sfc" || String.eqb t "xlnx" then FOUND_EXT else FOUND_INT)
        | _ => Some s
        end
      else None
  end.
(** The loop, lines 441-478: the entry found. *)
Fixpoint discover (name ext : string) (s : dstate) (l : list entry) : option (option string) :=
  match l with
  | [] => Some None
  | en :: r =>
      do s' <- dstep name ext s en;
      match s' with
      | FOUND_EXT => Some (Some (en_dev en))
      | NOTFOUND => Some None
      | _ => discover name ext s' r
      end
  end.

(** sfptpd_phc_pps_method_t, src/include/sfptpd_phc.h:35-39. *)
Inductive pps_method := DEV_PTP | DEV_PPS | PPS_MAX.
(** phc_discover_pps, lines 1079-1100, over phc_pps_methods[0..2): the method before is
    SFPTPD_PPS_METHOD_MAX.  [opens] says that the device found can be opened. *)
Fixpoint discover_pps (order : list pps_method) (n_ext : Z) (path : option string) (opens : bool) :
  pps_method :=
  match order with
  | [] => PPS_MAX
  | DEV_PTP :: r => if 1 <=? n_ext then DEV_PTP else discover_pps r n_ext path opens
  | DEV_PPS :: r =>
      match path with
      | Some _ => if opens then DEV_PPS else discover_pps r n_ext path opens
      | None => discover_pps r n_ext path opens
      end
  | PPS_MAX :: _ => PPS_MAX
  end.

(** struct pps_kinfo, as far as it is used: the time and the sequence number of the event. *)
Record kinfo := mkKinfo { k_sec : Z; k_nsec : Z; k_seq : Z }.
(** devpps_prev after sfptpd_phc_open, line 1170. *)
Definition devpps0 : kinfo := mkKinfo 0 0 (2^32 - 1).
(** phc_get_devpps_event, lines 1022-1060: error, or time and sequence number; the new
    devpps_prev. *)
Definition devpps_event (prev : kinfo) (fetch : Z + kinfo) : (Z + ts * Z) * kinfo :=
  match fetch with
  | inl e => (inl e, prev)
  | inr k =>
      if (k_sec k =? k_sec prev) && (k_nsec k =? k_nsec prev) && (k_seq k =? k_seq prev)
      then (inl EAGAIN, prev)
      else (inr (mkTs (k_sec k) (k_nsec k) 0, k_seq k), k)
  end.
(** phc_get_devptp_event, lines 960-983: reads until an event of pin 0.  A read gives an
    errno, or the pin and the time.  [None]: more reads than listed. *)
Fixpoint devptp_event (reads : list (Z + Z * ts)) : option (Z + ts * Z) :=
  match reads with
  | [] => None
  | inl e :: _ => Some (inl e)
  | inr (pin, t) :: r => if pin =? 0 then Some (inr (t, 2^32 - 1)) else devptp_event r
  end.
