(** Model of src/crny/sfptpd_crny_module.c (the edits of chronyd's files and the connection itself
    are in CevModel.v and PrvModel.v): the dialogue with chronyd over its command socket, the look
    at its command line, the state, clock control, blocking of the system clock, messages of the
    engine.

    One reading of each clock per event.  long double is exact rationals, NaN and infinity are None.
    The alarms of the instance are never set by this module and left out, and so are the address in
    sys_info, which is only logged, and offset_timestamp.  None is undefined behaviour: an index
    outside an array, a failed assertion, overflow. *)
Require Import ZArith QArith List Bool.
Require Import Verif.Base Verif.TimeSpec Verif.TimeModel Verif.QLib Verif.ListLib Verif.StatsModel Verif.CrnSpec.
Import ListNotations.
Open Scope Z_scope.

(** ** Octets *)
Definition oct (p : list Z) (i : nat) : Z := nth i p 0.
(** ntohs, ntohl *)
Definition be16 (p : list Z) (i : nat) : Z := 256 * oct p i + oct p (S i).
Definition be32 (p : list Z) (i : nat) : Z := 65536 * be16 p i + be16 p (i + 2).
Definition put16 (x : Z) : list Z := [Z.land (Z.shiftr x 8) 255; Z.land x 255].
Definition put32 (x : Z) : list Z := put16 (Z.land (Z.shiftr x 16) 65535) ++ put16 (Z.land x 65535).
(** A uint32_t in the order of the (little endian) machine. *)
Definition host32 (x : Z) : list Z := [Z.land x 255; Z.land (Z.shiftr x 8) 255; Z.land (Z.shiftr x 16) 255; Z.land (Z.shiftr x 24) 255].

(** sfptpd_crny_tosigned, lines 468-475. *)
Definition tosigned (x : Z) (i : Z) : Z :=
  let o := Z.land x (2^i - 1) in
  if negb (Z.land x (2^i) =? 0) then o - 2^i else o.
(** sfptpd_crny_tofloat, lines 479-491; exact in double. *)
Definition tofloat (x : Z) : Q :=
  let exp := Z.shiftr x 25 in
  let coef := Z.land x (2^25 - 1) in
  (inject_Z (tosigned coef 24) * Qpower 2 (tosigned exp 6 - 25))%Q.
(** sfptpd_crny_addr_to_sockaddr, lines 494-525, of the 20 octets at [i]. *)
Definition sockaddr (p : list Z) (i : nat) : saddr :=
  let fam := be16 p (i + 16) in
  if fam =? 2 then V6 (firstn 16 (skipn i p))
  else if fam =? 1 then V4 (firstn 4 (skipn i p))
  else Unspec.

(** ** State *)
(** struct sfptpd_ntpclient_peer, src/include/sfptpd_ntpd_client.h:75-91. *)
Record cpeer := mkP {
  q_remote : saddr; q_local : saddr; q_sent : Z; q_recv : Z; q_strat : Z;
  q_self : bool; q_sel : bool; q_short : bool; q_cand : bool;
  q_off : Q; q_disp : Q; q_soff : option Q; q_sdisp : option Q }.
(** memset *)
Definition zero_peer : cpeer := mkP NoAddr NoAddr 0 0 0 false false false false 0 0 (Some 0%Q) (Some 0%Q).
(** issue_get_source_datum, lines 1149-1151. *)
Definition blank_peer : cpeer := mkP NoAddr NoAddr 0 0 0 false false false false 0 0 None None.
(** sfptpd_ntpclient_offset, sfptpd_ntpclient_error, src/include/sfptpd_ntpd_client.h:201-214. *)
Definition best (s : option Q) (x : Q) : Q := match s with Some y => if Qeq_bool y 0 then x else y | None => x end.
Definition best_off (p : cpeer) : Q := best (q_soff p) (q_off p).
Definition best_err (p : cpeer) : Q := best (q_sdisp p) (q_disp p).

(** struct ntp_state, lines 92-144. *)
Record cst := mkC {
  k_state : st; k_id : option (saddr * Z); k_idx : Z; k_cc : bool; k_num : Z; k_arr : list cpeer;
  k_off : Q; k_disp : option Q; k_strat : Z; k_unsafe : bool; k_sync : bool; k_score : Z }.
Definition zero_state : cst := mkC LISTENING None 0 false 0 (repeat zero_peer 32) 0 (Some 0%Q) 0 false false 0.

(** enum ntp_query_state, lines 66-76; enum ntp_query_event, lines 78-85. *)
Inductive qst := SleepDisc | SleepConn | Conn | ConnWait | SysInfo | Count | Datum | Stats | Ntp.
Inductive event := NoEvent | ERun | ETick | Traffic | ConnLost | ReplyTimeout.

(** struct sfptpd_crny_module, lines 169-221, with struct crny_comm, lines 147-166, and the static
    variable last_changed (line 1679).  The socket is open or not. *)
Record cm := mkM {
  m_flags : Z; m_must : bool; m_cannot : bool; m_q : qst; m_idx : Z; m_addr : list Z; m_mode : Z;
  m_next : ts; m_exp : ts; m_st : cst; m_nx : cst; m_conv : conv; m_req : list Z; m_resp : list Z; m_open : bool;
  m_running : bool; m_saved : bool; m_atsave : bool; m_blocked : bool; m_phase : bool; m_last : ts }.

Definition set_flags (m : cm) (x : Z) : cm := mkM x (m_must m) (m_cannot m) (m_q m) (m_idx m) (m_addr m) (m_mode m) (m_next m) (m_exp m) (m_st m) (m_nx m) (m_conv m) (m_req m) (m_resp m) (m_open m) (m_running m) (m_saved m) (m_atsave m) (m_blocked m) (m_phase m) (m_last m).
Definition set_cons (m : cm) (x y : bool) : cm := mkM (m_flags m) x y (m_q m) (m_idx m) (m_addr m) (m_mode m) (m_next m) (m_exp m) (m_st m) (m_nx m) (m_conv m) (m_req m) (m_resp m) (m_open m) (m_running m) (m_saved m) (m_atsave m) (m_blocked m) (m_phase m) (m_last m).
Definition set_q (m : cm) (x : qst) : cm := mkM (m_flags m) (m_must m) (m_cannot m) x (m_idx m) (m_addr m) (m_mode m) (m_next m) (m_exp m) (m_st m) (m_nx m) (m_conv m) (m_req m) (m_resp m) (m_open m) (m_running m) (m_saved m) (m_atsave m) (m_blocked m) (m_phase m) (m_last m).
Definition set_idx (m : cm) (x : Z) : cm := mkM (m_flags m) (m_must m) (m_cannot m) (m_q m) x (m_addr m) (m_mode m) (m_next m) (m_exp m) (m_st m) (m_nx m) (m_conv m) (m_req m) (m_resp m) (m_open m) (m_running m) (m_saved m) (m_atsave m) (m_blocked m) (m_phase m) (m_last m).
Definition set_src (m : cm) (x : list Z) (y : Z) : cm := mkM (m_flags m) (m_must m) (m_cannot m) (m_q m) (m_idx m) x y (m_next m) (m_exp m) (m_st m) (m_nx m) (m_conv m) (m_req m) (m_resp m) (m_open m) (m_running m) (m_saved m) (m_atsave m) (m_blocked m) (m_phase m) (m_last m).
Definition set_next (m : cm) (x : ts) : cm := mkM (m_flags m) (m_must m) (m_cannot m) (m_q m) (m_idx m) (m_addr m) (m_mode m) x (m_exp m) (m_st m) (m_nx m) (m_conv m) (m_req m) (m_resp m) (m_open m) (m_running m) (m_saved m) (m_atsave m) (m_blocked m) (m_phase m) (m_last m).
Definition set_exp (m : cm) (x : ts) : cm := mkM (m_flags m) (m_must m) (m_cannot m) (m_q m) (m_idx m) (m_addr m) (m_mode m) (m_next m) x (m_st m) (m_nx m) (m_conv m) (m_req m) (m_resp m) (m_open m) (m_running m) (m_saved m) (m_atsave m) (m_blocked m) (m_phase m) (m_last m).
Definition set_st (m : cm) (x : cst) : cm := mkM (m_flags m) (m_must m) (m_cannot m) (m_q m) (m_idx m) (m_addr m) (m_mode m) (m_next m) (m_exp m) x (m_nx m) (m_conv m) (m_req m) (m_resp m) (m_open m) (m_running m) (m_saved m) (m_atsave m) (m_blocked m) (m_phase m) (m_last m).
Definition set_nx (m : cm) (x : cst) : cm := mkM (m_flags m) (m_must m) (m_cannot m) (m_q m) (m_idx m) (m_addr m) (m_mode m) (m_next m) (m_exp m) (m_st m) x (m_conv m) (m_req m) (m_resp m) (m_open m) (m_running m) (m_saved m) (m_atsave m) (m_blocked m) (m_phase m) (m_last m).
Definition set_conv (m : cm) (x : conv) : cm := mkM (m_flags m) (m_must m) (m_cannot m) (m_q m) (m_idx m) (m_addr m) (m_mode m) (m_next m) (m_exp m) (m_st m) (m_nx m) x (m_req m) (m_resp m) (m_open m) (m_running m) (m_saved m) (m_atsave m) (m_blocked m) (m_phase m) (m_last m).
Definition set_req (m : cm) (x : list Z) : cm := mkM (m_flags m) (m_must m) (m_cannot m) (m_q m) (m_idx m) (m_addr m) (m_mode m) (m_next m) (m_exp m) (m_st m) (m_nx m) (m_conv m) x (m_resp m) (m_open m) (m_running m) (m_saved m) (m_atsave m) (m_blocked m) (m_phase m) (m_last m).
Definition set_resp (m : cm) (x : list Z) : cm := mkM (m_flags m) (m_must m) (m_cannot m) (m_q m) (m_idx m) (m_addr m) (m_mode m) (m_next m) (m_exp m) (m_st m) (m_nx m) (m_conv m) (m_req m) x (m_open m) (m_running m) (m_saved m) (m_atsave m) (m_blocked m) (m_phase m) (m_last m).
Definition set_open (m : cm) (x : bool) : cm := mkM (m_flags m) (m_must m) (m_cannot m) (m_q m) (m_idx m) (m_addr m) (m_mode m) (m_next m) (m_exp m) (m_st m) (m_nx m) (m_conv m) (m_req m) (m_resp m) x (m_running m) (m_saved m) (m_atsave m) (m_blocked m) (m_phase m) (m_last m).
Definition set_running (m : cm) (x : bool) : cm := mkM (m_flags m) (m_must m) (m_cannot m) (m_q m) (m_idx m) (m_addr m) (m_mode m) (m_next m) (m_exp m) (m_st m) (m_nx m) (m_conv m) (m_req m) (m_resp m) (m_open m) x (m_saved m) (m_atsave m) (m_blocked m) (m_phase m) (m_last m).
Definition set_saved (m : cm) (x : bool) : cm := mkM (m_flags m) (m_must m) (m_cannot m) (m_q m) (m_idx m) (m_addr m) (m_mode m) (m_next m) (m_exp m) (m_st m) (m_nx m) (m_conv m) (m_req m) (m_resp m) (m_open m) (m_running m) x (m_atsave m) (m_blocked m) (m_phase m) (m_last m).
Definition set_atsave (m : cm) (x : bool) : cm := mkM (m_flags m) (m_must m) (m_cannot m) (m_q m) (m_idx m) (m_addr m) (m_mode m) (m_next m) (m_exp m) (m_st m) (m_nx m) (m_conv m) (m_req m) (m_resp m) (m_open m) (m_running m) (m_saved m) x (m_blocked m) (m_phase m) (m_last m).
Definition set_blocked (m : cm) (x : bool) : cm := mkM (m_flags m) (m_must m) (m_cannot m) (m_q m) (m_idx m) (m_addr m) (m_mode m) (m_next m) (m_exp m) (m_st m) (m_nx m) (m_conv m) (m_req m) (m_resp m) (m_open m) (m_running m) (m_saved m) (m_atsave m) x (m_phase m) (m_last m).
Definition set_phase (m : cm) (x : bool) : cm := mkM (m_flags m) (m_must m) (m_cannot m) (m_q m) (m_idx m) (m_addr m) (m_mode m) (m_next m) (m_exp m) (m_st m) (m_nx m) (m_conv m) (m_req m) (m_resp m) (m_open m) (m_running m) (m_saved m) (m_atsave m) (m_blocked m) x (m_last m).
Definition set_last (m : cm) (x : ts) : cm := mkM (m_flags m) (m_must m) (m_cannot m) (m_q m) (m_idx m) (m_addr m) (m_mode m) (m_next m) (m_exp m) (m_st m) (m_nx m) (m_conv m) (m_req m) (m_resp m) (m_open m) (m_running m) (m_saved m) (m_atsave m) (m_blocked m) (m_phase m) x.
Definition with_cc (s : cst) (x : bool) : cst := mkC (k_state s) (k_id s) (k_idx s) x (k_num s) (k_arr s) (k_off s) (k_disp s) (k_strat s) (k_unsafe s) (k_sync s) (k_score s).
Definition with_num (s : cst) (x : Z) : cst := mkC (k_state s) (k_id s) (k_idx s) (k_cc s) x (k_arr s) (k_off s) (k_disp s) (k_strat s) (k_unsafe s) (k_sync s) (k_score s).
Definition with_arr (s : cst) (x : list cpeer) : cst := mkC (k_state s) (k_id s) (k_idx s) (k_cc s) (k_num s) x (k_off s) (k_disp s) (k_strat s) (k_unsafe s) (k_sync s) (k_score s).
Definition with_unsafe (s : cst) (x : bool) : cst := mkC (k_state s) (k_id s) (k_idx s) (k_cc s) (k_num s) (k_arr s) (k_off s) (k_disp s) (k_strat s) x (k_sync s) (k_score s).
Definition with_sync (s : cst) (x : bool) : cst := mkC (k_state s) (k_id s) (k_idx s) (k_cc s) (k_num s) (k_arr s) (k_off s) (k_disp s) (k_strat s) (k_unsafe s) x (k_score s).
Definition with_state (s : cst) (x : st) : cst := mkC x (k_id s) (k_idx s) (k_cc s) (k_num s) (k_arr s) (k_off s) (k_disp s) (k_strat s) (k_unsafe s) (k_sync s) (k_score s).

(** peers[i]. *)
Definition peer_at (s : cst) (i : Z) : option cpeer := if i <? 0 then None else nth_error (k_arr s) (Z.to_nat i).
Definition put_peer (s : cst) (i : Z) (p : cpeer) : option cst :=
  do _ <- peer_at s i; Some (with_arr s (set_nth (Z.to_nat i) p (k_arr s))).

(** ** Deriving the state *)
(** The loop of crny_parse_state, lines 711-729. *)
Fixpoint scan (i : Z) (l : list cpeer) (idx : Z) (cand : bool) : Z * bool :=
  match l with
  | [] => (idx, cand)
  | p :: r =>
      if q_self p then scan (i + 1) r idx cand
      else scan (i + 1) r (if q_sel p then (if negb (idx =? -1) then idx else i) else idx)
                (if q_cand p || q_short p then true else cand)
  end.
(** set_offset_id, lines 595-608: the length of an address that is not specified fails the assertion. *)
Definition id_of (p : cpeer) : option (option (saddr * Z)) :=
  match q_remote p with NoAddr => Some None | Unspec => None | a => Some (Some (a, q_recv p)) end.
(** crny_parse_state, lines 672-761. *)
Definition parse (s : cst) (rc : Z) (score : Q -> Z) : option cst :=
  if negb (rc =? 0) then
    Some (mkC (if rc =? ENOPROTOOPT then DISABLED else if rc =? EAGAIN then LISTENING else FAULTY)
              None (-1) (k_cc s) 0 (k_arr s) (k_off s) (k_disp s) (k_strat s) (k_unsafe s) (k_sync s) (k_score s))
  else if 32 <? k_num s then None else
    let (idx, cand) := scan 0 (firstn (Z.to_nat (k_num s)) (k_arr s)) (-1) false in
    do id <- (if negb (idx =? -1) then do p <- peer_at s idx; id_of p else Some None);
    if negb (idx =? -1) && negb (k_unsafe s) then
      do p <- peer_at s idx;
      Some (mkC SLAVE id idx (k_cc s) (k_num s) (k_arr s) (best_off p) (Some (best_err p)) (q_strat p) (k_unsafe s) (k_sync s) (score (best_off p)))
    else
      Some (mkC (if cand then SELECTION else LISTENING) id idx (k_cc s) (k_num s) (k_arr s) 0 None 0 (k_unsafe s) (k_sync s) (score 0%Q)).

(** ** The look at chronyd's process *)
(** The search for -x in clock_control_at_launch, lines 834-854. *)
Inductive optst := OStart | OMinus | OX | OIgnore.
Fixpoint opts (s : optst) (l : list Z) : optst :=
  match s, l with
  | OX, _ => OX
  | _, [] => s
  | _, c :: r =>
      if c =? 0 then opts OStart r
      else match s with
           | OStart => opts (if c =? 45 then OMinus else OIgnore) r
           | OMinus => opts (if c =? 120 then OX else OIgnore) r
           | _ => opts s r
           end
  end.
(** clock_control_at_launch, lines 794-882: constraints, chrony_running, and whether chronyd
    controls the clock. *)
Definition look (g : conf) (m : cm) (p : proc) : cm * bool :=
  let x := match p with Cmdline t _ => match opts OStart t with OX => true | _ => false end | _ => false end in
  let present := match p with Cmdline _ false => true | _ => false end in
  let m1 := if present && negb (g_ctl g) then (if x then set_cons m false true else set_cons m true false) else set_cons m false false in
  (set_running m1 present, present && negb x).

(** block_clock, unblock_clock, lines 773-789. *)
Definition block (m : cm) (b : bool) : cm * list out :=
  if Bool.eqb (m_blocked m) b then (m, []) else (set_blocked m b, [Block b]).
(** crny_close_socket, lines 763-771. *)
Definition close (m : cm) : cm * list out := if m_open m then (set_open m false, [Close]) else (m, []).

(** ** Questions *)
(** chrony_req_initialize, lines 622-628; the argument goes into cmd2. *)
Definition request (cmd rand : Z) (arg : list Z) : list Z :=
  [6; 1; 0; 0] ++ put16 cmd ++ [0; 0] ++ host32 rand ++ repeat 0 8 ++ arg ++ repeat 0 (500 - List.length arg).
(** issue_request, lines 941-978: true if it returns 0. *)
Definition issue (e : env) (m : cm) : option (cm * list out * bool) :=
  if negb (m_open m) then Some (m, [], false) else
  do x <- add (e_now e) (mkTs 2 0 0);
  let m1 := set_exp m x in
  if e_send e =? 0 then Some (m1, [Sent (m_req m)], true)
  else if (e_send e =? 107) || (e_send e =? 111) then let (m2, o) := close m1 in Some (m2, o, false)
  else Some (m1, [], false).
(** issue_get_sys_info, lines 1023-1041. *)
Definition issue_sys (e : env) (m : cm) := issue e (set_req (set_nx m (m_st m)) (request 33 (e_rand e) [])).
(** issue_get_source_count, lines 1111-1115. *)
Definition issue_count (e : env) (m : cm) := issue e (set_req m (request 14 (e_rand e) [])).
(** issue_get_source_datum, lines 1145-1156. *)
Definition issue_datum (e : env) (m : cm) : option (cm * list out * bool) :=
  do s <- put_peer (m_nx m) (m_idx m) blank_peer;
  issue e (set_req (set_nx m s) (request 15 (e_rand e) (put32 (m_idx m)))).
(** issue_get_source_stats, lines 1192-1201: the peer is cleared. *)
Definition issue_stats (e : env) (m : cm) : option (cm * list out * bool) :=
  do s <- put_peer (m_nx m) (m_idx m) zero_peer;
  issue e (set_req (set_nx m s) (request 34 (e_rand e) (put32 (m_idx m)))).

(** ** Answers *)
(** check_reply, lines 981-1020: the fields of the request are those of the last one made. *)
Definition reply_ok (m : cm) (expect : Z) : bool :=
  (be16 (m_resp m) 8 =? 0) && (be32 (m_resp m) 16 =? be32 (m_req m) 8) && (be16 (m_resp m) 6 =? expect) && (be16 (m_resp m) 4 =? be16 (m_req m) 4).
(** The data of the answer. *)
Definition data (m : cm) : list Z := skipn 28 (m_resp m).

(** handle_get_source_count, lines 1117-1143. *)
Definition handle_count (m : cm) : cm :=
  if reply_ok m 2 then
    let n := s32 (be32 (data m) 0) in
    set_nx m (with_num (m_nx m) (if 32 <? n then 32 else u32 n))
  else m.
(** handle_get_source_datum, lines 1158-1190: false is ENOENT. *)
Definition handle_datum (m : cm) : option (cm * bool) :=
  if negb (reply_ok m 3) then Some (m, false) else
  do p <- peer_at (m_nx m) (m_idx m);
  let state := be16 (data m) 24 in
  let mode := be16 (data m) 26 in
  do s <- put_peer (m_nx m) (m_idx m)
            (mkP (q_remote p) (q_local p) (q_sent p) (q_recv p) (q_strat p) (mode =? 2) (state =? 0) (state =? 4) (q_cand p) (q_off p) (q_disp p) (q_soff p) (q_sdisp p));
  Some (set_src (set_nx m s) (firstn 20 (data m)) mode, true).
(** handle_get_source_stats, lines 1203-1247. *)
Definition handle_stats (e : env) (m : cm) : option (cm * bool) :=
  if negb (reply_ok m 6) then Some (m, false) else
  do p <- peer_at (m_nx m) (m_idx m);
  let est := (tofloat (be32 (data m) 48) * (1000000000#1))%Q in
  let err := (tofloat (be32 (data m) 52) * (1000000000#1))%Q in
  do s <- put_peer (m_nx m) (m_idx m)
            (mkP (q_remote p) (q_local p) (q_sent p) (q_recv p) (q_strat p) (q_self p) (q_sel p) (q_short p) (q_cand p) (q_off p) (q_disp p) (Some est) (Some err));
  let m1 := set_nx m s in
  if m_mode m =? 2 then Some (m1, false) else
  let m2 := set_req m1 (request 57 (e_rand e) []) in
  if be16 (m_addr m) 16 =? 0 then Some (m2, false)
  else Some (set_req m2 (request 57 (e_rand e) (m_addr m)), true).
(** handle_get_ntp_datum, lines 1255-1286. *)
Definition handle_ntp (m : cm) : option cm :=
  if negb (reply_ok m 16) then Some m else
  do p <- peer_at (m_nx m) (m_idx m);
  let d := data m in
  do s <- put_peer (m_nx m) (m_idx m)
            (mkP (sockaddr d 0) (sockaddr d 20) (be32 d 96) (be32 d 100) (oct d 45) (q_self p) (q_sel p) (q_short p) (oct d 44 =? 4)
                 (tofloat (be32 d 72) * -(1000000000#1))%Q (tofloat (be32 d 52) * (1000000000#1))%Q (q_soff p) (q_sdisp p));
  Some (set_nx m s).

(** ** The state machine *)
(** chrony_next_clock_control_state, lines 1102-1109. *)
Definition next_control (g : conf) (m : cm) (p : proc) : cm * list out * bool :=
  let (m1, cc) := look g m p in
  if negb (Bool.eqb (k_cc (m_st m1)) cc) then (set_nx m1 (with_cc (m_nx m1) cc), [Look p], true) else (m1, [Look p], false).

(** What a branch of the switch leaves: module, outputs, update, disconnect. *)
Definition branch := (cm * list out * bool * bool)%type.
(** The end of a round, lines 1421-1424 and the like. *)
Definition finish_round (e : env) (m : cm) (o : list out) : option branch :=
  do s <- parse (m_nx m) 0 (e_score e);
  Some (set_q (set_nx m s) SleepConn, o, true, false).
(** After [issue]: on to state [q], or disconnect. *)
Definition onward (r : cm * list out * bool) (q : qst) (o : list out) (upd : bool) : branch :=
  let '(m, o1, ok) := r in
  if ok then (set_q m q, o ++ o1, upd, false) else (m, o ++ o1, upd, true).
(** ++src_idx and what follows, lines 1420-1426, 1440-1446, 1459-1469; [q] is the state afterwards if
    there is another source.  After SOURCE_STATS that is SOURCE_STATS (1445-1446). *)
Definition next_source (e : env) (m : cm) (q : qst) : option branch :=
  let m1 := set_idx m (m_idx m + 1) in
  if u32 (m_idx m1) =? k_num (m_nx m1) then finish_round e m1 []
  else do r <- issue_datum e m1; Some (onward r q [] false).
(** A reply did not come in time. *)
Definition give_up (m : cm) : option branch := Some (set_q m SleepConn, [], false, false).
Definition stay (m : cm) : option branch := Some (m, [], false, false).

(** The switch of crny_state_machine, lines 1355-1503. *)
Definition switch (g : conf) (m : cm) (ev : event) (e : env) (k : nat) : option branch :=
  match m_q m, ev with
  | Conn, _ =>
      if m_open m then None else                                         (* 1295 *)
      let rc := e_connect e in
      if rc =? 0 then do r <- issue_sys e (set_open m true); Some (onward r SysInfo [Connect rc] false)
      else if rc =? EINPROGRESS then Some (set_q m ConnWait, [Connect rc], false, false)
      else do s <- parse (m_nx m) rc (e_score e); Some (set_q (set_nx m s) SleepDisc, [Connect rc], false, false)
  | ConnWait, Traffic => do r <- issue_sys e m; Some (onward r SysInfo [] false)   (* getsockopt gives no error *)
  | SysInfo, Traffic =>
      let '(m1, o1, upd) := next_control g m (e_proc e k) in
      do r <- issue_count e m1; Some (onward r Count o1 upd)
  | Count, Traffic =>
      let m1 := handle_count m in
      if 0 <? k_num (m_nx m1) then do r <- issue_datum e (set_idx m1 0); Some (onward r Datum [] false)
      else Some (set_q m1 SleepConn, [], false, false)
  | Datum, Traffic =>
      do x <- handle_datum m;
      let (m1, ok) := x in
      if ok then do r <- issue_stats e m1; Some (onward r Stats [] false) else next_source e m1 Datum
  | Stats, Traffic =>
      do x <- handle_stats e m;
      let (m1, ok) := x in
      if ok then do r <- issue e m1; Some (onward r Ntp [] false) else next_source e m1 Stats
  | Ntp, Traffic => do m1 <- handle_ntp m; next_source e m1 Datum
  | (ConnWait | SysInfo | Count | Datum | Stats | Ntp), ReplyTimeout => give_up m
  | SleepDisc, _ =>
      do rest <- subtract (m_next m) (e_now e);
      if (sec rest <? 0) || (match ev with ERun => true | _ => false end) then
        let '(m1, o1, upd) := next_control g m (e_proc e k) in
        do m2 <- (if m_running m1 then Some (set_q m1 Conn) else do s <- parse (m_nx m1) ENOPROTOOPT (e_score e); Some (set_nx m1 s));
        do s <- chk_s64 (sec (m_next m2) + g_interval g);
        Some (set_next m2 (mkTs s (nsec (m_next m2)) (frac (m_next m2))), o1, upd, false)
      else stay m
  | SleepConn, _ =>
      do rest <- subtract (m_next m) (e_now e);
      if sec rest <? 0 then
        do r <- issue_sys e m;
        let '(m1, o1, ok) := r in
        if ok then
          do s <- chk_s64 (sec (m_next m1) + g_interval g);
          Some (set_next (set_q m1 SysInfo) (mkTs s (nsec (m_next m1)) (frac (m_next m1))), o1, false, false)
        else Some (m1, o1, false, true)
      else stay m
  | _, _ => stay m
  end.
(** crny_state_machine, lines 1320-1526. *)
Definition busy (q : qst) : bool := match q with Conn | SleepDisc | SleepConn => false | _ => true end.
Definition drop (m : cm) : cm * list out := let (m1, o) := close m in (set_q m1 SleepDisc, o).
Definition machine (g : conf) (m : cm) (ev : event) (e : env) (k : nat) : option (cm * list out * bool) :=
  do r <- match ev with
          | NoEvent => Some (m, [], false)
          | ConnLost => let (m1, o) := drop m in Some (m1, o, true)
          | _ =>
              let ev' := match ev with ETick => if busy (m_q m) && (0 <=? cmp (e_now e) (m_exp m)) then ReplyTimeout else ETick | _ => ev end in
              do b <- switch g m ev' e k;
              let '(m1, o1, upd, disc) := b in
              if (disc : bool) then let (m2, o2) := drop m1 in Some (m2, o1 ++ o2, true) else Some (m1, o1, upd)
          end;
  let '(m1, o, upd) := r in
  Some (m1, o, upd || negb (st_eqb (k_state (m_nx m1)) (k_state (m_st m1)))).

(** ** Clock control *)
(** do_clock_control, lines 1676-1763; [k] counts the looks.  The script and the helper are one. *)
Definition do_control (g : conf) (m : cm) (e : env) (k : nat) (req : cop) : option (cm * list out * Z) :=
  if negb (g_ctl g) then Some (m, [], ENOSYS) else
  let p := e_proc e k in
  let (m1, cc) := look g m p in
  let op1 := if (cop_eqb req ENABLE && cc) || (cop_eqb req DISABLE && negb cc) then NOP else req in
  let op := if cop_eqb req RESTORE && Bool.eqb cc (m_atsave m1) then RESTORENORESTART else op1 in
  if cop_eqb op NOP then Some (m1, [Look p], 0) else
  let m2 := if cop_eqb op SAVE then set_atsave m1 cc else m1 in
  do early <- (if negb ((sec (m_last m2) =? 0) && (nsec (m_last m2) =? 0)) && negb (cop_eqb op RESTORE) && negb (cop_eqb op RESTORENORESTART)
               then do d <- subtract (e_raw e) (m_last m2); Some (sec d <? 0) else Some false);
  if (early : bool) then Some (m2, [Look p], EAGAIN) else
  let (m3, o3) := if cop_eqb op ENABLE || cop_eqb op DISABLE || cop_eqb op RESTORE then close m2 else (m2, []) in
  let rc := e_ctl e op in
  Some (if cop_eqb op SAVE then m3 else set_last m3 (e_raw e), [Look p] ++ o3 ++ [Did op rc], rc).
(** crny_clock_control, lines 1765-1774. *)
Definition control (g : conf) (m : cm) (e : env) (k : nat) (enable : bool) : option (cm * list out * Z) :=
  do a <- (if m_saved m then Some (m, []) else do r <- do_control g m e k SAVE; Some (set_saved (fst (fst r)) true, snd (fst r)));
  do r <- do_control g (fst a) e (S k) (if enable then ENABLE else DISABLE);
  Some (fst (fst r), snd a ++ snd (fst r), snd r).

(** ntp_on_clock_control_change, lines 1776-1826; the new state is next_state. *)
Definition control_change (g : conf) (m : cm) (e : env) (k : nat) : option (cm * list out) :=
  let cc := k_cc (m_nx m) in
  let (m1, o1) := block m cc in
  let want := Z.testbit (m_flags m) CLOCK_CTRL in
  let m2 := if cc && negb want && negb (g_ctl g) then set_cons m1 true false else m1 in
  let m3 := if negb cc && want && negb (g_ctl g) then set_cons m2 false true else m2 in
  if negb (Bool.eqb cc want) && negb (st_eqb (k_state (m_nx m)) DISABLED) then
    do r <- control g m3 e k want;
    let '(m4, o4, rc) := r in
    Some (if rc =? 0 then set_nx m4 (with_cc (m_nx m4) want) else m4, o1 ++ o4)
  else Some (m3, o1).

(** ** Telling *)
Definition opt_eqb (a b : option Q) : bool :=
  match a, b with Some x, Some y => Qeq_bool x y | None, None => true | _, _ => false end.
(** ntp_handle_state_change, lines 1529-1617. *)
Definition differs (a b : cst) : bool :=
  negb (st_eqb (k_state a) (k_state b)) || negb (Qeq_bool (k_off a) (k_off b)) || negb (opt_eqb (k_disp a) (k_disp b)) || negb (k_strat a =? k_strat b).
Definition status_of (m : cm) (s : cst) : status :=
  mkStatus (k_state s) (m_must m) (m_cannot m) (k_off s) (k_disp s) (k_strat s) (st_eqb (k_state s) SLAVE) (k_score s).
Definition state_change (g : conf) (m : cm) : cm * option status :=
  let m1 := if negb (st_eqb (k_state (m_nx m)) (k_state (m_st m))) && st_eqb (k_state (m_nx m)) DISABLED && negb (g_ctl g) then set_cons m false true else m in
  (m1, if differs (m_nx m1) (m_st m1) then Some (status_of m1 (m_nx m1)) else None).
(** ntp_convergence_update, lines 549-586: true if synchronized changed. *)
Definition converge (m : cm) (now : option ts) : option (cm * bool) :=
  match now with
  | None => Some (m, false)
  | Some t =>
      do r <- (if negb (st_eqb (k_state (m_nx m)) SLAVE) then Some (set_conv (set_nx m (with_sync (m_nx m) false)) (conv_reset (m_conv m)))
               else if negb (Z.testbit (m_flags m) TIMESTAMPS) then Some (set_nx m (with_sync (m_nx m) false))
               else if k_idx (m_nx m) =? -1 then None
               else do p <- peer_at (m_nx m) (k_idx (m_nx m));
                    do r <- conv_update (m_conv m) (sec t) (best_off p);
                    Some (set_conv (set_nx m (with_sync (m_nx m) (snd r))) (fst r)));
      Some (r, negb (Bool.eqb (k_sync (m_nx r)) (k_sync (m_st r))))
  end.
(** ntp_send_rt_stats_update, lines 1620-1640. *)
Definition rt_stats (s : cst) : option (list out) :=
  if st_eqb (k_state s) SLAVE then do p <- peer_at s (k_idx s); Some [Report (q_off p) (k_cc s) (k_sync s)] else Some [].
(** ntp_send_clustering_input, lines 1643-1657. *)
Definition clustering (m : cm) (s : cst) : option (list out) :=
  if Z.testbit (m_flags m) DETERMINANT then
    do p <- peer_at s (k_idx s);
    Some [Cluster (q_off p) (negb (Qeq_bool (q_off p) 0) && st_eqb (k_state s) SLAVE)]
  else Some [].
(** crny_stats_update, lines 643-669. *)
Definition history (s : cst) : option (list out) :=
  if st_eqb (k_state s) SLAVE then
    if (k_idx s =? -1) || negb (k_idx s <? 32) || negb (u32 (k_idx s) <? k_num s) then None
    else do p <- peer_at s (k_idx s); Some [History (Some (best_off p)) (k_sync s)]
  else Some [History None (k_sync s)].

Definition id_eqb (a b : option (saddr * Z)) : bool :=
  match a, b with
  | None, None => true
  | Some (x, n), Some (y, m) => (n =? m) && match x, y with
      | V4 u, V4 v => if list_eq_dec Z.eq_dec u v then true else false
      | V6 u, V6 v => if list_eq_dec Z.eq_dec u v then true else false
      | _, _ => false end
  | _, _ => false
  end.
(** ntp_on_offset_id_change, lines 1829-1838. *)
Definition id_change (m : cm) : cm :=
  if k_unsafe (m_nx m) && match k_id (m_nx m) with None => true | _ => false end then set_nx m (with_unsafe (m_nx m) false) else m.

(** update_state, lines 2127-2180. *)
Definition update_state (g : conf) (m : cm) (e : env) (k : nat) : option (cm * list out) :=
  let c1 := negb (Bool.eqb (k_cc (m_nx m)) (k_cc (m_st m))) in
  do a <- (if c1 then control_change g m e k else Some (m, []));
  let (m1, o1) := a in
  let (m2, told) := state_change g m1 in
  do b <- converge m2 (e_conv e);
  let (m3, c3) := b in
  let c4 := negb (id_eqb (k_id (m_nx m3)) (k_id (m_st m3))) in
  let m4 := if c4 then id_change m3 else m3 in
  do o4 <- (if c1 || (match told with Some _ => true | None => false end) || c3 || c4
            then do x <- rt_stats (m_nx m4); do y <- clustering m4 (m_nx m4); Some (x ++ y) else Some []);
  let m5 := set_st m4 (m_nx m4) in
  do o6 <- history (m_st m5);
  Some (m5, o1 ++ o4 ++ (match told with Some s => [Told s] | None => [] end) ++ o6).

(** The state machine and what follows. *)
Definition advance (g : conf) (m : cm) (ev : event) (e : env) (k : nat) : option (cm * list out) :=
  do r <- machine g m ev e k;
  let '(m1, o1, upd) := r in
  if (upd : bool) then do x <- update_state g m1 e (S k); Some (fst x, o1 ++ snd x) else Some (m1, o1).

(** ** Events and messages *)
(** crny_do_io, lines 2398-2429; the socket is ready only if it is open (ntp_on_user_fds, 2432-2445). *)
Definition on_io (g : conf) (m : cm) (r : received) (e : env) : option (cm * list out) :=
  if negb (m_open m) then Some (m, []) else
  match r with
  | Octets l =>
      let l := firstn 528 l in
      advance g (set_resp m (l ++ skipn (List.length l) (m_resp m))) (if (8 <=? List.length l)%nat then Traffic else NoEvent) e 0
  | Nothing => advance g m NoEvent e 0
  | Lost => advance g m ConnLost e 0
  end.
(** ntp_on_control, lines 1891-1933. *)
Definition on_control (g : conf) (m : cm) (mask flags : Z) (e : env) : option (cm * list out) :=
  let f := Z.lor (Z.ldiff (m_flags m) mask) (Z.land flags mask) in
  if m_phase m && Z.testbit (Z.lxor f (m_flags m)) CLOCK_CTRL then
    let want := Z.testbit f CLOCK_CTRL in
    let (m1, cc) := look g m (e_proc e 0) in
    if negb (Bool.eqb want cc) then
      if negb (g_ctl g) then Some (set_flags m1 (Z.lxor f (2 ^ CLOCK_CTRL)), [Look (e_proc e 0)])
      else do r <- control g m1 e 1 want; Some (set_flags (fst (fst r)) f, Look (e_proc e 0) :: snd (fst r))
    else Some (set_flags m1 f, [Look (e_proc e 0)])
  else Some (set_flags m f, []).
(** ntp_on_get_status, lines 1841-1888. *)
Definition reply_of (m : cm) : status :=
  let s := m_st m in
  let sl := st_eqb (k_state s) SLAVE in
  mkStatus (k_state s) (m_must m) (m_cannot m) (k_off s) (if sl then k_disp s else None) (if sl then k_strat s else 0) sl (k_score s).
(** ntp_on_save_state, lines 1961-2042. *)
Definition on_save (m : cm) : option (list out) :=
  let s := m_st m in
  if 32 <? k_num s then None else
  let cand := List.length (filter q_cand (firstn (Z.to_nat (k_num s)) (k_arr s))) in
  do d <- (if st_eqb (k_state s) SLAVE then do p <- peer_at s (k_idx s); Some (Some (best_off p, k_sync s, q_remote p, k_score s)) else Some None);
  Some [Saved (k_state s) (m_must m) (m_cannot m) (m_flags m) d (Z.to_nat (k_num s)) cand].
(** ntp_on_write_topology, lines 2044-2108; asserts that the instance is selected. *)
Definition on_topology (m : cm) : option (list out) :=
  if negb (Z.testbit (m_flags m) SELECTED) then None else
  do p <- peer_at (m_st m) (k_idx (m_st m));
  Some [Drawn (k_state (m_st m)) (if st_eqb (k_state (m_st m)) SLAVE then Some (q_remote p, best_off p) else None)].

(** ntp_on_message, lines 2333-2395; ntp_on_timer, lines 2250-2271. *)
Definition step (g : conf) (m : cm) (o : op) : option (cm * list out) :=
  match o with
  | Tick e => advance g m ETick e 0
  | Io r e => on_io g m r e
  | Control mask flags e => on_control g m mask flags e
  | StepClock => Some (set_st m (with_unsafe (m_st m) true), [])
  | LogStats => do a <- rt_stats (m_st m); do b <- clustering m (m_st m); Some (m, a ++ b)
  | SaveState => do a <- on_save m; Some (m, a)
  | Topology => do a <- on_topology m; Some (m, a)
  | GetStatus => Some (m, [Reply (reply_of m)])
  end.
Fixpoint run (g : conf) (m : cm) (l : list op) : option (cm * list (op * list out)) :=
  match l with
  | [] => Some (m, [])
  | o :: r => do x <- step g m o; do y <- run g (fst x) r; Some (fst y, (o, snd x) :: snd y)
  end.

(** ntp_on_startup, lines 2274-2317, crny_configure_ntpd, lines 884-938, ntp_convergence_init, lines 527-547. *)
Definition startup (g : conf) (p : proc) : option (Z + cm * list out) :=
  if g_timesyncd g then Some (inl EPROTONOSUPPORT) else
  do cv <- conv_init (g_min g) (g_max g);
  let m0 := mkM (2 ^ TIMESTAMPS) false false SleepDisc 0 (repeat 0 20) 0 null_time null_time zero_state zero_state cv (repeat 0 520) (repeat 0 528)
                false false false false false false null_time in
  let (m1, cc) := look g m0 p in
  let m2 := set_st m1 (with_cc (m_st m1) cc) in
  let (m3, o) := if cc then block m2 true else (m2, []) in
  let m4 := if m_running m3 then m3 else set_st m3 (with_state (m_st m3) DISABLED) in
  Some (inr (set_nx m4 (m_st m4), Look p :: o)).
(** ntp_on_run, lines 2183-2247.  Asking to end does not end it at once. *)
Definition on_run (g : conf) (m : cm) (e : env) : option (cm * list out) :=
  let m1 := set_st (set_q (set_next (set_phase m true) (e_now e)) SleepDisc) (with_unsafe (m_st m) false) in
  let want := Z.testbit (m_flags m) CLOCK_CTRL in
  let (m2, cc) := look g m1 (e_proc e 0) in
  do a <- (if want && negb cc then
             if g_ctl g then
               do r <- control g m2 e 1 true;
               let '(m3, o3, rc) := r in
               Some (if rc =? 0 then m3 else set_flags m3 (Z.ldiff (m_flags m3) (2 ^ CLOCK_CTRL)), o3)
             else Some (set_flags m2 (Z.ldiff (m_flags m2) (2 ^ CLOCK_CTRL)), [])
           else if negb want && cc then
             do r <- (if g_ctl g then control g m2 e 1 false else Some (m2, [], EOPNOTSUPP));
             let '(m3, o3, rc) := r in
             Some (m3, if (negb (g_ctl g) || negb (rc =? 0)) && g_writable g && negb (g_ignore g)
                       then o3 ++ [Exit (if rc =? 0 then EOPNOTSUPP else rc)] else o3)
           else Some (m2, []));
  let (m4, o4) := a in
  do r <- advance g (set_nx m4 (m_st m4)) ERun e 3;
  Some (fst r, Look (e_proc e 0) :: o4 ++ snd r).
(** The whole life: an error of the start, or the history before and after the message to run. *)
Definition live (g : conf) (p : proc) (pre : list op) (e : env) (l : list op) :
  option (Z + cm * list out * list (op * list out) * list out * list (op * list out)) :=
  do s <- startup g p;
  match s with
  | inl x => Some (inl x)
  | inr (m, o) =>
      do a <- run g m pre;
      do r <- on_run g (fst a) e;
      do y <- run g (fst r) l;
      Some (inr (fst y, o, snd a, snd r, snd y))
  end.
