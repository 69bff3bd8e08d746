(** Model of the NTP control protocol (mode 6) client:
    /repo/src/ntp/sfptpd_ntpd_client_mode6.c.  [None] is undefined behaviour.  The clock is
    not modelled: [Timeout] stands for the time running out (lines 651-669). *)
Require Import ZArith List Bool String QArith.
Require Import Verif.Base Verif.ListLib Verif.CevSpec Verif.Nm6Spec.
Import ListNotations.
Open Scope Z_scope.

(** lines 104, 416, 234-235, 251; sfptpd_ntpd_client.h:17. *)
Definition MAXFRAGS := 32%nat.
Definition BUFFER_SIZE := 4096.
Definition MAXVARLEN := 256%nat.
Definition MAXVALLEN := 2048%nat.
Definition CTL_MAX_DATA_LEN := 468.
Definition PEERS_MAX := 32%nat.
Definition HEADER := 12.
Definition PKT_SIZE := 516%nat.  (* sizeof(struct ntp_mode6_packet), lines 171, 185-194 *)

(** lines 256-264: the bits of the second octet; 203-204: version and mode. *)
Definition CTL_RESPONSE := 128. Definition CTL_ERROR := 64. Definition CTL_MORE := 32. Definition CTL_OP_MASK := 31.
Definition has (bit b : Z) : bool := negb (Z.land bit b =? 0).
Definition pkt_version (b : Z) : Z := Z.land (Z.shiftr b 3) 7.
Definition pkt_mode (b : Z) : Z := Z.land b 7.

(** Octet and 16-bit word (ntohs) of a packet. *)
Definition oct (p : list Z) (i : nat) : Z := nth i p 0.
Definition word (p : list Z) (i : nat) : Z := 256 * oct p i + oct p (S i).

(** mode6_validate_response_packet (545-591). *)
Definition validate (seq op : Z) (p : list Z) : bool :=
  negb (len p <? HEADER) &&
  negb ((4 <? pkt_version (oct p 0)) || (pkt_version (oct p 0) <? 1)) &&
  (pkt_mode (oct p 0) =? 6) &&
  has CTL_RESPONSE (oct p 1) &&
  (word p 2 =? seq) &&
  (Z.land CTL_OP_MASK (oct p 1) =? op).

(** ntp_cerr2errno (370-379): eight entries, seven of them given. *)
Definition cerr2errno : list Z := [EIO; EACCES; EBADMSG; ENOSYS; ENOENT; EINVAL; EPERM; 0].

(** Local variables of mode6_response and the client's buffer: offsets/counts as pairs. *)
Record rst := mkR { r_frags : list (Z * Z); r_last : bool; r_buf : list Z }.
(** [Go]: wait on; [Ret rc b]: returns rc without data; [Done n b]: 0 with the first n bytes of the buffer b. *)
Inductive verdict := Go (s : rst) | Ret (rc : Z) (b : list Z) | Done (n : Z) (b : list Z).

(** 765-769: the fragments before the first whose offset is not smaller, and the others. *)
Fixpoint place (off : Z) (l : list (Z * Z)) : list (Z * Z) * list (Z * Z) :=
  match l with
  | [] => ([], [])
  | (o, c) :: r => if o <? off then let (a, b) := place off r in ((o, c) :: a, b) else ([], l)
  end.
(** 777: the fragment before reaches over the offset. *)
Definition over_before (before : list (Z * Z)) (off : Z) : bool :=
  match rev before with [] => false | (o, c) :: _ => off <? o + c end.
(** 814: memcpy into the buffer. *)
Definition splice (b : list Z) (off : Z) (d : list Z) : list Z :=
  firstn (Z.to_nat off) b ++ d ++ skipn (Z.to_nat off + List.length d) b.
(** 823-826: no gap. *)
Fixpoint no_gap (l : list (Z * Z)) : bool :=
  match l with
  | (o, c) :: (((o', _) :: _) as r) => (o + c =? o') && no_gap r
  | _ => true
  end.
(** 828 *)
Definition total (l : list (Z * Z)) : Z := match rev l with [] => 0 | (o, c) :: _ => o + c end.

(** mode6_response (594-834), one packet: 684-832.  The mismatch of the association (703-706)
    is only logged. *)
Definition on_packet (seq op : Z) (s : rst) (p : list Z) : option verdict :=
  let p := firstn PKT_SIZE p in                                       (* 672 *)
  if negb (validate seq op p) then Some (Go s) else
  let flags := oct p 1 in
  if has CTL_ERROR flags then                                          (* 693-699 *)
    do e <- nth_error cerr2errno (Z.to_nat (word p 4 / 256));
    Some (Ret e (r_buf s))
  else
  let off := word p 8 in
  let count := word p 10 in
  if negb (Z.land (len p) 3 =? 0) then Some (Go s) else                (* 714 *)
  if len p <? Z.land (HEADER + count + 3) (Z.lnot 3) then Some (Ret EPROTO (r_buf s)) else   (* 720-727 *)
  if len p - HEADER <? count then Some (Go s) else                     (* 731 *)
  if (count =? 0) && has CTL_MORE flags then Some (Go s) else          (* 737 *)
  if BUFFER_SIZE <? off + count then Some (Ret ENOSPC (r_buf s)) else  (* 742 *)
  if r_last s && negb (has CTL_MORE flags) then Some (Go s) else       (* 748 *)
  if (MAXFRAGS - 1 <? List.length (r_frags s))%nat then Some (Ret EFBIG (r_buf s)) else      (* 756 *)
  let (before, after) := place off (r_frags s) in
  if match after with (o, _) :: _ => off =? o | [] => false end then Some (Go s) else       (* 771 *)
  if over_before before off then Some (Go s) else                      (* 777 *)
  if match after with (o, _) :: _ => o <? off + count | [] => false end then Some (Go s) else (* 783 *)
  let frags := before ++ (off, count) :: after in                      (* 789-796 *)
  let last := r_last s || negb (has CTL_MORE flags) in                 (* 799 *)
  let buf := splice (r_buf s) off (firstn (Z.to_nat count) (skipn 12 p)) in (* 814 *)
  if last && (match frags with (o, _) :: _ => o =? 0 | [] => false end) && no_gap frags   (* 822-832 *)
  then Some (Done (total frags) buf)
  else Some (Go (mkR frags last buf)).

(** The loop (648-833) over what the socket gives. *)
Fixpoint response_loop (seq op : Z) (s : rst) (l : list event) : option verdict :=
  match l with
  | [] => Some (Go s)
  | Timeout :: _ => Some (Ret ETIMEDOUT (r_buf s))        (* 656, 668 *)
  | Trouble e :: _ => Some (Ret e (r_buf s))              (* 661-664, 673-678 *)
  | Packet p :: r =>
      do v <- on_packet seq op s p;
      match v with Go s' => response_loop seq op s' r | _ => Some v end
  end.
Definition response (seq op : Z) (buf : list Z) (l : list event) : option verdict :=
  response_loop seq op (mkR [] false buf) l.

(** mode6_request (464-542) without authentication: the octets sent.  [None] as data pointer
    is not used. *)
Definition pad4 (n : nat) : nat := (match n mod 4 with O => 0 | k => 4 - k end)%nat.
Definition request (op assoc seq : Z) (data : list Z) : list Z + Z :=
  if CTL_MAX_DATA_LEN <? len data then inr E2BIG else
  inl ([Z.lor (Z.shiftl (Z.land 4 7) 3) (Z.land 6 7); Z.land op CTL_OP_MASK] ++
       be16 seq ++ be16 0 ++ be16 assoc ++ be16 0 ++ be16 (len data) ++
       data ++ repeat 0 (pad4 (List.length data))).
(** mode6_query (836-875): the request is sent ([sent] is what mode6_send returned), then the
    answer awaited ([None]: still waiting is not a case here, the list ends the wait). *)
Definition query (seq op : Z) (data : list Z) (buf : list Z) (sent : Z) (l : list event) : option (option reply) :=
  if CTL_MAX_DATA_LEN <? len data then Some (Some (NotSent E2BIG)) else
  if negb (sent =? 0) then Some (Some (NotSent sent)) else
  do v <- response seq op buf l;
  Some (match v with
        | Go _ => None
        | Ret rc _ => Some (Failed rc)
        | Done n b => Some (Answer (firstn (Z.to_nat n) b) (skipn (Z.to_nat n) b))
        end).

(** make_query_data (892-932): names only (the values of peervarlist are all null). *)
Fixpoint query_data (room : nat) (first : bool) (names : list (list Z)) : list Z :=
  match names with
  | [] => []
  | n :: r =>
      let need := (List.length n + if first then 0 else 1)%nat in
      if (room <? need)%nat then []
      else (if first then [] else [44]) ++ n ++ query_data (room - need) false r
  end.
(** peervarlist (387-398). *)
Definition peervars : list (list Z) :=
  map txt ["srcadr"; "dstadr"; "stratum"; "offset"; "hmode"; "sent"; "received"; "rootdisp"; "refid"]%string.

(** ISSPACE (242), strcspn's set (978). *)
Definition isspace (c : Z) : bool := (c =? 32) || (c =? 9).
Definition stops (c : Z) : bool := (c =? 44) || (c =? 61) || (c =? 13) || (c =? 10) || (c =? 0).
Fixpoint takew (f : Z -> bool) (l : list Z) : list Z :=
  match l with [] => [] | c :: r => if f c then c :: takew f r else [] end.
Fixpoint dropw (f : Z -> bool) (l : list Z) : list Z :=
  match l with [] => [] | c :: r => if f c then dropw f r else l end.
(** 981-982, 1032-1033: white space at the end. *)
Definition rtrim (l : list Z) : list Z := rev (dropw isspace (rev l)).
(** The first character of the data or, past its end, of what lies behind it (1011). *)
Definition peek (d r : list Z) : option Z := match d ++ r with [] => None | c :: _ => Some c end.

(** next_var (947-1045) on the remaining data [d], with [r] behind it in the buffer: [None]
    undefined, [Some None] returns 0, [Some (Some (name, value, d'))] returns 1.  The NUL with
    which a value is ended for the C code is not part of the list: see [cstr]. *)
Definition next_var (d r : list Z) : option (option (list Z * option (list Z) * list Z)) :=
  let d := dropw (fun c => (c =? 44) || isspace c) d in                  (* 968 *)
  match d with [] => Some None | _ :: _ =>                              (* 971 *)
  if negb (existsb stops (d ++ r)) then None else                       (* 978 *)
  let src := takew (fun c => negb (stops c)) d in                       (* 978-979 *)
  let name := rtrim src in
  if (MAXVARLEN <=? List.length name)%nat then Some None else           (* 983 *)
  let d2 := skipn (List.length src) d in
  match d2 with
  | [] => Some (Some (name, None, []))                                  (* 995 *)
  | c :: d3 =>
    if (c =? 44) || (c =? 13) || (c =? 10) then Some (Some (name, None, d3)) else
    let d4 := dropw isspace d3 in                                       (* 1008 *)
    do q <- peek d4 r;                                                  (* 1011 *)
    if q =? 34 then
      match d4 with
      | [] => Some None                                                 (* 1025: np > cp_end *)
      | _ :: d5 =>
          let val := takew (fun c => negb (c =? 34)) d5 in              (* 1013-1016 *)
          let rest := skipn (S (List.length val)) d5 in                 (* 1017 *)
          if (MAXVALLEN <=? List.length val)%nat then Some None else
          match rest with
          | [] => Some (Some (name, Some (rtrim val), []))
          | e :: rest' =>
              if e =? 44 then Some (Some (name, Some (rtrim val), rest'))
              else if e =? 13 then Some (Some (name, Some (rtrim val), rest))
              else Some None                                            (* 1026 *)
          end
      end
    else
      let val := takew (fun c => negb ((c =? 44) || (c =? 13))) d4 in   (* 1020 *)
      let rest := skipn (List.length val) d4 in
      if (MAXVALLEN <=? List.length val)%nat then Some None else
      match rest with
      | [] => Some (Some (name, Some (rtrim val), []))
      | e :: rest' => Some (Some (name, Some (rtrim val), if e =? 44 then rest' else rest))
      end
  end end.

(** while (next_var(..)): the variables, and what is left when it returns 0. *)
Fixpoint vars_loop (fuel : nat) (d r : list Z) : option (list (list Z * option (list Z)) * list Z) :=
  match fuel with
  | O => Some ([], d)
  | S k =>
      do o <- next_var d r;
      match o with
      | None => Some ([], d)
      | Some (n, v, d') => do x <- vars_loop k d' r; let (l, left) := x in Some ((n, v) :: l, left)
      end
  end.
Definition vars (d r : list Z) := vars_loop (S (List.length d)) d r.

(** A value as the string functions see it. *)
Fixpoint cstr (l : list Z) : list Z := match l with [] => [] | c :: r => if c =? 0 then [] else c :: cstr r end.

Section Client.
  (** Addresses, getaddrinfo for numeric hosts (rc, address), sscanf for %u and %Lf ([None]:
      nothing converted, the variable stays uninitialised), and the bytes that lie behind a value
      in the array it is returned in. *)
  Variable A : Type.
  Variable gai : list Z -> Z * option A.
  Variable u32 : list Z -> option Z.
  Variable flt : list Z -> option Q.
  Variable behind : list Z -> list Z.
  (** EAI_NODATA or EAI_NONAME *)
  Variable noname : Z -> bool.

  (** parse_addr_string (1053-1121): the host it looks up.  Cut at the closing bracket, at the
      only colon, or not at all; without a closing bracket the array is left (1075). *)
  Definition host_of (v : list Z) : option (list Z) :=
    let s := cstr v in
    if hd 0 s =? 91 then
      let mem := tl s ++ 0 :: behind v in
      if existsb (Z.eqb 93) (firstn (MAXVALLEN - 1) mem)
      then Some (cstr (takew (fun c => negb (c =? 93)) mem))
      else None
    else if (List.length (filter (Z.eqb 58) s) =? 1)%nat then Some (takew (fun c => negb (c =? 58)) s) else Some s.
  Definition parse_addr (v : list Z) : option (Z * option A) :=
    do h <- host_of v;
    let (rc, a) := gai h in
    Some (if rc =? 0 then (0, a) else ((if noname rc then ENOENT else EINVAL), None)).

  (** 1401-1440: one variable into a peer.  A value that is missing is a null pointer. *)
  Definition set_var (p : peer A) (nv : list Z * option (list Z)) : option (peer A) :=
    let (n, ov) := nv in
    let is s := if list_eq_dec Z.eq_dec n (txt s) then true else false in
    if is "srcadr"%string then do v <- ov; do x <- parse_addr v;
      Some (mkPeer (snd x) (p_local p) (p_stratum p) (p_candidate p) (p_offset p) (p_rootdisp p) (p_sent p) (p_received p) (p_self p) (p_selected p) (p_shortlist p))
    else if is "dstadr"%string then do v <- ov; do x <- parse_addr v;
      Some (mkPeer (p_remote p) (snd x) (p_stratum p) (p_candidate p) (p_offset p) (p_rootdisp p) (p_sent p) (p_received p) (p_self p) (p_selected p) (p_shortlist p))
    else if is "stratum"%string then do v <- ov; do x <- u32 (cstr v);
      Some (mkPeer (p_remote p) (p_local p) x (p_candidate p) (p_offset p) (p_rootdisp p) (p_sent p) (p_received p) (p_self p) (p_selected p) (p_shortlist p))
    else if is "hmode"%string then do v <- ov; do x <- u32 (cstr v);
      Some (mkPeer (p_remote p) (p_local p) (p_stratum p) (x =? 3) (p_offset p) (p_rootdisp p) (p_sent p) (p_received p) (p_self p) (p_selected p) (p_shortlist p))
    else if is "offset"%string then do v <- ov; do x <- flt (cstr v);
      Some (mkPeer (p_remote p) (p_local p) (p_stratum p) (p_candidate p) (x * -(1000000#1)) (p_rootdisp p) (p_sent p) (p_received p) (p_self p) (p_selected p) (p_shortlist p))
    else if is "rootdisp"%string then do v <- ov; do x <- flt (cstr v);
      Some (mkPeer (p_remote p) (p_local p) (p_stratum p) (p_candidate p) (p_offset p) (x * (1000000#1)) (p_sent p) (p_received p) (p_self p) (p_selected p) (p_shortlist p))
    else if is "sent"%string then do v <- ov; do x <- u32 (cstr v);
      Some (mkPeer (p_remote p) (p_local p) (p_stratum p) (p_candidate p) (p_offset p) (p_rootdisp p) x (p_received p) (p_self p) (p_selected p) (p_shortlist p))
    else if is "received"%string then do v <- ov; do x <- u32 (cstr v);
      Some (mkPeer (p_remote p) (p_local p) (p_stratum p) (p_candidate p) (p_offset p) (p_rootdisp p) (p_sent p) x (p_self p) (p_selected p) (p_shortlist p))
    else if is "refid"%string then do v <- ov;
      Some (mkPeer (p_remote p) (p_local p) (p_stratum p) (p_candidate p) (p_offset p) (p_rootdisp p) (p_sent p) (p_received p) false (p_selected p) (p_shortlist p))
    else Some p.
  Fixpoint set_vars (p : peer A) (l : list (list Z * option (list Z))) : option (peer A) :=
    match l with [] => Some p | x :: r => do p' <- set_var p x; set_vars p' r end.

  (** 1443-1447 *)
  Definition set_status (p : peer A) (status : Z) : peer A :=
    let sel := Z.land (Z.land (Z.shiftr status 8) 255) 7 in
    mkPeer (p_remote p) (p_local p) (p_stratum p) (p_candidate p) (p_offset p) (p_rootdisp p) (p_sent p) (p_received p) (p_self p)
      (sel =? 6) (sel =? 5).

  (** The association cache as identifier and status (403-406, 1362, 1372). *)
  Fixpoint assocs (d : list Z) : list association :=
    match d with
    | a :: b :: c :: e :: r => (256 * a + b, 256 * c + e) :: assocs r
    | _ => []
    end.
  (** 1376 *)
  Definition skipped (status : Z) : bool := Z.land (Z.land (Z.shiftr status 8) 255) (Z.lor 128 16) =? 0.

  (** 1369-1449: the loop over the associations.  [ans i] is what the query for association i
      ends in.  [left]: resp_var_data and resp_size as the last turn left them ([None]: the
      pointer was never set and resp_size is still that of the list). *)
  Fixpoint peer_loop (i : nat) (l : list association) (ans : nat -> reply) (left : option (list Z * list Z))
           (num : nat) (ps : list (peer A)) (rc : Z) : option (Z * nat * list (peer A)) :=
    match l with
    | [] => Some (rc, num, ps)
    | (_, status) :: r =>
        if skipped status then peer_loop (S i) r ans left num ps rc else
        do w <- match ans i with                                (* 1387 *)
                | NotSent e => do x <- left; Some (e, Some x)
                | Failed e => Some (e, Some ([], match left with Some (_, b) => b | None => [] end))
                | Answer d b => Some (0, Some (d, b))
                end;
        do p <- nth_error ps i;                                  (* 1392 *)
        match w with
        | (e, Some (d, b)) =>
            do x <- vars d b;                                    (* 1399 *)
            do p' <- set_vars p (fst x);
            peer_loop (S i) r ans (Some (snd x, b)) (S num) (set_nth i (set_status p' status) ps) e
        | (e, None) => None
        end
    end.
  (** mode6_get_peer_info (1317-1452): rc, number of peers, peers. *)
  Definition get_peer_info (num : nat) (ps : list (peer A)) (stat : reply) (ans : nat -> reply) : option (Z * nat * list (peer A)) :=
    match stat with
    | NotSent rc => Some (0, num, ps)                            (* 1341 *)
    | Failed rc => Some (0, num, ps)                             (* 1341; with rc = 0 the size is 0, 1344 *)
    | Answer d b =>
        if len d =? 0 then Some (0, num, ps) else                (* 1344 *)
        if negb (Z.land (len d) 3 =? 0) then Some (0, num, ps) else
        if BUFFER_SIZE <? len d then Some (ENOMEM, num, ps) else
        peer_loop 0 (assocs d) ans None 0 ps 0
    end.

  (** mode6_get_sys_info (1229-1315): rc and the selected peer's address.  Only the first
      peeradr counts (1274-1281); when there is none the old address is looked up (1286), which only
      decides between ENOENT and the same ENOENT. *)
  Fixpoint seek (fuel : nat) (d r : list Z) : option (option (Z * option A)) :=
    match fuel with
    | O => Some None
    | S k =>
        do o <- next_var d r;
        match o with
        | None => Some None
        | Some (n, ov, d') =>
            if list_eq_dec Z.eq_dec n (txt "peeradr") then do v <- ov; do x <- parse_addr v; Some (Some x)
            else seek k d' r
        end
    end.
  Definition get_sys_info (old : option A) (rep : reply) : option (Z * option A) :=
    do w <- match rep with
            | NotSent rc => Some (rc, old)
            | Failed rc => Some (if rc =? 0 then ENOENT else rc, old)   (* 0: next_var of size 0 *)
            | Answer d b =>
                do f <- seek (S (List.length d)) d b;
                Some (match f with Some y => y | None => (ENOENT, old) end)
            end;
    let (rc, a) := w in
    Some (if (rc =? 0) || (rc =? ENOENT) || (rc =? ECONNREFUSED) then rc else ENOENT, a).
End Client.

(** mode6_clock_control (1454-1507): rc, from the answer to the command. *)
Definition config_succeeded : list Z := txt "Config Succeeded" ++ [13; 10].
Definition clock_control (key_id : Z) (rep : reply) : option Z :=
  if key_id =? 0 then Some EACCES else
  match rep with
  | NotSent rc => Some rc
  | Failed rc => if rc =? 0 then None else Some rc               (* 1487: resp_data was never set *)
  | Answer d b =>
      Some (if list_eq_dec Z.eq_dec (firstn (List.length config_succeeded) (d ++ b)) config_succeeded then 0 else EACCES)
  end.
(** The commands (1473-1476). *)
Definition control_command (enable : bool) : list Z := if enable then txt "enable ntp kernel" else txt "disable ntp kernel".
