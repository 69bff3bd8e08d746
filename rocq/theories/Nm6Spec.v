(** Specification vocabulary for the NTP control protocol (mode 6) client (C66).  Bytes are
    integers 0..255, texts are lists of bytes ([CevSpec.txt]). *)
Require Import ZArith List Bool String QArith.
Require Import Verif.CevSpec.
Import ListNotations.
Open Scope Z_scope.

Definition byte (b : Z) : Prop := 0 <= b < 256.
Definition be16 (n : Z) : list Z := [n / 256; n mod 256].
Definition len {A} (l : list A) : Z := Z.of_nat (List.length l).

(** RFC 1305 appendix B: LI(2) VN(3) Mode(3) | R E M Op(5) | Sequence | Status | Association
    | Offset | Count | data, padded.  [bits] is R E M. *)
Definition packet (li v bits op seq status assoc off count : Z) (rest : list Z) : list Z :=
  [64 * li + 8 * v + 6; 32 * bits + op] ++ be16 seq ++ be16 status ++ be16 assoc ++ be16 off ++ be16 count ++ rest.
Definition u16p (n : Z) : Prop := 0 <= n < 65536.

(** One piece of a reply. *)
Record frag := mkFrag { f_off : Z; f_data : list Z; f_more : bool }.

(** The packet [p] answers the request [op] numbered [seq] and carries the fragment [f]. *)
Definition carries (seq op : Z) (p : list Z) (f : frag) : Prop :=
  exists li v status assoc pad,
    0 <= li < 4 /\ 1 <= v <= 4 /\ u16p status /\ u16p assoc /\ u16p (f_off f) /\
    Forall byte (f_data f) /\ Forall byte pad /\
    (List.length p mod 4 = 0)%nat /\ (List.length p <= 516)%nat /\
    p = packet li v (if f_more f then 5 else 4) op seq status assoc (f_off f) (len (f_data f)) (f_data f ++ pad).

(** The packet belongs to the answer of the request [op] numbered [seq]. *)
Definition answers (seq op : Z) (p : list Z) : Prop :=
  exists li v bits status assoc off count rest,
    0 <= li < 4 /\ 1 <= v <= 4 /\ 4 <= bits < 8 /\ u16p status /\ u16p assoc /\ u16p off /\ u16p count /\ Forall byte rest /\
    p = packet li v bits op seq status assoc off count rest.

(** The fragments follow one another from [o] and make up [m]. *)
Fixpoint chain (o : Z) (fs : list frag) (m : list Z) : Prop :=
  match fs with
  | [] => m = []
  | f :: r => f_off f = o /\ exists m', m = f_data f ++ m' /\ chain (o + len (f_data f)) r m'
  end.

(** [fs] is the message [m] cut up: all but the last are non-empty and announce more. *)
Definition cut_up (m : list Z) (fs : list frag) : Prop :=
  chain 0 fs m /\ (exists init f, fs = init ++ [f] /\ f_more f = false /\ Forall (fun g => f_more g = true /\ f_data g <> []) init).

(** What the socket gives. *)
Inductive event := Packet (p : list Z) | Timeout | Trouble (errno : Z).

(** What a request ends in: it was not sent, it failed, or there is an answer. [Answer d r]:
    [d] is the answer, [r] the rest of the buffer it lies in. *)
Inductive reply := NotSent (rc : Z) | Failed (rc : Z) | Answer (d r : list Z).

(** Error codes of the protocol (RFC 1305 appendix B, ntp_control.h) and the errors the client
    documents for them (the comments of its table). *)
Definition EIO := 5. Definition EACCES := 13. Definition EBADMSG := 74. Definition ENOSYS := 38.
Definition ENOENT := 2. Definition EINVAL := 22. Definition EPERM := 1.
Definition EPROTO := 71. Definition ENOSPC := 28. Definition EFBIG := 27. Definition ETIMEDOUT := 110.
Definition ECONNREFUSED := 111. Definition E2BIG := 7. Definition ENOMEM := 12.
Definition CERR_UNKNOWNVAR := 5. Definition CERR_BADVALUE := 6. Definition CERR_RESTRICT := 7.

(** A reply to READVAR: name=value pairs. *)
Record item := mkItem { i_name : list Z; i_value : list Z; i_quoted : bool; i_sep : list Z }.
Definition blank (c : Z) : Prop := c = 32 \/ c = 9.
Definition ends_clean (t : list Z) : Prop := t = [] \/ exists h c, t = h ++ [c] /\ ~ blank c.
Definition starts_clean (t : list Z) : Prop := match t with [] => True | c :: _ => ~ blank c end.
Definition good_name (n : list Z) : Prop :=
  n <> [] /\ (List.length n < 256)%nat /\ starts_clean n /\ ends_clean n /\
  Forall (fun c => c <> 44 /\ c <> 61 /\ c <> 13 /\ c <> 10 /\ c <> 0) n.
Definition good_value (v : list Z) (quoted : bool) : Prop :=
  (List.length v < 2048)%nat /\ ~ In 0 v /\ ends_clean v /\
  if quoted then ~ In 34 v
  else v <> [] /\ starts_clean v /\ hd 0 v <> 34 /\ Forall (fun c => c <> 44 /\ c <> 13) v.
(** Commas with blanks and line ends. *)
Definition separator (s : list Z) : Prop :=
  exists s', s = 44 :: s' /\ Forall (fun c => c = 44 \/ c = 32 \/ c = 9 \/ c = 13 \/ c = 10) s'.
Definition show_value (i : item) : list Z := if i_quoted i then 34 :: i_value i ++ [34] else i_value i.
Fixpoint show (l : list item) : list Z :=
  match l with
  | [] => []
  | [i] => i_name i ++ 61 :: show_value i
  | i :: r => i_name i ++ 61 :: show_value i ++ i_sep i ++ show r
  end.
Definition good_item (i : item) : Prop := good_name (i_name i) /\ good_value (i_value i) (i_quoted i) /\ separator (i_sep i).
(** The daemon ends the last line, or not. *)
Definition line_end (e : list Z) : Prop := e = [] \/ e = [13; 10].

(** A peer, for addresses of type [A]. *)
Record peer (A : Type) := mkPeer {
  p_remote : option A; p_local : option A; p_stratum : Z; p_candidate : bool;
  p_offset : Q; p_rootdisp : Q; p_sent : Z; p_received : Z; p_self : bool;
  p_selected : bool; p_shortlist : bool }.
Arguments mkPeer {A}. Arguments p_remote {A}. Arguments p_local {A}. Arguments p_stratum {A}. Arguments p_candidate {A}.
Arguments p_offset {A}. Arguments p_rootdisp {A}. Arguments p_sent {A}. Arguments p_received {A}. Arguments p_self {A}.
Arguments p_selected {A}. Arguments p_shortlist {A}.

(** The value a list of variables gives to a name. *)
Definition gives (l : list item) (n : list Z) (v : list Z) : Prop :=
  exists i, In i l /\ i_name i = n /\ i_value i = v.

(** An association: its identifier and status word. *)
Definition association := (Z * Z)%type.
Definition assoc_bytes (l : list association) : list Z := flat_map (fun a => be16 (fst a) ++ be16 (snd a)) l.
(** Configured or reachable; the daemon's choice of it (RFC 1305 appendix B.2.2). *)
Definition listed (a : association) : bool := negb (Z.land (snd a / 256) 144 =? 0).
Definition selection (a : association) : Z := (snd a / 256) mod 8.

(** The host in an address as the daemon prints it: alone, with a port, in brackets. *)
Definition colons (v : list Z) : nat := List.length (filter (Z.eqb 58) v).
Inductive host : list Z -> list Z -> Prop :=
| host_alone : forall h, hd 0 h <> 91 -> colons h <> 1%nat -> ~ In 0 h -> host h h
| host_port : forall h port, hd 0 h <> 91 -> h <> [] -> ~ In 58 h -> ~ In 58 port -> ~ In 0 h -> ~ In 0 port -> host (h ++ 58 :: port) h
| host_bracket : forall h r, ~ In 93 h -> ~ In 0 h -> ~ In 0 r -> (List.length h < 2000)%nat -> host (91 :: h ++ 93 :: r) h.
(** The values the client reads as numbers or addresses can be read so. *)
Definition readable (u32 : list Z -> option Z) (flt : list Z -> option Q) (i : item) : Prop :=
  (In (i_name i) (map txt ["stratum"; "hmode"; "sent"; "received"]%string) -> u32 (i_value i) <> None) /\
  (In (i_name i) (map txt ["offset"; "rootdisp"]%string) -> flt (i_value i) <> None) /\
  (In (i_name i) (map txt ["srcadr"; "dstadr"; "peeradr"]%string) -> exists h, host (i_value i) h).

(** Names with commas between. *)
Fixpoint commas (l : list (list Z)) : list Z :=
  match l with [] => [] | [n] => n | n :: r => n ++ 44 :: commas r end.
Fixpoint text_prefix (a b : list Z) : bool :=
  match a, b with [], _ => true | x :: a', y :: b' => (x =? y) && text_prefix a' b' | _, [] => false end.
