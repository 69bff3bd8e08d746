(** Specification vocabulary for PTP messages on the wire (C40, C41).

    IEEE 1588 messages are sequences of big-endian fields (octets are numbers 0..255). *)
Require Import ZArith List.
Import ListNotations.
From Verif Require Import TimeSpec.
Open Scope Z_scope.

Definition octets := list Z.
Definition is_octet (x : Z) : Prop := 0 <= x < 256.
Definition all_octets (b : octets) : Prop := Forall is_octet b.

(** [v], signed or not, as [n] octets, most significant first. *)
Fixpoint bytes (n : nat) (v : Z) : octets :=
  match n with O => [] | S k => (v / 256 ^ Z.of_nat k) mod 256 :: bytes k v end.

(** The wire form of a table of (width in octets, value). *)
Definition wire (fields : list (nat * Z)) : octets := flat_map (fun f => bytes (fst f) (snd f)) fields.

(** Field of [w] octets with value [v]. *)
Notation "w @@ v" := (w%nat, v%Z) (at level 70).

(** The common message header, IEEE 1588-2019 table 35.  A clock identity is one 64-bit number. *)
Record header := mkHeader {
  majorSdo : Z; mtype : Z; minorVersion : Z; version : Z; mlength : Z; domain : Z; minorSdo : Z;
  flags0 : Z; flags1 : Z; correction : Z; typeSpecific : Z; clockId : Z; portNo : Z;
  seqId : Z; control : Z; logInterval : Z }.

Definition header_wire (h : header) : octets := wire [
  1 @@ 16 * majorSdo h + mtype h; 1 @@ 16 * minorVersion h + version h; 2 @@ mlength h;
  1 @@ domain h; 1 @@ minorSdo h; 1 @@ flags0 h; 1 @@ flags1 h; 8 @@ correction h;
  4 @@ typeSpecific h; 8 @@ clockId h; 2 @@ portNo h; 2 @@ seqId h; 1 @@ control h;
  1 @@ logInterval h].

Definition in_u (n : Z) (v : Z) : Prop := 0 <= v < 2 ^ n.
Definition in_s (n : Z) (v : Z) : Prop := - 2 ^ (n - 1) <= v < 2 ^ (n - 1).

(** Every field is a value its wire field can hold. *)
Definition header_fits (h : header) : Prop :=
  in_u 4 (majorSdo h) /\ in_u 4 (mtype h) /\ in_u 4 (minorVersion h) /\ in_u 4 (version h) /\
  in_u 16 (mlength h) /\ in_u 8 (domain h) /\ in_u 8 (minorSdo h) /\ in_u 8 (flags0 h) /\
  in_u 8 (flags1 h) /\ in_s 64 (correction h) /\ in_u 32 (typeSpecific h) /\
  in_u 64 (clockId h) /\ in_u 16 (portNo h) /\ in_u 16 (seqId h) /\ in_u 8 (control h) /\
  in_s 8 (logInterval h).

(** Message bodies.  A timestamp on the wire has 48 bits of seconds and 32 of nanoseconds. *)
Record stamp := mkStamp { w_sec : Z; w_ns : Z }.
Record port_id := mkPort { pid_clock : Z; pid_port : Z }.
Record announce := mkAnnounce {
  a_origin : stamp; a_utc : Z; a_prio1 : Z; a_class : Z; a_accuracy : Z; a_variance : Z;
  a_prio2 : Z; a_gm : Z; a_steps : Z; a_source : Z }.

Definition stamp_fields (t : stamp) := [6 @@ w_sec t; 4 @@ w_ns t].
Definition port_fields (p : port_id) := [8 @@ pid_clock p; 2 @@ pid_port p].
(** Sync, Delay_Req, Follow_Up bodies (tables 42, 43): a timestamp. *)
Definition stamp_wire (t : stamp) : octets := wire (stamp_fields t).
(** Delay_Resp, Pdelay_Resp, Pdelay_Resp_Follow_Up bodies (tables 44, 46, 47): a timestamp and
    the identity of the requesting port. *)
Definition resp_wire (t : stamp) (p : port_id) : octets := wire (stamp_fields t ++ port_fields p).
(** Announce body (table 41); one reserved octet after the UTC offset. *)
Definition announce_wire (reserved : Z) (a : announce) : octets := wire (stamp_fields (a_origin a) ++ [
  2 @@ a_utc a; 1 @@ reserved; 1 @@ a_prio1 a; 1 @@ a_class a; 1 @@ a_accuracy a;
  2 @@ a_variance a; 1 @@ a_prio2 a; 8 @@ a_gm a; 2 @@ a_steps a; 1 @@ a_source a]).

Definition stamp_fits (t : stamp) : Prop := in_u 48 (w_sec t) /\ in_u 32 (w_ns t).
Definition port_fits (p : port_id) : Prop := in_u 64 (pid_clock p) /\ in_u 16 (pid_port p).
Definition announce_fits (a : announce) : Prop :=
  stamp_fits (a_origin a) /\ in_s 16 (a_utc a) /\ in_u 8 (a_prio1 a) /\ in_u 8 (a_class a) /\
  in_u 8 (a_accuracy a) /\ in_u 16 (a_variance a) /\ in_u 8 (a_prio2 a) /\ in_u 64 (a_gm a) /\
  in_u 16 (a_steps a) /\ in_u 8 (a_source a).

(** The time a wire timestamp denotes, in units of 2^-16 ns (the unit of correction fields). *)
Definition stamp16 (t : stamp) : Z := (w_sec t * 1000000000 + w_ns t) * 2^16.
(** A local time in the same unit, truncated. *)
Definition local16 (t : ts) : Z := instant t / 2^16.

(** What a port puts into its messages. *)
Record port := mkPortCfg {
  p_minor : Z; p_domain : Z; p_two_step : bool; p_id : port_id;
  p_seq_announce : Z; p_seq_sync : Z; p_seq_dreq : Z; p_seq_pdreq : Z;
  p_log_sync : Z; p_log_announce : Z; p_log_dreq : Z;
  p_leap59 : bool; p_leap61 : bool; p_utc_valid : bool; p_ptp_scale : bool;
  p_time_trace : bool; p_freq_trace : bool;
  p_announce : announce }.

Definition port_ok (p : port) : Prop :=
  in_u 4 (p_minor p) /\ in_u 8 (p_domain p) /\ port_fits (p_id p) /\
  in_u 16 (p_seq_announce p) /\ in_u 16 (p_seq_sync p) /\ in_u 16 (p_seq_dreq p) /\
  in_u 16 (p_seq_pdreq p) /\ in_s 8 (p_log_sync p) /\ in_s 8 (p_log_announce p) /\
  in_s 8 (p_log_dreq p) /\ announce_fits (p_announce p).

(** The header a port's messages must carry: protocol version 2, its own identity; the two-step
    flag (bit 1 of the first flag octet) only where the standard has it. *)
Definition sent_header (p : port) (type len dom f0 f1 corr seq ctl log : Z) : header :=
  mkHeader 0 type (p_minor p) 2 len dom 0 f0 f1 corr 0 (pid_clock (p_id p)) (pid_port (p_id p))
           seq ctl log.
Definition two_step_flag (p : port) : Z := if p_two_step p then 2 else 0.
(** Second flag octet (table 37): bit 0 leap 61, 1 leap 59, 2 UTC offset valid, 3 PTP timescale,
    4 time traceable, 5 frequency traceable. *)
Definition bit (b : bool) (n : Z) : Z := if b then 2 ^ n else 0.
Definition time_flags (p : port) : Z :=
  bit (p_leap61 p) 0 + bit (p_leap59 p) 1 + bit (p_utc_valid p) 2 + bit (p_ptp_scale p) 3 +
  bit (p_time_trace p) 4 + bit (p_freq_trace p) 5.

Definition zero_stamp := mkStamp 0 0.
(** The Announce body a port sends: its data with a zero origin timestamp. *)
Definition announced (p : port) : announce :=
  let a := p_announce p in
  mkAnnounce zero_stamp (a_utc a) (a_prio1 a) (a_class a) (a_accuracy a) (a_variance a)
             (a_prio2 a) (a_gm a) (a_steps a) (a_source a).
Definition undefined_interval : Z := 127.

(** Every received message is one of these kinds; the length of its fixed part. *)
Inductive kind := KSync | KDelayReq | KPDelayReq | KPDelayResp | KFollowUp | KDelayResp
                | KPDelayRespFollowUp | KAnnounce | KSignaling | KManagement.
Definition kind_code (k : kind) : Z :=
  match k with KSync => 0 | KDelayReq => 1 | KPDelayReq => 2 | KPDelayResp => 3 | KFollowUp => 8
  | KDelayResp => 9 | KPDelayRespFollowUp => 10 | KAnnounce => 11 | KSignaling => 12
  | KManagement => 13 end.

(** Field tables (as in the standard's TLV and data set descriptions): the size each field
    occupies and its type. *)
Inductive fty :=
  | U (n : nat)      (* unsigned, n octets, big-endian *)
  | I (n : nat)      (* signed *)
  | Hi | Lo          (* upper, lower half of an octet *)
  | Bool4.           (* Boolean is an enum, of 4 octets, and is not byte-swapped *)
Definition field := (nat * fty)%type.


(** [described fs vs w]: the table [fs] filled with the values [vs] is on the wire [w].  Two halves
    of an octet are described by a field of size 0 and one of size 1. *)
Inductive described : list field -> list Z -> list (nat * Z) -> Prop :=
  | d_nil : described [] [] []
  | d_u n v fs vs w : in_u (8 * Z.of_nat n) v -> described fs vs w ->
      described ((n, U n) :: fs) (v :: vs) ((n, v) :: w)
  | d_i n v fs vs w : (0 < n)%nat -> in_s (8 * Z.of_nat n) v -> described fs vs w ->
      described ((n, I n) :: fs) (v :: vs) ((n, v) :: w)
  | d_half a b fs vs w : in_u 4 a -> in_u 4 b -> described fs vs w ->
      described ((0%nat, Hi) :: (1%nat, Lo) :: fs) (a :: b :: vs) ((1%nat, 16 * a + b) :: w).

(** *** Decoding *)
(** The [n] octets from offset [off]. *)
Definition part (off n : nat) (b : octets) : octets := firstn n (skipn off b).

(** The pointer to a message's management TLV: none, valid (type, length, id), or freed. *)
Inductive tlv_ptr := NoTlv | Tlv (type len id : Z) | Freed.

(** A decoded message body; management and signaling messages are the list of their fields,
    header included. *)
Inductive body :=
  | BStamp (t : stamp) | BResp (t : stamp) (p : port_id) | BAnnounce (a : announce)
  | BMgmt (m : list Z) (t : tlv_ptr) | BSignaling (m : list Z).


(** Octets a message of each kind must have.  (A Pdelay_Req's last ten octets are reserved; the
    implementation does not insist on them.) *)
Definition kind_size (k : kind) : nat :=
  match k with KSync | KDelayReq | KPDelayReq | KFollowUp => 44
  | KPDelayResp | KDelayResp | KPDelayRespFollowUp => 54
  | KAnnounce => 64 | KSignaling => 44 | KManagement => 48 end.

(** The kind a datagram claims (low half of its first octet), the length it claims (octets 2 and
    3), and the octets to be believed: received and claimed. *)
Definition claimed_code (d : octets) : Z := nth 0 d 0 mod 16.
Definition claimed_length (d : octets) : Z := nth 2 d 0 * 256 + nth 3 d 0.
Definition usable (d : octets) : nat := Nat.min (length d) (Z.to_nat (claimed_length d)).

(** Fields of signaling and management messages (tables 51, 54), header first. *)
Definition header_layout (m : list Z) : option (list (nat * Z) * list Z) :=
  match m with
  | sdo :: type :: minor :: ver :: len :: dom :: msdo :: f0 :: f1 :: corr :: spec :: clk :: prt ::
    seq :: ctl :: log :: rest =>
      Some ([1 @@ 16 * sdo + type; 1 @@ 16 * minor + ver; 2 @@ len; 1 @@ dom; 1 @@ msdo; 1 @@ f0;
             1 @@ f1; 8 @@ corr; 4 @@ spec; 8 @@ clk; 2 @@ prt; 2 @@ seq; 1 @@ ctl; 1 @@ log], rest)
  | _ => None
  end.
Definition signaling_layout (m : list Z) : option (list (nat * Z)) :=
  match header_layout m with
  | Some (h, [tclk; tprt]) => Some (h ++ [8 @@ tclk; 2 @@ tprt])
  | _ => None
  end.
Definition management_layout (m : list Z) : option (list (nat * Z)) :=
  match header_layout m with
  | Some (h, [tclk; tprt; start; hops; res; action; res1]) =>
      Some (h ++ [8 @@ tclk; 2 @@ tprt; 1 @@ start; 1 @@ hops; 1 @@ 16 * res + action; 1 @@ res1])
  | _ => None
  end.

(** [says k d m]: the body [m] is what the octets of [d], a message of kind [k], stand for. *)
Definition says (k : kind) (d : octets) (m : body) : Prop :=
  match k, m with
  | (KSync | KDelayReq | KPDelayReq | KFollowUp), BStamp t =>
      stamp_fits t /\ stamp_wire t = part 34 10 d
  | (KPDelayResp | KDelayResp | KPDelayRespFollowUp), BResp t q =>
      stamp_fits t /\ port_fits q /\ resp_wire t q = part 34 20 d
  | KAnnounce, BAnnounce a => announce_fits a /\ announce_wire (nth 46 d 0) a = part 34 30 d
  | KSignaling, BSignaling v =>
      exists w, signaling_layout v = Some w /\ wire w = part 0 44 d
  | KManagement, BMgmt v t =>
      (exists w, management_layout v = Some w /\ wire w = part 0 48 d) /\
      match t with
      | NoTlv => claimed_length d <= 48
      | Tlv ty l i => (54 <= usable d)%nat /\ in_u 16 ty /\ in_u 16 l /\ in_u 16 i /\
                      wire [2 @@ ty; 2 @@ l; 2 @@ i] = part 48 6 d
      | Freed => False
      end
  | _, _ => False
  end.
