(** Specification vocabulary for the TLVs that follow a PTP message (C42).

    A TLV is a type, a length and that many octets of contents; TLVs follow the fixed part of a
    message one after the other (IEEE 1588-2019, 14.1). *)
Require Import ZArith List Bool.
Import ListNotations.
From Verif Require Import MsgSpec.
Open Scope Z_scope.

Record tlv := mkTlv { t_type : Z; t_value : octets }.

Definition tlv_wire (t : tlv) : octets :=
  bytes 2 (t_type t) ++ bytes 2 (Z.of_nat (length (t_value t))) ++ t_value t.
Definition tlvs_wire (l : list tlv) : octets := flat_map tlv_wire l.

(** Organisation extensions: their contents begin with the organisation's identifier and a subtype
    of its choosing, three octets each. *)
Definition is_org (type : Z) : bool := (type =? 3) || (type =? 16384) || (type =? 32768).

(** A TLV that can be put on the wire. *)
Definition tlv_ok (t : tlv) : Prop :=
  in_u 16 (t_type t) /\ in_u 16 (Z.of_nat (length (t_value t))) /\ all_octets (t_value t) /\
  (is_org (t_type t) = true -> (6 <= length (t_value t))%nat).

(** What sfptpd understands. *)
Inductive concern := MonReq | MtieReq | Pad | Timing | Computed | TxStamps | Status | Caps.

Definition sfc_status : octets := bytes 3 3923 ++ bytes 3 1.   (* organisation 00-0F-53, subtype 1 *)
Definition meaning (t : tlv) : option concern :=
  if t_type t =? 8702 then Some MonReq               (* 0x21FE *)
  else if t_type t =? 8704 then Some MtieReq         (* 0x2200 *)
  else if t_type t =? 32776 then Some Pad            (* 0x8008 *)
  else if t_type t =? 32772 then Some Timing         (* 0x8004 *)
  else if t_type t =? 32773 then Some Computed       (* 0x8005 *)
  else if t_type t =? 32774 then Some TxStamps       (* 0x8006 *)
  else if t_type t =? 32770 then Some Caps           (* 0x8002 *)
  else if t_type t =? 32768 then                     (* 0x8000 *)
    if list_eq_dec Z.eq_dec (firstn 6 (t_value t)) sfc_status then Some Status else None
  else None.

(** What is passed on: the contents, without the organisation's identifier and subtype. *)
Definition passed (c : concern) (v : octets) : octets :=
  match c with Status => skipn 6 v | _ => v end.

(** The messages a TLV may follow. *)
Definition belongs (c : concern) (k : kind) : bool :=
  match c, k with
  | (MonReq | MtieReq), KDelayReq => true
  | (Timing | Computed | TxStamps | Status), KSignaling => true
  | Caps, KAnnounce => true
  | Pad, _ => true
  | _, _ => false
  end.

(** The receiving port: whether the sender passes the timing and the monitoring access control
    lists, the minor protocol version in use, whether monitoring requests are answered, whether
    this daemon collects other slaves' reports, whether the message has a receive timestamp. *)
Record ctx := mkCtx {
  c_timing : bool; c_monitoring : bool; c_minor : Z; c_netsync : bool; c_collect : bool;
  c_stamped : bool }.

(** The access control lists a TLV's sender must pass. *)
Definition trusted (x : ctx) (c : concern) : bool :=
  match c with
  | MonReq | MtieReq => c_timing x && c_monitoring x
  | Timing | Computed | TxStamps | Status => c_monitoring x
  | Pad | Caps => true
  end.

(** The TLVs to be acted on, in order. *)
Definition admitted (x : ctx) (k : kind) (l : list tlv) : list (concern * octets) :=
  flat_map (fun t => match meaning t with
                     | Some c => if trusted x c && belongs c k then [(c, passed c (t_value t))] else []
                     | None => []
                     end) l.

(** Every TLV before the last one is not an organisation extension. *)
Fixpoint org_last (l : list tlv) : Prop :=
  match l with
  | [] => True
  | [_] => True
  | t :: l' => is_org (t_type t) = false /\ org_last l'
  end.

(** A capabilities TLV whose contents are too short; versions before 2.1 do not look. *)
Definition bad_caps (x : ctx) (e : concern * octets) : Prop :=
  fst e = Caps /\ 1 <= c_minor x /\ (length (snd e) < 2)%nat.

(** What becomes of a message and its TLVs: *)
Inductive event :=
  | Answer                                          (* monitoring replies sent *)
  | NoStamp                                         (* a request without a receive timestamp *)
  | Report (c : concern) (pre : list Z) (els : list (list Z)).   (* a slave's report recorded *)

(** The capabilities the last such TLV gives: low halves of its first two octets. *)
Definition caps_of (x : ctx) (l : list (concern * octets)) : option (Z * Z) :=
  fold_left (fun a e => match fst e with
                        | Caps => if c_minor x <? 1 then a
                                  else Some (nth 0 (snd e) 0 mod 16, nth 1 (snd e) 0 mod 16)
                        | _ => a
                        end) l None.
Definition wants_mtie (l : list (concern * octets)) : bool :=
  existsb (fun e => match fst e with MtieReq => true | _ => false end) l.

(** *** Slaves' reports (IEEE 1588-2019, 16.11.4 and 16.11.5, and sfptpd's own status report). *)
Definition uf (n : nat) : field := (n, U n).
Definition sf (n : nat) : field := (n, I n).
(** Source port, then per Sync: sequence number, origin timestamp, correction, rate offset,
    ingress timestamp. *)
Definition timing_start := [uf 8; uf 2].
Definition timing_element := [uf 2; uf 6; uf 4; sf 8; sf 4; uf 6; uf 4].
(** Source port, flags, reserved; per Sync: sequence number, offset, mean path delay, rate ratio. *)
Definition computed_start := [uf 8; uf 2; uf 1; uf 1].
Definition computed_element := [uf 2; sf 8; sf 8; sf 4].
(** Source port, message type in the lower half of an octet, reserved octet; per message: sequence
    number, egress timestamp. *)
Definition tx_port := [uf 8; uf 2].
Definition tx_element := [uf 2; uf 6; uf 4].
(** Grandmaster, time, missing message alarms, other alarms, events, flags, port state. *)
Definition status_fields := [uf 8; uf 6; uf 4; uf 2; uf 2; uf 2; uf 2; uf 1].

(** [filled_all fs els w]: each element's values are on the wire, one element after the other. *)
Inductive filled_all (fs : list field) : list (list Z) -> octets -> Prop :=
  | fa_nil : filled_all fs [] []
  | fa_cons e els w o : described fs e w -> filled_all fs els o ->
      filled_all fs (e :: els) (wire w ++ o).

(** [acts x e evs]: handling the admitted TLV [e] has the effects [evs]. *)
Inductive acts (x : ctx) : concern * octets -> list event -> Prop :=
  | a_mon v : acts x (MonReq, v)
      (if c_netsync x then [if c_stamped x then Answer else NoStamp] else [])
  | a_quiet c v : c = MtieReq \/ c = Pad \/ c = Caps -> acts x (c, v) []
  | a_ignored c v : c_collect x = false -> c = Timing \/ c = Computed \/ c = TxStamps \/ c = Status ->
      acts x (c, v) []
  | a_timing p w els o slack : c_collect x = true ->
      described timing_start p w -> filled_all timing_element els o -> (length slack < 34)%nat ->
      acts x (Timing, wire w ++ o ++ slack) [Report Timing p els]
  | a_computed p w els o slack : c_collect x = true ->
      described computed_start p w -> filled_all computed_element els o -> (length slack < 22)%nat ->
      acts x (Computed, wire w ++ o ++ slack) [Report Computed p els]
  | a_tx p w t r els o slack : c_collect x = true ->
      described tx_port p w -> is_octet t -> is_octet r ->
      filled_all tx_element els o -> (length slack < 12)%nat ->
      acts x (TxStamps, wire w ++ [t; r] ++ o ++ slack) [Report TxStamps (p ++ [t mod 16; r / 16; r]) els]
  | a_status f w slack : c_collect x = true -> described status_fields f w ->
      acts x (Status, wire w ++ slack) [Report Status f []]
  | a_short_status v : c_collect x = true -> (length v < 27)%nat -> acts x (Status, v) [].

(** A report cut short before its first element, at a daemon that collects reports. *)
Definition cut_report (x : ctx) (e : concern * octets) : Prop :=
  c_collect x = true /\
  (fst e = Timing /\ (length (snd e) < 10)%nat \/ fst e = Computed /\ (length (snd e) < 12)%nat \/
   fst e = TxStamps /\ (length (snd e) < 12)%nat).

(** Whether the message itself is then handled: not if it was a monitoring request. *)
Definition handled_on (x : ctx) (l : list (concern * octets)) : bool :=
  negb (c_netsync x && existsb (fun e => match fst e with MonReq => true | _ => false end) l).

(** *** Sending *)
(** A message with its length replaced. *)
Definition with_length (n : nat) (m : octets) : octets :=
  firstn 2 m ++ bytes 2 (Z.of_nat n) ++ skipn 4 m.

(** [carries k d l pad]: the datagram [d] is a message of kind [k], whose header's length covers
    the fixed part, the TLVs [l] and then the octets [pad].  (Path delay requests and management
    messages are treated apart.) *)
Definition carries (k : kind) (d : octets) (l : list tlv) (pad : octets) : Prop :=
  all_octets d /\ claimed_code d = kind_code k /\ (kind_size k <= usable d)%nat /\
  part (kind_size k) (usable d - kind_size k) d = tlvs_wire l ++ pad.
