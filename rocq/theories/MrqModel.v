(** C80, model: mode7_request of ntp/sfptpd_ntpd_client_mode7.c, as the octets given to send(2).
    [big] and [junk]: byte order of the host and old contents of the digest context (see MdgModel).  The time (lines 838-859) is
    a parameter: seconds since 1900 and fraction, 32 bits each.  [data] is what the pointer leads to. *)
Require Import ZArith List Bool.
Require Import Verif.Base Verif.MdgModel.
Import ListNotations.
Open Scope Z_scope.

(** sizeof(struct ntp_request_pkt), lines 283-294: 8 + 176 + 4 + 4 + 20. *)
Definition REQUEST : nat := 212.
Definition htons (x : Z) : list Z := [x / 256 mod 256; x mod 256].
(** M_ADD, lines 120-135. *)
Definition m_add (ri rf ai af : Z) : Z * Z :=
  let lo := u32 (Z.land rf 65535 + Z.land af 65535) in
  let hi := u32 (Z.land (Z.shiftr rf 16) 65535 + Z.land (Z.shiftr af 16) 65535) in
  let hi := if Z.land lo 65536 =? 0 then hi else u32 (hi + 1) in
  let f := Z.lor (Z.shiftl (Z.land hi 65535) 16) (Z.land lo 65535) in
  let i := u32 (ri + ai) in
  (if Z.land hi 65536 =? 0 then i else u32 (i + 1), f).
(** mode7_request, lines 881-936.  [None]: a copy over the end of pkt.data (176 octets) or of the packet, or a read behind the
    items. *)
Definition request (big : bool) (junk : list Z) (auth : bool) (req n size : Z) (data : list Z) (sz : nat) (sec frac : Z) (key : list Z) (keyid : Z) : option (list Z) :=
  do p1 <- copy (repeat 0 REQUEST) 0 [23; 0; 3; req mod 256];
  let ds := n * size in
  do p2 <- (if 0 <? ds then if (ds <=? 176) && (ds <=? Z.of_nat (length data)) then copy p1 8 (firstn (Z.to_nat ds) data) else None else Some p1);
  do p3 <- copy p2 4 (htons (if 0 <? ds then Z.land n 4095 else 0));
  do p4 <- copy p3 6 (htons size);
  if negb auth then Some (firstn sz p4) else
  do p5 <- copy p4 1 [128];
  let '(i, f) := m_add sec frac 0 85899346 in
  do p6 <- copy p5 (sz - 8) (htonl big i ++ htonl big f);
  do x <- authencrypt big junk key p6 sz keyid;
  let '(p7, mac_len) := x in Some (firstn (sz + Z.to_nat mac_len) p7).
