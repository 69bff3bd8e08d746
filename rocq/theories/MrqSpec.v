(** C80, specification: a request to the NTP daemon (private mode, mode 7). *)
Require Import ZArith List Bool.
Require Import Verif.MdgSpec.
Import ListNotations.
Open Scope Z_scope.

Definition be16 (x : Z) : list Z := [x / 256; x mod 256].
(** Version 2, mode 7; authenticated or not; implementation 3; the request; [n] items of [size] octets. *)
Definition header (auth : bool) (req n size : Z) : list Z := [2 * 8 + 7; if auth then 128 else 0; 3; req] ++ be16 n ++ be16 size.
(** The time the request is valid at: the time now (seconds since 1900 and fraction, 64 bits) and 20 ms. *)
Definition stamp (now : Z) : list Z := let t := (now + 85899346) mod 2^64 in be32 (t / 2^32) ++ be32 (t mod 2^32).
(** The request of [sz] octets: header, items, zeros; if it is authenticated the time is at its end and the authenticator follows. *)
Definition wanted (auth : bool) (req n size : Z) (items : list Z) (sz : nat) (now : Z) (key : list Z) (keyid : Z) : list Z :=
  let start := header auth req n size ++ items in
  if auth then let p := start ++ repeat 0 (sz - 8 - length start) ++ stamp now in p ++ mac key keyid p
  else start ++ repeat 0 (sz - length start).
