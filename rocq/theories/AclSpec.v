(** Specification vocabulary for access control lists (C20).  Text is a list of character
    codes. *)
Require Import ZArith List Bool.
Import ListNotations.
From Verif Require Import Base.
Open Scope Z_scope.

(** A network: the addresses whose first [n_len] bits are those of [n_addr]. *)
Record net := mkNet { n_addr : Z; n_len : Z }.
Definition contains (n : net) (a : Z) : Prop :=
  a / 2^(32 - n_len n) = n_addr n / 2^(32 - n_len n).
Definition within (ns : list net) (a : Z) : Prop := exists n, In n ns /\ contains n a.
Definition is_addr (a : Z) : Prop := 0 <= a < 2^32.

(** Order of evaluation, as documented: with allow-deny an address is accepted if it is on
    the allow list and not on the deny list; with deny-allow it is accepted unless it is on
    the deny list and not on the allow list. *)
Inductive order := AllowDeny | DenyAllow.
Definition accepts (o : order) (allow deny : list net) (a : Z) : Prop :=
  match o with
  | AllowDeny => within allow a /\ ~ within deny a
  | DenyAllow => within deny a -> within allow a
  end.

(** How networks are written.  A decimal number: *)
Definition digit (c : Z) : Prop := 48 <= c <= 57.
Definition digits_value (s : list Z) : Z := fold_left (fun acc c => acc * 10 + (c - 48)) s 0.
Definition decimal (s : list Z) (v : Z) : Prop := s <> [] /\ Forall digit s /\ v = digits_value s.
(** Four numbers up to 255 with dots between them (46 is a dot): *)
Definition dotted (s : list Z) (a : Z) : Prop :=
  exists s1 s2 s3 s4 o1 o2 o3 o4,
    decimal s1 o1 /\ decimal s2 o2 /\ decimal s3 o3 /\ decimal s4 o4 /\
    o1 <= 255 /\ o2 <= 255 /\ o3 <= 255 /\ o4 <= 255 /\
    s = s1 ++ 46 :: s2 ++ 46 :: s3 ++ 46 :: s4 /\
    a = o1 * 2^24 + o2 * 2^16 + o3 * 2^8 + o4.
(** The mask of a prefix length. *)
Definition mask_of (len : Z) : Z := 2^32 - 2^(32 - len).
(** A host; a network with its prefix length (47 is a slash); a network with a mask. *)
Inductive entry_text : list Z -> net -> Prop :=
  | text_host : forall s a, dotted s a -> entry_text s (mkNet a 32)
  | text_prefix : forall s a l n, dotted s a -> decimal l n -> n <= 32 -> entry_text (s ++ 47 :: l) (mkNet a n)
  | text_mask : forall s a m n, dotted s a -> dotted m (mask_of n) -> 0 <= n <= 32 -> entry_text (s ++ 47 :: m) (mkNet a n).
(** The only way of writing that is excluded below: the mask 255.255.255.255. *)
Inductive full_mask : list Z -> Prop :=
  | is_full : forall s a m, dotted s a -> dotted m (mask_of 32) -> full_mask (s ++ 47 :: m).

(** Entries are separated by commas, spaces, semicolons and tabs. *)
Definition separator (c : Z) : Prop := c = 44 \/ c = 32 \/ c = 59 \/ c = 9.
Inductive list_text : list Z -> list (list Z * net) -> Prop :=
  | text_end : forall d, Forall separator d -> list_text d []
  | text_cons : forall d t n rest es,
      Forall separator d -> entry_text t n -> list_text rest es ->
      (rest = [] \/ exists c r, rest = c :: r /\ separator c) ->
      list_text (d ++ t ++ rest) ((t, n) :: es).

(** A text is well formed if it is empty or lists at least one network, and no mask in it is
    255.255.255.255. *)
Definition good_text (s : list Z) (es : list (list Z * net)) : Prop :=
  (s = [] /\ es = []) \/ (list_text s es /\ es <> [] /\ Forall (fun e => ~ full_mask (fst e)) es).

(** The kinds of list and what is configured for each: whether it is enabled and the
    compiled list if there is one (it is missing if the text was rejected, or, for timing
    and management, if the transport is not IPv4). *)
Inductive kind := Management | Timing | Monitoring.
