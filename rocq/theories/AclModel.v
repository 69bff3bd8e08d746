(** Model of src/ptp/ptpd2/dep/ipv4_acl.c and of the checks in src/ptp/ptpd2/protocol.c. *)
Require Import ZArith List Bool.
Import ListNotations.
From Verif Require Import Base ListLib AclSpec.
Open Scope Z_scope.

(** The tokens strtok_r finds in [s]: the maximal runs of characters that are not
    delimiters; [cur] is the current run, reversed. *)
Definition flush (cur : list Z) : list (list Z) := match cur with [] => [] | _ => [rev cur] end.
Fixpoint tokens (isd : Z -> bool) (cur s : list Z) {struct s} : list (list Z) :=
  match s with
  | [] => flush cur
  | c :: s' => if isd c then flush cur ++ tokens isd [] s' else tokens isd (c :: cur) s'
  end.
Definition dot (c : Z) : bool := c =? 46.
Definition slash (c : Z) : bool := c =? 47.
Definition sep (c : Z) : bool := (c =? 44) || (c =? 32) || (c =? 59) || (c =? 9).

(** strtol(s, &end, 10): white space, an optional sign, digits; 0 if there are none.  A value
    that does not fit a long sets errno, which the callers treat like one out of range. *)
Definition isspace (c : Z) : bool := (c =? 32) || ((9 <=? c) && (c <=? 13)).
Definition isdigit (c : Z) : bool := (48 <=? c) && (c <=? 57).
Fixpoint skip_space (s : list Z) : list Z :=
  match s with c :: s' => if isspace c then skip_space s' else s | [] => [] end.
Fixpoint take_digits (acc : Z) (s : list Z) : Z :=
  match s with c :: s' => if isdigit c then take_digits (acc * 10 + (c - 48)) s' else acc | [] => acc end.
Definition strtol (s : list Z) : Z :=
  match skip_space s with
  | 45 :: s' => - take_digits 0 s'
  | 43 :: s' => take_digits 0 s'
  | s' => take_digits 0 s'
  end.

Definition in_range (x lo hi : Z) : bool := (lo <=? x) && (x <=? hi).

(** ipToArray, src/ptp/ptpd2/dep/ipv4_acl.c:70-119, on the tokens between dots, for an array
    of four octets.  [None]: a write beyond the array; [Some None]: the error result. *)
Fixpoint octets (isMask : bool) (toks : list (list Z)) (dest : list Z) (count : nat) {struct toks}
  : option (option (list Z)) :=
  if (4 <? count)%nat then Some None else
  match toks with
  | [] => Some (Some dest)
  | t :: rest =>
      let o := strtol t in
      if in_range o 0 255 then
        if (count <? 4)%nat then
          let dest := set_nth count o dest in
          if isMask && (o <? 255) then Some (Some dest) else octets isMask rest dest (S count)
        else None
      else Some None
  end.
Definition ip_to_array (isMask : bool) (s : list Z) : option (option (list Z)) :=
  octets isMask (tokens dot [] s) [0; 0; 0; 0] 0.

(** AclEntry, src/ptp/ptpd2/dep/ipv4_acl.h:21-26. *)
Record entry := mkEntry { network : Z; bitmask : Z; netmask : Z; hits : Z }.

Definition word (os : list Z) : Z :=
  match os with [a; b; c; d] => Z.lor (Z.lor (Z.lor (u32 (a * 2^24)) (b * 2^16)) (c * 2^8)) d | _ => 0 end.

(** The loop counting the bits of a mask, line 178: [None] is a shift by 32 or more. *)
Fixpoint shifts (fuel : nat) (tmp : Z) (count : Z) : option Z :=
  match fuel with
  | O => None
  | S f => if 32 <=? count then None
           else if u32 (tmp * 2^count) =? 0 then Some count else shifts f tmp (count + 1)
  end.

(** parseAclEntry, src/ptp/ptpd2/dep/ipv4_acl.c:122-192.  The shifts of signed values into and
    out of the sign bit are taken as gcc does them. *)
Definition parse_entry (line : list Z) : option (option entry) :=
  match tokens slash [] line with
  | [] => Some None
  | tok :: more =>
    let n := length (tokens dot [] tok) in
    if (4 <? n)%nat || (n <? 1)%nat then Some None else
    do r <- ip_to_array false tok;
    match r with
    | None => Some None
    | Some os =>
      let net := word os in
      match more with
      | [] => Some (Some (mkEntry (Z.land net (2^32 - 1)) (2^32 - 1) 32 0))
      | tok2 :: _ =>
        let n2 := length (tokens dot [] tok2) in
        if (n2 =? 1)%nat then
          let o := strtol tok2 in
          if in_range o 0 32 then
            let bm := if o =? 0 then 0 else u32 ((-1) * 2^(32 - o)) in
            Some (Some (mkEntry (Z.land net bm) bm o 0))
          else Some None
        else if (4 <? n2)%nat then Some None else
          do r2 <- ip_to_array true tok2;
          match r2 with
          | None => Some None
          | Some ms =>
              let bm := word ms in
              do count <- shifts 33 bm 0;
              Some (Some (mkEntry (Z.land net bm) bm (u16 count) 0))
          end
      end
    end
  end.

(** The loop of maskParser, lines 230-247. *)
Fixpoint parse_entries (toks : list (list Z)) : option (option (list entry)) :=
  match toks with
  | [] => Some (Some [])
  | t :: rest =>
      do r <- parse_entry t;
      match r with
      | None => Some None
      | Some e => do r2 <- parse_entries rest;
                  match r2 with None => Some None | Some es => Some (Some (e :: es)) end
      end
  end.

Section Sort.
(** qsort by network number; the order of equal elements is unspecified, so any
    rearrangement. *)
Variable sort : list entry -> list entry.

(** maskParser and createMaskTable, src/ptp/ptpd2/dep/ipv4_acl.c:213-277: the text is parsed
    once to count the entries and once to store them. *)
Definition create_table (input : list Z) : option (option (list entry)) :=
  match input with
  | [] => Some (Some [])
  | _ => match tokens sep [] input with
         | [] => Some None
         | toks => do r <- parse_entries toks;
                   match r with None => Some None | Some es => Some (Some (sort es)) end
         end
  end.

(** Ipv4AccessList. *)
Record acl := mkAcl { allow : list entry; deny : list entry; ord : order; passed : Z; dropped : Z }.

(** createIpv4AccessList, lines 334-348. *)
Definition create (allow_text deny_text : list Z) (o : order) : option (option acl) :=
  do a <- create_table allow_text;
  do d <- create_table deny_text;
  match a, d with
  | Some a, Some d => Some (Some (mkAcl a d o 0 0))
  | _, _ => Some None
  end.
End Sort.

(** matchAddress, lines 351-369: whether an entry matched, and the table with its counter. *)
Fixpoint match_address (addr : Z) (t : list entry) : bool * list entry :=
  match t with
  | [] => (false, [])
  | e :: t' =>
      if Z.land (bitmask e) addr =? network e
      then (true, mkEntry (network e) (bitmask e) (netmask e) (u32 (hits e + 1)) :: t')
      else let '(b, t'') := match_address addr t' in (b, e :: t'')
  end.

(** matchIpv4AccessList, lines 372-449.  For a missing list the counter of the result is
    incremented through a null pointer: [None]. *)
Definition match_acl (a : option acl) (addr : Z) : option (bool * acl) :=
  do a <- a;
  let '(ma, allow') := match_address addr (allow a) in
  let '(md, deny') := match_address addr (deny a) in
  let ret := match ord a with
             | AllowDeny => if negb ma then false else if md then false else true
             | DenyAllow => if md && negb ma then false else true
             end in
  Some (ret, mkAcl allow' deny' (ord a)
               (if ret then u32 (passed a + 1) else passed a)
               (if ret then dropped a else u32 (dropped a + 1))).

(** The lists of an interface, and the results already found for a message. *)
Definition same_kind (a b : kind) : bool :=
  match a, b with Management, Management | Timing, Timing | Monitoring, Monitoring => true | _, _ => false end.
Record iface := mkIface { enabled : kind -> bool; lists : kind -> option acl }.
Record memo := mkMemo { checked : kind -> bool; ok : kind -> bool }.
Definition set_kind {A} (f : kind -> A) (k : kind) (x : A) : kind -> A :=
  fun k' => if same_kind k' k then x else f k'.

(** checkACL, src/ptp/ptpd2/protocol.c:866-933. *)
Definition check (k : kind) (addr : Z) (i : iface) (m : memo) : option (bool * iface * memo) :=
  if checked m k then Some (ok m k, i, m) else
  let result pass i := Some (pass, i, mkMemo (set_kind (checked m) k true)
                                             (if pass : bool then set_kind (ok m) k true else ok m)) in
  if negb (enabled i k) then result true i else
  match lists i k with
  | None => Some (false, i, m)
  | Some a => do r <- match_acl (Some a) addr;
              result (fst r) (mkIface (enabled i) (set_kind (lists i) k (Some (snd r))))
  end.

(** checkACLmask, lines 936-962: the kinds in the mask, from the lowest bit. *)
Fixpoint check_mask (ks : list kind) (addr : Z) (i : iface) (m : memo) : option (bool * iface * memo) :=
  match ks with
  | [] => Some (true, i, m)
  | k :: rest => do r <- check k addr i m;
                 let '(b, i', m') := r in
                 if b then check_mask rest addr i' m' else Some (false, i', m')
  end.

Definition no_memo : memo := mkMemo (fun _ => false) (fun _ => false).

(** The check in processMessage, lines 988-1021: [own] if the message has no source address
    or the interface's own.  The result says whether the message is processed. *)
Definition admit (own management : bool) (addr : Z) (i : iface) : option (bool * iface * memo) :=
  if own then Some (true, i, no_memo)
  else if management then check Management addr i no_memo
  else if enabled i Timing then check Timing addr i no_memo
  else Some (true, i, no_memo).

(** A received message: the check, and if it is processed the further check of a TLV that
    requires the kinds [ks] (processTLVs, lines 1345-1360).  The results are whether the
    message, and the TLV, are processed. *)
Definition receive (own management : bool) (ks : list kind) (addr : Z) (i : iface) : option (bool * bool * iface) :=
  do r <- admit own management addr i;
  let '(b, i1, m1) := r in
  if b : bool then do r2 <- check_mask ks addr i1 m1; let '(t, i2, _) := r2 in Some (true, t, i2)
  else Some (false, false, i1).

(** The sender of a message: an IPv4 address, or an IPv6 flow label and address. *)
Inductive sender := V4 (a : Z) | V6 (flow : Z) (a : Z).
(** What the lists are applied to, src/ptp/ptpd2/protocol.c:917-919: the field sin_addr of the
    address as if it were an IPv4 one; in an IPv6 address sin6_flowinfo is there. *)
Definition acl_addr (s : sender) : Z := match s with V4 a => a | V6 flow _ => flow end.
(** netInitACLs..., src/ptp/ptpd2/dep/net.c:1982-2007: which lists are compiled.  The timing
    and management lists only if the transport is IPv4, the monitoring list always. *)
Definition compile (ipv4 : bool) (en : kind -> bool) (made : kind -> option acl) : iface :=
  mkIface en (fun k => if en k && (ipv4 || same_kind k Monitoring) then made k else None).

(** parse_ptp_acl_list, src/ptp/sfptpd_ptp_config.c:517-538: each parameter and a space are
    appended with snprintf, which writes at most [size - len] characters including the
    terminator.  [None]: E2BIG. The result is the string in the buffer. *)
Fixpoint acl_list (size : nat) (params : list (list Z)) (text : list Z) (len : nat) : option (list Z) :=
  match params with
  | [] => Some text
  | p :: rest =>
      let add := p ++ [32] in
      let text' := text ++ firstn (size - len - 1) add in
      let len' := (len + length add)%nat in
      if (size <? len')%nat then None else acl_list size rest text' len'
  end.
