(** Transcription of the transmit timestamp cache of src/ptp/ptpd2/dep/net.c. Statistics are left out. *)
Require Import ZArith List Bool.
Import ListNotations.
From Verif Require Import Base ListLib TimeSpec TimeModel TscSpec.
Open Scope Z_scope.

(** TS_CACHE_SIZE, datatypes.h:804; TS_MAX_PDU, datatypes.h:757. *)
Definition size : nat := 32.
Definition max_pdu : nat := 54.

(** struct sfptpd_ts_pkt, datatypes.h:761-774.  Octets, trailer, user, time, sequence number, alarm. *)
Record pkt := mkPkt { k_data : list Z; k_trailer : nat; k_user : user; k_sent : ts; k_seq : Z; k_alarmed : bool }.
(** struct sfptpd_ts_cache, datatypes.h:807-826. *)
Record cache := mkCache { packets : list pkt; free : Z; next_seq : Z; last_ok : ts }.

Definition no_pkt : pkt := mkPkt [] 0%nat (0, 0, 0) null_time 0 false.
Definition packet (c : cache) (s : nat) : pkt := nth s (packets c) no_pkt.

(** sfptpd_ts_cache_init, net.c:1798-1808: the packets are what the memory held. *)
Definition init (ps : list pkt) : cache := mkCache ps (2^32 - 1) 0 null_time.

(** __builtin_clz of a nonzero unsigned int, and the bit of a slot, net.c:229-239. *)
Definition clz (x : Z) : nat := (31 - Z.to_nat (Z.log2 x))%nat.
Definition bit_of (s : nat) : Z := Z.of_nat (size - s - 1).
(** ~((unsigned int) INT_MAX) >> slot. *)
Definition slot_mask (s : nat) : Z := Z.shiftr (2^31) (Z.of_nat s).
(** & ~(1 << bit): the shift of 1 into the sign bit is gcc's. *)
Definition clear (x : Z) (s : nat) : Z := Z.ldiff x (2 ^ bit_of s).

(** The slots TS_CACHE_FOREACH visits, net.c:213-251.  The iterator is a copy of the complement of the
    bitmap.  (After the last one the macro takes clz of 0, whose value is not used.) *)
Fixpoint slots (fuel : nat) (it : Z) : list nat :=
  match fuel with
  | O => []
  | S fuel => if it =? 0 then [] else clz it :: slots fuel (clear it (clz it))
  end.
Definition busy (c : cache) : list nat := slots size (2^32 - 1 - free c).

(** The loop that looks for the oldest packet, net.c:2299-2306: it looks at the first one each time. *)
Fixpoint oldest_loop (c : cache) (ss : list nat) (oldest : Z) (at_slot : nat) : nat :=
  match ss with
  | [] => at_slot
  | s :: ss => let q := k_seq (packet c 0) in
               if q <? oldest then oldest_loop c ss q s else oldest_loop c ss oldest at_slot
  end.
(** The slot whose user is then formatted, net.c:2307: the loop variable after the loop. *)
Definition formatted_slot : nat := size.

(** netExpectTimestamp, net.c:2285-2340.  The read of the slot to be formatted is beyond the array; what
    it gives is used for a debug message only.  With [lenient] it is taken to be harmless, without it
    is undefined. *)
Definition expect (lenient : bool) (c : cache) (u : user) (data : list Z) (trailer : nat) (now : ts) : option (cache * ticket) :=
  do f <- (if free c =? 0 then
             do _ <- (if lenient then Some no_pkt else nth_error (packets c) formatted_slot);
             Some (Z.lor (free c) (slot_mask (oldest_loop c (seq 0 size) (2^64 - 1) 0)))
           else Some (free c));
  let s := clz f in
  let p := mkPkt (firstn max_pdu data) trailer u now (next_seq c) false in
  Some (mkCache (set_nth s p (packets c)) (clear f s) (u64 (next_seq c + 1)) (last_ok c), (u32 (next_seq c), Z.of_nat s)).

Fixpoint same (a b : list Z) : bool :=
  match a, b with
  | [], [] => true
  | x :: a, y :: b => (x =? y) && same a b
  | _, _ => false
  end.

(** The test in netMatchPacketToTsCache, net.c:1143-1156. *)
Definition matches (p : pkt) (seen : list Z) : bool :=
  let l := (length (k_data p) + k_trailer p)%nat in
  if Nat.ltb (length seen) l then false
  else same (k_data p) (firstn (length (k_data p)) (skipn (length seen - l) seen)).

(** netMatchPacketToTsCache, net.c:1126-1187; the slots to look at in order. *)
Definition match_among (c : cache) (seen : list Z) (ss : list nat) : option (cache * answer) :=
  match find (fun s => matches (packet c s) seen) ss with
  | None => Some (c, NotFound)
  | Some s =>
      let p := packet c s in
      do newer <- is_ge (k_sent p) (last_ok c);
      Some (mkCache (packets c) (Z.lor (free c) (2 ^ bit_of s)) (next_seq c) (if newer then k_sent p else last_ok c),
            Found (u32 (k_seq p), Z.of_nat s) (k_user p))
  end.
Definition match_packet (c : cache) (seen : list Z) : option (cache * answer) := match_among c seen (busy c).

(** netCheckTimestampAlarms, net.c:1418-1475, for one slot.  The enumeration (datatypes.h:27-31) has
    TRISTATE_ON = 0, TRISTATE_OFF = 1, TRISTATE_Z = 2; the code compares with the number 1. *)
Definition check_slot (port : Z) (now : ts) (s : nat) (st : cache * Z) : option (cache * Z) :=
  let '(c, alarm) := st in
  let p := packet c s in
  if port_of (k_user p) =? port then
    do elapsed <- subtract now (k_sent p);
    do late <- is_ge elapsed (mkTs 1 0 0);
    do unanswered <- (if late then is_ge (k_sent p) (last_ok c) else Some false);
    let '(c1, alarm1) :=
      if late && unanswered && negb (alarm =? 1) then
        if k_alarmed p then (c, 2)
        else (mkCache (set_nth s (mkPkt (k_data p) (k_trailer p) (k_user p) (k_sent p) (k_seq p) true) (packets c))
                      (free c) (next_seq c) (last_ok c), 0)
      else (c, alarm) in
    do gone <- is_ge elapsed (mkTs 10 0 0);
    Some (if gone then mkCache (packets c1) (Z.lor (free c1) (slot_mask s)) (next_seq c1) (last_ok c1) else c1, alarm1)
  else Some (c, alarm).
Fixpoint check_slots (port : Z) (now : ts) (ss : list nat) (st : cache * Z) : option (cache * Z) :=
  match ss with
  | [] => Some st
  | s :: ss => do st' <- check_slot port now s st; check_slots port now ss st'
  end.
Definition check (c : cache) (port : Z) (now : ts) : option (cache * Z) := check_slots port now (busy c) (c, 1).

Definition step (lenient : bool) (o : op) (c : cache) : option (cache * answer) :=
  match o with
  | OExpect u d t now => do r <- expect lenient c u d t now; Some (fst r, Ticket (snd r))
  | OMatch seen => match_packet c seen
  | OCheck p now => do r <- check c p now; Some (fst r, Alarm (snd r))
  end.
(** A history: the state it leads to and the answers given. *)
Fixpoint run (lenient : bool) (h : list op) (c : cache) : option (cache * list answer) :=
  match h with
  | [] => Some (c, [])
  | o :: h' => do r <- step lenient o c; do r' <- run lenient h' (fst r); Some (fst r', snd r :: snd r')
  end.

(** The requests that wait, in the order of their slots (a reading of the state, not code). *)
Definition request_at (c : cache) (s : nat) : request :=
  let p := packet c s in mkReq (u32 (k_seq p), Z.of_nat s) (k_data p) (k_trailer p) (k_user p) (k_sent p).
Definition waiting (c : cache) : list request :=
  map (request_at c) (filter (fun s => negb (Z.testbit (free c) (bit_of s))) (seq 0 size)).
