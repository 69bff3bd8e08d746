(** Transcription of the best master clock algorithm and of the foreign
    master table: src/ptp/ptpd2/bmc.c and src/ptp/ptpd2/foreign.c.

    Out-of-range table accesses and reads of uninitialised memory are [None].

    Simplifications, each repeated where it applies:
    - struct fields that no modelled function reads (addresses, comm_caps,
      sequence numbers, time source ...) are left out;
    - CLOCK_MONOTONIC readings are integers (nanosecond fractions): comparing
      normalised timespecs is exact (theorem C02_is_greater_or_equal), and
      monotonic times are far from the overflow bound;
    - offsets are exact rationals instead of long double. *)
Require Import ZArith QArith Qabs List Bool.
From Verif Require Import Base ListLib BmcSpec.
Import ListNotations.
Open Scope Z_scope.

(** ** Comparison of data sets *)

(** memcmp on two octet arrays: -1, 0 or 1 (bmc.c:507,521,531,542 keep the
    result in a short and look only at its sign; glibc returns a difference
    of octets, which a short holds). *)
Fixpoint memcmp (a b : list Z) : Z :=
  match a, b with
  | x :: a', y :: b' => if x <? y then -1 else if y <? x then 1 else memcmp a' b'
  | _, _ => 0
  end.

(** three-way comparison as the "<" / ">" pairs of bmc.c:566-609; [k] is what
    follows when the two are equal. *)
Definition cmp3 (a b : Z) (k : Z) : Z := if a <? b then -1 else if b <? a then 1 else k.

(** the UTC-valid preference, bmc.c:572-579 (a set flag is better). *)
Definition cmp_utc (prefer : bool) (a b : bool) (k : Z) : Z :=
  if prefer then
    if a && negb b then -1 else if negb a && b then 1 else k
  else k.

(** bmcDataSetComparison part 1, bmc.c:563-616; [comp] is the comparison of
    the grandmaster identities made at bmc.c:507. *)
Definition part1 (prefer : bool) (A B : dset) (comp : Z) : Z :=
  cmp3 (d_prio1 A) (d_prio1 B)
  (cmp_utc prefer (d_utcv A) (d_utcv B)
  (cmp3 (d_class A) (d_class B)
  (cmp3 (d_acc A) (d_acc B)
  (cmp3 (d_var A) (d_var B)
  (cmp3 (d_prio2 A) (d_prio2 B)
  (if comp <? 0 then -1 else if 0 <? comp then 1 else 0)))))).

(** bmcDataSetComparison, bmc.c:498-560: everything before the port numbers
    are looked at.  [inl r]: the function returned [r]; [inr tt]: it goes on
    to compare port numbers.  [parent] is ptpClock->parentPortIdentity's
    clock identity. *)
Definition compare_pre (prefer : bool) (parent : clock_id) (A B : dset) : Z + unit :=
  let comp := memcmp (d_gm A) (d_gm B) in
  if negb (comp =? 0) then inl (part1 prefer A B comp)
  else if d_steps B + 1 <? d_steps A then inl 1
  else if d_steps A + 1 <? d_steps B then inl (-1)
  else if d_steps B <? d_steps A then
    let c := memcmp (p_clk (d_src A)) parent in
    inl (if c <? 0 then -1 else if 0 <? c then 1 else 0)
  else if d_steps A <? d_steps B then
    let c := memcmp (p_clk (d_src B)) parent in
    inl (if c <? 0 then -1 else if 0 <? c then 1 else 0)
  else
    let c := memcmp (p_clk (d_src A)) (p_clk (d_src B)) in
    if c <? 0 then inl (-1) else if 0 <? c then inl 1 else inr tt.

(** bmcDataSetComparison on two received data sets, bmc.c:498-617. *)
Definition compare (prefer : bool) (parent : clock_id) (A B : dset) : Z :=
  match compare_pre prefer parent A B with
  | inl r => r
  | inr _ => cmp3 (p_num (d_src A)) (p_num (d_src B)) 0
  end.

(** ** The local clock *)

(** The fields of PtpClock and RunTimeOpts used here (datatypes.h). *)
Record clock := mkClock {
  c_id : clock_id;                  (** clockIdentity *)
  c_prio1 : Z; c_prio2 : Z; c_class : Z; c_acc : Z; c_var : Z;
  c_utcv : bool;                    (** timePropertiesDS.currentUtcOffsetValid *)
  c_slave_only : bool; c_master_only : bool;
  c_prefer : bool;                  (** rtOpts->preferUtcValid *)
  c_opt_steps : Z;                  (** rtOpts->stepsRemoved *)
  c_opt_utcv : bool;                (** rtOpts->timeProperties.currentUtcOffsetValid *)
  c_bgm : option clock_id;          (** boundaryGrandmasterIdentity if defined *)
  c_override_utc : bool;            (** rtOpts->overrideUtcOffset *)
  c_disc : Q; c_disc_thr : Q;       (** discriminator_offset, _threshold *)
  c_state : pstate;                 (** portState *)
  c_parent : pident;                (** parentPortIdentity *)
  c_gm : clock_id;                  (** grandmasterIdentity *)
  c_steps : Z;                      (** stepsRemoved *)
  c_changes : Z;                    (** counters.masterChanges *)
  c_errors : Z                      (** counters.protocolErrors *)
}.

(** copyD0, bmc.c:469-492.  sourcePortIdentity.portNumber is not written:
    [compare_own] below never uses [p_num (d_src _)] of this data set. *)
Definition d0 (c : clock) : dset :=
  mkDset (c_prio1 c) (c_class c) (c_acc c) (c_var c) (c_prio2 c)
         (c_id c) 0 (mkPid (c_id c) 0) (c_utcv c) 0.

(** the comparison of bmcStateDecision, bmc.c:656-663: when it gets as far as
    the port numbers it reads the uninitialised one of tmp_header. *)
Definition compare_own (c : clock) (B : dset) : option Z :=
  match compare_pre (c_prefer c) (p_clk (c_parent c)) (d0 c) B with
  | inl r => Some r
  | inr _ => None
  end.

Definition set_parent (c : clock) (utcv : bool) (p : pident) (gm : clock_id) (steps : Z) : clock :=
  mkClock (c_id c) (c_prio1 c) (c_prio2 c) (c_class c) (c_acc c) (c_var c)
          utcv (c_slave_only c) (c_master_only c) (c_prefer c) (c_opt_steps c)
          (c_opt_utcv c) (c_bgm c) (c_override_utc c) (c_disc c) (c_disc_thr c) (c_state c)
          p gm steps (c_changes c) (c_errors c).

Definition bump_changes (c : clock) : clock :=
  mkClock (c_id c) (c_prio1 c) (c_prio2 c) (c_class c) (c_acc c) (c_var c)
          (c_utcv c) (c_slave_only c) (c_master_only c) (c_prefer c) (c_opt_steps c)
          (c_opt_utcv c) (c_bgm c) (c_override_utc c) (c_disc c) (c_disc_thr c) (c_state c)
          (c_parent c) (c_gm c) (c_steps c) (c_changes c + 1) (c_errors c).

Definition bump_errors (c : clock) : clock :=
  mkClock (c_id c) (c_prio1 c) (c_prio2 c) (c_class c) (c_acc c) (c_var c)
          (c_utcv c) (c_slave_only c) (c_master_only c) (c_prefer c) (c_opt_steps c)
          (c_opt_utcv c) (c_bgm c) (c_override_utc c) (c_disc c) (c_disc_thr c) (c_state c)
          (c_parent c) (c_gm c) (c_steps c) (c_changes c) (c_errors c + 1).

(** m1, bmc.c:155-199 (servo reset and the remaining copies left out). *)
Definition m1 (c : clock) : clock :=
  set_parent c (c_opt_utcv c) (mkPid (c_id c) 0)
             (match c_bgm c with Some g => g | None => c_id c end) (c_opt_steps c).

(** p1, bmc.c:203-241. *)
Definition p1 (B : dset) (c : clock) : clock :=
  set_parent c (c_opt_utcv c) (d_src B) (d_gm B) (c_opt_steps c).

(** s1, bmc.c:307-464 (stepsRemoved is a UInteger16: bmc.c:325; the UTC flag
    bmc.c:387,400; leap flags, TAI offset and announce interval left out). *)
Definition s1 (B : dset) (c : clock) : clock :=
  set_parent c (c_override_utc c || d_utcv B) (d_src B) (d_gm B) (u16 (d_steps B + 1)).

Definition pid_eqb (a b : pident) : bool :=
  (memcmp (p_clk a) (p_clk b) =? 0) && (p_num a =? p_num b).

(** the "new best master" bookkeeping, bmc.c:629-631 with 635-639, 670-674,
    694-698. *)
Definition note_change (newbm : bool) (c : clock) : clock :=
  if newbm then bump_changes c else c.

(** bmcStateDecision, bmc.c:620-719.  [num] is foreign.number_records. *)
Definition state_decision (num : nat) (c : clock) (B : dset) : option (pstate * clock) :=
  let newbm := negb (pid_eqb (d_src B) (c_parent c)) in
  if c_slave_only c then Some (SLAVE, note_change newbm (s1 B c))
  else if Nat.eqb num 0 && pstate_eqb (c_state c) LISTENING then Some (LISTENING, c)
  else
    do comp <- compare_own c B;
    if c_class c <? 128 then
      if comp <? 0 then Some (MASTER, m1 c)
      else if 0 <? comp then Some (PASSIVE, note_change newbm (p1 B c))
      else Some (FAULTY, bump_errors c)
    else
      if comp <? 0 then Some (MASTER, m1 c)
      else if 0 <? comp then Some (SLAVE, note_change newbm (s1 B c))
      else Some (FAULTY, bump_errors c).

(** ** Foreign master records *)

(** ForeignMasterRecord, datatypes.h:76-100. *)
Record frec := mkRec {
  r_pid : pident;                   (** foreignMasterPortIdentity *)
  r_ds : dset;                      (** announce and header *)
  r_times : list Z;                 (** announceTimes *)
  r_widx : nat;                     (** announceTimesWriteIdx *)
  r_count : nat;                    (** announceTimesCount *)
  r_off : option Q                  (** syncSnapshot: offset if have_offset *)
}.

(** FOREIGN_MASTER_THRESHOLD, constants.h:91. *)
Definition FM_THRESHOLD : nat := 2.

Definition zero_id : clock_id := repeat 0 8.
Definition zero_dset : dset :=
  mkDset 0 0 0 0 0 zero_id 0 (mkPid zero_id 0) false 0.
(** a record of the calloc'ed table, foreign.c:159-160. *)
Definition zero_rec : frec :=
  mkRec (mkPid zero_id 0) zero_dset (repeat 0 FM_THRESHOLD) 0 0 None.

(** recordForeignMasterAnnounce, foreign.c:104-113. *)
Definition record_announce (now : Z) (r : frec) : option frec :=
  if Nat.ltb (r_widx r) (length (r_times r)) then
    Some (mkRec (r_pid r) (r_ds r) (set_nth (r_widx r) now (r_times r))
                (ring_next FM_THRESHOLD (r_widx r))
                (if Nat.ltb (r_count r) FM_THRESHOLD then S (r_count r) else r_count r)
                (r_off r))
  else None.

(** index computations of foreign.c:120-123 and 138-141; the assert and the
    array bound are checked. *)
Definition time_at (r : frec) (back : nat) : option Z :=
  let i := (Z.of_nat (r_widx r) - Z.of_nat back) in
  let i := if i <? 0 then i + Z.of_nat FM_THRESHOLD else i in
  if i <? 0 then None else nth_error (r_times r) (Z.to_nat i).

(** doesForeignMasterLatestAnnounceQualify, foreign.c:116-131. *)
Definition latest_qualifies (th : Z) (r : frec) : option bool :=
  if Nat.eqb (r_count r) 0 then Some false
  else do t <- time_at r 1; Some (th <=? t).

(** doesForeignMasterEarliestAnnounceQualify, foreign.c:134-149. *)
Definition earliest_qualifies (th : Z) (r : frec) : option bool :=
  if Nat.eqb (r_count r) 0 then Some false
  else do t <- time_at r (r_count r); Some (th <=? t).

Inductive qualification := QUALIFIED | BY_EXPIRY | BY_DISCRIMINATOR | BY_STEPS.

(** the discriminator test of getQualification, bmc.c:735-755: true if the
    record is disqualified. *)
Definition disc_disqualifies (off thr : Q) (seen : option Q) : bool :=
  if Qeq_bool off 0 then false
  else match seen with
       | None => true
       | Some o => Qle_bool thr (Qabs (o - off))
       end.

(** getQualification, bmc.c:722-762. *)
Definition get_qual (th : Z) (c : clock) (r : frec) : option qualification :=
  if Nat.ltb (r_count r) FM_THRESHOLD then Some BY_EXPIRY
  else
    do e <- earliest_qualifies th r;
    if negb e then Some BY_EXPIRY
    else if disc_disqualifies (c_disc c) (c_disc_thr c) (r_off r) then Some BY_DISCRIMINATOR
    else if 255 <=? d_steps (r_ds r) then Some BY_STEPS
    else Some QUALIFIED.

(** ** The table *)

(** ForeignMasterDS, datatypes.h:102-108: max_records is the length of
    [f_recs].  The indexes are Integer16; they are never negative. *)
Record fds := mkFds {
  f_recs : list frec; f_num : nat; f_write : nat; f_best : nat
}.
Definition f_max (f : fds) : nat := length (f_recs f).

(** initForeignMasterDS, foreign.c:152-168 (allocation succeeded). *)
Definition finit (max : nat) : fds := mkFds (repeat zero_rec max) 0 0 0.

(** resetForeignMasterDS, foreign.c:171-181. *)
Definition freset (f : fds) : fds := mkFds (f_recs f) 0 0 0.

(** findForeignMasterRecord, foreign.c:73-101: at most [fuel] =
    number_records probes, starting at index [j]. *)
Fixpoint find_from (recs : list frec) (num : nat) (p : pident) (fuel j : nat)
  : option (option nat) :=
  match fuel with
  | O => Some None
  | S fuel' =>
    do r <- nth_error recs j;
    if pid_eqb p (r_pid r) then Some (Some j)
    else find_from recs num p fuel' (Nat.modulo (j + 1) num)
  end.
Definition find (f : fds) (p : pident) : option (option nat) :=
  find_from (f_recs f) (f_num f) p (f_num f) (f_best f).

(** insertIntoForeignMasterDS, foreign.c:198-271.  The header's source port
    identity is [d_src d]; [now] is the CLOCK_MONOTONIC reading of
    recordForeignMasterAnnounce.  Returns the table and the index. *)
Definition finsert (now : Z) (d : dset) (f : fds) : option (fds * nat) :=
  do found <- find f (d_src d);
  match found with
  | Some j =>
    do r <- nth_error (f_recs f) j;
    do r' <- record_announce now (mkRec (r_pid r) d (r_times r) (r_widx r) (r_count r) (r_off r));
    Some (mkFds (set_nth j r' (f_recs f)) (f_num f) (f_write f) (f_best f), j)
  | None =>
    let w := if Nat.ltb (f_write f) (f_num f) && Nat.eqb (f_write f) (f_best f)
             then Nat.modulo (f_write f + 1) (f_max f) else f_write f in
    let num := if Nat.ltb (f_num f) (f_max f) then S (f_num f) else f_num f in
    do r <- nth_error (f_recs f) w;
    do r' <- record_announce now (mkRec (d_src d) d (r_times r) 0 0 (r_off r));
    Some (mkFds (set_nth w r' (f_recs f)) num (Nat.modulo (w + 1) (f_max f)) (f_best f), w)
  end.

(** recordForeignSync / recordForeignFollowUp, foreign.c:419-469: the only
    effect on modelled fields is that the snapshot of the sender's record
    (if it has one) is replaced. *)
Definition fsync (p : pident) (o : option Q) (f : fds) : option fds :=
  do found <- find f p;
  match found with
  | Some j =>
    do r <- nth_error (f_recs f) j;
    Some (mkFds (set_nth j (mkRec (r_pid r) (r_ds r) (r_times r) (r_widx r) (r_count r) o)
                         (f_recs f)) (f_num f) (f_write f) (f_best f))
  | None => Some f
  end.

Section Memmove.
(** sizeof(ForeignMasterRecord), and what a record looks like after its first
    [k] bytes have been replaced by those of another: arbitrary. *)
Variable SZ : Z.
Variable mix : Z -> frec -> frec -> frec.

(** memmove(&records[i], &records[i+1], sizeof(record) * number - i - 1),
    foreign.c:498-500: the byte count is [SZ * num - i - 1], not
    [SZ * (num - i - 1)].  [None] if it leaves the table. *)
Definition move_down (i num : nat) (recs : list frec) : option (list frec) :=
  let bytes := SZ * Z.of_nat num - Z.of_nat i - 1 in
  let whole := Z.to_nat (bytes / SZ) in
  let part := bytes mod SZ in
  if (bytes <? 0) || (SZ * Z.of_nat (length recs) <? SZ * (Z.of_nat i + 1) + bytes) then None
  else
    let moved := firstn whole (skipn (S i) recs) in
    let rest := skipn (i + whole) recs in
    Some (firstn i recs ++ moved ++
          (if part =? 0 then rest else
           match rest with
           | a :: b :: t => mix part a b :: b :: t
           | _ => rest
           end)).

(** expireForeignMasterRecords, foreign.c:484-519: each iteration either
    advances [i] or removes a record, so [fuel] = number_records suffices. *)
Fixpoint expire_from (fuel : nat) (th : Z) (i : nat) (f : fds) : option fds :=
  match fuel with
  | O => Some f
  | S fuel' =>
    if Nat.ltb i (f_num f) then
      do r <- nth_error (f_recs f) i;
      do q <- latest_qualifies th r;
      if q then expire_from fuel' th (S i) f
      else
        do recs <- move_down i (f_num f) (f_recs f);
        expire_from fuel' th i
          (mkFds recs (f_num f - 1)
                 (if Nat.ltb i (f_write f) then f_write f - 1 else f_write f)
                 (if Nat.ltb i (f_best f) then f_best f - 1 else f_best f))
    else Some f
  end.
Definition expire (th : Z) (f : fds) : option fds := expire_from (f_num f) th 0 f.
End Memmove.

(** deleteUnselectedMasters, bmc.c:769-797: [i] is readIndex, [w] writeIndex;
    every record is read before its slot is overwritten because w <= i. *)
Fixpoint delete_from (fuel : nat) (th : Z) (c : clock) (num i w : nat)
         (best : nat) (recs : list frec) : option (list frec * nat * nat) :=
  match fuel with
  | O => Some (recs, w, best)
  | S fuel' =>
    do r <- nth_error recs i;
    do q <- get_qual th c r;
    match q with
    | QUALIFIED =>
      if Nat.eqb i best
      then delete_from fuel' th c num (S i) (S w) w (set_nth w r recs)
      else delete_from fuel' th c num (S i) w best recs
    | _ => delete_from fuel' th c num (S i) (S w) best (set_nth w r recs)
    end
  end.
Definition delete_unselected (th : Z) (c : clock) (f : fds) : option fds :=
  do x <- delete_from (f_num f) th c (f_num f) 0 0 (f_best f) (f_recs f);
  let '(recs, w, best) := x in
  Some (mkFds recs w w best).

(** first loop of bmc, bmc.c:840-851: first qualified record at or after
    [i]; [None] inside means there is none.  The boolean is
    discriminator_disqual. *)
Fixpoint first_qual (th : Z) (c : clock) (l : list frec) (i : nat) (dq : bool)
  : option (option nat * bool) :=
  match l with
  | [] => Some (None, dq)
  | r :: t =>
    do q <- get_qual th c r;
    match q with
    | QUALIFIED => Some (Some i, dq)
    | BY_DISCRIMINATOR => first_qual th c t (S i) true
    | _ => first_qual th c t (S i) dq
    end
  end.

(** state of the second loop, bmc.c:857-891: best index and record so far,
    numberRecords, hadResult, discriminator_disqual. *)
Record scan := mkScan {
  s_best : nat; s_rec : frec; s_count : nat; s_had : bool; s_dq : bool
}.
Fixpoint scan_rest (th : Z) (c : clock) (l : list frec) (i : nat) (s : scan) : option scan :=
  match l with
  | [] => Some s
  | r :: t =>
    do q <- get_qual th c r;
    match q with
    | QUALIFIED =>
      let comp := compare (c_prefer c) (p_clk (c_parent c)) (r_ds r) (r_ds (s_rec s)) in
      scan_rest th c t (S i)
        (mkScan (if comp <? 0 then i else s_best s) (if comp <? 0 then r else s_rec s)
                (S (s_count s)) (s_had s || negb (comp =? 0)) (s_dq s))
    | BY_DISCRIMINATOR =>
      scan_rest th c t (S i) (mkScan (s_best s) (s_rec s) (s_count s) (s_had s) true)
    | _ => scan_rest th c t (S i) s
    end
  end.

(** the choice made by bmc, bmc.c:837-897: the index of the chosen record, if
    there was a decision, and discriminator_disqual. *)
Definition choose (th : Z) (c : clock) (f : fds) : option (option nat * bool) :=
  let live := firstn (f_num f) (f_recs f) in
  do x <- first_qual th c live 0 false;
  match x with
  | (None, dq) => Some (None, dq)
  | (Some b, dq) =>
    do rb <- nth_error live b;
    do s <- scan_rest th c (skipn (S b) live) (S b) (mkScan b rb 1 false dq);
    Some (if s_had s || Nat.eqb (s_count s) 1 then Some (s_best s) else None, s_dq s)
  end.

(** bmc, bmc.c:802-908.  [th1] is the expiry time read at line 837, [th2] the
    one read again by deleteUnselectedMasters (line 779). *)
Definition bmc (th1 th2 : Z) (c : clock) (f : fds) : option (pstate * clock * fds) :=
  if Nat.eqb (f_num f) 0 || c_master_only c then
    Some (c_state c, if pstate_eqb (c_state c) MASTER then m1 c else c, f)
  else
    do x <- choose th1 c f;
    match x with
    | (Some b, _) =>
      do f' <- delete_unselected th2 c (mkFds (f_recs f) (f_num f) (f_write f) b);
      do r <- nth_error (f_recs f') (f_best f');
      do sc <- state_decision (f_num f') c (r_ds r);
      Some (sc, f')
    | (None, dq) =>
      Some (if dq && pstate_eqb (c_state c) SLAVE then LISTENING else c_state c, c, f)
    end.

(** ** Histories of table operations *)
Inductive fop :=
| Announce (now : Z) (d : dset)          (** addForeign, foreign.c:274-295 *)
| SyncSeen (p : pident) (o : option Q)   (** recordForeignSync / FollowUp *)
| Expire (th : Z)                        (** protocol.c:677-688 *)
| RunBmc (th1 th2 : Z) (c : clock)       (** protocol.c:604-610 *)
| Reset.                                 (** bmc.c:150 *)

Definition fstep (SZ : Z) (mix : Z -> frec -> frec -> frec) (f : fds) (o : fop) : option fds :=
  match o with
  | Announce now d => do x <- finsert now d f; Some (fst x)
  | SyncSeen p o => fsync p o f
  | Expire th => expire SZ mix th f
  | RunBmc th1 th2 c => do x <- bmc th1 th2 c f; Some (snd x)
  | Reset => Some (freset f)
  end.

Fixpoint frun (SZ : Z) (mix : Z -> frec -> frec -> frec) (f : fds) (l : list fop) : option fds :=
  match l with
  | [] => Some f
  | o :: l' => do f' <- fstep SZ mix f o; frun SZ mix f' l'
  end.

(** ** Announce interval *)

(** PTPD_MESSAGE_INTERVAL_UNDEFINED, _ANNOUNCE_INTERVAL_MIN, _MAX:
    constants.h:52,55,56. *)
Definition IVAL_UNDEFINED : Z := 127.
Definition IVAL_MIN : Z := -4.
Definition IVAL_MAX : Z := 4.

(** loop of ptpd_update_announce_interval, bmc.c:251-261. *)
Fixpoint longest_from (l : list frec) (acc : Z) : Z :=
  match l with
  | [] => acc
  | r :: t =>
    let i := d_ival (r_ds r) in
    longest_from t (if negb (i =? IVAL_UNDEFINED) && ((acc =? IVAL_UNDEFINED) || (acc <? i))
                    then i else acc)
  end.
(** ptpd_update_announce_interval, bmc.c:243-304; [dflt] is
    rtOpts->announceInterval. *)
Definition announce_interval (dflt : Z) (f : fds) : Z :=
  let l := longest_from (firstn (f_num f) (f_recs f)) IVAL_UNDEFINED in
  if negb (l =? IVAL_UNDEFINED) then
    if l <? IVAL_MIN then IVAL_MIN else if IVAL_MAX <? l then IVAL_MAX else l
  else dflt.
