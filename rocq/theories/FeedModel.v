(** Model of src/sfptpd_clockfeed.c.  Memory is sequentially consistent, one word at a time
    (the code has no barriers; reordering of the writes of one sample is allowed, reordering
    across the update of the write counter or of reads is not modelled). *)
Require Import ZArith List Bool.
Require Import Verif.Base Verif.ListLib Verif.TimeSpec Verif.TimeModel Verif.FeedSpec.
Import ListNotations.
Open Scope Z_scope.

Definition ENOENT := 2. Definition EAGAIN := 11. Definition ENODATA := 61. Definition ESTALE := 116. Definition EOWNERDEAD := 130.

(** struct clockfeed_shm, lines 161-165: the ring of 16 samples and the write counter. *)
Record shm := mkShm { counter : Z; cell : Z -> nat -> Z }.
Definition MAX_CLOCK_SAMPLES := 16.
Definition shm0 : shm := mkShm 0 (fun _ _ => 0).   (* calloc, line 463 *)

(** A step of the writer, lines 350-379: writing a word of the record of index
    write_counter & 15 (line 351), or incrementing write_counter (line 378). *)
Definition wexec (m : shm) (s : wstep) : shm :=
  match s with
  | WSet j v => let i := Z.land (counter m) (MAX_CLOCK_SAMPLES - 1) in
                mkShm (counter m) (fun i' j' => if (i' =? i) && Nat.eqb j' j then v else cell m i' j')
  | WPub => mkShm (u64 (counter m + 1)) (cell m)
  end.
Definition mem_at (tr : list wstep) (t : nat) : shm := fold_left wexec (firstn t tr) shm0.

Definition ts_writes (j : nat) (t : ts) : list wstep := [WSet j (sec t); WSet (j + 1) (nsec t); WSet (j + 2) (frac t)].
(** What clockfeed_on_timer does for one source when its turn has come, lines 350-379, given
    the outcome of the clock comparison and the times read.  Intermediate values that
    sfptpd_time_add stores in the record on the way are left out here; [wstep] sequences in
    the theorems include them. *)
Definition take (n : Z) (k : taken) : option (list wstep) :=
  do snap <- (if k_rc k =? 0 then add (k_sys k) (k_diff k) else Some null_time);
  Some ([WSet 0 n; WSet 1 (k_rc k)] ++ ts_writes 2 (k_mono k) ++ ts_writes 5 (k_sys k) ++ ts_writes 8 snap ++ [WPub]).
Fixpoint take_all (n : Z) (ks : list taken) : option (list wstep) :=
  match ks with
  | [] => Some []
  | k :: ks' => do a <- take n k; do b <- take_all (u64 (n + 1)) ks'; Some (a ++ b)
  end.

(** struct sfptpd_clockfeed_sub, lines 167-191. *)
Record sub := mkSub { read_counter : Z; min_counter : Z; max_age : option ts; max_age_diff : option ts }.
Definition sub0 : sub := mkSub (-1) (-1) None None.   (* lines 557-566 *)

(** What a reader depends on: when each access happens, whether the source was removed and
    the clock active when looked at, and the monotonic time read ([None]: clock_gettime failed). *)
Record env := mkEnv { e_time : nat -> nat; e_inactive : bool; e_active : bool; e_now : option ts }.

(** Result: the errno, *diff, and *t1, *t2, *mono_time where they were written, and the
    subscriber. *)
Record result := mkRes { r_rc : Z; r_diff : ts; r_t1 : option ts; r_t2 : option ts; r_mono : option ts; r_sub : sub }.

Section Read.
Variable tr : list wstep.
Variable e : env.
Definition rd (n : nat) (i : Z) (j : nat) : Z := cell (mem_at tr (e_time e n)) i j.
Definition rd_ts (n : nat) (i : Z) (j : nat) : ts := mkTs (rd n i j) (rd (n + 1) i (j + 1)) (rd (n + 2) i (j + 2)).
Definition rd_counter (n : nat) : Z := s32 (counter (mem_at tr (e_time e n))).   (* int writer = uint64_t *)

(** clockfeed_compare_to_sys, lines 865-941.  The accesses are numbered in program order. *)
Definition compare_to_sys (s : sub) : option result :=
  let fail rc d := Some (mkRes rc d None None None s) in
  let writer1 := rd_counter 0 in
  if e_inactive e then fail EOWNERDEAD null_time
  else if negb (e_active e) then fail ENOENT null_time
  else if writer1 =? 0 then fail EAGAIN null_time
  else
    do w <- chk_s32 (writer1 - 1);
    let i := Z.land w (MAX_CLOCK_SAMPLES - 1) in
    let rc := rd 1 i W_RC in
    if negb (rc =? 0) then fail (rd 2 i W_RC) null_time
    else
      do diff <- subtract (rd_ts 3 i W_SNAP) (rd_ts 6 i W_SYS);
      let writer2 := rd_counter 9 in
      do lim <- chk_s32 (writer1 + MAX_CLOCK_SAMPLES);
      if lim - 1 <=? writer2 then fail ENODATA diff
      else if writer1 <? min_counter s then fail ESTALE diff
      else
        do stale <- match max_age s, e_now e with
                    | Some d, Some now => do age <- subtract now (rd_ts 10 i W_MONO); Some (0 <? cmp age d)
                    | _, _ => Some false
                    end;
        if stale then fail ESTALE diff
        else
          let t1 := rd_ts 13 i W_SNAP in
          let t2 := rd_ts 16 i W_SYS in
          let mono := rd_ts 19 i W_MONO in
          let s' := if rd 22 i W_RC =? 0 then mkSub writer1 (min_counter s) (max_age s) (max_age_diff s) else s in
          Some (mkRes (rd 23 i W_RC) diff (Some t1) (Some t2) (Some mono) s').
End Read.
Definition LAST := 23%nat.

(** sfptpd_clockfeed_require_fresh, lines 1006-1018; sfptpd_clockfeed_set_max_age and
    sfptpd_clockfeed_set_max_age_diff, lines 1020-1040. *)
Definition require_fresh (s : sub) : option sub :=
  do m <- chk_s64 (read_counter s + 1); Some (mkSub (read_counter s) m (max_age s) (max_age_diff s)).
Definition set_max_age (d : ts) (s : sub) : sub := mkSub (read_counter s) (min_counter s) (Some d) (max_age_diff s).
Definition set_max_age_diff (d : ts) (s : sub) : sub := mkSub (read_counter s) (min_counter s) (max_age s) (Some d).

(** One subscriber's calls on its source. *)
Inductive sop := SRead (e : env) | SFresh | SMaxAge (d : ts) | SMaxDiff (d : ts).
Definition sstep (tr : list wstep) (s : sub) (o : sop) : option (sub * option result) :=
  match o with
  | SRead e => do r <- compare_to_sys tr e s; Some (r_sub r, Some r)
  | SFresh => do s' <- require_fresh s; Some (s', None)
  | SMaxAge d => Some (set_max_age d s, None)
  | SMaxDiff d => Some (set_max_age_diff d s, None)
  end.
Fixpoint srun (tr : list wstep) (s : sub) (os : list sop) : option (sub * list (option result)) :=
  match os with
  | [] => Some (s, [])
  | o :: os' => do a <- sstep tr s o; let (s1, r) := a in
                do b <- srun tr s1 os'; let (s2, rs) := b in Some (s2, r :: rs)
  end.

(** A history in which the subscriber's calls follow each other, the first after step [now]. *)
Fixpoint timed (now : nat) (os : list sop) : Prop :=
  match os with
  | [] => True
  | SRead e :: os' => ordered (e_time e) /\ (now <= e_time e 0)%nat /\ timed (e_time e LAST) os'
  | _ :: os' => timed now os'
  end.

(** sfptpd_clockfeed_compare, lines 943-1004, after the two reads: the first gives [r1], the
    second [r2] ([None]: the system clock, no feed).  [mono0] is what the caller's variable
    for the time holds before, if the caller wants it.  The result is the errno, *diff and
    the caller's variable. *)
Definition min_diff (s1 s2 : sub) : option (option ts) :=
  match max_age_diff s1, max_age_diff s2 with
  | a, None => Some a
  | None, Some d2 => Some (Some d2)
  | Some d1, Some d2 => do g <- is_ge d1 d2; Some (Some (if g then d2 else d1))
  end.
Definition compare (r1 r2 : option result) (s1 s2 : sub) (mono0 : option ts) : option (Z * ts * option ts) :=
  match r1, r2 with
  | None, None => Some (0, null_time, mono0)
  | Some a, None =>
      Some (r_rc a, r_diff a, match mono0, r_mono a with Some _, Some m => Some m | o, _ => o end)
  | None, Some b =>
      if negb (r_rc b =? 0) then Some (r_rc b, null_time, mono0)
      else do d <- subtract null_time (r_diff b);
           match mono0, r_mono b with
           | Some m, Some m2 => do g <- is_ge m m2; Some (0, d, Some (if g then m2 else m))
           | o, _ => Some (0, d, o)
           end
  | Some a, Some b =>
      do lim <- min_diff s1 s2;
      let want := match mono0, lim with None, None => false | _, _ => true end in
      if negb (r_rc a =? 0) then
        Some (r_rc a, r_diff a, match mono0, r_mono a with Some _, Some m => Some m | o, _ => o end)
      else if negb (r_rc b =? 0) then
        Some (r_rc b, r_diff a, match mono0, r_mono a with Some _, Some m => Some m | o, _ => o end)
      else
        do d <- subtract (r_diff a) (r_diff b);
        if negb want then Some (0, d, mono0)
        else match r_mono a, r_mono b with
        | Some m1, Some m2 =>
            do g <- is_ge m1 m2;
            let mono := if g then m2 else m1 in   (* lines 982-983: *mono is overwritten *)
            let out := match mono0 with Some _ => Some mono | None => None end in
            match lim with
            | None => Some (0, d, out)
            | Some l =>
                do g2 <- is_ge m2 mono;
                do ad <- (if g2 then subtract m2 mono else subtract mono m2);
                do bad <- is_ge ad l;
                Some (if bad then ESTALE else 0, d, out)
            end
        | _, _ => None   (* never: a read that returns 0 has written the time *)
        end
  end.

(** *** Sources and subscribers (lines 296-321, 452-653).  Sources and subscribers are numbered;
    [None] in the heap is freed memory, and [None] as a result its use. *)
Record source := mkSource { s_clock : Z; s_subs : list nat; s_inactive : bool }.
Record feeds := mkFeeds { f_heap : nat -> option source; f_subs : nat -> option nat; f_active : list nat; f_inactive : list nat;
                          f_next : nat; f_nsub : nat }.
Definition upd {A} (h : nat -> option A) (i : nat) (v : option A) : nat -> option A := fun k => if Nat.eqb k i then v else h k.
Definition feeds0 : feeds := mkFeeds (fun _ => None) (fun _ => None) [] [] 0 0.

(** Walking a list for a clock; every source looked at is read. *)
Fixpoint find_clock (h : nat -> option source) (l : list nat) (c : Z) : option (option nat) :=
  match l with
  | [] => Some None
  | i :: l' => do s <- h i; if s_clock s =? c then Some (Some i) else find_clock h l' c
  end.

(** clockfeed_reap_zombies, lines 296-321: the walk over the inactive list reads every source
    before this one; not finding it is an assertion failure. *)
Fixpoint walk (h : nat -> option source) (l : list nat) (i : nat) : option unit :=
  match l with
  | [] => None
  | k :: l' => if Nat.eqb k i then Some tt else do _ <- h k; walk h l' i
  end.
Definition reap (f : feeds) (i : nat) : option feeds :=
  do s <- f_heap f i;
  if s_inactive s then
    match s_subs s with
    | [] => do _ <- walk (f_heap f) (f_inactive f) i;
            Some (mkFeeds (upd (f_heap f) i None) (f_subs f) (f_active f) (List.remove Nat.eq_dec i (f_inactive f)) (f_next f) (f_nsub f))
    | _ => Some f
    end
  else Some f.

(** clockfeed_on_add_clock, lines 452-490. *)
Definition add_clock (f : feeds) (c : Z) : feeds :=
  mkFeeds (upd (f_heap f) (f_next f) (Some (mkSource c [] false))) (f_subs f) (f_next f :: f_active f) (f_inactive f) (S (f_next f)) (f_nsub f).

(** clockfeed_on_remove_clock, lines 492-527. *)
Definition remove_clock (f : feeds) (c : Z) : option feeds :=
  do r <- find_clock (f_heap f) (f_active f) c;
  match r with
  | None => Some f
  | Some i =>
      do s <- f_heap f i;
      reap (mkFeeds (upd (f_heap f) i (Some (mkSource (s_clock s) (s_subs s) true))) (f_subs f)
              (List.remove Nat.eq_dec i (f_active f)) (i :: f_inactive f) (f_next f) (f_nsub f)) i
  end.

(** clockfeed_on_subscribe, lines 529-574: the reply is the subscriber or null. *)
Definition subscribe (f : feeds) (c : Z) : option (feeds * option nat) :=
  do r <- find_clock (f_heap f) (f_active f) c;
  do r <- match r with Some i => Some (Some i) | None => find_clock (f_heap f) (f_inactive f) c end;
  match r with
  | None => Some (f, None)
  | Some i =>
      do s <- f_heap f i;
      let n := f_nsub f in
      Some (mkFeeds (upd (f_heap f) i (Some (mkSource (s_clock s) (n :: s_subs s) (s_inactive s)))) (upd (f_subs f) n (Some i))
              (f_active f) (f_inactive f) (f_next f) (S n), Some n)
  end.

(** clockfeed_on_unsubscribe, lines 576-606. *)
Definition unsubscribe (f : feeds) (n : nat) : option feeds :=
  do i <- f_subs f n;
  do s <- f_heap f i;
  do f' <- reap (mkFeeds (upd (f_heap f) i (Some (mkSource (s_clock s) (List.remove Nat.eq_dec n (s_subs s)) (s_inactive s)))) (f_subs f)
              (f_active f) (f_inactive f) (f_next f) (f_nsub f)) i;
  Some (mkFeeds (f_heap f') (upd (f_subs f') n None) (f_active f') (f_inactive f') (f_next f') (f_nsub f')).

(** A reader of subscriber [n] reads the subscriber, the source and its samples, lines 871-888. *)
Definition access (f : feeds) (n : nat) : option source := do i <- f_subs f n; f_heap f i.

(** clockfeed_on_shutdown, lines 608-653: the loop at 641 reads s->next after s may have been
    freed. *)
Fixpoint deactivate (h : nat -> option source) (l : list nat) : option (nat -> option source) :=
  match l with
  | [] => Some h
  | i :: l' => do s <- h i;
               if s_inactive s then None   (* assert, line 629 *)
               else deactivate (upd h i (Some (mkSource (s_clock s) (s_subs s) true))) l'
  end.
Fixpoint reap_all (f : feeds) (l : list nat) : option feeds :=
  match l with
  | [] => Some f
  | i :: l' => do f' <- reap f i; do _ <- f_heap f' i (* s->next *); reap_all f' l'
  end.
Definition shutdown (f : feeds) : option feeds :=
  do h <- deactivate (f_heap f) (f_active f);
  let l := f_active f ++ f_inactive f in
  reap_all (mkFeeds h (f_subs f) [] l (f_next f) (f_nsub f)) l.

Inductive fop := FAdd (c : Z) | FRemove (c : Z) | FSubscribe (c : Z) | FUnsubscribe (n : nat) | FAccess (n : nat).
(** The result is the state and, for a subscription, the reply. *)
Definition fstep (f : feeds) (o : fop) : option (feeds * option nat) :=
  match o with
  | FAdd c => Some (add_clock f c, None)
  | FRemove c => do f' <- remove_clock f c; Some (f', None)
  | FSubscribe c => subscribe f c
  | FUnsubscribe n => do f' <- unsubscribe f n; Some (f', None)
  | FAccess n => do _ <- access f n; Some (f, None)
  end.
