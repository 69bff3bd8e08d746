(** Model of the hash table of src/sfptpd_misc.c:218-500. *)
Require Import ZArith List Bool.
Require Import Verif.Base Verif.ListLib Verif.HtSpec.
Import ListNotations.
Open Scope Z_scope.

Section Model.
(** The user records and the get_key operation (struct sfptpd_ht_ops,
    src/include/sfptpd_misc.h:50-63); [copy] makes the destination equal to the source, as
    sfptpd_stats_ht_copy_node does (src/sfptpd_statistics.c:1385-1390). *)
Context {U : Type} (key : U -> hkey).

(** struct sfptpd_hash_table, src/sfptpd_misc.c:42-50; a bucket is the list of its chain,
    and the mutex is a flag. *)
Record ht := mkHt { h_size : nat; h_max : Z; h_num : Z; h_locked : bool; h_buckets : list (list U) }.

(** sfptpd_ht_alloc, lines 281-312. *)
Definition ht_alloc (size : nat) (max : Z) : ht := mkHt size max 0 false (repeat [] size).

(** hash, lines 243-255: 32-bit unsigned arithmetic; [None] is division by a zero size. *)
Definition hash_bytes (k : hkey) : Z :=
  fold_left (fun h b => u32 (u32 (b + u32 (Z.shiftl h 5)) - h)) k 0.
Definition hash (size : nat) (k : hkey) : option nat :=
  if (size =? 0)%nat then None else Some (Z.to_nat (hash_bytes k mod Z.of_nat size)).

(** sfptpd_ht_find, lines 258-278: position in the chain. *)
Fixpoint chain_find (k : hkey) (l : list U) (pos : nat) : option nat :=
  match l with
  | [] => None
  | u :: rest => if hkey_dec (key u) k then Some pos else chain_find k rest (S pos)
  end.

(** sfptpd_ht_add, lines 340-403; [None] is waiting for a lock already held, or a zero table
    size. [mem] is whether calloc succeeds (of ops->alloc only success is modelled). *)
Definition ht_add (t : ht) (u : U) (update mem : bool) : option (ht * Z) :=
  if h_locked t then None else
  do b <- hash (h_size t) (key u);
  do chain <- nth_error (h_buckets t) b;
  match chain_find (key u) chain 0 with
  | Some pos =>
      if update
      then Some (mkHt (h_size t) (h_max t) (h_num t) false
                      (set_nth b (set_nth pos u chain) (h_buckets t)), rc_ok)
      else Some (t, EEXIST)
  | None =>
      if h_num t =? h_max t then Some (t, ENOSPC)
      else if mem then Some (mkHt (h_size t) (h_max t) (u32 (h_num t + 1)) false
                                  (set_nth b (u :: chain) (h_buckets t)), rc_ok)
      else Some (t, ENOMEM)
  end.

(** sfptpd_ht_clear_entries, lines 463-487. *)
Definition ht_clear (t : ht) : option ht :=
  if h_locked t then None
  else Some (mkHt (h_size t) (h_max t) 0 false (map (fun _ => []) (h_buckets t))).

(** struct sfptpd_ht_iter (the table pointer left out): bucket index, and the rest of the
    chain starting at the current entry. *)
Record iter := mkIter { it_index : nat; it_entry : list U }.

Definition set_lock (t : ht) (b : bool) : ht :=
  mkHt (h_size t) (h_max t) (h_num t) b (h_buckets t).

(** The search for the next non-empty bucket (lines 416-423 and 449-456). *)
Fixpoint scan (bs : list (list U)) (i : nat) : option (nat * list U) :=
  match bs with
  | [] => None
  | [] :: rest => scan rest (S i)
  | c :: _ => Some (i, c)
  end.

(** sfptpd_ht_first, lines 406-427: takes the lock, and gives it back only if the table is
    empty. *)
Definition ht_first (t : ht) : option (ht * iter * option U) :=
  if h_locked t then None else
  match scan (h_buckets t) 0 with
  | Some (i, u :: c) => Some (set_lock t true, mkIter i (u :: c), Some u)
  | _ => Some (t, mkIter (h_size t) [], None)
  end.

(** sfptpd_ht_next, lines 430-460: releases the lock at the end of the table. *)
Definition ht_next (t : ht) (it : iter) : ht * iter * option U :=
  match it_entry it with
  | [] => (set_lock t false, it, None)
  | _ :: u :: c => (t, mkIter (it_index it) (u :: c), Some u)
  | [_] => match scan (skipn (S (it_index it)) (h_buckets t)) (S (it_index it)) with
           | Some (i, u :: c) => (t, mkIter i (u :: c), Some u)
           | _ => (set_lock t false, mkIter (h_size t) (it_entry it), None)
           end
  end.

(** The loop every caller uses (src/ptp/sfptpd_ptp_module.c:2536-2550): first, then next
    until NULL.  [None] is fuel exhausted. *)
Fixpoint ht_rest (fuel : nat) (t : ht) (it : iter) : option (ht * list U) :=
  match fuel with
  | O => None
  | S f => match ht_next t it with
           | (t', _, None) => Some (t', [])
           | (t', it', Some u) => do r <- ht_rest f t' it'; Some (fst r, u :: snd r)
           end
  end.
Definition ht_iterate (fuel : nat) (t : ht) : option (ht * list U) :=
  do r <- ht_first t;
  match r with
  | (t', _, None) => Some (t', [])
  | (t', it, Some u) => do r <- ht_rest fuel t' it; Some (fst r, u :: snd r)
  end.

(** Calls on the table. The number of iterations is bounded by the maximum number of
    entries. *)
Definition ht_step (t : ht) (op : hop U) : option (ht * hres U) :=
  match op with
  | Add u update mem => do r <- ht_add t u update mem; Some (fst r, RC (snd r))
  | Clear => do t' <- ht_clear t; Some (t', Done)
  | Iterate => do r <- ht_iterate (S (Z.to_nat (h_max t))) t; Some (fst r, Users (snd r))
  | Count => Some (t, Num (h_num t))
  end.

Fixpoint ht_run (t : ht) (ops : list (hop U)) : option (ht * list (hres U)) :=
  match ops with
  | [] => Some (t, [])
  | op :: rest => do r <- ht_step t op;
                  do q <- ht_run (fst r) rest;
                  Some (fst q, snd r :: snd q)
  end.
End Model.
Arguments ht : clear implicits.
