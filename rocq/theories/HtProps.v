(** Property C21: the hash table is a bounded finite map. *)
Require Import ZArith Lia List Bool.
Require Import Verif.Base Verif.HtSpec Verif.HtModel Verif.HtProof.
Import ListNotations.
Open Scope Z_scope.

(** Any sequence of calls on a new table completes (no deadlock, no fault) and every result
    is that of a bounded map from keys to records: adding says exactly whether the key was
    there / the table full; iteration enumerates exactly the records last stored. *)
Theorem C21_hash_table_is_bounded_map : forall U (key : U -> hkey) size max ops,
  (0 < size)%nat -> 0 <= max < 2^16 ->
  exists t rs, ht_run key (ht_alloc size max) ops = Some (t, rs) /\ length rs = length ops /\
    conforms key max empty (combine ops rs).
Proof. intros. apply (run_spec key ops (ht_alloc size max)), models_init; assumption. Qed.
Print Assumptions C21_hash_table_is_bounded_map.

(** Two keys in one bucket of a table of size 2: update in place, duplicate refused, full. *)
Example C21_ex :
  let key (u : Z * Z) := [fst u] in
  option_map snd (ht_run key (ht_alloc 2 2)
    [Add (1, 10) false true; Add (3, 30) false true; Add (1, 11) false true; Add (1, 11) true true;
     Add (5, 50) true true; Iterate; Count; Clear; Iterate; Add (5, 50) true false]) =
  Some [RC 0; RC 0; RC EEXIST; RC 0; RC ENOSPC; Users [(3, 30); (1, 11)]; Num 2; Done; Users []; RC ENOMEM].
Proof. vm_compute. reflexivity. Qed.

(** Not true: that a size of zero is usable (division by zero on the first add). *)
Theorem C21_zero_size_refuted : exists (u : Z), ht_run (fun u => [u]) (ht_alloc 0 10) [Add u false true] = None.
Proof. exists 1. reflexivity. Qed.
Print Assumptions C21_zero_size_refuted.

(** An iteration that is abandoned before its end leaves the table locked: the next call
    waits for ever. *)
Theorem C21_abandoned_iteration_blocks : forall U (key : U -> hkey) (t : ht U) t' it u,
  ht_first t = Some (t', it, Some u) ->
  (forall v update mem, ht_step key t' (Add v update mem) = None) /\ ht_step key t' Clear = None /\ ht_step key t' Iterate = None.
Proof.
  intros U key t t' it u H. unfold ht_first in H. destruct (h_locked t); [discriminate|].
  destruct (scan (h_buckets t) 0) as [[i [|v c]]|]; [discriminate| |discriminate].
  injection H as <- _ _. repeat split.
Qed.
Print Assumptions C21_abandoned_iteration_blocks.
