(** Specification vocabulary for the hash table (C21): a bounded finite map from keys to
    user records, described by what each call must return given the calls before it. *)
Require Import ZArith List Bool.
Import ListNotations.
Open Scope Z_scope.

Definition hkey : Type := list Z.      (* the bytes of a key *)
Definition hkey_dec : forall a b : hkey, {a = b} + {a <> b} := list_eq_dec Z.eq_dec.

Definition rc_ok := 0.  Definition EEXIST := 17.  Definition ENOSPC := 28.  Definition ENOMEM := 12.

Section Spec.
Context {U : Type} (key : U -> hkey).

(** Calls.  [Add u update mem]: [mem] says whether memory is available for a new entry. *)
Inductive hop := Add (u : U) (update mem : bool) | Clear | Iterate | Count.
Inductive hres := RC (rc : Z) | Done | Users (l : list U) | Num (n : Z).

Definition fmap := hkey -> option U.
Definition empty : fmap := fun _ => None.

(** [l] lists the records of the map, each exactly once. *)
Definition enumerates (l : list U) (m : fmap) : Prop :=
  NoDup (map key l) /\ forall k u, m k = Some u <-> In u l /\ key u = k.

(** The map after a call that returned a given result. *)
Definition after (m : fmap) (op : hop) (r : hres) : fmap :=
  match op, r with
  | Add u _ _, RC rc => if rc =? rc_ok then fun k => if hkey_dec k (key u) then Some u else m k else m
  | Clear, _ => empty
  | _, _ => m
  end.

(** What a call may return when the map is [m], of at most [max] records. *)
Definition allowed (max : Z) (m : fmap) (op : hop) (r : hres) : Prop :=
  exists l, enumerates l m /\ Z.of_nat (length l) <= max /\
  match op, r with
  | Add u update mem, RC rc =>
      match m (key u) with
      | Some _ => rc = if update then rc_ok else EEXIST
      | None => rc = if Z.of_nat (length l) =? max then ENOSPC else if mem then rc_ok else ENOMEM
      end
  | Clear, Done => True
  | Iterate, Users l' => enumerates l' m
  | Count, Num n => n = Z.of_nat (length l)
  | _, _ => False
  end.

Fixpoint conforms (max : Z) (m : fmap) (calls : list (hop * hres)) : Prop :=
  match calls with
  | [] => True
  | (op, r) :: rest => allowed max m op r /\ conforms max (after m op r) rest
  end.
End Spec.
Arguments hop : clear implicits.
Arguments hres : clear implicits.
