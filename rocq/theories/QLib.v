(** Sums, means and extrema of lists of rationals. *)
Require Import QArith List Permutation Lia Setoid Morphisms.
Require Import ZArith.
Import ListNotations.
Open Scope Q_scope.

Definition Qsum (l : list Q) : Q := fold_right Qplus 0 l.
Definition Qlen {A} (l : list A) : Q := inject_Z (Z.of_nat (length l)).
(** Arithmetic mean (used only for non-empty lists). *)
Definition Qmean (l : list Q) : Q := Qsum l / Qlen l.
(** Population variance: mean squared distance to the mean. *)
Definition Qvar (l : list Q) : Q :=
  Qmean (map (fun x => (x - Qmean l) * (x - Qmean l)) l).

Lemma Qsum_cons : forall x l, Qsum (x :: l) = x + Qsum l.
Proof. reflexivity. Qed.

Lemma Qsum_app : forall a b, Qsum (a ++ b) == Qsum a + Qsum b.
Proof.
  induction a as [|x a IH]; intros b.
  - change (Qsum b == 0 + Qsum b). ring.
  - change (x + Qsum (a ++ b) == x + Qsum a + Qsum b). rewrite IH. ring.
Qed.

Lemma Qsum_perm : forall a b, Permutation a b -> Qsum a == Qsum b.
Proof.
  induction 1; rewrite ?Qsum_cons; [reflexivity| |ring|].
  - rewrite IHPermutation. reflexivity.
  - rewrite IHPermutation1. assumption.
Qed.

Lemma Qlen_cons : forall A (a : A) l, Qlen (a :: l) == Qlen l + 1.
Proof.
  intros. unfold Qlen. cbn [length]. rewrite Nat2Z.inj_succ, <- Z.add_1_r, inject_Z_plus. reflexivity.
Qed.

Lemma Qlen_nonneg : forall A (l : list A), 0 <= Qlen l.
Proof. intros. unfold Qlen, Qle, inject_Z; cbn. lia. Qed.

Lemma Qlen_pos : forall A (l : list A), l <> [] -> 0 < Qlen l.
Proof. intros A l H. destruct l; [congruence|]. unfold Qlen, Qlt, inject_Z; cbn. lia. Qed.

Lemma Qlen_neq0 : forall A (l : list A), l <> [] -> ~ Qlen l == 0.
Proof. intros A l H E. pose proof (Qlen_pos A l H). rewrite E in H0. apply (Qlt_irrefl 0). assumption. Qed.

Lemma Qlen_perm : forall A (a b : list A), Permutation a b -> Qlen a = Qlen b.
Proof. intros A a b H. unfold Qlen. rewrite (Permutation_length H). reflexivity. Qed.

Lemma Qmean_perm : forall a b, Permutation a b -> Qmean a == Qmean b.
Proof. intros. unfold Qmean. rewrite (Qsum_perm _ _ H), (Qlen_perm _ _ _ H). reflexivity. Qed.

(** Sum of squared deviations from any point. *)
Lemma Qsum_dev : forall l c,
  Qsum (map (fun x => (x - c) * (x - c)) l) ==
  Qsum (map (fun x => x * x) l) - 2 * c * Qsum l + c * c * Qlen l.
Proof.
  induction l as [|x l IH]; intros c.
  - change (0 == 0 - 2 * c * 0 + c * c * 0). ring.
  - cbn [map]. rewrite !Qsum_cons, IH, Qlen_cons. ring.
Qed.

Lemma Qlen_map : forall A B (f : A -> B) l, Qlen (map f l) = Qlen l.
Proof. intros. unfold Qlen. rewrite map_length. reflexivity. Qed.

(** Mean of squares minus square of mean is the variance. *)
Lemma Qvar_alt : forall l, l <> [] ->
  Qsum (map (fun x => x * x) l) / Qlen l - Qmean l * Qmean l == Qvar l.
Proof.
  intros l H. unfold Qvar. unfold Qmean at 3. rewrite Qlen_map, Qsum_dev.
  unfold Qmean. field. apply Qlen_neq0; assumption.
Qed.

Lemma Qsum_nonneg : forall l, (forall x, In x l -> 0 <= x) -> 0 <= Qsum l.
Proof.
  induction l as [|x l IH]; intros H; [apply Qle_refl|]. rewrite Qsum_cons.
  rewrite <- (Qplus_0_l 0). apply Qplus_le_compat; [apply H; left; reflexivity|].
  apply IH. intros. apply H. right. assumption.
Qed.

Lemma Qsq_nonneg : forall x : Q, 0 <= x * x.
Proof.
  intros [n d]. unfold Qle, Qmult; cbn. rewrite Z.mul_1_r. apply Z.square_nonneg.
Qed.

Lemma Qvar_nonneg : forall l, 0 <= Qvar l.
Proof.
  intros l. unfold Qvar. unfold Qmean at 1. rewrite Qlen_map.
  destruct l as [|a l]. { vm_compute. discriminate. }
  apply Qle_shift_div_l; [apply Qlen_pos; discriminate|].
  rewrite Qmult_0_l. apply Qsum_nonneg. intros x Hx.
  apply in_map_iff in Hx as [y [<- _]]. apply Qsq_nonneg.
Qed.

Lemma fold_left_Qplus : forall l a, fold_left Qplus l a == a + Qsum l.
Proof.
  induction l as [|x l IH]; intros a.
  - change (a == a + 0). ring.
  - cbn [fold_left]. rewrite IH, Qsum_cons. ring.
Qed.

Lemma Qvar_perm : forall a b, Permutation a b -> Qvar a == Qvar b.
Proof.
  intros a b H. destruct a as [|x a].
  - apply Permutation_nil in H. subst. reflexivity.
  - assert (b <> []) by (intro; subst; apply Permutation_sym, Permutation_nil in H; discriminate).
    rewrite <- !Qvar_alt by (assumption || discriminate).
    rewrite (Qmean_perm _ _ H), (Qlen_perm _ _ _ H).
    rewrite (Qsum_perm _ _ (Permutation_map _ H)). reflexivity.
Qed.
