(** Specification for C104: leaving out the masked points. *)
From Verif Require Import Base KDModel.
From Coq Require Import List QArith.
Import ListNotations.

(** what is left of a list when the masked elements are taken out *)
Fixpoint unmasked {A} (mask : list bool) (l : list A) : list A :=
  match mask, l with true :: m, _ :: l => unmasked m l | false :: m, x :: l => x :: unmasked m l | _, _ => [] end.
(** the number, among all the points, of the i-th one that is left (beyond the last of these: one that no point has) *)
Definition number (mask : list bool) (i : nat) : nat := nth i (unmasked mask (seq 0 (length mask))) (length mask + i)%nat.
Definition numbers (mask : list bool) (ij : nat * nat) : nat * nat := (number mask (fst ij), number mask (snd ij)).
(** the point numbered i is there and not masked *)
Definition shown (mask : list bool) (i : nat) : Prop := nth_error mask i = Some false.
