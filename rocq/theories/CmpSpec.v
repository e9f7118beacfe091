(** Specification for C88: what is drawn, where. *)
From Coq Require Import String.
From Verif Require Import Base PyStr QBase UtilModel CmpModel.
From Coq Require Import List.
Import ListNotations.
Open Scope string_scope. Open Scope list_scope. Open Scope Q_scope. Notation length := List.length.

(** an array with as many elements as its shape says, and a mask as long *)
Definition good (a : nd) : Prop := length (an_data (n_arr a)) = fold_right Nat.mul 1%nat (n_shape a) /\ length (getmaskarray (n_arr a)) = length (an_data (n_arr a)).
(** the i-th element of an array (in C order): a value, or missing *)
Inductive holds (a : nd) (i : nat) : option Q -> Prop :=
| holds_value x : nth_error (an_data (n_arr a)) i = Some x -> nth_error (getmaskarray (n_arr a)) i = Some false -> holds a i (Some x)
| holds_missing x : nth_error (an_data (n_arr a)) i = Some x -> nth_error (getmaskarray (n_arr a)) i = Some true -> holds a i None.
Definition places (a : nd) : list nat := seq 0 (length (an_data (n_arr a))).
(** how many have the property *)
Inductive counted {A} (P : A -> Prop) : list A -> nat -> Prop :=
| counted_nil : counted P [] 0
| counted_yes a l n : P a -> counted P l n -> counted P (a :: l) (S n)
| counted_no a l n : ~ P a -> counted P l n -> counted P (a :: l) n.
Definition total (l : list nat) : nat := fold_right Nat.add 0%nat l.
(** the range of some values: from the least to the greatest, if they differ *)
Definition range_of (value : Q -> Prop) (lo hi : Q) : Prop :=
  lo < hi /\ (forall x, value x -> lo <= x <= hi) /\ ((exists x y, value x /\ value y /\ x < y) -> value lo /\ value hi).
(** the i-th of n equal parts of a range, without its upper end unless that is the end of the range *)
Definition part_edge (lo hi : Q) (n i : nat) : Q := lo + inject_Z (Z.of_nat i) * (hi - lo) / inject_Z (Z.of_nat n).
Definition in_part (lo hi : Q) (n i : nat) (x : Q) : Prop := (i < n)%nat /\ part_edge lo hi n i <= x /\ (x < part_edge lo hi n (S i) \/ (S i = n /\ x == hi)).
(** a rectangle of parts *)
Definition patch_at (xlo xhi : Q) (nx : nat) (ylo yhi : Q) (ny : nat) (i j : nat) (p : patch) : Prop :=
  (i < nx)%nat /\ (j < ny)%nat /\ p_x0 p == part_edge xlo xhi nx i /\ p_x1 p == part_edge xlo xhi nx (S i) /\ p_y0 p == part_edge ylo yhi ny j /\ p_y1 p == part_edge ylo yhi ny (S j).
(** the place i has values in both arrays *)
Definition both (x y : nd) (i : nat) (u v : Q) : Prop := holds x i (Some u) /\ holds y i (Some v).
Definition between (l : Q * Q) (v : Q) : Prop := fst l <= v <= snd l \/ snd l <= v <= fst l.
