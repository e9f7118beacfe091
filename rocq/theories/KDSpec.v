(** Specification for C17, C18, C19. *)
From Verif Require Import Base QBase KDModel.
Open Scope Q_scope.

(** the data is a rectangular array: [m] coordinates per point *)
Definition rows_of_length (m : nat) (data : list (list Q)) : Prop := Forall (fun y => length y = m) data.

Fixpoint sum_of_powers (n : nat) (x y : list Q) : Q :=
  match x, y with a :: x, b :: y => Qpower (Qabs (a - b)) (Z.of_nat n) + sum_of_powers n x y | _, _ => 0 end.
Fixpoint largest_difference (x y : list Q) : Q :=
  match x, y with a :: x, b :: y => Qmax (Qabs (a - b)) (largest_difference x y) | _, _ => 0 end.
(** the Minkowski distance of x and y raised to the power p (the distance itself for p = infinity) *)
Definition distance_power (p : pnorm) (x y : list Q) : Q :=
  match p with PN n => sum_of_powers n x y | PInf => largest_difference x y end.
(** the Minkowski distance is at most r: (sum |a-b|^p)^(1/p) <= r, i.e. r >= 0 and sum |a-b|^p <= r^p;
    for p = infinity: every |a-b| <= r *)
Definition close (p : pnorm) (x y : list Q) (r : Q) : Prop :=
  0 <= r /\ match p with
            | PN n => sum_of_powers n x y <= Qpower r (Z.of_nat n)
            | PInf => Forall (fun ab : Q * Q => Qabs (fst ab - snd ab) <= r) (combine x y)
            end.

(** every point index of the tree in exactly one leaf, and on the right side of every split above it *)
Fixpoint splits_ok (data : list (list Q)) (m : nat) (t : node) : Prop :=
  match t with
  | Leaf _ => True
  | Inner d s l g =>
    (d < m)%nat /\ (forall i, In i (leaves l) -> nth d (nth i data []) 0 <= s) /\ (forall i, In i (leaves g) -> s <= nth d (nth i data []) 0)
    /\ splits_ok data m l /\ splits_ok data m g
  end.
(** the index lists of the leaves *)
Fixpoint leaf_lists (t : node) : list (list nat) := match t with Leaf idx => [idx] | Inner _ _ l g => leaf_lists l ++ leaf_lists g end.
(** all points with these indices share their coordinate along some dimension *)
Definition share_a_coordinate (data : list (list Q)) (m : nat) (idx : list nat) : Prop :=
  exists d, (d < m)%nat /\ forall i j, In i idx -> In j idx -> nth d (nth i data []) 0 == nth d (nth j data []) 0.

(** a two-dimensional list of results: the result list for i has exactly the j with the property, once each *)
Definition exact_list (P : nat -> Prop) (l : list nat) : Prop := NoDup l /\ forall j, In j l <-> P j.
