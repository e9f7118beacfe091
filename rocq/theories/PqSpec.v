(** Specification for C105: arrays of points asked of a tree, and matrices of distances. *)
From Verif Require Import Base KDModel KDSpec PqModel.
From Coq Require Import List QArith Sorted.
Import ListNotations.
Open Scope Q_scope.

(** an array of points with [m] coordinates each: as many points as its shape says *)
Definition well_shaped (m : nat) (x : points) : Prop := p_width x = m /\ length (p_cells x) = fold_right Nat.mul 1%nat (p_shape x) /\ Forall (fun y => length y = m) (p_cells x).
(** one point alone *)
Definition alone (m : nat) (x : list Q) : points := mkPoints [] m [x].
(** the [c]-th run of [k] elements *)
Definition part {A} (k c : nat) (l : list A) : list A := firstn k (skipn (c * k) l).
(** the k nearest points of the data, nearest first, with their distances (to the power p) *)
Definition nearest_ones (p : pnorm) (data : list (list Q)) (x : list Q) (k : nat) (hits : list (Q * nat)) : Prop :=
  length hits = Nat.min k (length data) /\ NoDup (map snd hits) /\ StronglySorted (fun a b : Q * nat => fst a <= fst b) hits /\
  Forall (fun h => (snd h < length data)%nat /\ fst h == distance_power p (nth (snd h) data []) x) hits /\
  (forall i, (i < length data)%nat -> ~ In i (map snd hits) -> Forall (fun h => fst h <= distance_power p (nth i data []) x) hits).
(** an answer of length k: the hits, then infinite distances and the number that no point has *)
Definition answers (k n : nat) (hits : list (Q * nat)) (dd : list (option Q)) (ii : list nat) : Prop :=
  length dd = k /\ length ii = k /\ forall j, (j < k)%nat ->
    match nth_error hits j with Some (d, i) => nth_error dd j = Some (Some d) /\ nth_error ii j = Some i | None => nth_error dd j = Some None /\ nth_error ii j = Some n end.
(** a matrix with an entry for every pair *)
Definition entries (f : nat -> nat -> Q) (m n : nat) (M : list (list Q)) : Prop :=
  length M = m /\ forall i, (i < m)%nat -> length (nth i M []) = n /\ forall j, (j < n)%nat -> nth j (nth i M []) 0 == f i j.
(** a bound on the distances is not negative *)
Definition bound_ok (bound : option Q) : Prop := match bound with Some u => 0 <= u | None => True end.
