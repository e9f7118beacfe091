(** Specification for C15, C16 and C35. *)
From Verif Require Import Base QBase GridIndexModel.
Open Scope Z_scope.

(** The bounds of consecutive cells meet, all cells in the same direction, none empty. *)
Fixpoint contiguous_up (b : list (Q * Q)) : Prop :=
  match b with
  | [] => True
  | (lo, hi) :: r => (lo < hi)%Q /\ match r with [] => True | (lo', _) :: _ => (lo' == hi)%Q end /\ contiguous_up r
  end.
(** stored downwards: first column the upper end, as for coordinates in decreasing order *)
Fixpoint contiguous_down (b : list (Q * Q)) : Prop :=
  match b with
  | [] => True
  | (hi, lo) :: r => (lo < hi)%Q /\ match r with [] => True | (hi', _) :: _ => (hi' == lo)%Q end /\ contiguous_down r
  end.
Definition good_axis (a : axis) : Prop :=
  ax_bounds a <> [] /\ length (ax_points a) = length (ax_bounds a)
  /\ if decreasing a then contiguous_down (ax_bounds a) else contiguous_up (ax_bounds a).

(** cell number [i] of the coordinate contains the value: half-open, lower end included *)
Definition contains (a : axis) (i : Z) (v : Q) : Prop :=
  0 <= i /\ exists b, nth_error (ax_bounds a) (Z.to_nat i) = Some b /\ (Qmin (fst b) (snd b) <= v < Qmax (fst b) (snd b))%Q.
(** the cell [cell] (one index per coordinate) contains the point in every dimension *)
Definition cell_contains (axes : list axis) (cell : list Z) (p : dpoint) : Prop :=
  length cell = length axes /\
  forall k a i v, nth_error axes k = Some a -> nth_error cell k = Some i -> nth_error (pt_coords p) k = Some v -> contains a i v.

(** points counted over all deliveries *)
Definition total_delivered (ds : list (list Z * list nat)) : nat := fold_right Nat.add 0%nat (map (fun d => length (snd d)) ds).

(** [ds] (pairs of a cell and the positions of the data points handed over for it) delivers, for the
    membership relation [member cell p], every cell at most once, with exactly its unmasked points, each once. *)
Record delivers_exactly (pts : list dpoint) (member : list Z -> dpoint -> Prop) (ds : list (list Z * list nat)) : Prop := {
  de_cells_once : NoDup (map fst ds);
  de_points_once : NoDup (concat (map snd ds));
  de_nonempty : forall cell idxs, In (cell, idxs) ds -> idxs <> [];
  de_members : forall cell i, (exists idxs, In (cell, idxs) ds /\ In i idxs) <->
                 exists p, nth_error pts i = Some p /\ pt_masked p = false /\ member cell p
}.
(** The cells which the sliced index can serve: not the first cell of a coordinate stored in decreasing order. *)
Definition not_first_of_decreasing (axes : list axis) (cell : list Z) : Prop :=
  forall k a, nth_error axes k = Some a -> decreasing a = true -> nth_error cell k <> Some 0.
