(** Specification for C27, C28, C29, C57: interpolation on a grid. *)
From Coq Require Import List QArith Qabs.
Import ListNotations.
Open Scope Q_scope.

(** cell i of an axis holds t *)
Definition encloses (axis : list Q) (i : nat) (t : Q) : Prop := (S i < length axis)%nat /\ nth i axis 0 <= t <= nth (S i) axis 0.
(** the cell (one index per axis) holds the position *)
Inductive cell_of : list (list Q) -> list nat -> list Q -> Prop :=
| cell_nil : cell_of [] [] []
| cell_cons a axes i cell t x : encloses a i t -> cell_of axes cell x -> cell_of (a :: axes) (i :: cell) (t :: x).
(** a corner of a cell *)
Definition corner (cell e : list nat) : Prop := Forall2 (fun i k => k = i \/ k = S i) cell e.
(** multilinear interpolation in a cell: along each axis in turn the value is interpolated between the two ends of the cell *)
Fixpoint multilinear (axes : list (list Q)) (cell : list nat) (x : list Q) (v : list nat -> Q) : Q :=
  match axes, cell, x with
  | a :: axes, i :: cell, t :: x =>
    let lo := nth i a 0 in let hi := nth (S i) a 0 in
    ((hi - t) * multilinear axes cell x (fun e => v (i :: e)) + (t - lo) * multilinear axes cell x (fun e => v (S i :: e))) / (hi - lo)
  | _, _, _ => v []
  end.
(** inside / outside the range of every / some axis *)
Definition within (axis : list Q) (t : Q) : Prop := hd 0 axis <= t <= last axis 0.
Definition inside (axes : list (list Q)) (x : list Q) : Prop := Forall2 within axes x.
(** the position of a grid node *)
Definition node_at (axes : list (list Q)) (k : list nat) (x : list Q) : Prop :=
  Forall2 (fun (ak : list Q * nat) t => (snd ak < length (fst ak))%nat /\ t == nth (snd ak) (fst ak) 0) (combine axes k) x /\ length k = length axes.
(** affine in each of n variables when the others are fixed *)
Inductive multi_affine : nat -> (list Q -> Q) -> Prop :=
| affine_const f c : (forall x, f x == c) -> multi_affine 0 f
| affine_more n f g h : multi_affine n g -> multi_affine n h -> (forall t x, length x = n -> f (t :: x) == g x + t * h x) -> multi_affine (S n) f.
(** the coordinates of a node *)
Definition coordinates (axes : list (list Q)) (e : list nat) : list Q := map (fun ae : list Q * nat => nth (snd ae) (fst ae) 0) (combine axes e).
(** index e lies on the grid *)
Definition on_grid (axes : list (list Q)) (e : list nat) : Prop := Forall2 (fun a k => (k < length a)%nat) axes e.
(** nearest node along an axis *)
Definition nearest_on (axis : list Q) (t : Q) (k : nat) : Prop := (k < length axis)%nat /\ forall j, (j < length axis)%nat -> Qabs (t - nth k axis 0) <= Qabs (t - nth j axis 0).

From Verif Require Import Base QBase InterpModel.
(** an axis as used: strictly increasing, with at least two points *)
Definition good_axis (a : list Q) : Prop := increasing a /\ (2 <= length a)%nat.
(** a circular axis is continued by its first point one turn later, where the field has the same value again *)
Definition continued (d : dim) : list Q := if d_circular d then d_points d ++ [hd 0 (d_points d) + 360] else d_points d.
Fixpoint wrapped (dims : list dim) (e : list nat) : list nat :=
  match dims, e with
  | d :: dims, k :: e => (if d_circular d && (k =? length (d_points d))%nat then 0%nat else k) :: wrapped dims e
  | _, _ => e
  end.
(** the sample is skipped *)
Definition skipped (missing_for_missing : bool) (s : list Q * bool) : Prop := missing_for_missing = true /\ snd s = true.
(** what linear interpolation answers for a sample (its position; its own value is missing): missing for a skipped sample and outside the grid
    (unless extrapolating); inside the grid the multilinear interpolation over a cell that holds the position, and missing if a corner of it is. *)
Definition linear_answer (dims : list dim) (values : array) (missing_for_missing extrapolate : bool) (s : list Q * bool) (r : option Q) : Prop :=
  let axes := map continued dims in
  (skipped missing_for_missing s -> r = None) /\
  (~ skipped missing_for_missing s ->
    (extrapolate = false -> ~ inside axes (fst s) -> r = None) /\
    (inside axes (fst s) -> exists cell, cell_of axes cell (fst s) /\
       (forall f, (forall e, corner cell e -> values (wrapped dims e) = Some (f e)) -> exists q, r = Some q /\ q == multilinear axes cell (fst s) f) /\
       (forall e, corner cell e -> values (wrapped dims e) = None -> r = None))).
(** every dimension has at least two points (or one, and is circular), in increasing order; a circular one does not exceed a turn *)
Definition proper_dims (dims : list dim) : Prop := Forall (fun d => increasing (d_points d) /\ good_axis (continued d)) dims.
Definition positions_in (dims : list dim) (samples : list (list Q * bool)) : Prop := Forall (fun s => length (fst s) = length dims) samples.
(** the data have no missing value; they are f *)
Definition field_is (dims : list dim) (values : array) (f : list nat -> Q) : Prop := forall e, on_grid (map d_points dims) e -> values e = Some (f e).
(** nearest in every dimension *)
Definition nearest_answer (dims : list dim) (values : array) (missing_for_missing extrapolate : bool) (s : list Q * bool) (r : option Q) : Prop :=
  let axes := map continued dims in
  (skipped missing_for_missing s -> r = None) /\
  (~ skipped missing_for_missing s ->
    (extrapolate = false -> ~ inside axes (fst s) -> r = None) /\
    (inside axes (fst s) -> exists k, r = values (wrapped dims k) /\ Forall2 (fun (at_ : list Q * Q) i => nearest_on (fst at_) (snd at_) i) (combine axes (fst s)) k)).
(** the same field stored with dimension 1 reversed (it has n points) *)
Definition flipped (n : nat) (values : array) : array := fun e => match e with k0 :: k1 :: ks => values (k0 :: (n - 1 - k1)%nat :: ks) | _ => values e end.
(** data on a hybrid vertical coordinate: what a point (horizontal position x, vertical position z) gets.  The vertical coordinates of the levels above
    the point are interpolated from those of the surrounding columns; between them the value is interpolated like between any grid points. *)
Definition hybrid_answer (axes : list (list Q)) (h : list nat -> nat -> Q) (levels : nat) (v : list nat -> Q) (extrapolate : bool) (xz : list Q * Q) (r : option Q) : Prop :=
  let '(x, z) := xz in
  (extrapolate = false -> ~ inside axes x -> r = None) /\
  (inside axes x -> exists cell column, cell_of axes cell x /\ length column = levels /\
    (forall k, (k < levels)%nat -> nth k column 0 == multilinear axes cell x (fun e => h e k)) /\
    (extrapolate = false -> ~ within column z -> r = None) /\
    (good_axis column -> within column z -> exists k q, encloses column k z /\ r = Some q /\ q == multilinear (axes ++ [column]) (cell ++ [k]) (x ++ [z]) v)).
