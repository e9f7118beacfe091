(** Collapsing gridded data: cis/aggregation/gridded_collapsor.py and [_collapse_gridded] (cis/data_io/gridded_data.py:614-652). *)
From Verif Require Import Base PyStr QBase FileListModel IndexModel IndexSpec AggModel.
Open Scope nat_scope. Notation length := List.length.

(** A numpy array: its shape and its elements in C order (contract). *)
Record arr (A : Type) := mkArr { a_shape : list nat; a_flat : list A }.
Arguments mkArr {A}. Arguments a_shape {A}. Arguments a_flat {A}.
Definition a_at {A} (dflt : A) (a : arr A) (idx : list nat) : A := nth (flat_pos (a_shape a) idx) (a_flat a) dflt.
(** numpy.transpose(a, dims): dimension k of the result is dimension dims[k] of a (contract) *)
Definition transpose {A} (dflt : A) (a : arr A) (dims : list nat) : arr A :=
  let shape := map (fun d => nth d (a_shape a) 0) dims in
  mkArr shape (map (fun idx => a_at dflt a (map (fun d => nth (index_of d dims) idx 0) (seq 0 (length dims)))) (index_iterator shape)).
(** reshape(shape + [n]) and a reduction along the last axis (contract) *)
Definition chunk {A} (n k : nat) (l : list A) : list A := firstn n (skipn (k * n) l).
Definition reduce_last {A B} (f : list A -> B) (shape : list nat) (n : nat) (l : list A) : arr B := mkArr shape (map (fun k => f (chunk n k l)) (seq 0 (cells shape))).
(** the list of the dimensions left: list(set(range(ndim)) - set(dims)), taken to come out in increasing order *)
Definition in_dims (dims : list nat) (d : nat) : bool := existsb (Nat.eqb d) dims.
Definition untouched (n : nat) (dims : list nat) : list nat := filter (fun d => negb (in_dims dims d)) (seq 0 n).
(** _partially_collapse_multidimensional_coord, 18-38, for a sorted list of dimensions; IndexError for coord.shape[dim] out of range.
    iris.cube.Cube.collapsed reduces the data of the cube in the same way (contract); the elements are then values with their weights. *)
Definition collapse_array {A B} (dflt : A) (f : list A -> B) (a : arr A) (dims : list nat) : res (arr B) :=
  let ndim := length (a_shape a) in
  if existsb (fun d => ndim <=? d) dims then Raises IndexError
  else let end_size := num_iterations (map (fun d => nth d (a_shape a) 0) dims) in
       let left := untouched ndim dims in
       Ok (reduce_last f (map (fun d => nth d (a_shape a) 0) left) end_size (a_flat (transpose dflt a (left ++ dims)))).
(** _calc_new_dims, 40-61 *)
Definition calc_new_dims (coord_dims dims : list nat) : list nat :=
  flat_map (fun d => let new_d := fold_left (fun n dc => if dc <? d then n - 1 else n) dims d in if in_dims dims d then [] else [new_d]) coord_dims.

(** A coordinate of a cube: its dimensions and points.  Bounds and units are left out. *)
Record gcoord := mkGC { gc_name : str; gc_dims : list nat; gc_points : arr Q }.
Record cube (A : Type) := mkCube { cb_data : arr A; cb_coords : list gcoord }.
Arguments mkCube {A}. Arguments cb_data {A}. Arguments cb_coords {A}.
Definition is_partial (dims : list nat) (c : gcoord) : bool := existsb (in_dims dims) (gc_dims c) && existsb (fun d => negb (in_dims dims d)) (gc_dims c).
(** iris.coords.Coord.collapsed (contract): a scalar coordinate halfway between the least and the largest bound; here, point *)
Definition scalar (a : arr Q) : arr Q := match a_flat a with [] => mkArr [] [] | x :: r => mkArr [] [((fold_left Qmin r x + fold_left Qmax r x) / 2)%Q] end.
(** iris.analysis.MEAN on points without mask *)
Definition mean_of (l : list Q) : Q := (fold_right Qplus 0 l / inject_Z (Z.of_nat (length l)))%Q.
(** iris.cube.Cube.collapsed, the coordinates (contract): those over collapsed dimensions only become scalar, the others keep their dimensions as
    numbered in the result *)
Definition collapsed_coord (dims : list nat) (c : gcoord) : gcoord :=
  if existsb (in_dims dims) (gc_dims c) then mkGC (gc_name c) [] (scalar (gc_points c))
  else mkGC (gc_name c) (map (fun d => length (filter (fun e => negb (in_dims dims e)) (seq 0 d))) (gc_dims c)) (gc_points c).
(** iris.cube.Cube.add_aux_coord (contract): ValueError unless the coordinate has the shape of these dimensions of the cube *)
Definition add_aux_coord {A} (c : cube A) (k : gcoord) : res (cube A) :=
  if (if list_eq_dec Nat.eq_dec (a_shape (gc_points k)) (map (fun d => nth d (a_shape (cb_data c)) 0) (gc_dims k)) then true else false) && forallb (fun d => d <? length (a_shape (cb_data c))) (gc_dims k)
  then Ok (mkCube (cb_data c) (cb_coords c ++ [k])) else Raises ValueError.
(** _gridded_full_collapse, 71-118.  [coords]: positions of the coordinates to collapse over.  The set of dimensions is kept as a sorted list. *)
Definition dims_to_collapse {A} (c : cube A) (coords : list nat) : list nat :=
  filter (fun d => existsb (fun k => match nth_error (cb_coords c) k with Some x => in_dims (gc_dims x) d | None => false end) coords) (seq 0 (length (a_shape (cb_data c)))).
Definition full_collapse {A B} (dflt : A) (kernel : list A -> B) (c : cube A) (coords : list nat) : res (cube B) :=
  let dims := dims_to_collapse c coords in
  let partial := filter (is_partial dims) (cb_coords c) in
  bind (collapse_array dflt kernel (cb_data c) dims) (fun data =>
  fold_left (fun out k => bind out (fun out =>
    bind (collapse_array 0%Q mean_of (gc_points k) dims) (fun p => add_aux_coord out (mkGC (gc_name k) (calc_new_dims (gc_dims k) dims) p))))
    partial (Ok (mkCube data (map (collapsed_coord dims) (filter (fun k => negb (is_partial dims k)) (cb_coords c)))))).
(** __call__, 120-142: one output per kernel, in order *)
Fixpoint collapse_kernels {A B} (dflt : A) (kernels : list (list A -> B)) (c : cube A) (coords : list nat) : res (list (cube B)) :=
  match kernels with [] => Ok [] | k :: ks => bind (full_collapse dflt k c coords) (fun o => bind (collapse_kernels dflt ks c coords) (fun os => Ok (o :: os))) end.
