(** Assigning data points to grid cells: cis/collocation/data_index.py. *)
From Verif Require Import Base QBase.
Open Scope Z_scope.

(** A grid coordinate: its points and cell bounds (first and second column of [coord.bounds]). *)
Record axis := mkAx { ax_points : list Q; ax_bounds : list (Q * Q) }.
(** A data point: its coordinates in the order of [coord_map], and whether its value is masked.
    Simplification: times are already numbers (line 66-67 converts datetimes). *)
Record dpoint := mkPt { pt_coords : list Q; pt_masked : bool }.

(** data_index.py:52-54 *)
Definition decreasing (a : axis) : bool :=
  match ax_points a with p0 :: p1 :: _ => Qltb p1 p0 | _ => false end.
(** 56-61 *)
Definition lower_bounds (a : axis) : list Q :=
  if decreasing a then rev (map snd (ax_bounds a)) else map fst (ax_bounds a).
Definition max_bound (a : axis) : Q :=
  if decreasing a then snd (hd (0, 0)%Q (ax_bounds a)) else snd (last (ax_bounds a) (0, 0)%Q).
(** 81-86 *)
Definition raw_index (a : axis) (v : Q) : Z :=
  if Qltb v (max_bound a) then Z.of_nat (searchsorted_right (lower_bounds a) v) - 1 else -1.
(** 97-101 *)
Definition flip (a : axis) (i : Z) : Z := if decreasing a then i * -1 + (Z.of_nat (length (ax_points a)) - 1) else i.
Definition raw_indices (axes : list axis) (p : dpoint) : list Z := map (fun av : axis * Q => raw_index (fst av) (snd av)) (combine axes (pt_coords p)).
Definition out_indices (axes : list axis) (p : dpoint) : list Z :=
  map (fun av : axis * Z => flip (fst av) (snd av)) (combine axes (raw_indices axes p)).
(** 90-94 *)
Definition in_grid (axes : list axis) (p : dpoint) : bool := forallb (fun i => 0 <=? i) (raw_indices axes p) && negb (pt_masked p).
(** np.cumproduct((1,) + grid_shape[:-1]) *)
Fixpoint cumprod (acc : Z) (shape : list Z) : list Z := match shape with [] => [] | s :: shape => acc :: cumprod (acc * s) shape end.
Definition dot (a b : list Z) : Z := fold_right Z.add 0 (map (fun p : Z * Z => fst p * snd p) (combine a b)).
Definition grid_shape (axes : list axis) : list Z := map (fun a => Z.of_nat (length (ax_bounds a))) axes.
(** 109-116 *)
Definition cell_number (axes : list axis) (p : dpoint) : Z :=
  if in_grid axes p then dot (cumprod 1 (grid_shape axes)) (out_indices axes p) else -1.

(** 119-122: [order] is the result of argsort on the cell numbers: some permutation that sorts them. *)
Definition is_argsort (cells : list Z) (order : list nat) : Prop :=
  Permutation order (seq 0 (length cells)) /\ StronglySorted Z.le (map (fun i => nth i cells 0) order).

(** 137 : flatnonzero(diff(cell_numbers)) + 1 *)
Fixpoint changes (off : nat) (l : list Z) : list nat :=
  match l with
  | [] => []
  | a :: r => match r with b :: _ => (if b - a =? 0 then [] else [S off]) ++ changes (S off) r | [] => [] end
  end.
(** 143-161 *)
Definition cell_slices (cells : list Z) : res (list (nat * nat)) :=
  match cells with
  | [] => Raises IndexError
  | c :: _ =>
    let ch := changes 0 cells in
    let n := length cells in
    Ok (if c =? -1 then
          match ch with [] => [] | c0 :: cs => combine (c0 :: cs) (cs ++ [n]) end
        else combine (0%nat :: ch) (ch ++ [n]))
  end.
(** the iterator (124-165) over (out_indices, the data points sort_order[start:stop]) *)
Definition deliveries (axes : list axis) (pts : list dpoint) (order : list nat) : res (list (list Z * list nat)) :=
  let sorted := map (fun i => cell_number axes (nth i pts (mkPt [] true))) order in
  bind (cell_slices sorted) (fun sl =>
    Ok (map (fun ab : nat * nat =>
          (out_indices axes (nth (nth (fst ab) order 0%nat) pts (mkPt [] true)),
           firstn (snd ab - fst ab) (skipn (fst ab) order))) sl)).

(** ** GridCellBinIndex, data_index.py:168-249 *)
Definition upper_bounds (a : axis) : list Q :=
  if decreasing a then rev (map fst (ax_bounds a)) else map snd (ax_bounds a).
(** 224-231: the cell index along one coordinate *)
Definition bin_index (a : axis) (v : Q) : option Z :=
  let si := Z.of_nat (searchsorted_right (lower_bounds a) v) - 1 in
  if (0 <=? si) && Qltb v (nth (Z.to_nat si) (upper_bounds a) 0%Q) then
    Some (if decreasing a then Z.of_nat (length (ax_points a)) - si - 1 else si)
  else None.
Fixpoint all_some {A} (l : list (option A)) : option (list A) :=
  match l with [] => Some [] | Some x :: l => option_map (cons x) (all_some l) | None :: _ => None end.
Definition bin_cell (axes : list axis) (p : dpoint) : option (list Z) :=
  all_some (map (fun av : axis * Q => bin_index (fst av) (snd av)) (combine axes (pt_coords p))).
(** 216-241: the points appended to each cell, in data order; [get_points_by_indices]: None if the cell got no point *)
Definition list_Z_eqb (a b : list Z) : bool := if list_eq_dec Z.eq_dec a b then true else false.
Definition get_points_by_indices (axes : list axis) (pts : list dpoint) (cell : list Z) : option (list nat) :=
  match filter (fun i => let p := nth i pts (mkPt [] true) in
                  negb (pt_masked p) && match bin_cell axes p with Some c => list_Z_eqb c cell | None => false end)
               (seq 0 (length pts)) with
  | [] => None
  | l => Some l
  end.
