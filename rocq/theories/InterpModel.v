(** Interpolation of gridded data onto ungridded samples: cis/collocation/gridded_interpolation.py. *)
From Verif Require Import Base QBase DateModel.
Open Scope Q_scope.

(** An n-dimensional array: the value at an index, one number per dimension; None for a masked value.  Its shape is given by the axes.
    Numbers are exact; NaN and masked are both None. *)
Definition array := list nat -> option Q.
Definition oplus (a b : option Q) : option Q := match a, b with Some a, Some b => Some (a + b) | _, _ => None end.
Definition otimes (a b : option Q) : option Q := match a, b with Some a, Some b => Some (a * b) | _, _ => None end.

(** ** _RegularGridInterpolator *)
(** 399-419, one dimension and one point: the lower index and the distance from it in units of the cell.
    For an axis with one point Python's index is -1 and the distance a division by zero (NaN): here index 0 and None. *)
Definition find_index (coord : list Q) (x : Q) : nat * option Q :=
  if (length coord <=? 1)%nat then (0%nat, None)
  else
    let i := Nat.min (pred (searchsorted_left coord x)) (length coord - 2) in
    (i, Some ((x - nth i coord 0) / (nth (S i) coord 0 - nth i coord 0))).
(** 415-416 *)
Definition out_of_bounds1 (coord : list Q) (x : Q) : bool := Qltb x (hd 0 coord) || Qltb (last coord 0) x.
Definition zip_with {A B C} (f : A -> B -> C) (l : list A) (m : list B) : list C := map (fun ab : A * B => f (fst ab) (snd ab)) (combine l m).
Definition find_indices (coords : list (list Q)) (x : list Q) : list (nat * option Q) := zip_with find_index coords x.
Definition out_of_bounds (coords : list (list Q)) (x : list Q) : bool := existsb (fun b => b) (zip_with out_of_bounds1 coords x).

(** itertools.product *)
Fixpoint product {A} (ls : list (list A)) : list (list A) :=
  match ls with [] => [[]] | l :: ls => flat_map (fun a => map (cons a) (product ls)) l end.
(** 371-387.  [trailing]: the rest of the index when the array has more dimensions than were located. *)
Definition evaluate_linear (values : array) (indices : list nat) (norms : list (option Q)) (trailing : list nat) : option Q :=
  fold_left (fun value edge =>
      let weight := fold_left (fun w eiy => let '(e, (i, y)) := eiy in
                      otimes w (if (e =? i)%nat then oplus (Some 1) (otimes (Some (-1)) y) else y)) (combine edge (combine indices norms)) (Some 1) in
      oplus value (otimes (values (edge ++ trailing)) weight))
    (product (map (fun i => [i; S i]) indices)) (Some 0).
(** 389-394; a NaN distance compares false, and the index is then -1 + 1 *)
Definition evaluate_nearest (values : array) (indices : list nat) (norms : list (option Q)) (trailing : list nat) : option Q :=
  values (map (fun iy : nat * option Q => match snd iy with Some y => if Qleb y (1 # 2) then fst iy else S (fst iy) | None => 0%nat end) (combine indices norms) ++ trailing).
Inductive method := Lin | Nn.
Definition evaluate (m : method) := match m with Lin => evaluate_linear | Nn => evaluate_nearest end.

(** np.all(np.diff(c) > 0.) *)
Fixpoint ascending (c : list Q) : bool := match c with x :: ((y :: _) as c') => Qltb x y && ascending c' | _ => true end.
(** 264-282, 308, 310-361 without a hybrid coordinate.  [extrapolate]: fill_value is None *)
Definition regular_grid (m : method) (grid : list (list Q)) (values : array) (extrapolate : bool) (points : list (list Q)) : res (list (option Q)) :=
  if negb (forallb ascending grid) then Raises ValueError
  else if negb (forallb (fun x => (length x =? length grid)%nat) points) then Raises ValueError
  else Ok (map (fun x => let ind := find_indices grid x in
                   if negb extrapolate && out_of_bounds grid x then None else evaluate m values (map fst ind) (map snd ind) []) points).
(** ** with a hybrid vertical coordinate (284-306): its array over the dimensions [hybrid_dims] of the grid (without the vertical) and the level,
    which comes last.  A point: the horizontal coordinates, the vertical one. *)
Definition vertical_column (m : method) (hybrid : array) (hybrid_dims : list nat) (levels : nat) (ind : list (nat * option Q)) : list (option Q) :=
  let hybrid_indices := map (fun d => fst (nth d ind (0%nat, None))) hybrid_dims in
  map (fun k => evaluate m hybrid hybrid_indices (map snd ind) [k]) (seq 0 levels).
Definition hybrid_grid (m : method) (grid : list (list Q)) (hybrid : array) (hybrid_dims : list nat) (levels : nat) (values : array) (extrapolate : bool)
    (points : list (list Q * Q)) : res (list (option Q)) :=
  if negb (forallb ascending grid) then Raises ValueError
  else map_res (fun xz : list Q * Q =>
         let '(x, z) := xz in
         let ind := find_indices grid x in
         match fold_right (fun v acc => match v, acc with Some v, Some l => Some (v :: l) | _, _ => None end) (Some []) (vertical_column m hybrid hybrid_dims levels ind) with
         | None => Ok None    (* a missing value in the column: not modelled further *)
         | Some column =>
           let '(vi, vy) := find_index column z in
           if negb extrapolate && (out_of_bounds grid x || out_of_bounds1 column z) then Ok None
           else Ok (evaluate m values (map fst ind ++ [vi]) (map snd ind ++ [vy]) [])
         end) points.

(** ** GriddedUngriddedInterpolator, for data without a hybrid coordinate whose dimensions are all coordinates of the sample *)
Record dim := mkDim { d_points : list Q; d_circular : bool }.
(** 84-85 *)
Definition decreasing (d : dim) : bool := match d_points d with a :: b :: _ => Qltb b a | _ => false end.
(** 26-35, 84-95 *)
Definition grid_points (d : dim) : list Q :=
  let pts := if decreasing d then rev (d_points d) else d_points d in
  if d_circular d then pts ++ [hd 0 pts + 360] else pts.
Definition dim_size (d : dim) : nat := length (d_points d) + (if d_circular d then 1 else 0).
Definition set_index (k : nat) (f : nat -> nat) (e : list nat) : list nat := zip_with (fun j i => if (j =? k)%nat then f i else i) (seq 0 (length e)) e.
(** 37-45 for dimension k, which has n points *)
Definition extend_data (k n : nat) (values : array) : array := fun e => values (set_index k (fun i => if (i =? n)%nat then 0%nat else i) e).
Definition extend_all (dims : list dim) (values : array) : array :=
  fold_left (fun v kd => if d_circular (snd kd) then extend_data (fst kd) (length (d_points (snd kd))) v else v) (combine (seq 0 (length dims)) dims) values.
(** 143-148: _decreasing_coord_dims holds True for every decreasing coordinate (line 87), and dim_slices[True] is dim_slices[1]:
    dimension 1 is reversed, whichever dimension is decreasing; IndexError for one-dimensional data *)
Definition account_for_inverted (dims : list dim) (values : array) : res array :=
  if existsb decreasing dims then
    if (length dims <=? 1)%nat then Raises IndexError
    else Ok (fun e => values (set_index 1 (fun i => (dim_size (nth 1 dims (mkDim [] false)) - 1 - i)%nat) e))
  else Ok values.
(** 127-132, 177-184: a sample point with a flag: its own value is missing *)
Definition interpolate (m : method) (dims : list dim) (values : array) (missing_data_for_missing_sample extrapolate : bool) (samples : list (list Q * bool)) : res (list (option Q)) :=
  let skip (s : list Q * bool) := missing_data_for_missing_sample && snd s in
  let kept := map fst (filter (fun s => negb (skip s)) samples) in
  if negb (forallb ascending (map grid_points dims)) then Raises ValueError else
  bind (account_for_inverted dims (extend_all dims values)) (fun v =>
  bind (regular_grid m (map grid_points dims) v extrapolate kept) (fun r =>
  Ok ((fix pack (samples : list (list Q * bool)) (r : list (option Q)) : list (option Q) :=
         match samples with
         | [] => []
         | s :: samples => if skip s then None :: pack samples r else match r with x :: r => x :: pack samples r | [] => None :: pack samples [] end
         end) samples r))).
