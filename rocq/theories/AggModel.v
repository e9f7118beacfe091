(** Aggregating ungridded data onto a grid: cis/aggregation/ungridded_aggregator.py, [_aggregate_ungridded] (cis/data_io/ungridded_data.py:1260-1318)
    and the part of GeneralGriddedCollocator.collocate (cis/collocation/col_implementations.py:774-906) it uses. *)
From Verif Require Import Base PyStr QBase LonModel DateModel FileListModel IndexModel UngrModel SubsetModel GridIndexModel.
Open Scope string_scope. Open Scope list_scope. Open Scope Q_scope.

(** numpy.arange: ceil((stop - start) / step) values (contract); ZeroDivisionError for a step of zero *)
Definition arange (start stop step : Q) : res (list Q) :=
  if Qeqb step 0 then Raises ZeroDivisionError
  else Ok (map (fun k => start + inject_Z (Z.of_nat k) * step) (seq 0 (Z.to_nat (Qceiling ((stop - start) / step))))).
(** aggregation_grid_array, 140-149.  Times are numbers here. *)
Definition aggregation_grid_array (start stop delta : Q) : res (list Q) := arange (start + delta / 2) (stop + delta / 2) delta.

(** iris.coords.DimCoord.guess_bounds (contract): bounds halfway between the points, the outer cells as wide as their neighbours; latitudes within
    the poles have their bounds clipped to the poles; ValueError for fewer than two points *)
Definition diffs (l : list Q) : list Q := map (fun ab : Q * Q => snd ab - fst ab) (combine l (tl l)).
Definition clip (lo hi x : Q) : Q := Qmin (Qmax x lo) hi.
Definition guess_bounds (latitude : bool) (pts : list Q) : res (list (Q * Q)) :=
  match diffs pts with
  | [] => Raises ValueError
  | d0 :: ds =>
    let left := d0 :: d0 :: ds in let right := (d0 :: ds) ++ [last (d0 :: ds) 0] in
    let b := map (fun pd : Q * (Q * Q) => (fst pd - fst (snd pd) / 2, fst pd + snd (snd pd) / 2)) (combine pts (combine left right)) in
    Ok (if latitude && forallb (fun p => Qleb (-(90)) p && Qleb p 90) pts then map (fun lh : Q * Q => (clip (-(90)) 90 (fst lh), clip (-(90)) 90 (snd lh))) b else b)
  end.
(** iris: the coordinate is called latitude.  The standard name of the new coordinate is that of the old one, its var_name the old one's name *)
Definition is_latitude (c : coord) : bool := str_eqb (c_name c) (lit "latitude").

(** A coordinate of the new grid: a range cut into cells, or one cell with bounds -inf, inf and the middle of the data as its point *)
Inductive gaxis := Cells (a : axis) | Whole (centre : Q).
Definition gpoints (g : gaxis) : list Q := match g with Cells a => ax_points a | Whole c => [c] end.
(** a requested grid: start, stop, step *)
Record request := mkReq { rq_start : Q; rq_stop : Q; rq_step : Q }.
(** _make_partially_collapsed_coord, 88-106 *)
Definition partially_collapsed (c : coord) (g : request) : res gaxis :=
  bind (aggregation_grid_array (rq_start g) (rq_stop g) (rq_step g)) (fun pts =>
  match pts with
  | [p] => Ok (Cells (mkAx [p] [(rq_start g, rq_stop g)]))
  | _ => bind (guess_bounds (is_latitude c) pts) (fun b => Ok (Cells (mkAx pts b)))
  end).
(** _get_coord_start_end_centre, 127-137 *)
Definition start_end (c : coord) : res (Q * Q) :=
  bind (qmin_of (somes (c_points c))) (fun s => bind (qmax_of (somes (c_points c))) (fun e => Ok (s, e))).
(** _make_fully_collapsed_coord, 73-86 *)
Definition fully_collapsed (c : coord) : res gaxis := bind (start_end c) (fun se => Ok (Whole (fst se + (snd se - fst se) / 2))).

(** aggregate, 22-36: the requested grids are taken out of the dictionary as they are used *)
Fixpoint new_coords (cs : list coord) (spec : list (str * request)) : res (list gaxis * list (str * request)) :=
  match cs with
  | [] => Ok ([], spec)
  | c :: cs =>
    bind (match dict_get spec (c_name c) with Some g => partially_collapsed c g | None => fully_collapsed c end) (fun a =>
    bind (new_coords cs (filter (fun kv => negb (str_eqb (fst kv) (c_name c))) spec)) (fun r => Ok (a :: fst r, snd r)))
  end.
Definition aggregation_grid (cs : list coord) (spec : list (str * request)) : res (list gaxis) :=
  bind (new_coords cs spec) (fun r => match snd r with [] => Ok (fst r) | _ => Raises CoordinateNotFoundError end).

(** make_coord_map, _find_standard_coords, col_implementations.py:1050-1095: (number of the standard coordinate, number of the grid coordinate).
    [stds]: the standard names of the grid coordinates; [present]: which standard coordinates the data have *)
Definition positions (n : str) (stds : list (option str)) : list nat := filter (fun i => std_eqb (nth i stds None) (Some n)) (seq 0 (length stds)).
Fixpoint coord_map (hpi : nat) (names : list str) (present : list bool) (stds : list (option str)) : res (list (nat * nat)) :=
  match names, present with
  | n :: names, p :: present =>
    bind (if p then match positions n stds with [] => Ok [] | [ci] => Ok [(hpi, ci)] | _ => Raises CoordinateNotFoundError end else Ok []) (fun here =>
    bind (coord_map (S hpi) names present stds) (fun rest => Ok (here ++ rest)))
  | _, _ => Ok []
  end.
(** _find_longitude_range, 1098-1110: the last longitude coordinate decides *)
Definition lon_start (stds : list (option str)) (grid : list gaxis) : res (option Q) :=
  fold_left (fun low sg => bind low (fun low => if std_eqb (fst sg) (Some (lit "longitude")) then bind (find_longitude_range (gpoints (snd sg))) (fun s => Ok (Some s)) else Ok low))
    (combine stds grid) (Ok None).
(** _fix_longitude_range and UngriddedHyperPointView.set_longitude_range, on the (copied) coordinates of the view *)
Definition view_wrapped (low : option Q) (cols : list (option (list (option Q)))) : list (option (list (option Q))) :=
  match low, cols with
  | Some s, lat :: Some lon :: rest => lat :: Some (map (option_map (view_wrap_lon s)) lon) :: rest
  | _, _ => cols
  end.
(** The comparisons made with bounds -inf, inf come out as with any bounds below and above all values. *)
Definition comparable (vals : list Q) (g : gaxis) : axis :=
  match g with
  | Cells a => a
  | Whole c => match vals with [] => mkAx [c] [(0, 1)] | v :: r => mkAx [c] [(fold_left Qmin r v - 1, fold_left Qmax r v + 1)] end
  end.
(** the binned points: for point i the values of the mapped coordinates *)
Definition column (cols : list (option (list (option Q)))) (hpi : nat) : list Q := match nth hpi cols None with Some l => somes l | None => [] end.
Definition grid_points (m : list (nat * nat)) (cols : list (option (list (option Q)))) (values : list (option Q)) : list dpoint :=
  map (fun i => mkPt (map (fun hc : nat * nat => nth i (column cols (fst hc)) 0) m) (is_missing (nth i values None))) (seq 0 (length values)).

(** sorted(coord_map, key=lambda x: x[1]), 890-892: insertion sort; entries (grid coordinate, position in coord_map) *)
Fixpoint insert_by (x : nat * nat) (l : list (nat * nat)) : list (nat * nat) :=
  match l with [] => [x] | y :: r => if (fst x <? fst y)%nat then x :: l else y :: insert_by x r end.
Definition sort_by (l : list (nat * nat)) : list (nat * nat) := fold_left (fun acc x => insert_by x acc) l [].
Fixpoint index_of (x : nat) (l : list nat) : nat := match l with [] => 0%nat | y :: r => if (y =? x)%nat then 0%nat else S (index_of x r) end.

Section Values.
Context {V : Type}.
(** A kernel on data values alone (get_value_for_data_only): one result per output variable, None for NaN.  [order]: numpy.argsort. *)
Variable kernel : list Q -> list (option V).
Variable argsort : list Z -> list nat.
(** One aggregated variable: the data coordinates which are its dimensions, the grid coordinate, its reported bounds and size for each, and the
    results at a cell, None where the cell is masked. *)
Record aggregated := mkAgg { ag_dims : list nat; ag_axes : list gaxis; ag_bounds : list (list (Q * Q)); ag_value : list nat -> option (list (option V)) }.
(** 124-165 and 845-855: the cells are set one after the other; values[indices] = kernel(data[slice]) *)
Definition set_cell (values : list Z -> option (list (option V))) (cell : list Z) (v : list (option V)) : list Z -> option (list (option V)) :=
  fun c => if list_Z_eqb c cell then Some v else values c.
Definition fill_cells (values : list (option Q)) (ds : list (list Z * list nat)) : list Z -> option (list (option V)) :=
  fold_left (fun acc d => set_cell acc (fst d) (kernel (somes (map (fun i => nth i values None) (snd d))))) ds (fun _ => None).
(** cube.transpose(order): the new dimension j is the old dimension order[j] (contract) *)
Definition transposed (order : list nat) (old : list Z -> option (list (option V))) : list nat -> option (list (option V)) :=
  fun cell => old (map (fun shi => Z.of_nat (nth (index_of shi order) cell 0%nat)) (seq 0 (length order))).
(** _add_max_min_bounds_for_collapsed_coords, 108-123 *)
Definition reported_bounds (c : coord) (g : gaxis) : res (list (Q * Q)) := match g with Cells a => Ok (ax_bounds a) | Whole _ => bind (start_end c) (fun se => Ok [se]) end.
(** GeneralGriddedCollocator.collocate for one variable with BinnedCubeCellOnlyConstraint and a kernel on the values alone.
    [src]: the coordinates (of the first variable) the grid was made from.  Simplification: names, units and fill values of the result are left out. *)
Definition collocate_grid (src : list coord) (grid : list gaxis) (d : udata) : res aggregated :=
  let stds := map c_std src in let cols := coords_flattened (u_coords d) in
  bind (view_length (mkView cols (Some (u_values d)))) (fun _ =>
  bind (coord_map 0 standard_names (map (fun o => negb (is_missing o)) (find_standard_coords (u_coords d))) stds) (fun m =>
  bind (lon_start stds grid) (fun low =>
  let cols := view_wrapped low cols in
  let axes := map (fun hc : nat * nat => comparable (column cols (fst hc)) (nth (snd hc) grid (Whole 0))) m in
  let pts := grid_points m cols (u_values d) in
  bind (deliveries axes pts (argsort (map (cell_number axes) pts))) (fun ds =>
  let sorted := sort_by (combine (map snd m) (seq 0 (length m))) in
  let dims := map fst sorted in
  bind (map_res (fun ci => reported_bounds (nth ci src (mkCoord None [] [] [] [] [])) (nth ci grid (Whole 0))) dims) (fun b =>
  Ok (mkAgg dims (map (fun ci => nth ci grid (Whole 0)) dims) b (transposed (map snd sorted) (fill_cells (u_values d) ds)))))))).

(** _aggregate_ungridded: the request for one coordinate; None for values left out *)
Record gridspec := mkSpec { gs_name : str; gs_start : option Q; gs_stop : option Q; gs_step : option Q }.
Definition add_grid (cs : list coord) (spec : list (str * request)) (g : gridspec) : res (list (str * request)) :=
  let c := find_coord cs (gs_name g) in
  let points := match c with Some c => Ok (somes (c_points c)) | None => Raises AttributeError end in
  bind (default_to (gs_start g) (bind points qmin_of)) (fun a =>
  bind (default_to (gs_stop g) (bind points qmax_of)) (fun b =>
  match gs_step g, c with
  | None, _ => Raises ValueError
  | Some _, None => Raises AttributeError
  | Some s, Some c => Ok (dict_set spec (c_name c) (mkReq a b s))
  end)).
Definition grid_spec (cs : list coord) (gs : list gridspec) : res (list (str * request)) := fold_left (fun k g => bind k (fun k => add_grid cs k g)) gs (Ok []).
(** UngriddedData.aggregate, on loaded data *)
Definition aggregate (d : udata) (gs : list gridspec) : res aggregated :=
  bind (post_process d) (fun d =>
  bind (grid_spec (u_coords d) gs) (fun spec =>
  bind (aggregation_grid (u_coords d) spec) (fun grid =>
  collocate_grid (u_coords d) grid d))).
(** UngriddedDataList.aggregate: the grid is made from the first variable, every variable is put on it; IndexError for an empty list *)
Definition aggregate_list (ds : list udata) (gs : list gridspec) : res (list aggregated) :=
  bind (map_res post_process ds) (fun ds =>
  match ds with
  | [] => Raises IndexError
  | first :: _ =>
    bind (grid_spec (u_coords first) gs) (fun spec =>
    bind (aggregation_grid (u_coords first) spec) (fun grid =>
    map_res (collocate_grid (u_coords first) grid) ds))
  end).
End Values.
