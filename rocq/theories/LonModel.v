(** Longitude range handling. *)
From Verif Require Import Base QBase.
Open Scope Q_scope.

(** cis/utils.py:222-232 -> [iris.analysis.cartography.wrap_lons(lons, base, 360)], whose body (iris contract) is
    [((lons - base + period * 2) % period) + base].  Floats are exact rationals here. *)
Definition wrap_lon (base lon : Q) : Q := Qmod (lon - base + 360 * 2) 360 + base.
(** [Coord.set_longitude_range] (cis/data_io/Coord.py:106-112), [UngriddedData.set_longitude_range]
    (cis/data_io/ungridded_data.py:746-754) and [UngriddedCoordinates] (988-996): the wrap applied elementwise. *)
Definition fix_longitude_range (lons : list Q) (range_start : Q) : list Q := map (wrap_lon range_start) lons.

(** cis/data_io/hyperpoint_view.py:151-165: two successive [np.where]. *)
Definition view_wrap_lon (range_start lon : Q) : Q :=
  let range_end := range_start + 360 in
  let l1 := if Qltb lon range_start then lon + 360 else lon in
  if Qleb range_end l1 then l1 - 360 else l1.
Definition view_set_longitude_range (lons : list Q) (range_start : Q) : list Q := map (view_wrap_lon range_start) lons.

(** cis/data_io/hyperpoint_view.py:335-356 (gridded view): one step per value. *)
Definition gridded_view_wrap_lon (range_start lon : Q) : Q :=
  let range_end := range_start + 360 in
  if Qltb lon range_start then lon + 360 else if Qleb range_end lon then lon - 360 else lon.

(** cis/utils.py:253-260 *)
Definition wrap_longitude_coordinate_values (x_min x_max : Q) : Q * Q :=
  if Qltb x_max x_min then
    if Qleb 180 x_min then (x_min - 360, x_max) else (x_min, x_max + 360)
  else (x_min, x_max).

(** [_find_longitude_range], cis/collocation/col_implementations.py:1098-1110, for one longitude coordinate
    (a non-empty list of points). *)
Definition find_longitude_range (pts : list Q) : res Q :=
  match pts with
  | [] => Raises ValueError   (* min() of an empty array *)
  | p :: ps => let m := fold_left Qmin ps p in Ok (if Qltb m 0 then -(180) else 0)
  end.

(** ** GriddedData.set_longitude_range, cis/data_io/gridded_data.py:188-252 *)
Section Gridded.
Context {A : Type}.   (* a column: everything the cube stores at one longitude index (data and auxiliary points) *)
(** A longitude axis with its columns; the bounds are lower and upper bound per longitude, [None] when absent.
    Simplification: n-dimensional rolling along the longitude dimension is rolling the list of columns. *)
Record lon_axis := mkAxis { lon_points : list Q; lon_bounds : option (list (Q * Q)); lon_columns : list A }.

Definition add_where (cond : list bool) (d : Q) (l : list Q) : list Q :=
  map (fun cx : bool * Q => if fst cx then snd cx + d else snd cx) (combine cond l).
Definition add_where2 (cond : list bool) (d : Q) (l : list (Q * Q)) : list (Q * Q) :=
  map (fun cx : bool * (Q * Q) => if fst cx then (fst (snd cx) + d, snd (snd cx) + d) else snd cx) (combine cond l).

Definition set_longitude_range (ax : lon_axis) (range_start : Q) : lon_axis :=
  let pts := lon_points ax in
  let n := length pts in
  let idx1 := searchsorted_left pts range_start in
  let idx2 := searchsorted_left pts (range_start + 360) in
  if (0 <? idx1)%nat && (idx1 <? n)%nat then
    let shift := (- Z.of_nat idx1)%Z in
    let lon_min := nth idx1 pts 0 in
    let new_points := roll pts shift in
    let cond := map (fun x => Qltb x lon_min) new_points in
    mkAxis (add_where cond 360 new_points)
           (option_map (fun b => add_where2 cond 360 (roll b shift)) (lon_bounds ax))
           (roll (lon_columns ax) shift)
  else if (0 <? idx2)%nat && (idx2 <? n)%nat then
    let shift := (Z.of_nat n - Z.of_nat idx2)%Z in
    let lon_max := nth idx2 pts 0 in
    let new_points := roll pts shift in
    let cond := map (fun x => Qleb lon_max x) new_points in
    mkAxis (add_where cond (-(360)) new_points)
           (option_map (fun b => add_where2 cond (-(360)) (roll b shift)) (lon_bounds ax))
           (roll (lon_columns ax) shift)
  else ax.
End Gridded.
Arguments lon_axis : clear implicits.
