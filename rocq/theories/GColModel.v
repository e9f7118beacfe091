(** Collocating ungridded data onto a gridded sample: GriddedData.sampled_from (cis/data_io/gridded_data.py:347-397), collocate (cis/collocation/col.py:9-46),
    GeneralGriddedCollocator.collocate (cis/collocation/col_implementations.py:774-906) with its constraints (335-372, 986-1047). *)
From Coq Require Import String.
From Verif Require Import Base PyStr QBase LonModel DateModel FileListModel IndexModel UngrModel SubsetModel GridIndexModel AggModel.
From Coq Require Import List.
Import ListNotations.
Open Scope string_scope. Open Scope list_scope. Open Scope nat_scope. Notation length := List.length.

(** A dimension of the sample cube: the standard name, points and bounds of its coordinate.  Simplifications: every dimension has a coordinate; longitudes are not
    marked as circular (iris' guess_bounds differs for these).  Times are numbers in the same units. *)
Record sdim := mkDim { sd_std : option str; sd_points : list Q; sd_bounds : option (list (Q * Q)) }.
(** The sample: its dimensions, its other coordinates (auxiliary or scalar: standard names and points), where its data are masked.
    cube.coords() gives the coordinates of the dimensions first, in order (iris contract). *)
Record cube := mkCube { cu_dims : list sdim; cu_aux : list (option str * list Q); cu_masked : list nat -> bool }.
Definition all_coords (c : cube) : list (option str * list Q) := map (fun s => (sd_std s, sd_points s)) (cu_dims c) ++ cu_aux c.
(** 812-824: the cells of a dimension; bounds are guessed if there are none.  Only coordinates with a standard name come here. *)
Definition cell_axis (s : sdim) : res axis :=
  match sd_bounds s with
  | Some b => Ok (mkAx (sd_points s) b)
  | None => bind (guess_bounds (std_eqb (sd_std s) (Some (lit "latitude"))) (sd_points s)) (fun b => Ok (mkAx (sd_points s) b))
  end.
(** _find_longitude_range, 1098-1110, over all coordinates: the last longitude decides *)
Definition sample_low (cs : list (option str * list Q)) : res (option Q) :=
  fold_left (fun low sp => bind low (fun low => if std_eqb (fst sp) (Some (lit "longitude")) then bind (find_longitude_range (snd sp)) (fun s => Ok (Some s)) else Ok low)) cs (Ok None).

Section GCol.
Context {V : Type}.
(** numpy.argsort *)
Variable argsort : list Z -> list nat.
(** A kernel: on the values alone (mean, moments, ...: one result per output variable, None for NaN), or one that looks at the points (nn_h, nn_a, nn_p, nn_t). *)
Inductive kernel := OnValues (k : list Q -> res (list (option V))) | OnPoints.
(** The result: which dimensions of the sample it has, their cells, and the values of all output variables at a cell, None where masked. *)
Record gcol := mkGCol { gc_dims : list nat; gc_axes : list axis; gc_value : list nat -> option (list (option V)) }.

(** 845-857 with get_iterator_for_data_only, 1021-1047: the kernel on the values of each cell that has any; ValueError leaves the cell masked *)
Fixpoint fill (k : list Q -> res (list (option V))) (skip : list Z -> bool) (values : list (option Q)) (ds : list (list Z * list nat)) (acc : list Z -> option (list (option V))) :
    res (list Z -> option (list (option V))) :=
  match ds with
  | [] => Ok acc
  | (cell, idxs) :: ds =>
    if skip cell then fill k skip values ds acc
    else match k (somes (map (fun i => nth i values None) idxs)) with
         | Ok v => fill k skip values ds (set_cell acc cell v)
         | Raises ValueError => fill k skip values ds acc
         | Raises e => Raises e
         end
  end.
(** 859-868 with get_iterator, 1001-1019: the points go into a HyperPointList, which has no iterrows.  points.data[out_indices]: the indices in the order of the
    hyperpoint's coordinates, IndexError outside the sample's shape *)
Fixpoint fill_points (mdfms : bool) (shape : list nat) (masked : list nat -> bool) (ds : list (list Z * list nat)) (acc : list Z -> option (list (option V))) :
    res (list Z -> option (list (option V))) :=
  match ds with
  | [] => Ok acc
  | (cell, _) :: ds =>
    let at_ := map Z.to_nat cell in
    if mdfms && negb (forallb (fun kn : nat * nat => fst kn <? snd kn) (combine at_ shape)) then Raises IndexError
    else if mdfms && masked at_ then fill_points mdfms shape masked ds acc
    else Raises AttributeError
  end.
(** 774-906 for one variable with BinnedCubeCellOnlyConstraint.  [d] has been post-processed (coords() was called).
    Simplification: names, units and fill values are left out. *)
Definition collocate_bin (k : kernel) (mdfms : bool) (sample : cube) (d : udata) : res gcol :=
  let cols := coords_flattened (u_coords d) in
  bind (view_length (mkView cols (Some (u_values d)))) (fun _ =>
  bind (coord_map 0 standard_names (map (fun o => negb (is_missing o)) (find_standard_coords (u_coords d))) (map sd_std (cu_dims sample))) (fun m =>
  if mdfms && negb (length m =? length (all_coords sample)) then Raises UserPrintableException else
  bind (map_res (fun hc : nat * nat => cell_axis (nth (snd hc) (cu_dims sample) (mkDim None [] None))) m) (fun axes =>
  bind (sample_low (all_coords sample)) (fun low =>
  let cols := view_wrapped low cols in
  let pts := grid_points m cols (u_values d) in
  bind (deliveries axes pts (argsort (map (cell_number axes) pts))) (fun ds =>
  let sorted := sort_by (combine (map snd m) (seq 0 (length m))) in
  let order := map snd sorted in
  (* remapped_indices, 1037-1038 *)
  let skip cell := mdfms && cu_masked sample (map (fun shi => Z.to_nat (nth shi cell 0%Z)) order) in
  bind (match k with
        | OnValues f => fill f skip (u_values d) ds (fun _ => None)
        | OnPoints => fill_points mdfms (map (fun s => length (sd_points s)) (cu_dims sample)) (cu_masked sample) ds (fun _ => None)
        end) (fun v =>
  Ok (mkGCol (map fst sorted) (map (fun shi => nth shi axes (mkAx [] [])) order) (transposed order v)))))))).
(** the same with SepConstraintKdtree: create_indexes (825, data_index.py:259-272) makes an index whatever the separations are, by
    data[['latitude', 'longitude']] on a view of points (haversinedistancekdtreeindex.py:13), where a list is compared with 0 (hyperpoint_view.py:83): TypeError *)
Definition collocate_box (mdfms : bool) (sample : cube) (d : udata) : res gcol :=
  let cols := coords_flattened (u_coords d) in
  bind (view_length (mkView cols (Some (u_values d)))) (fun _ =>
  bind (coord_map 0 standard_names (map (fun o => negb (is_missing o)) (find_standard_coords (u_coords d))) (map sd_std (cu_dims sample))) (fun m =>
  if mdfms && negb (length m =? length (all_coords sample)) then Raises UserPrintableException else
  bind (map_res (fun hc : nat * nat => cell_axis (nth (snd hc) (cu_dims sample) (mkDim None [] None))) m) (fun _ =>
  bind (sample_low (all_coords sample)) (fun _ => Raises TypeError)))).
(** sampled_from for ungridded data, and collocate's report of errors *)
Definition reported {A} (r : res A) : res A := match r with Raises TypeError | Raises AttributeError => Raises CoordinateNotFoundError | _ => r end.
Definition sampled_from (how : str) (k : kernel) (mdfms : bool) (sample : cube) (d : udata) : res gcol :=
  if str_eqb how [] || str_eqb how (lit "bin") then reported (bind (post_process d) (collocate_bin k mdfms sample))
  else if str_eqb how (lit "box") then reported (bind (post_process d) (collocate_box mdfms sample))
  else Raises ValueError.
(** 788-796: a list of variables, one after the other (bounds guessed for the first are there for the next; they would be guessed again alike) *)
Definition sampled_from_list (how : str) (k : kernel) (mdfms : bool) (sample : cube) (ds : list udata) : res (list gcol) :=
  if str_eqb how [] || str_eqb how (lit "bin") then reported (map_res (fun d => bind (post_process d) (collocate_bin k mdfms sample)) ds)
  else if str_eqb how (lit "box") then reported (map_res (fun d => bind (post_process d) (collocate_box mdfms sample)) ds)
  else Raises ValueError.
End GCol.
