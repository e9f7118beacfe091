(** Collocating gridded data onto ungridded samples: UngriddedData.sampled_from (cis/data_io/ungridded_data.py:1213-1256), collocate (cis/collocation/col.py:9-46),
    GriddedUngriddedCollocator.collocate (cis/collocation/col_implementations.py:115-180), GriddedUngriddedInterpolator (cis/collocation/gridded_interpolation.py:46-190). *)
From Coq Require Import String.
From Verif Require Import Base PyStr QBase LonModel DateModel UngrModel SubsetModel AggModel InterpModel GColModel.
From Coq Require Import List.
Import ListNotations.
Open Scope string_scope. Open Scope list_scope. Open Scope nat_scope. Notation length := List.length.

Definition longitude : str := lit "longitude".
(** A dimension of the data: the standard name and the other name (long name, else variable name, else "unknown": iris) of its coordinate, its points.
    Simplifications: every dimension has a coordinate; no hybrid vertical coordinate (C57). *)
Record gdim := mkGDim { gd_std : option str; gd_other : str; gd_dim : InterpModel.dim }.
(** Coord.name() (iris) *)
Definition gd_name (g : gdim) : str := match gd_std g with Some (a :: l) => a :: l | _ => gd_other g end.
(** A gridded variable: its dimensions, the standard names of its other coordinates, its values (None where masked) *)
Record gdata := mkG { g_dims : list gdim; g_aux : list (option str); g_values : array }.
Definition is_lon (o : option str) : bool := std_eqb o (Some longitude).
Fixpoint index_where {A} (f : A -> bool) (l : list A) : option nat := match l with [] => None | x :: l => if f x then Some 0 else option_map S (index_where f l) end.
Definition no_dim : gdim := mkGDim None [] (InterpModel.mkDim [] false).
(** GriddedData.set_longitude_range, gridded_data.py:188-252; the rotation of the axis is LonModel.set_longitude_range with the numbers of the columns as contents.
    200: tuple.index says ValueError when the longitude is not a dimension's coordinate.  Bounds and auxiliary coordinates play no part here. *)
Definition rotate (low : Q) (g : gdata) : res gdata :=
  match index_where (fun d => is_lon (gd_std d)) (g_dims g) with
  | Some li =>
    let d := nth li (g_dims g) no_dim in
    let pts := d_points (gd_dim d) in
    let ax := set_longitude_range (mkAxis pts None (seq 0 (length pts))) low in
    Ok (mkG (firstn li (g_dims g) ++ mkGDim (gd_std d) (gd_other d) (InterpModel.mkDim (lon_points ax) (d_circular (gd_dim d))) :: skipn (S li) (g_dims g)) (g_aux g)
            (fun e => g_values g (set_index li (fun i => nth i (lon_columns ax) 0) e)))
  | None => if existsb is_lon (g_aux g) then Raises ValueError else Ok g
  end.
(** UngriddedData.set_longitude_range, ungridded_data.py:746-754 *)
Definition wrap_sample (low : Q) (s : udata) : res udata :=
  bind (get_coord (u_coords s) (by_std longitude)) (fun _ =>
  Ok (mkU (map (fun c => if is_lon (c_std c) then set_points c (c_shape c) (map (option_map (wrap_lon low)) (c_points c)) else c) (u_coords s)) (u_shape s) (u_values s))).
(** _find_longitude_range of the sample, which has no missing coordinate any more *)
Definition udata_low (s : udata) : res (option Q) := sample_low (map (fun c => (c_std c, somes (c_points c))) (u_coords s)).
(** 143-146; coords() has post-processed the sample *)
Definition fix_both (s : udata) (g : gdata) : res (udata * gdata) :=
  bind (udata_low s) (fun low =>
  bind (match low with Some low => wrap_sample low s | None => Ok s end) (fun s =>
  bind (udata_low s) (fun low =>
  bind (match low with Some low => rotate low g | None => Ok g end) (fun g => Ok (s, g))))).

(** ** the interpolator (48-133): the grid and the positions, with the flag of a missing sample *)
Record interpolator := mkInterp { in_dims : list InterpModel.dim; in_positions : list (list Q * bool) }.
Definition make_interpolator (s : udata) (g : gdata) : res interpolator :=
  let shared := filter (fun d => negb (length (get_coords (u_coords s) (by_std (gd_name d))) =? 0)) (g_dims g) in
  bind (map_res (fun d => get_coord (u_coords s) (by_name (gd_name d))) shared) (fun cs =>
  if negb (length cs =? length (g_dims g)) then Raises ValueError
  else Ok (mkInterp (map gd_dim shared)
             (map (fun i => (map (fun c => match nth i (c_points c) None with Some x => x | None => 0%Q end) cs, is_missing (nth i (u_values s) None)))
                  (seq 0 (length (u_values s)))))).
(** 150-190 with 310-327: the values of a variable through the interpolator of the first one; the number of dimensions and their sizes (with the
    circular ones continued) must be those of the first: ValueError *)
Definition interpolated (m : method) (mdfms : bool) (t : interpolator) (g : gdata) : res (list (option Q)) :=
  if negb (length (g_dims g) =? length (in_dims t)) then Raises ValueError else
  if negb (forallb (fun dd : gdim * dim => length (d_points (gd_dim (fst dd))) =? length (d_points (snd dd))) (combine (g_dims g) (in_dims t))) then Raises ValueError else
  interpolate m (in_dims t) (g_values g) mdfms false (in_positions t).
(** 127-180: one variable; the interpolator is kept for the next.  The sample and the data are changed on the way: the sample as it is afterwards
    (its coordinates are those of the result), the data as they are afterwards. *)
Definition collocate_one (m : method) (mdfms : bool) (kept : option interpolator) (s : udata) (g : gdata) : res (list (option Q) * interpolator * udata * gdata) :=
  bind (fix_both s g) (fun sg =>
  let '(s, g) := sg in
  bind (match kept with Some t => Ok t | None => make_interpolator s g end) (fun t =>
  bind (interpolated m mdfms t g) (fun r => Ok (r, t, s, g)))).
(** 127-134: a list of variables.  The results, the sample and the data afterwards. *)
Fixpoint collocate_all (m : method) (mdfms : bool) (kept : option interpolator) (s : udata) (gs : list gdata) : res (list (list (option Q)) * udata * list gdata) :=
  match gs with
  | [] => Ok ([], s, [])
  | g :: gs =>
    bind (collocate_one m mdfms kept s g) (fun x => let '(r, t, s, g) := x in
    bind (collocate_all m mdfms (Some t) s gs) (fun y => let '(rs, s, gs) := y in Ok (r :: rs, s, g :: gs)))
  end.
(** sampled_from with gridded data, 1240-1252 *)
Definition sampled_from (how : str) (mdfms : bool) (s : udata) (gs : list gdata) : res (list (list (option Q)) * udata * list gdata) :=
  if str_eqb how [] || str_eqb how (lit "lin") then reported (bind (post_process s) (fun s => collocate_all Lin mdfms None s gs))
  else if str_eqb how (lit "nn") then reported (bind (post_process s) (fun s => collocate_all Nn mdfms None s gs))
  else Raises ValueError.
