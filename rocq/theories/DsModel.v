(** Limits and grids given in Python as numbers, dates, partial dates and periods: the helper [subset] of cis/subsetting/subset.py:11-77,
    UngriddedSubsetConstraint.constrain (183-233) and GriddedSubsetConstraint (105-175) on time coordinates, and the grids of
    [_aggregate_ungridded], cis/data_io/ungridded_data.py:1258-1317.  SubsetModel and AggModel model the same functions where everything is a number. *)
From Verif Require Import Base PyStr QBase LonModel DateModel FileListModel IndexModel UngrModel SubsetModel GridIndexModel AggModel.
Open Scope string_scope. Open Scope list_scope. Open Scope Q_scope.

(** A value given for a limit or a grid: None, a number, a datetime.datetime, a PartialDateTime or a datetime.timedelta (its total seconds). *)
Inductive value := Nothing | Number (x : Q) | Date (t : datetime) | Partial (p : partial) | Delta (seconds : Q).
(** Whole seconds since the beginning of the calendar, as the datetime module counts: two datetimes are compared by it (contract). *)
Definition instant (t : datetime) : Z := (toordinal t * 86400 + seconds_of_day t)%Z.
Definition qinstant (t : datetime) : Q := inject_Z (instant t).
(** The units of a time coordinate (cf_units.Unit, contract): num2date as the instant a number stands for (possibly between two seconds), date2num.
    Where the units are none of a time, or of another calendar, num2date and date2num raise. *)
Record timeunit := mkUnit { t_read : Q -> Q; t_write : datetime -> Q }.

(** ** The limits *)
(** What is given for one dimension: an object with the attributes start and stop (a slice), a sequence, or anything else. *)
Inductive argument := Range (start stop : value) | Several (l : list value) | One (v : value).
(** limit.min(), limit.max() *)
Definition period_bounds (p : partial) : res (value * value) := bind (pdt_min p) (fun a => bind (pdt_max p) (fun b => Ok (Date a, Date b))).
(** 52-61; len() of a number, a datetime, a timedelta or None is a TypeError *)
Definition bounds_of (a : argument) : res (value * value) :=
  match a with
  | Range a b => Ok (a, b)
  | One (Partial p) => period_bounds p
  | One _ => Raises TypeError
  | Several [Partial p] => period_bounds p
  | Several [a; b] => Ok (a, b)
  | Several _ => Raises ValueError
  end.
(** 64-65 *)
Definition filled (v : value) (d : res Q) : res value := match v with Nothing => bind d (fun x => Ok (Number x)) | _ => Ok v end.
Definition dated_limits := list (str * (value * value)).
(** 32-67, without shapes (those are in SubsetModel) *)
Definition add_limit (cs : list coord) (k : dated_limits) (kw : str * argument) : res dated_limits :=
  match find_coord cs (fst kw) with
  | None => Raises CoordinateNotFoundError
  | Some c => bind (bounds_of (snd kw)) (fun ab =>
      bind (filled (fst ab) (qmin_of (somes (c_points c)))) (fun a => bind (filled (snd ab) (qmax_of (somes (c_points c)))) (fun b =>
      Ok (dict_set k (c_name c) (a, b)))))
  end.
Definition make_dated (cs : list coord) (kws : list (str * argument)) : res dated_limits :=
  fold_left (fun k kw => bind k (fun k => add_limit cs k kw)) kws (Ok []).

Section Units.
(** the units of the coordinate of this name, or what num2date and date2num raise *)
Variable units : str -> res timeunit.

(** ** Ungridded data *)
(** _create_data_for_subset, 235-273, for one limit: a longitude limit is compared with numbers; a datetime, partial date or period is not comparable *)
Definition prepare_dated (cs : list coord) (l : str * (value * value)) : res (list coord) :=
  match snd l with
  | (Number a, Number b) => prepare_limit cs (fst l, (a, b))
  | _ => match get_coord cs (by_name (fst l)) with
         | Raises _ => Ok cs
         | Ok c => if is_longitude c then bind (qmin_of (somes (c_points c))) (fun _ => bind (qmax_of (somes (c_points c))) (fun _ => Raises TypeError)) else Ok cs
         end
  end.
Definition create_dated (lims : dated_limits) (d : udata) : res udata :=
  bind (copy d) (fun d => bind (fold_left (fun cs l => bind cs (fun cs => prepare_dated cs l)) lims (Ok (u_coords d))) (fun cs =>
  Ok (mkU cs (u_shape d) (u_values d)))).
(** 211-217.  [isinstance(limit.start, datetime)] decides what the points are compared as.  Simplification: comparing what cannot be compared is a
    TypeError also when there are no points. *)
Definition between_dates (u : timeunit) (a b : datetime) (p : option Q) : bool :=
  match p with Some x => Qleb (t_read u x) (qinstant b) && Qleb (qinstant a) (t_read u x) | None => false end.
Definition limit_mask (c : coord) (l : value * value) : res (list bool) :=
  match fst l with
  | Date a => bind (units (c_name c)) (fun u => match snd l with Date b => Ok (map (between_dates u a b) (c_points c)) | _ => Raises TypeError end)
  | Number a => match snd l with Number b => Ok (map (in_limits (a, b)) (c_points c)) | _ => Raises TypeError end
  | _ => Raises TypeError
  end.
(** 205-221 *)
Definition dated_mask (lims : dated_limits) (cs : list coord) : res (list bool) :=
  match cs with
  | [] => Raises IndexError
  | c0 :: _ => fold_left (fun m l => bind m (fun m => bind (get_coord cs (by_name (fst l))) (fun c => bind (limit_mask c (snd l)) (and_masks m))))
                 lims (Ok (repeat true (length (c_points c0))))
  end.
(** constrain, 202-233, of one variable and without a shape *)
Definition constrain_dated (lims : dated_limits) (d : udata) : res (option udata) :=
  bind (create_dated lims d) (fun d => bind (dated_mask lims (u_coords d)) (fun m => bind (data_mask_get m d) (fun d =>
  Ok (if (length (u_values d) =? 0)%nat then None else Some d)))).
(** UngriddedData.subset, ungridded_data.py:756-782 *)
Definition subset_dated (d : udata) (kws : list (str * argument)) : res (option udata) :=
  bind (post_process d) (fun d => bind (make_dated (u_coords d) kws) (fun lims => constrain_dated lims d)).

(** ** Gridded data: one coordinate without a modulus, 164-175; iris calls the constraint with every cell, whose point is a datetime if the units are
    those of a time (contract: iris 2).  [contains]: lower <= point <= upper, where the second comparison is made only if the first is true. *)
Inductive point := PNumber (x : Q) | PInstant (q : Q).
Definition at_most (v : value) (p : point) : res bool :=
  match v, p with Number a, PNumber x => Ok (Qleb a x) | Date a, PInstant x => Ok (Qleb (qinstant a) x) | _, _ => Raises TypeError end.
Definition at_least (v : value) (p : point) : res bool :=
  match v, p with Number b, PNumber x => Ok (Qleb x b) | Date b, PInstant x => Ok (Qleb x (qinstant b)) | _, _ => Raises TypeError end.
Definition contains (l : value * value) (p : point) : res bool := bind (at_most (fst l) p) (fun ok => if ok then at_least (snd l) p else Ok false).
(** A dimension of the cube: the name of its coordinate and its points.  Simplification: a keyword is the name of the coordinate. *)
Record gdim := mkGdim { gd_name : str; gd_points : list Q }.
Definition cell_point (n : str) (x : Q) : point := match units n with Ok u => PInstant (t_read u x) | Raises _ => PNumber x end.
Definition add_glimit (ds : list gdim) (k : dated_limits) (kw : str * argument) : res dated_limits :=
  match find (fun d => str_eqb (gd_name d) (fst kw)) ds with
  | None => Raises CoordinateNotFoundError
  | Some d => bind (bounds_of (snd kw)) (fun ab =>
      bind (filled (fst ab) (qmin_of (gd_points d))) (fun a => bind (filled (snd ab) (qmax_of (gd_points d))) (fun b => Ok (dict_set k (gd_name d) (a, b)))))
  end.
(** cube.extract(constraint), 118-120: every constraint is put to every cell; the positions kept along a dimension *)
Definition kept_cells (lims : dated_limits) (d : gdim) : res (list Q) :=
  match dict_get lims (gd_name d) with
  | None => Ok (gd_points d)
  | Some l => bind (map_res (fun x => contains l (cell_point (gd_name d) x)) (gd_points d)) (fun m => Ok (map snd (filter fst (combine m (gd_points d)))))
  end.
Definition extract (lims : dated_limits) (ds : list gdim) : res (option (list gdim)) :=
  bind (map_res (kept_cells lims) ds) (fun ps =>
  Ok (if existsb (fun p => (length p =? 0)%nat) ps then None else Some (map (fun dp : gdim * list Q => mkGdim (gd_name (fst dp)) (snd dp)) (combine ds ps)))).
Definition subset_gridded (ds : list gdim) (kws : list (str * argument)) : res (option (list gdim)) :=
  bind (fold_left (fun k kw => bind k (fun k => add_glimit ds k kw)) kws (Ok [])) (fun lims => extract lims ds).

(** ** The grid of an aggregation for one dimension, ungridded_data.py:1274-1304: an object with start, stop and step, a sequence, or anything else *)
Inductive grid_argument := Grid (start stop step : value) | GSeveral (l : list value) | GOne (v : value).
Definition grid_of (g : grid_argument) : res (value * value * value) :=
  match g with
  | Grid a b s => Ok (a, b, s)
  | GSeveral [Partial p; s] => bind (period_bounds p) (fun ab => Ok (fst ab, snd ab, s))
  | GSeveral [a; b; s] => Ok (a, b, s)
  | GSeveral _ => Raises ValueError
  | GOne _ => Raises TypeError
  end.
(** 1287-1293; what is neither a number nor a datetime stays as it is, and numpy.arange fails on it (a TypeError, raised here at once) *)
Definition grid_end (c : coord) (v : value) (d : res Q) : res Q :=
  bind (filled v d) (fun v => match v with Number x => Ok x | Date t => bind (units (c_name c)) (fun u => Ok (t_write u t)) | _ => Raises TypeError end).
(** 1295-1302 *)
Definition grid_step (v : value) : res Q :=
  match v with Nothing => Raises ValueError | Number x => Ok x | Delta s => Ok (s / (24 * 60 * 60)) | _ => Raises TypeError end.
(** 1274-1304; [c] None: _get_coord found nothing, and [None.points] or [None.name()] is an AttributeError *)
Definition grid_request (c : option coord) (g : grid_argument) : res request :=
  bind (grid_of g) (fun abs => match c with None => Raises AttributeError | Some c =>
  bind (grid_end c (fst (fst abs)) (qmin_of (somes (c_points c)))) (fun a => bind (grid_end c (snd (fst abs)) (qmax_of (somes (c_points c)))) (fun b =>
  bind (grid_step (snd abs)) (fun s => Ok (mkReq a b s)))) end).
End Units.
