(** Collocation onto ungridded samples: separation constraints, kernels, the collocator. *)
From Verif Require Import Base QBase LonModel KDModel HavModel DateModel.
From Coq Require Import Reals Qreals.
Open Scope Q_scope.

(** ** Points *)
Inductive coordname := LAT | LON | ALT | PRES | TIME.
(** A row of the data frame made by as_data_frame (cis/data_io/ungridded_data.py:608-622, 1155-1186): the coordinates and the
    value column 'vals', None for NaN (a masked value).  Coordinates are exact numbers; they are never missing
    (ungridded_data.py:466-500, property C38).  Altitude, pressure and time may be absent from a data set: see [columns]. *)
Record prow := mkRow { p_lat : Q; p_lon : Q; p_alt : Q; p_pres : Q; p_time : Q; p_val : option R }.
Definition field (p : prow) (c : coordname) : Q := match c with LAT => p_lat p | LON => p_lon p | ALT => p_alt p | PRES => p_pres p | TIME => p_time p end.
(** the columns of a frame, in the order of the data set's coordinates *)
Definition columns := list coordname.
Definition coord_eqb (a b : coordname) : bool := match a, b with LAT, LAT | LON, LON | ALT, ALT | PRES, PRES | TIME, TIME => true | _, _ => false end.
Definition has (c : coordname) (cols : columns) : bool := existsb (coord_eqb c) cols.
Definition set_lon (x : Q) (p : prow) : prow := mkRow (p_lat p) x (p_alt p) (p_pres p) (p_time p) (p_val p).

(** ** SepConstraint, cis/collocation/col_implementations.py:211-256, over HyperPoints that have the coordinates used.
    The arguments are the parsed separations (properties C12, C53). *)
(** cis/data_io/hyperpoint.py:121-147.  Simplification: Q's x / 0 = 0 stands for Python's ZeroDivisionError or inf *)
Definition pres_sep (a b : prow) : Q := if Qltb (p_pres b) (p_pres a) then p_pres a / p_pres b else p_pres b / p_pres a.
Definition time_sep (a b : prow) : Q := Qabs (p_time a - p_time b).
Definition alt_sep (a b : prow) : Q := Qabs (p_alt a - p_alt b).
Definition row2 (p : prow) : gpos := (Q2R (p_lat p), Q2R (p_lon p)).
Definition haversine_dist (a b : prow) : R := hdist (row2 a) (row2 b).
(** 219-238: the checks in order *)
Definition sep_checks (h_sep a_sep p_sep t_sep : option Q) : list (prow -> prow -> bool) :=
  (match h_sep with Some h => [fun point ref => Rltb (haversine_dist point ref) (Q2R h)] | None => [] end) ++
  (match a_sep with Some a => [fun point ref => Qltb (alt_sep point ref) a] | None => [] end) ++
  (match p_sep with Some s => [fun point ref => Qltb (pres_sep point ref) s] | None => [] end) ++
  (match t_sep with Some t => [fun point ref => Qltb (time_sep point ref) t] | None => [] end).
(** 251-256 *)
Definition sep_constrain_points (h_sep a_sep p_sep t_sep : option Q) (ref_point : prow) (data : list prow) : list prow :=
  fold_left (fun con_points point =>
    if forallb (fun check : prow -> prow -> bool => check point ref_point) (sep_checks h_sep a_sep p_sep t_sep) then con_points ++ [point] else con_points) data [].

(** ** SepConstraintKdtree, 259-361 *)
(** np.nonzero *)
Definition np_nonzero (l : list bool) : list nat := map fst (filter (fun ib : nat * bool => snd ib) (combine (seq 0 (length l)) l)).
(** DataFrame.iloc[indices]; an index out of range raises (here: the row is dropped; excluded in the theorems) *)
Definition iloc {A} (l : list A) (idx : list nat) : list A := flat_map (fun i => match nth_error l i with Some x => [x] | None => [] end) idx.
(** 298-312.  A column that does not exist raises AttributeError. *)
Definition time_constraint (t : Q) (points : list prow) (ref : prow) : list nat := np_nonzero (map (fun p => Qltb (Qabs (p_time p - p_time ref)) t) points).
Definition alt_constraint (a : Q) (points : list prow) (ref : prow) : list nat := np_nonzero (map (fun p => Qltb (Qabs (p_alt p - p_alt ref)) a) points).
Definition pressure_constraint (s : Q) (points : list prow) (ref : prow) : list nat :=
  let greater := np_nonzero (map (fun p => Qltb (p_pres p / p_pres ref) s && Qltb (p_pres ref) (p_pres p)) points) in
  let lesser := np_nonzero (map (fun p => Qltb (p_pres ref / p_pres p) s && Qleb (p_pres p) (p_pres ref)) points) in
  lesser ++ greater.
Definition kd_check := (coordname * (list prow -> prow -> list nat))%type.
(** 281-296 *)
Definition kd_checks (a_sep p_sep t_sep : option Q) : list kd_check :=
  (match a_sep with Some a => [(ALT, alt_constraint a)] | None => [] end) ++
  (match p_sep with Some s => [(PRES, pressure_constraint s)] | None => [] end) ++
  (match t_sep with Some t => [(TIME, time_constraint t)] | None => [] end).
(** 358-359 *)
Fixpoint apply_checks (dcols scols : columns) (checks : list kd_check) (p : prow) (d_points : list prow) : res (list prow) :=
  match checks with
  | [] => Ok d_points
  | (c, check) :: checks =>
    if has c dcols && has c scols then apply_checks dcols scols checks p (iloc d_points (check d_points p)) else Raises AttributeError
  end.
Definition position (p : prow) : list Q := [p_lat p; p_lon p].
Definition is_missing (p : prow) : bool := match p_val p with None => true | Some _ => false end.
(** 332-361: the sample number, the sample, the points selected for it.  341-342: h_sep = 0.0 counts as no horizontal limit. *)
Definition kd_get_iterator (h_sep a_sep p_sep t_sep : option Q) (missing_data_for_missing_sample : bool) (dcols scols : columns)
    (data_points points : list prow) : res (list (nat * prow * list prow)) :=
  bind (match h_sep with
        | Some h => if Qeqb h 0 then Ok None
                    else bind (find_points_within_distance_sample (map position data_points) (map position points) (Q2R h)) (fun l => Ok (Some l))
        | None => Ok None
        end) (fun indices =>
  bind (map_res (fun ip : nat * prow =>
          let '(i, p) := ip in
          if missing_data_for_missing_sample && is_missing p then Ok []
          else
            let d_points := match indices with Some ind => iloc data_points (nth i ind []) | None => data_points end in
            bind (apply_checks dcols scols (kd_checks a_sep p_sep t_sep) p d_points) (fun d => Ok [(i, p, d)]))
        (combine (seq 0 (length points)) points)) (fun l => Ok (concat l))).

(** ** Kernels, 365-455 and col_framework.py:94-118.  The result: one number per output variable, None for NaN. *)
Definition kernel := prow -> list prow -> res (list (option R)).
(** data.vals; the data frame has no NaN left (line 57) *)
Definition vals (data : list prow) : list R := flat_map (fun p => match p_val p with Some v => [v] | None => [] end) data.
Open Scope R_scope.
Definition np_sum (l : list R) : R := fold_left Rplus l 0.
Definition np_size (l : list R) : R := INR (length l).
Definition np_mean (l : list R) : R := np_sum l / np_size l.
Definition np_min (l : list R) : R := match l with [] => 0 | x :: l => fold_left Rmin l x end.
Definition np_max (l : list R) : R := match l with [] => 0 | x :: l => fold_left Rmax l x end.
(** np.std with ddof = 1: NaN for one value *)
Definition np_std (l : list R) : option R :=
  if (length l <=? 1)%nat then None
  else let m := np_mean l in Some (sqrt (np_sum (map (fun x => (x - m) * (x - m)) l) / (np_size l - 1))).
(** col_framework.py:101-118 *)
Definition data_only (f : list R -> list (option R)) : kernel := fun _ data =>
  let values := vals data in if (length values =? 0)%nat then Raises ValueError else Ok (f values).
Definition k_mean : kernel := data_only (fun v => [Some (np_mean v)]).
Definition k_stddev : kernel := data_only (fun v => [np_std v]).
Definition k_min : kernel := data_only (fun v => [Some (np_min v)]).
Definition k_max : kernel := data_only (fun v => [Some (np_max v)]).
Definition k_sum : kernel := data_only (fun v => [Some (np_sum v)]).
Definition k_moments : kernel := data_only (fun v => [Some (np_mean v); np_std v; Some (np_size v)]).
(** the nearest-neighbour loop of 459-545: replaced only by a strictly nearer point *)
Definition nn_loop (sep : prow -> Q) (data : list prow) : res (list (option R)) :=
  match data with
  | [] => Raises ValueError
  | d0 :: rest => Ok [p_val (fold_left (fun nearest d => if Qltb (sep d) (sep nearest) then d else nearest) rest d0)]
  end.
Open Scope Q_scope.
Definition k_nn_altitude : kernel := fun point data => nn_loop (fun d => Qabs (p_alt point - p_alt d)) data.
Definition k_nn_time : kernel := fun point data => nn_loop (fun d => Qabs (p_time point - p_time d)) data.
Definition k_nn_pressure : kernel := fun point data =>
  nn_loop (fun d => if Qltb (p_pres d) (p_pres point) then p_pres point / p_pres d else p_pres d / p_pres point) data.
(** 459-475 on data frame rows whose columns come in the order of the coordinates of each data set *)
Definition cells (cols : columns) (p : prow) : list R := map (fun c => Q2R (field p c)) cols.
Definition k_nn_horizontal (scols dcols : columns) : kernel := fun point data =>
  bind (nn_horizontal (cells scols point) (map (fun d => (cells dcols d, p_val d)) data)) (fun v => Ok [v]).

(** ** GeneralUngriddedCollocator.collocate, 24-112 *)
(** 1098-1120: nothing to do for data without longitude (not modelled: samples and data have latitude and longitude) *)
Definition fix_range (lows : list prow) (rows : list prow) : res (list prow) :=
  bind (find_longitude_range (map p_lon lows)) (fun base => Ok (map (fun p => set_lon (wrap_lon base (p_lon p)) p) rows)).
(** an output variable: values (None = masked) at the coordinates of the points *)
Record col_out := mkOut { out_values : list (option R); out_coords : list prow }.
(** values[:, i] = column *)
Definition set_column (values : list (list (option R))) (i : nat) (column : list (option R)) : list (list (option R)) :=
  map (fun vc : list (option R) * option R => set_nth i (snd vc) (fst vc)) (combine values column).
(** 82-96; NaN is masked at line 99, so both are None.  [size]: the number of output variables of the kernel *)
Fixpoint fill_values (k : kernel) (l : list (nat * prow * list prow)) (values : list (list (option R))) : res (list (list (option R))) :=
  match l with
  | [] => Ok values
  | (i, p, d) :: l =>
    match k p d with
    | Ok column => fill_values k l (set_column values i column)
    | Raises ValueError => fill_values k l values
    | Raises e => Raises e
    end
  end.
(** dropna (line 57): rows with a value *)
Definition dropna (rows : list prow) : list prow := filter (fun p => negb (is_missing p)) rows.
(** One variable: the output variables and the sample points afterwards (their longitudes are changed in place).
    Line 63 builds the index even when no horizontal separation was given. *)
Definition collocate_one (h_sep a_sep p_sep t_sep : option Q) (mdfms : bool) (scols dcols : columns) (k : kernel) (size : nat)
    (points data : list prow) : res (list col_out * list prow) :=
  bind (fix_range points points) (fun points =>
  bind (fix_range points data) (fun data =>
  let data_points := dropna data in
  bind (KDTree (map position data_points) 10) (fun _ =>
  bind (kd_get_iterator h_sep a_sep p_sep t_sep mdfms dcols scols data_points points) (fun it =>
  bind (fill_values k it (repeat (repeat None (length points)) size)) (fun values =>
  Ok (map (fun v => mkOut v points) values, points)))))).
(** 42-48: several variables, each collocated onto the same points *)
Fixpoint collocate_list (h_sep a_sep p_sep t_sep : option Q) (mdfms : bool) (scols : columns) (k : kernel) (size : nat)
    (points : list prow) (vars : list (columns * list prow)) : res (list col_out) :=
  match vars with
  | [] => Ok []
  | (dcols, data) :: vars =>
    bind (collocate_one h_sep a_sep p_sep t_sep mdfms scols dcols k size points data) (fun op =>
    bind (collocate_list h_sep a_sep p_sep t_sep mdfms scols k size (snd op) vars) (fun outs => Ok (fst op ++ outs)))
  end.
(** 74-78: the nn_horizontal_only kernel *)
Definition collocate_nn_only (pop : list hentry -> option (hentry * list hentry)) (points data : list prow) : res (col_out * list prow) :=
  bind (fix_range points points) (fun points =>
  bind (fix_range points data) (fun data =>
  let data_points := dropna data in
  bind (find_nearest_point pop (map position data_points) (map position points)) (fun idx =>
  Ok (mkOut (map (fun i => match nth_error data_points i with Some p => p_val p | None => None end) idx) points, points)))).
