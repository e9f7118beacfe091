(** Data frames of ungridded data: cis/data_io/ungridded_data.py:608-622, 941-948, 1097-1122, 1155-1210, and the frames of collocation
    (cis/collocation/col_implementations.py:53-58).
    Whether arrays are shared with the data (the argument copy) is not modelled: the contents are.  A masked value becomes NaN
    (_to_flat_ndarray, 1189-1210); both are None here.  An array is its flat list of values. *)
From Verif Require Import Base PyStr QBase DateModel UngrModel.
Open Scope list_scope. Open Scope nat_scope.

(** A pandas data frame: its index (None: 0, 1, 2, ...) and its columns in order.  A column name is a standard name, which can be None. *)
Record frame := mkFrame { f_index : option (list (option Q)); f_cols : list (option str * list (option Q)) }.
Definition f_rows (f : frame) : nat :=
  match f_index f with Some i => length i | None => match f_cols f with [] => 0 | (_, v) :: _ => length v end end.
(** a dictionary: the key keeps its place, the last value counts *)
Fixpoint fset {V} (d : list (option str * V)) (k : option str) (v : V) : list (option str * V) :=
  match d with [] => [(k, v)] | (k', v') :: d => if std_eqb k' k then (k', v) :: d else (k', v') :: fset d k v end.
(** pandas.DataFrame(columns, index): ValueError unless all lengths agree *)
Definition data_frame (cols : list (option str * list (option Q))) (index : option (list (option Q))) : res frame :=
  let f := mkFrame index cols in
  if forallb (fun c : option str * list (option Q) => length (snd c) =? f_rows f) cols then Ok f else Raises ValueError.
(** df[k] = v: ValueError for another length, except in a frame without rows: it takes the rows of v (old columns are filled with NaN) *)
Definition set_column (f : frame) (k : option str) (v : list (option Q)) : res frame :=
  if f_rows f =? 0 then Ok (mkFrame None (fset (map (fun c : option str * list (option Q) => (fst c, repeat (@None Q) (length v))) (f_cols f)) k v))
  else if length v =? f_rows f then Ok (mkFrame (f_index f) (fset (f_cols f) k v)) else Raises ValueError.

(** The units of the time coordinate, 1174-1180: date objects; a unit, here the day of its reference (in standard time) and the length of one
    step in days; anything else is taken as standard time.  A date is given by its standard time.  (Several time coordinates with
    different units are not modelled.) *)
Inductive time_unit := DateObjects | UnitSince (ref step : Q) | OtherUnits.
Definition to_date (u : time_unit) (x : option Q) : option Q :=
  match u with UnitSince ref step => option_map (fun x => (ref + x * step)%Q) x | _ => x end.
Definition is_time (c : coord) : bool := std_eqb (c_std c) (Some (lit "time")).
(** _coords_as_data_frame, 1155-1186: the loop over the coordinates *)
Fixpoint collect (time_index : bool) (u : time_unit) (cs : list coord) (cols : list (option str * list (option Q))) (time : option (list (option Q))) :
    list (option str * list (option Q)) * option (list (option Q)) :=
  match cs with
  | [] => (cols, time)
  | c :: cs => if time_index && is_time c then collect time_index u cs cols (Some (map (to_date u) (c_points c)))
               else collect time_index u cs (fset cols (c_std c) (c_points c)) time
  end.
Definition coords_as_data_frame (time_index : bool) (u : time_unit) (cs : list coord) : res frame :=
  let '(cols, time) := collect time_index u cs [] None in data_frame cols time.
(** UngriddedData.as_data_frame, 608-622.  [dname]: self.name() *)
Definition data_as_data_frame (time_index : bool) (u : time_unit) (name : option str) (dname : str) (d : udata) : res frame :=
  bind (post_process d) (fun d =>
  bind (coords_as_data_frame time_index u (u_coords d)) (fun f => set_column f (Some (match name with Some (a :: n) => a :: n | _ => dname end)) (u_values d))).
(** UngriddedCoordinates.as_data_frame, 941-948 *)
Definition coordinates_as_data_frame (time_index : bool) (u : time_unit) (cs : list coord) : res frame :=
  bind (post_process_coords cs) (coords_as_data_frame time_index u).
(** UngriddedDataList.as_data_frame, 1097-1122; IndexError for the empty list *)
Fixpoint add_columns (f : frame) (l : list (str * udata)) : res frame :=
  match l with [] => Ok f | (n, d) :: l => bind (post_process d) (fun d => bind (set_column f (Some n) (u_values d)) (fun f => add_columns f l)) end.
Definition list_as_data_frame (u : time_unit) (l : list (str * udata)) : res frame :=
  match l with [] => Raises IndexError | (n, d) :: l => bind (data_as_data_frame true u None n d) (fun f => add_columns f l) end.
(** DataFrame.dropna(axis=0): the rows without a missing value, in order; the index is not looked at *)
Definition complete_row (cols : list (option str * list (option Q))) (i : nat) : bool := forallb (fun c : option str * list (option Q) => negb (is_missing (nth i (snd c) None))) cols.
Definition take_rows {A} (rows : list nat) (d : A) (l : list A) : list A := map (fun i => nth i l d) rows.
Definition dropna (f : frame) : frame :=
  let rows := filter (complete_row (f_cols f)) (seq 0 (f_rows f)) in
  mkFrame (option_map (take_rows rows None) (f_index f)) (map (fun c : option str * list (option Q) => (fst c, take_rows rows None (snd c))) (f_cols f)).
(** col_implementations.py:55-56: the frames in which collocation looks for points *)
Definition vals : str := lit "vals".
Definition sample_frame (u : time_unit) (dname : str) (d : udata) : res frame := data_as_data_frame false u (Some vals) dname d.
Definition data_points_frame (u : time_unit) (dname : str) (d : udata) : res frame := bind (sample_frame u dname d) (fun f => Ok (dropna f)).
