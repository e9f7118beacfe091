(** Points in space and time: cis/data_io/hyperpoint.py, and UngriddedData.from_points_array (cis/data_io/ungridded_data.py:676-709).
    Coordinates are exact numbers (rationals); None is Python's None.  Distances on the sphere are reals. *)
From Verif Require Import Base PyStr QBase DateModel FileListModel UngrModel HavModel.
From Coq Require Import Qabs Reals.
Open Scope string_scope. Open Scope list_scope. Open Scope Q_scope.

(** What the user passes: a value (None, one number, a sequence of numbers; in a number, None is a missing value: NaN or masked) ... *)
Inductive value_arg := NoValue | Number (v : option Q) | Numbers (l : list (option Q)).
(** ... and a time (None, a number in standard time, a date) *)
Inductive time_arg := NoTime | StdTime (t : Q) | AtDate (d : datetime).
(** An entry of the list of values: a number, or (see [modified]) a whole sequence *)
Inductive entry := One (v : option Q) | Many (l : list (option Q)).
(** The named tuple, 6 *)
Record point := mkPt { p_lat : option Q; p_lon : option Q; p_alt : option Q; p_pres : option Q; p_time : option Q; p_val : list entry }.

(** convert_datetime_to_std_time, cis/time_util.py:191-192: date2num in days since 1600-01-01 00:00; whole seconds here *)
Definition std_time_of (d : datetime) : Q := inject_Z (toordinal d - toordinal std_ref) + inject_Z (seconds_of_day d) / 86400.

(** HyperPoint.__new__, 24-43.  The stored coord_tuple is [get_coord_tuple] of the point. *)
Definition new_values (v : value_arg) : list entry :=
  match v with NoValue => [] | Numbers l => map One l | Number v => [One v] end.
Definition new_time (t : time_arg) : option Q := match t with NoTime => None | StdTime t => Some t | AtDate d => Some (std_time_of d) end.
Definition new_point (lat lon alt pres : option Q) (t : time_arg) (v : value_arg) : point := mkPt lat lon alt pres (new_time t) (new_values v).

(** HyperPoint.modified, 45-75.  62-64: a time that is not a date is dropped; 65-69: a value that is not the empty list is put in a list.
    (A numpy array as the value is not modelled: the comparison with the empty list, 66, is then not a truth value.) *)
Definition pick (new old : option Q) : option Q := match new with Some x => Some x | None => old end.
Definition modified (p : point) (lat lon alt pres : option Q) (t : time_arg) (v : value_arg) : point :=
  mkPt (pick lat (p_lat p)) (pick lon (p_lon p)) (pick alt (p_alt p)) (pick pres (p_pres p))
       (match t with AtDate d => Some (std_time_of d) | _ => p_time p end)
       (match v with NoValue => p_val p | Numbers [] => [] | Numbers l => [Many l] | Number x => [One x] end).

(** same_point_in_time, same_point_in_space, same_point_in_space_and_time, 77-85 *)
Definition coord_eqb (a b : option Q) : bool := match a, b with Some a, Some b => Qeq_bool a b | None, None => true | _, _ => false end.
Definition same_point_in_time (p q : point) : bool := coord_eqb (p_time p) (p_time q).
Definition same_point_in_space (p q : point) : bool :=
  coord_eqb (p_lat p) (p_lat q) && coord_eqb (p_lon p) (p_lon q) && coord_eqb (p_alt p) (p_alt q) && coord_eqb (p_pres p) (p_pres q).
Definition same_point_in_space_and_time (p q : point) : bool := same_point_in_space p q && same_point_in_time p q.

(** get_coord_tuple, 87-94: _asdict without the value and the missing coordinates, sorted (the names differ, so only they decide) *)
Definition fields (p : point) : list (str * option Q) :=
  [(lit "latitude", p_lat p); (lit "longitude", p_lon p); (lit "altitude", p_alt p); (lit "air_pressure", p_pres p); (lit "time", p_time p)].
Definition present (l : list (str * option Q)) : list (str * Q) :=
  flat_map (fun f : str * option Q => match snd f with Some x => [(fst f, x)] | None => [] end) l.
Fixpoint insert_by_name (x : str * Q) (l : list (str * Q)) : list (str * Q) :=
  match l with [] => [x] | y :: l => if str_leb (fst x) (fst y) then x :: y :: l else y :: insert_by_name x l end.
Definition get_coord_tuple (p : point) : list (str * Q) := fold_right insert_by_name [] (present (fields p)).

(** ** Separations, 120-146: TypeError if a coordinate is None *)
Definition both {A} (a b : option Q) (f : Q -> Q -> res A) : res A := match a, b with Some a, Some b => f a b | _, _ => Raises TypeError end.
Definition time_sep (p q : point) : res Q := both (p_time p) (p_time q) (fun a b => Ok (Qabs (a - b))).
Definition alt_sep (p q : point) : res Q := both (p_alt p) (p_alt q) (fun a b => Ok (Qabs (a - b))).
(** 139-146; Python numbers: ZeroDivisionError for 0 *)
Definition divide (a b : Q) : res Q := if Qeq_bool b 0 then Raises ZeroDivisionError else Ok (a / b).
Definition pres_sep (p q : point) : res Q := both (p_pres p) (p_pres q) (fun a b => if Qltb b a then divide a b else divide b a).
(** 120-125, with cis/utils.py:308-319 *)
Definition haversine_dist (p q : point) : res R :=
  both (p_lat p) (p_lat q) (fun la1 la2 => both (p_lon p) (p_lon q) (fun lo1 lo2 => Ok (haversine (Q2R la1) (Q2R lo1) (Q2R la2) (Q2R lo2)))).
(** compdist, compalt, comppres, comptime, 96-118 *)
Definition compdist (p p1 p2 : point) : res bool := bind (haversine_dist p p1) (fun a => bind (haversine_dist p p2) (fun b => Ok (Rgtb a b))).
Definition further (sep : point -> point -> res Q) (p p1 p2 : point) : res bool := bind (sep p p1) (fun a => bind (sep p p2) (fun b => Ok (Qltb b a))).
Definition compalt : point -> point -> point -> res bool := further alt_sep.
Definition comppres : point -> point -> point -> res bool := further pres_sep.
Definition comptime : point -> point -> point -> res bool := further time_sep.
(** furthest_point_from, 148-157 *)
Definition furthest_point_from (p : point) : res point :=
  match p_lat p, p_lon p with
  | Some la, Some lo => Ok (mkPt (Some (- la)) (Some (if Qltb 180 lo then lo - 180 else lo + 180)) (p_alt p) (p_pres p) (p_time p) (p_val p))
  | _, _ => Raises TypeError
  end.

(** ** HyperPointList, 160-273 *)
(** vals, 183-195: numpy.zeros, the first value of every point that has one; an entry that is a sequence cannot be stored; storing None gives NaN *)
Definition val0 (p : point) : res (option Q) := match p_val p with [] => Ok (Some 0) | One v :: _ => Ok v | Many _ :: _ => Raises ValueError end.
Definition vals (l : list point) : res (list (option Q)) := map_res val0 l.
(** longitudes, latitudes, air_pressures, altitudes, times, 197-273: the first point decides; storing None in the array of numbers gives NaN *)
Definition column (f : point -> option Q) (l : list point) : res (option (list (option Q))) :=
  match l with [] => Raises IndexError | p :: _ => Ok (match f p with Some _ => Some (map f l) | None => None end) end.

(** ** UngriddedData.from_points_array, ungridded_data.py:676-709: the data, and the units of the coordinates in their order *)
Definition point_coord (name : str) (pts : option (list (option Q))) : list coord :=
  match pts with Some c => [mkCoord (Some name) [] [] [] [length c] c] | None => [] end.
Definition unit_of (u : String.string) (pts : option (list (option Q))) : list str := match pts with Some _ => [lit u] | None => [] end.
Definition from_points_array (l : list point) : res (udata * list str) :=
  bind (vals l) (fun v =>
  bind (column p_lat l) (fun la => bind (column p_lon l) (fun lo => bind (column p_pres l) (fun pr => bind (column p_alt l) (fun al => bind (column p_time l) (fun ti =>
  Ok (mkU (point_coord (lit "latitude") la ++ point_coord (lit "longitude") lo ++ point_coord (lit "air_pressure") pr ++ point_coord (lit "altitude") al ++ point_coord (lit "time") ti)
          [length v] v,
      unit_of "degrees north" la ++ unit_of "degrees east" lo ++ unit_of "Pa" pr ++ unit_of "meters" al ++ unit_of "days since 1600-01-01 00:00:00" ti))))))).
(** The points of the data: get_all_points, 646-651, as a list *)
Definition as_point (h : hyperpoint) : point := mkPt (hp_lat h) (hp_lon h) (hp_alt h) (hp_pres h) (hp_time h) (map One (hp_val h)).
Definition points_of (d : udata) : res (list point) := bind (all_points d) (fun w => bind (enumerate_all w) (fun l => Ok (map (fun ih => as_point (snd ih)) l))).
