(** Subsetting: cis/subsetting/subset.py. *)
From Verif Require Import Base PyStr QBase LonModel DateModel FileListModel IndexModel UngrModel.
Open Scope string_scope. Open Scope list_scope. Open Scope Q_scope.

(** ** CommonData._get_coord, common_data.py:207-222.  [_try_coord] of the five criteria in turn. *)
Definition standard_axis (letter : str) : option str :=
  dict_get [(lit "X", lit "longitude"); (lit "Y", lit "latitude"); (lit "Z", lit "altitude"); (lit "T", lit "time"); (lit "P", lit "air_pressure")] letter.
Definition try_coord (l : list coord) (q : criteria) : option coord := match get_coord l q with Ok c => Some c | Raises _ => None end.
Definition or_else {A} (a b : option A) : option A := match a with Some x => Some x | None => b end.
Definition find_coord (l : list coord) (name : str) : option coord :=
  or_else (try_coord l (by_name name)) (or_else (try_coord l (by_std name)) (or_else (try_coord l (mkCrit None (standard_axis (upper name)) None None))
  (or_else (try_coord l (mkCrit None None None (Some name))) (try_coord l (mkCrit None None (Some name) None))))).

(** ** The limits: subset, 11-73.  A shape (shapely geometry): its bounding box and the points it contains, x (longitude) first.  A limit: start and
    stop, either may be None.  Limits given as datetimes or partial dates are not modelled: times are numbers here. *)
Record region := mkRegion { r_xmin : Q; r_ymin : Q; r_xmax : Q; r_ymax : Q; r_contains : Q -> Q -> bool }.
Inductive kwarg := Limit (name : str) (start stop : option Q) | Shape (r : region).
Definition limits := list (str * (Q * Q)).
Fixpoint somes {A} (l : list (option A)) : list A := match l with [] => [] | Some x :: l => x :: somes l | None :: l => somes l end.
(** numpy min/max; ValueError for an empty array *)
Definition qmin_of (l : list Q) : res Q := match l with [] => Raises ValueError | x :: r => Ok (fold_left Qmin r x) end.
Definition qmax_of (l : list Q) : res Q := match l with [] => Raises ValueError | x :: r => Ok (fold_left Qmax r x) end.
Definition default_to (o : option Q) (d : res Q) : res Q := match o with Some x => Ok x | None => d end.
(** one pass of the loop, 32-67; [cs]: the coordinates of the data (of the first variable for a list), post-processed *)
Definition add_kwarg (cs : list coord) (k : option region * limits) (kw : kwarg) : res (option region * limits) :=
  match kw with
  | Shape r =>
    bind (get_coord cs (by_std (lit "longitude"))) (fun lon => bind (get_coord cs (by_std (lit "latitude"))) (fun lat =>
    Ok (Some r, dict_set (dict_set (snd k) (c_name lon) (r_xmin r, r_xmax r)) (c_name lat) (r_ymin r, r_ymax r))))
  | Limit n a b =>
    match find_coord cs n with
    | None => Raises CoordinateNotFoundError
    | Some c =>
      bind (default_to a (qmin_of (somes (c_points c)))) (fun a => bind (default_to b (qmax_of (somes (c_points c)))) (fun b =>
      Ok (fst k, dict_set (snd k) (c_name c) (a, b))))
    end
  end.
Definition make_limits (cs : list coord) (kws : list kwarg) : res (option region * limits) :=
  fold_left (fun k kw => bind k (fun k => add_kwarg cs k kw)) kws (Ok (None, [])).

(** ** UngriddedSubsetConstraint *)
(** data.coord(name) as a criterion for the coordinate it finds (CoordList.get_coord, Coord.py:245-259) *)
Definition name_query (l : list coord) (n : str) : criteria := match get_coords l (by_name n) with [] => by_std n | _ => by_name n end.
Definition wrap_coord (start : Q) (c : coord) : coord := set_points c (c_shape c) (map (option_map (wrap_lon start)) (c_points c)).
(** the decision, 252-272: where to start the longitude range, None to leave the data alone *)
Definition new_start (cmin cmax a b : Q) : option Q :=
  let data_below := Qltb cmin 0 in let data_above := Qltb 180 cmax in
  let limits_below := Qltb a 0 || Qltb b 0 in let limits_above := Qltb 180 a || Qltb 180 b in
  if data_below && negb data_above then (if limits_above && negb limits_below then Some 0 else None)
  else if data_above && negb data_below then (if limits_below && negb limits_above then Some (-(180)) else None)
  else None.
Definition is_longitude (c : coord) : bool := std_eqb (c_std c) (Some (lit "longitude")).
Definition prepare_limit (cs : list coord) (l : str * (Q * Q)) : res (list coord) :=
  match get_coord cs (by_name (fst l)) with
  | Raises _ => Ok cs
  | Ok c =>
    if is_longitude c then
      bind (qmin_of (somes (c_points c))) (fun cmin => bind (qmax_of (somes (c_points c))) (fun cmax =>
      match new_start cmin cmax (fst (snd l)) (snd (snd l)) with
      | None => Ok cs
      | Some s => Ok (map (fun c => if matches (name_query cs (fst l)) c then wrap_coord s c else c) cs)
      end))
    else Ok cs
  end.
(** _create_data_for_subset, 235-273 *)
Definition create_data (lims : limits) (d : udata) : res udata :=
  bind (copy d) (fun d => bind (fold_left (fun cs l => bind cs (fun cs => prepare_limit cs l)) lims (Ok (u_coords d))) (fun cs =>
  Ok (mkU cs (u_shape d) (u_values d)))).
(** 205-221: the mask over all limits; a missing point compares false.  The shape of the first coordinate; IndexError without coordinates *)
Definition and_masks (a b : list bool) : res (list bool) :=
  if (length a =? length b)%nat then Ok (map (fun ab : bool * bool => fst ab && snd ab) (combine a b)) else Raises ValueError.
Definition in_limits (l : Q * Q) (p : option Q) : bool := match p with Some x => Qleb (fst l) x && Qleb x (snd l) | None => false end.
Definition limits_mask (lims : limits) (cs : list coord) : res (list bool) :=
  match cs with
  | [] => Raises IndexError
  | c0 :: _ => fold_left (fun m l => bind m (fun m => bind (get_coord cs (by_name (fst l))) (fun c => and_masks m (map (in_limits (snd l)) (c_points c)))))
                 lims (Ok (repeat true (length (c_points c0))))
  end.
(** _get_ungridded_subset_region_indices, 276-290 *)
Definition region_indices (r : region) (cs : list coord) : res (list nat) :=
  bind (get_coord cs (by_std (lit "longitude"))) (fun lon => bind (get_coord cs (by_std (lit "latitude"))) (fun lat =>
  let ps := combine (c_points lon) (c_points lat) in
  Ok (filter (fun i => match nth i ps (None, None) with (Some x, Some y) => r_contains r x y | _ => false end) (seq 0 (length ps))))).
(** indexing with np.unravel_index(indices, shape), 226: numpy refuses an empty list of indices (inferred as float) with a TypeError *)
Definition take {A} (is : list nat) (l : list A) : res (list A) := map_res (fun i => match nth_error l i with Some x => Ok x | None => Raises IndexError end) is.
Definition data_take (is : list nat) (d : udata) : res udata :=
  match is with
  | [] => Raises TypeError
  | _ => bind (map_res (fun c => bind (take is (c_points c)) (fun p => Ok (set_points c [length p] p))) (u_coords d)) (fun cs =>
         bind (take is (u_values d)) (fun v => post_process (mkU cs [length v] v)))
  end.
(** the object: limits and shape (popped at the first use), and the mask and indices computed for the first variable, 182-187 *)
Record constraint := mkK { k_region : option region; k_limits : limits; k_mask : option (list bool); k_indices : option (list nat) }.
(** constrain for one variable, 202-233 *)
Definition constrain_one (k : constraint) (d : udata) : res (option udata * constraint) :=
  bind (create_data (k_limits k) d) (fun d =>
  bind (match k_mask k with Some m => Ok m | None => limits_mask (k_limits k) (u_coords d) end) (fun m =>
  bind (data_mask_get m d) (fun d =>
  bind (match k_region k with
        | None => Ok (d, k_indices k)
        | Some r => bind (match k_indices k with Some is => Ok is | None => region_indices r (u_coords d) end) (fun is =>
                    bind (data_take is d) (fun d => Ok (d, Some is)))
        end) (fun dk =>
  Ok (if (length (u_values (fst dk)) =? 0)%nat then None else Some (fst dk), mkK None (k_limits k) (Some m) (snd dk)))))).
(** UngriddedDataList.append, for the list being built: UngriddedData of the same coordinate shapes; None has no is_gridded *)
Definition item_of (d : udata) : item := mkItem false (map c_shape (u_coords d)).
Definition append_result (out : list udata) (r : option udata) : res (list udata) :=
  match r with
  | None => Raises TypeError
  | Some d => bind (list_append false (map item_of out) (item_of d)) (fun _ => Ok (out ++ [d]))
  end.
(** constrain for a list, 195-200 *)
Fixpoint constrain_list (k : constraint) (out ds : list udata) : res (list udata) :=
  match ds with
  | [] => Ok out
  | d :: ds => bind (constrain_one k d) (fun rk => bind (append_result out (fst rk)) (fun out => constrain_list (snd rk) out ds))
  end.
(** UngriddedData.subset, ungridded_data.py:756-782 *)
Definition subset (d : udata) (kws : list kwarg) : res (option udata) :=
  bind (post_process d) (fun d => bind (make_limits (u_coords d) kws) (fun k => bind (constrain_one (mkK (fst k) (snd k) None None) d) (fun rk => Ok (fst rk)))).
(** UngriddedDataList.subset, 1124-1126: the coordinates of the first variable; IndexError for an empty list (if there are limits) *)
Definition subset_list (ds : list udata) (kws : list kwarg) : res (list udata) :=
  match ds with
  | [] => match kws with [] => Ok [] | _ => Raises IndexError end
  | d :: _ => bind (post_process d) (fun d0 => bind (make_limits (u_coords d0) kws) (fun k => constrain_list (mkK (fst k) (snd k) None None) [] ds))
  end.

(** ** GriddedSubsetConstraint, 131-142: the shape, after the limits (iris) have been applied.  The cube is an array of [g_shape] (first dimension the
    slowest), with one coordinate for the X and one for the Y axis.  [g_mask] None: an ndarray, Some: the mask of a MaskedArray. *)
Record grid := mkGrid { g_shape : list nat; g_xs : list Q; g_ys : list Q; g_mask : option (list bool) }.
(** _get_gridded_subset_region_indices, 293-296: meshgrid(x, y) has the shape (len(y), len(x)) *)
Definition grid_points (g : grid) : list (Q * Q) := flat_map (fun y => map (fun x => (x, y)) (g_xs g)) (g_ys g).
Definition grid_region_indices (r : region) (g : grid) : list nat :=
  let ps := grid_points g in filter (fun i => let p := nth i ps (0, 0) in r_contains r (fst p) (snd p)) (seq 0 (length ps)).
Definition clear_at (is : list nat) (m : list bool) : list bool := fold_left (fun m i => set_nth i false m) is m.
Definition shape_subset (r : region) (g : grid) : res (list bool) :=
  if (2 <? length (g_shape g))%nat then Raises NotImplementedError
  else let is := grid_region_indices r g in
       match is with
       | [] => Raises TypeError
       | _ => if existsb (fun i => (fold_left Nat.mul (g_shape g) 1 <=? i)%nat) is then Raises ValueError   (* unravel_index: out of bounds *)
              else let mask := clear_at is (repeat true (fold_left Nat.mul (g_shape g) 1%nat)) in
                   Ok (match g_mask g with Some old => map (fun ab : bool * bool => fst ab && snd ab) (combine old mask) | None => mask end)
       end.
