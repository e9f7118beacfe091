(** Ungridded data in memory: cis/data_io/ungridded_data.py, cis/data_io/Coord.py, cis/data_io/common_data.py, cis/data_io/hyperpoint_view.py. *)
From Verif Require Import Base PyStr QBase LonModel DateModel.
Open Scope string_scope. Open Scope list_scope. Open Scope Q_scope.

(** A coordinate: its names (metadata), axis letter, shape and flattened points; None for a masked or NaN point.
    [c_std] is None when Metadata.guess_standard_name found nothing (ungridded_data.py:31-35, 150-163), Some [] for the empty name. *)
Record coord := mkCoord { c_std : option str; c_long : str; c_var : str; c_axis : str; c_shape : list nat; c_points : list (option Q) }.
(** LazyData.name, 220-226: the first name that is not empty *)
Definition unknown : str := lit "unknown".
Definition c_name (c : coord) : str :=
  match c_std c with Some (a :: l) => a :: l | _ => match c_long c with a :: l => a :: l | [] => match c_var c with a :: l => a :: l | [] => unknown end end end.
Definition set_points (c : coord) (shape : list nat) (p : list (option Q)) : coord := mkCoord (c_std c) (c_long c) (c_var c) (c_axis c) shape p.

(** ** CoordList *)
(** Coord.__eq__, Coord.py:57-58: None equals None, and is not the empty string *)
Definition std_eqb (a b : option str) : bool := match a, b with Some a, Some b => str_eqb a b | None, None => true | _, _ => false end.
Definition coord_eq (a b : coord) : bool := std_eqb (c_std a) (c_std b) && negb (std_eqb (c_std a) (Some [])).
(** CoordList.append, Coord.py:140-150 *)
Definition coords_append (l : list coord) (c : coord) : res (list coord) := if existsb (coord_eq c) l then Raises DuplicateCoordinateError else Ok (l ++ [c]).
Fixpoint append_all (l cs : list coord) : res (list coord) := match cs with [] => Ok l | c :: cs => bind (coords_append l c) (fun l => append_all l cs) end.
(** CoordList.get_coords, 152-214, with the criteria name, standard_name, axis, var_name (None: no check) *)
Record criteria := mkCrit { q_name : option str; q_std : option str; q_axis : option str; q_var : option str }.
Definition matches (q : criteria) (c : coord) : bool :=
  match q_name q with Some n => str_eqb (c_name c) n | None => true end && match q_std q with Some n => std_eqb (c_std c) (Some n) | None => true end
  && match q_axis q with Some a => str_eqb (c_axis c) (upper a) | None => true end && match q_var q with Some v => str_eqb (c_var c) v | None => true end.
Definition get_coords (l : list coord) (q : criteria) : list coord := filter (matches q) l.
(** CoordList.get_coord, 216-259: when nothing matches, the name is tried as a standard name (without a name: no criterion at all) *)
Definition get_coord (l : list coord) (q : criteria) : res coord :=
  let cs := match get_coords l q with [] => get_coords l (mkCrit None (q_name q) None None) | cs => cs end in
  match cs with [c] => Ok c | _ => Raises CoordinateNotFoundError end.
Definition by_std (n : str) : criteria := mkCrit None (Some n) None None.
Definition by_name (n : str) : criteria := mkCrit (Some n) None None None.
(** CoordList.find_standard_coords, 266-284 *)
Definition standard_names : list str := [lit "latitude"; lit "longitude"; lit "altitude"; lit "air_pressure"; lit "time"].
Definition find_standard_coords (l : list coord) : list (option coord) := map (fun n => match get_coord l (by_std n) with Ok c => Some c | Raises _ => None end) standard_names.

(** ** UngriddedData *)
Record udata := mkU { u_coords : list coord; u_shape : list nat; u_values : list (option Q) }.
Definition is_missing {A} (o : option A) : bool := match o with None => true | Some _ => false end.
Definition or_masks (a b : list bool) : list bool := map (fun ab : bool * bool => fst ab || snd ab) (combine a b).
(** numpy.ma.masked_array(x, mask).compressed() for points; the values keep their own mask *)
Definition compress {A} (mask : list bool) (l : list A) : list A := map snd (filter (fun mx : bool * A => negb (fst mx)) (combine mask l)).
(** UngriddedData._post_process, 466-500, on loaded data.  A coordinate that has not one point per value: numpy refuses (a single point would be
    broadcast; not modelled). *)
Definition missing_mask (n : nat) (cs : list coord) : res (list bool) :=
  fold_left (fun m c => bind m (fun m => if (length (c_points c) =? n)%nat then Ok (or_masks m (map is_missing (c_points c))) else Raises ValueError)) cs (Ok (repeat false n)).
Definition post_process (d : udata) : res udata :=
  bind (missing_mask (length (u_values d)) (u_coords d)) (fun mask =>
  if existsb (fun b => b) mask then
    let cs := map (fun c => let p := compress mask (c_points c) in set_points c [length p] p) (u_coords d) in
    let v := compress mask (u_values d) in Ok (mkU cs [length v] v)
  else Ok d).
(** UngriddedCoordinates._post_process, 863-882; the length of the first coordinate counts; IndexError without coordinates *)
Definition post_process_coords (cs : list coord) : res (list coord) :=
  match cs with
  | [] => Raises IndexError
  | c0 :: _ => bind (missing_mask (length (c_points c0)) cs) (fun mask =>
      if existsb (fun b => b) mask then Ok (map (fun c => let p := compress mask (c_points c) in set_points c [length p] p) cs) else Ok cs)
  end.
(** UngriddedData.__getitem__ with a boolean mask, 534-547 and Coord.__getitem__, Coord.py:38-47; IndexError for a mask of another length *)
Definition mask_get {A} (keep : list bool) (l : list A) : res (list A) := if (length keep =? length l)%nat then Ok (compress (map negb keep) l) else Raises IndexError.
Definition coord_mask_get (keep : list bool) (c : coord) : res coord := bind (mask_get keep (c_points c)) (fun p => Ok (set_points c [length p] p)).
Definition data_mask_get (keep : list bool) (d : udata) : res udata :=
  bind (post_process d) (fun d =>
  bind (map_res (coord_mask_get keep) (u_coords d)) (fun cs =>
  bind (mask_get keep (u_values d)) (fun v => post_process (mkU cs [length v] v)))).
(** UngriddedData.copy, 549-563, of loaded data: the values are copied before self.coords() removes points with missing coordinates; the coordinates
    are copied with CoordList.copy, Coord.py:286-299, that is with append *)
Definition copy (d : udata) : res udata :=
  bind (post_process d) (fun d' => bind (append_all [] (u_coords d')) (fun cs => post_process (mkU cs (u_shape d) (u_values d)))).

(** ** CommonDataList.append, common_data.py:275-303.  An item: it is gridded, the shapes of its coordinates. *)
Record item := mkItem { i_gridded : bool; i_shapes : list (list nat) }.
Definition zip_differ (a b : list nat) : bool := existsb (fun ab : nat * nat => negb (fst ab =? snd ab)%nat) (combine a b).
Definition list_append (gridded : bool) (l : list item) (x : item) : res (list item) :=
  if negb (eqb (i_gridded x) gridded) then Raises TypeError
  else match l with
       | [] => Ok [x]
       | first :: _ =>
         if negb (length (i_shapes first) =? length (i_shapes x))%nat then Raises ValueError
         else if existsb (fun ab : list nat * list nat => zip_differ (fst ab) (snd ab)) (combine (i_shapes first) (i_shapes x)) then Raises ValueError
         else Ok (l ++ [x])
       end.
(** extend, 305-308, and the constructor, 231-233: what has been appended before an error stays *)
Fixpoint list_extend (gridded : bool) (l xs : list item) : list item * option exn :=
  match xs with [] => (l, None) | x :: xs => match list_append gridded l x with Ok l => list_extend gridded l xs | Raises e => (l, Some e) end end.

(** ** Points *)
(** HyperPoint, hyperpoint.py:6-13: latitude, longitude, altitude, air_pressure, time, value list *)
Record hyperpoint := mkHP { hp_lat : option Q; hp_lon : option Q; hp_alt : option Q; hp_pres : option Q; hp_time : option Q; hp_val : list (option Q) }.
(** coords_flattened, 461-464 *)
Definition coords_flattened (cs : list coord) : list (option (list (option Q))) := map (option_map c_points) (find_standard_coords cs).
(** UngriddedHyperPointView, hyperpoint_view.py:59-136: five optional coordinate arrays, optional values.  Coordinates hold no missing values after
    post-processing; here an absent coordinate and a missing value are both None. *)
Record uview := mkView { w_coords : list (option (list (option Q))); w_data : option (list (option Q)) }.
(** 75: the size of the first coordinate, the latitude; AttributeError without it *)
Definition view_length (w : uview) : res nat := match w_coords w with Some c :: _ => Ok (length c) | _ => Raises AttributeError end.
Definition coord_at (w : uview) (k i : nat) : option Q := match nth k (w_coords w) None with Some c => nth i c None | None => None end.
(** 77-86 *)
Definition view_get (w : uview) (i : Z) : res hyperpoint :=
  bind (view_length w) (fun n =>
  if (i <? 0)%Z || (Z.of_nat n <=? i)%Z then Raises IndexError
  else let k := Z.to_nat i in
       Ok (mkHP (coord_at w 0 k) (coord_at w 1 k) (coord_at w 2 k) (coord_at w 3 k) (coord_at w 4 k)
                (match w_data w with Some v => [nth k v None] | None => [] end))).
(** 127-136 (and 94-101, 118-125 without the index) *)
Definition value_masked (w : uview) (k : nat) : bool := match w_data w with Some v => is_missing (nth k v None) | None => false end.
Definition enumerate_non_masked (w : uview) : res (list (nat * hyperpoint)) :=
  bind (view_length w) (fun n => map_res (fun k => bind (view_get w (Z.of_nat k)) (fun p => Ok (k, p))) (filter (fun k => negb (value_masked w k)) (seq 0 n))).
(** 110-116 (and 103-108 without the index) *)
Definition enumerate_all (w : uview) : res (list (nat * hyperpoint)) :=
  bind (view_length w) (fun n => map_res (fun k => bind (view_get w (Z.of_nat k)) (fun p => Ok (k, p))) (seq 0 n)).
(** UngriddedData.get_all_points / get_non_masked_points, 646-659: the view of the post-processed data *)
Definition all_points (d : udata) : res uview := bind (post_process d) (fun d => Ok (mkView (coords_flattened (u_coords d)) (Some (u_values d)))).
(** hyper_point, 595-606: the time is passed as the fourth, the air pressure as the fifth argument.  A negative index counts from the end. *)
Definition flat_at {A} (l : list A) (i : Z) : res A :=
  let j := (if i <? 0 then i + Z.of_nat (length l) else i)%Z in
  if (j <? 0)%Z then Raises IndexError else match nth_error l (Z.to_nat j) with Some x => Ok x | None => Raises IndexError end.
Definition hyper_point (d : udata) (i : Z) : res hyperpoint :=
  bind (post_process d) (fun d =>
  let value n := bind (get_coord (u_coords d) (by_std n)) (fun c => flat_at (c_points c) i) in
  bind (value (lit "latitude")) (fun lat => bind (value (lit "longitude")) (fun lon => bind (value (lit "altitude")) (fun alt =>
  bind (value (lit "time")) (fun t => bind (value (lit "air_pressure")) (fun p => bind (flat_at (u_values d) i) (fun v => Ok (mkHP lat lon alt t p [v])))))))).
