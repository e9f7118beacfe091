(** Points within a distance of one position: RectangleHaversine and HaversineDistanceKDTree._query_ball_point (cis/collocation/kdtree.py:117-176, 279-396, 1324-1346),
    HaversineDistanceKDTreeIndex.find_points_within_distance (cis/collocation/haversinedistancekdtreeindex.py:50-57) and SepConstraintKdtree.constrain_points with its cache
    (cis/collocation/col_implementations.py:310-330).  Exact real arithmetic; no mask. *)
From Verif Require Import Base QBase KDModel HavModel ColModel.
From Coq Require Import List Reals Qreals.
Import ListNotations.
Open Scope R_scope.

(** haversine_distance_from_radians, 117-127 *)
Definition hav_radians (lat1 lon1 lat2 lon2 : R) : R :=
  2 * asin (sqrt (sin ((lat2 - lat1) / 2) ^ 2 + cos lat1 * cos lat2 * sin ((lon2 - lon1) / 2) ^ 2)) * RADIUS.
(** np.fmod: the remainder has the sign of the dividend *)
Definition truncate (x : R) : R := if Rle_dec 0 x then IZR (Int_part x) else - IZR (Int_part (- x)).
Definition fmod (x y : R) : R := x - y * truncate (x / y).
(** geodesic_to_line_of_longitude_crossing_latitude, 130-158 *)
Definition crossing (lat lon longitude : R) : R :=
  let w := sqrt (1 - cos lat ^ 2 * sin (lon - longitude) ^ 2) in if Req_EM_T w 0 then asin 0 else asin (sin lat / w).
(** math.tan(x) < math.tan(m) * c; the tangents at the poles are numbers of about 1.6e16, here infinite *)
Definition tan_less (x m c : R) : bool :=
  if Req_EM_T (cos x) 0 then Rltb (sin x) 0 else if Req_EM_T (cos m) 0 then Rltb 0 (sin m * c) else Rltb (tan x) (tan m * c).
(** line_of_longitude_segment_nearer_end_latitude, 161-176 *)
Definition nearer_end (lat_min lat_max lon pt_lat pt_lon : R) : R := if tan_less pt_lat ((lat_min + lat_max) / 2) (cos (pt_lon - lon)) then lat_min else lat_max.
(** RectangleHaversine._min_distance_point, 303-363: rectangle and point in radians *)
Definition to_side (la lb lat0 lon lon0 edge diff : R) : R :=
  let diff := if Rltb diff 0 then diff + 2 * PI else diff in
  let lat1 := if Rltb (PI / 2) diff then nearer_end la lb edge lat0 lon0 else Rmin (Rmax (crossing lat0 lon edge) la) lb in
  hav_radians lat0 lon0 lat1 edge.
Definition to_rectangle (la lb oa ob lat0 lon : R) : R :=
  let range_start := (oa + ob) / 2 - PI in
  let lon0 := fmod (lon - range_start) (2 * PI) + range_start in
  if Rleb oa lon0 && Rleb lon0 ob then
    if Rltb lat0 la then hav_radians lat0 lon0 la lon0 else if Rltb lb lat0 then hav_radians lat0 lon0 lb lon0 else 0
  else
    let mid := (oa + ob) / 2 in
    if (Rltb lon0 mid && Rltb (mid - lon0) PI) || (Rltb mid lon0 && Rltb PI (lon0 - mid)) then to_side la lb lat0 lon lon0 oa (oa - lon0)
    else to_side la lb lat0 lon lon0 ob (lon0 - ob).
(** min_distance_point, 283-289, and max_distance_point, 291-301, of a rectangle and a position in degrees *)
Definition min_distance (r : rect) (x : list Q) : R := to_rectangle (rad (rmin r 0)) (rad (rmax r 0)) (rad (rmin r 1)) (rad (rmax r 1)) (rad (fst (r2 x))) (rad (snd (r2 x))).
Definition max_distance (r : rect) (x : list Q) : R := PI * RADIUS - to_rectangle (rad (rmin r 0)) (rad (rmax r 0)) (rad (rmin r 1)) (rad (rmax r 1)) (- rad (fst (r2 x))) (rad (snd (r2 x)) + PI).
(** _query_ball_point, 1324-1346, with eps = 0 *)
Fixpoint hball_point (data : list (list Q)) (x : list Q) (r : R) (t : node) (rc : rect) : list nat :=
  if Rgtb (min_distance rc x) r then []
  else if Rltb (max_distance rc x) r then leaves t
  else match t with
       | Leaf idx => filter (fun i => Rleb (hdist (r2 (row data i)) (r2 x)) r) idx
       | Inner d split l g => let '(rl, rg) := rect_split rc d split in hball_point data x r l rl ++ hball_point data x r g rg
       end.
(** find_points_within_distance, haversinedistancekdtreeindex.py:50-57 *)
Definition within_distance (kd : kdtree) (x : list Q) (r : R) : list nat := hball_point (kd_data kd) x r (kd_tree kd) (mk_rect (kd_maxes kd) (kd_mins kd)).

(** ** SepConstraintKdtree with its index and its cache of positions, col_implementations.py:310-330; index_data: haversinedistancekdtreeindex.py:27-39 *)
Record constraint := mkCon { c_index : option kdtree; c_cache : list ((Q * Q) * list nat) }.
Definition new_constraint : constraint := mkCon None [].
Definition index_data (c : constraint) (data : list prow) : res constraint := bind (KDTree (map position data) 10) (fun kd => Ok (mkCon (Some kd) (c_cache c))).
Definition cached (c : constraint) (lat lon : Q) : option (list nat) :=
  option_map snd (find (fun e : (Q * Q) * list nat => Qeqb (fst (fst e)) lat && Qeqb (snd (fst e)) lon) (c_cache c)).
(** data.iloc of an index that there is not: IndexError *)
Definition take_rows (data : list prow) (idx : list nat) : res (list prow) := if forallb (fun i => (i <? length data)%nat) idx then Ok (iloc data idx) else Raises IndexError.
Definition constrain_points (h_sep a_sep p_sep t_sep : option Q) (dcols scols : columns) (c : constraint) (ref : prow) (data : list prow) : res (constraint * list prow) :=
  let checked (c : constraint) (pts : list prow) := bind (apply_checks dcols scols (kd_checks a_sep p_sep t_sep) ref pts) (fun l => Ok (c, l)) in
  match c_index c, h_sep with
  | Some kd, Some h =>
    if Qeqb h 0 then checked c data else
    match cached c (p_lat ref) (p_lon ref) with
    | Some idx => bind (take_rows data idx) (checked c)
    | None => let idx := within_distance kd (position ref) (Q2R h) in
              bind (take_rows data idx) (checked (mkCon (c_index c) (((p_lat ref, p_lon ref), idx) :: c_cache c)))
    end
  | _, _ => checked c data
  end.
(** one sample point after the other *)
Fixpoint constrain_all (h_sep a_sep p_sep t_sep : option Q) (dcols scols : columns) (c : constraint) (refs : list prow) (data : list prow) : res (list (list prow)) :=
  match refs with
  | [] => Ok []
  | ref :: refs => bind (constrain_points h_sep a_sep p_sep t_sep dcols scols c ref data) (fun cl => bind (constrain_all h_sep a_sep p_sep t_sep dcols scols (fst cl) refs data) (fun ls => Ok (snd cl :: ls)))
  end.
