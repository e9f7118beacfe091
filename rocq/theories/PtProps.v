(** C91: points in space and time, lists of points, data from points. *)
From Verif Require Import Base PyStr QBase DateModel FileListModel UngrModel UngrSpec HavModel HavSpec PtModel PtSpec PtProofs Pt2Proofs.
From Coq Require Import Qabs Reals Sorted.
Open Scope list_scope. Open Scope Q_scope.

(** ** One point *)
Theorem C91_new : forall lat lon alt pres t v, let p := new_point lat lon alt pres t v in
  p_lat p = lat /\ p_lon p = lon /\ p_alt p = alt /\ p_pres p = pres /\
  (t = NoTime -> p_time p = None) /\ (forall x, t = StdTime x -> p_time p = Some x) /\ (forall d, t = AtDate d -> exists x, p_time p = Some x /\ days_since_1600 d x) /\
  (v = NoValue -> p_val p = []) /\ (forall x, v = Number x -> p_val p = [One x]) /\ (forall l, v = Numbers l -> p_val p = map One l).
Proof. exact new_ok. Qed.
Print Assumptions C91_new.
(** A changed point: what is given is new, all else is as before -- for dates, and for one value *)
Theorem C91_modified_partial : forall p lat lon alt pres t v, let q := modified p lat lon alt pres t v in
  changed lat (p_lat p) (p_lat q) /\ changed lon (p_lon p) (p_lon q) /\ changed alt (p_alt p) (p_alt q) /\ changed pres (p_pres p) (p_pres q) /\
  (t = NoTime -> p_time q = p_time p) /\ (forall d, t = AtDate d -> exists x, p_time q = Some x /\ days_since_1600 d x) /\
  (v = NoValue -> p_val q = p_val p) /\ (forall x, v = Number x -> p_val q = [One x]) /\ (v = Numbers [] -> p_val q = []).
Proof. exact modified_ok. Qed.
Print Assumptions C91_modified_partial.
(** A time that is a number is not taken; a sequence of values becomes one value of a list. *)
Theorem C91_modified_refuted : forall p x y r,
  p_time (modified p None None None None (StdTime x) NoValue) = p_time p /\
  p_val (modified p None None None None NoTime (Numbers (y :: r))) = [Many (y :: r)] /\
  p_val (modified p None None None None NoTime (Numbers (y :: r))) <> p_val (new_point None None None None NoTime (Numbers (y :: r))).
Proof. exact modified_bad. Qed.
Print Assumptions C91_modified_refuted.
Theorem C91_same_point : forall p q,
  (same_point_in_time p q = true <-> same_coordinate (p_time p) (p_time q)) /\ (same_point_in_space p q = true <-> same_place p q) /\
  (same_point_in_space_and_time p q = true <-> same_place p q /\ same_coordinate (p_time p) (p_time q)).
Proof. intros p q. exact (conj (same_time_iff p q) (conj (same_space_iff p q) (same_both_iff p q))). Qed.
Print Assumptions C91_same_point.
(** The coordinate tuple: exactly the coordinates the point has, each once, in the order of their names. *)
Theorem C91_coord_tuple : forall p, (forall n x, In (n, x) (get_coord_tuple p) <-> names_coordinate p n (Some x)) /\
  StronglySorted (fun a b : str * Q => str_leb (fst a) (fst b) = true /\ fst a <> fst b) (get_coord_tuple p).
Proof. intros p. exact (conj (tuple_in p) (tuple_sorted p)). Qed.
Print Assumptions C91_coord_tuple.
Example C91_point_example :
  let p := new_point (Some 10) (Some 20) None (Some 500) (AtDate (mkDT 1600 1 2 12 0 0)) (Number (Some 7)) in
  get_coord_tuple p = [(lit "air_pressure", 500); (lit "latitude", 10); (lit "longitude", 20); (lit "time", std_time_of (mkDT 1600 1 2 12 0 0))] /\
  std_time_of (mkDT 1600 1 2 12 0 0) == 3 # 2 /\ same_point_in_space p (modified p (Some 10) None None None NoTime (Number None)) = true /\
  same_point_in_space p (modified p None (Some 21) None None NoTime NoValue) = false.
Proof. repeat split; vm_compute; reflexivity. Qed.

(** ** Separations and comparisons *)
Theorem C91_separations : forall p q r,
  (time_sep p q = Ok r <-> exists a b, p_time p = Some a /\ p_time q = Some b /\ r = Qabs (a - b)) /\
  (alt_sep p q = Ok r <-> exists a b, p_alt p = Some a /\ p_alt q = Some b /\ r = Qabs (a - b)).
Proof. intros p q r. exact (conj (sep_abs p_time p q r) (sep_abs p_alt p q r)). Qed.
Print Assumptions C91_separations.
(** positive pressures *)
Theorem C91_pressure_ratio_partial : forall p q a b, p_pres p = Some a -> p_pres q = Some b -> 0 < a -> 0 < b -> exists r, pres_sep p q = Ok r /\ pressure_ratio a b r.
Proof. exact pres_sep_ok. Qed.
Print Assumptions C91_pressure_ratio_partial.
(** "this is always >= 1": not with a pressure of another sign; and 0 cannot be compared *)
Theorem C91_pressure_ratio_refuted : exists p q r, pres_sep p q = Ok r /\ r < 1 /\ pres_sep (new_point None None None (Some 0) NoTime NoValue) p = Raises ZeroDivisionError.
Proof. exists (new_point None None None (Some 1) NoTime NoValue), (new_point None None None (Some (-2)) NoTime NoValue). eexists. split; [vm_compute; reflexivity|]. split; vm_compute; reflexivity. Qed.
Print Assumptions C91_pressure_ratio_refuted.
Theorem C91_distance : forall p q la1 lo1 la2 lo2, at_position p la1 lo1 -> at_position q la2 lo2 -> haversine_dist p q = Ok (great_circle (Q2R la1) (Q2R lo1) (Q2R la2) (Q2R lo2)).
Proof. exact dist_ok. Qed.
Print Assumptions C91_distance.
(** The comparisons say whether the second point is strictly closer. *)
Theorem C91_comparisons : forall p p1 p2,
  (forall d1 d2, alt_sep p p1 = Ok d1 -> alt_sep p p2 = Ok d2 -> exists t, compalt p p1 p2 = Ok t /\ (t = true <-> d2 < d1)) /\
  (forall d1 d2, pres_sep p p1 = Ok d1 -> pres_sep p p2 = Ok d2 -> exists t, comppres p p1 p2 = Ok t /\ (t = true <-> d2 < d1)) /\
  (forall d1 d2, time_sep p p1 = Ok d1 -> time_sep p p2 = Ok d2 -> exists t, comptime p p1 p2 = Ok t /\ (t = true <-> d2 < d1)) /\
  (forall d1 d2, haversine_dist p p1 = Ok d1 -> haversine_dist p p2 = Ok d2 -> exists t, compdist p p1 p2 = Ok t /\ (t = true <-> (d2 < d1)%R)).
Proof. intros p p1 p2. exact (conj (further_ok alt_sep p p1 p2) (conj (further_ok pres_sep p p1 p2) (conj (further_ok time_sep p p1 p2) (compdist_ok p p1 p2)))). Qed.
Print Assumptions C91_comparisons.
Example C91_comparison_example : let at_ a := new_point None None (Some a) (Some a) (StdTime a) NoValue in
  compalt (at_ 10) (at_ 14) (at_ 7) = Ok true /\ compalt (at_ 10) (at_ 14) (at_ 6) = Ok false /\ comppres (at_ 10) (at_ 20) (at_ 6) = Ok true /\ comppres (at_ 10) (at_ 20) (at_ 4) = Ok false /\
  comptime (at_ 10) (at_ 14) (at_ 7) = Ok true.
Proof. repeat split; vm_compute; reflexivity. Qed.

(** ** The opposite point: no point is further away *)
Theorem C91_furthest : forall p la lo, at_position p la lo -> exists f lo', furthest_point_from p = Ok f /\ at_position f (- la) lo' /\ (lo' == lo + 180 \/ lo' == lo - 180) /\
  (0 <= lo <= 360 -> 0 <= lo' <= 360) /\ (-180 <= lo <= 180 -> 0 <= lo' <= 360) /\
  p_alt f = p_alt p /\ p_pres f = p_pres p /\ p_time f = p_time p /\ p_val f = p_val p /\
  haversine_dist p f = Ok (PI * 6378)%R /\ (forall q d, haversine_dist p q = Ok d -> (d <= PI * 6378)%R).
Proof. exact furthest_ok. Qed.
Print Assumptions C91_furthest.
Theorem C91_furthest_twice : forall p la lo f g, at_position p la lo -> furthest_point_from p = Ok f -> furthest_point_from f = Ok g ->
  exists la' lo', at_position g la' lo' /\ la' == la /\ (lo' == lo \/ lo' == lo + 360 \/ lo' == lo - 360).
Proof. exact furthest_twice. Qed.
Print Assumptions C91_furthest_twice.
Example C91_furthest_example : exists f g, furthest_point_from (new_point (Some 10) (Some 200) (Some 5) None NoTime (Number (Some 3))) = Ok f /\ furthest_point_from f = Ok g /\
  at_position f (-10) 20 /\ at_position g 10 200 /\ p_alt f = Some 5 /\ p_val f = [One (Some 3)].
Proof. eexists. eexists. split; [vm_compute; reflexivity|]. split; [vm_compute; reflexivity|]. repeat split. Qed.

(** ** Lists of points *)
(** The data made of the points have the coordinates of the first point, one value per point ... *)
Theorem C91_data : forall first rest, let l := first :: rest in Forall number_first l ->
  exists d u, from_points_array l = Ok (d, u) /\ combine (map c_std (u_coords d)) u = map (fun nu : str * str => (Some (fst nu), snd nu)) (named_coordinates first) /\
    length (u_coords d) = length u /\ aligned d /\ u_values d = map one_value l.
Proof. exact data_ok. Qed.
Print Assumptions C91_data.
(** ... and their points are the original ones that have all these coordinates, in order, restricted to these coordinates. *)
Theorem C91_points_back : forall first rest d u, let l := first :: rest in p_lat first <> None -> p_lon first <> None -> Forall number_first l -> from_points_array l = Ok (d, u) ->
  points_of d = Ok (map (seen_again first) (filter (has_coordinates_of first) l)).
Proof. exact points_back. Qed.
Print Assumptions C91_points_back.
(** Points that all have the same coordinates and one value each come back unchanged. *)
Theorem C91_round_trip_partial : forall first rest, let l := first :: rest in p_lat first <> None -> p_lon first <> None ->
  (forall p, In p l -> same_coordinates first p /\ exists v, p_val p = [One v]) -> exists d u, from_points_array l = Ok (d, u) /\ points_of d = Ok l.
Proof. exact round_trip. Qed.
Print Assumptions C91_round_trip_partial.
Definition ex_p (la : Q) (pr : option Q) (v : value_arg) : point := new_point (Some la) (Some 5) None pr NoTime v.
Example C91_list_example :
  let l := [ex_p 1 (Some 1000) (Number (Some 7)); ex_p 2 (Some 900) (Number None)] in
  (forall p, In p l -> same_coordinates (ex_p 1 (Some 1000) (Number (Some 7))) p /\ exists v, p_val p = [One v]) /\
  exists d u, from_points_array l = Ok (d, u) /\ points_of d = Ok l /\ u = [lit "degrees north"; lit "degrees east"; lit "Pa"].
Proof.
  cbv zeta. split; [intros p [<-|[<-|[]]]; (split; [split; reflexivity|eexists; reflexivity])|]. eexists. eexists. split; [vm_compute; reflexivity|]. split; vm_compute; reflexivity.
Qed.
(** Otherwise a point can vanish (a later one lacks a coordinate), lose a coordinate (the first one lacks it), or get the value 0 (it has none);
    a point made by [modified] with several values, and the empty list, cannot be used. *)
Theorem C91_round_trip_refuted :
  (exists d u, from_points_array [ex_p 1 (Some 1000) (Number (Some 7)); ex_p 2 None (Number (Some 8))] = Ok (d, u) /\ points_of d = Ok [ex_p 1 (Some 1000) (Number (Some 7))]) /\
  (exists d u, from_points_array [ex_p 2 None (Number (Some 8)); ex_p 1 (Some 1000) (Number (Some 7))] = Ok (d, u) /\ points_of d = Ok [ex_p 2 None (Number (Some 8)); ex_p 1 None (Number (Some 7))]) /\
  (exists d u, from_points_array [ex_p 1 None NoValue; ex_p 2 None (Number (Some 8))] = Ok (d, u) /\ points_of d = Ok [ex_p 1 None (Number (Some 0)); ex_p 2 None (Number (Some 8))]) /\
  from_points_array [modified (ex_p 1 None NoValue) None None None None NoTime (Numbers [Some 1; Some 2])] = Raises ValueError /\
  from_points_array [] = Raises IndexError.
Proof.
  split; [eexists; eexists; split; vm_compute; reflexivity|]. split; [eexists; eexists; split; vm_compute; reflexivity|]. split; [eexists; eexists; split; vm_compute; reflexivity|]. split; reflexivity.
Qed.
Print Assumptions C91_round_trip_refuted.
