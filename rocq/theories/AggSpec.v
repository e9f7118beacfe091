(** Specifications for C34 and C35. *)
From Verif Require Import Base PyStr QBase LonModel LonSpec UngrModel UngrSpec SubsetSpec GridIndexModel GridIndexSpec AggModel.
From Coq Require Import Permutation.
Open Scope Q_scope.

(** ** C34 *)
(** every value of [start, stop) is in a cell *)
Definition covers (a : axis) (start stop : Q) : Prop := forall v, start <= v < stop -> exists k, contains a k v.
(** the cells follow each other without gaps or overlaps, upwards *)
Definition tiles (a : axis) (first_lower last_upper : Q) : Prop :=
  length (ax_points a) = length (ax_bounds a) /\ contiguous_up (ax_bounds a) /\
  exists b0 bn, nth_error (ax_bounds a) 0 = Some b0 /\ nth_error (ax_bounds a) (length (ax_bounds a) - 1) = Some bn /\ fst b0 == first_lower /\ snd bn == last_upper.
(** every cell is [width] wide, its point in the middle *)
Definition uniform (a : axis) (width : Q) : Prop :=
  forall k lo hi p, nth_error (ax_bounds a) k = Some (lo, hi) -> nth_error (ax_points a) k = Some p -> hi - lo == width /\ p == (lo + hi) / 2.

(** iris clips the bounds of latitudes whose points are all between the poles *)
Definition clipped (c : coord) (a : axis) : Prop := c_name c = lit "latitude" /\ forall p, In p (ax_points a) -> -(90) <= p <= 90.
(** the cells for a requested grid.  One cell if the range is not wider than the step; otherwise cells of the width of the step from the start to the
    first multiple at or beyond the stop; latitudes are cut off at the poles *)
Record cells_for (c : coord) (r : request) (a : axis) : Prop := {
  cf_count : ax_bounds a <> [] /\ length (ax_points a) = length (ax_bounds a);
  cf_points : forall k p, nth_error (ax_points a) k = Some p -> p == rq_start r + rq_step r / 2 + inject_Z (Z.of_nat k) * rq_step r;
  cf_single : rq_stop r - rq_start r <= rq_step r -> exists lo hi, ax_bounds a = [(lo, hi)] /\ lo == rq_start r /\ hi == rq_stop r;
  cf_many : rq_step r < rq_stop r - rq_start r -> ~ clipped c a ->
    exists u, rq_stop r <= u < rq_stop r + rq_step r /\ tiles a (rq_start r) u /\ uniform a (rq_step r) /\ covers a (rq_start r) (rq_stop r);
  cf_latitude : rq_step r < rq_stop r - rq_start r -> clipped c a ->
    exists u, rq_stop r <= u < rq_stop r + rq_step r /\ tiles a (Qmax (rq_start r) (-(90))) (Qmin u 90) /\ covers a (Qmax (rq_start r) (-(90))) (Qmin (rq_stop r) 90) /\
      forall k lo hi, nth_error (ax_bounds a) k = Some (lo, hi) -> hi - lo <= rq_step r
}.

(** ** C35 *)
Definition standard (c : coord) : Prop := exists n, c_std c = Some n /\ In n standard_names.
Definition is_lon_coord (c : coord) : Prop := c_std c = Some (lit "longitude").
(** the value is in cell k of the grid coordinate; a coordinate without a requested grid has one cell holding everything *)
Definition in_cell (g : gaxis) (k : nat) (x : Q) : Prop := match g with Cells a => contains a (Z.of_nat k) x | Whole _ => k = 0%nat end.
Definition size_of (g : gaxis) : nat := match g with Cells a => length (ax_bounds a) | Whole _ => 1%nat end.
(** the range of longitudes the grid is taken to use: -180..180 if it has a negative point, otherwise 0..360 *)
Definition range_of (g : gaxis) (low : Q) : Prop := ((exists p, In p (gpoints g) /\ p < 0) /\ low = -(180)) \/ ((forall p, In p (gpoints g) -> 0 <= p) /\ low = 0).
(** the coordinate value x lies in cell k; longitudes are those of their meridian within the range of the grid *)
Definition located_in (c : coord) (g : gaxis) (k : nat) (x : Q) : Prop :=
  (is_lon_coord c -> exists low x', range_of g low /\ same_meridian x x' /\ in_range low x' /\ in_cell g k x') /\ (~ is_lon_coord c -> in_cell g k x).
(** point i of the data is in the cell: along every dimension *)
Definition point_in {V} (d : udata) (out : aggregated (V := V)) (i : nat) (cell : list nat) : Prop :=
  forall j ci g k c x, nth_error (ag_dims out) j = Some ci -> nth_error (ag_axes out) j = Some g -> nth_error cell j = Some k ->
    nth_error (u_coords d) ci = Some c -> nth i (c_points c) None = Some x -> located_in c g k x.
(** the dimensions of the result are the data's standard coordinates, in the data's order *)
Definition standard_dims (d : udata) (dims : list nat) : Prop :=
  StronglySorted lt dims /\ forall ci, In ci dims <-> exists c, nth_error (u_coords d) ci = Some c /\ standard c.
(** a cell of the result *)
Definition a_cell {V} (out : aggregated (V := V)) (cell : list nat) : Prop := Forall2 (fun k g => (k < size_of g)%nat) cell (ag_axes out).
(** longitudes in a usual convention (generously) *)
Definition usual_longitudes (d : udata) : Prop := forall c i x, In c (u_coords d) -> is_lon_coord c -> nth i (c_points c) None = Some x -> -(360) <= x < 540.
(** the values of these points *)
Definition values_at (d : udata) (idxs : list nat) (vs : list Q) : Prop := Forall2 (fun i v => nth i (u_values d) None = Some v) idxs vs.
(** every cell holds the kernel of the values of exactly the unmasked points in it; it is missing if there are none *)
Definition right_values {V} (kernel : list Q -> list (option V)) (d : udata) (out : aggregated (V := V)) : Prop :=
  forall cell, a_cell out cell -> exists idxs vs, NoDup idxs /\ values_at d idxs vs /\
    (forall i, In i idxs <-> (i < length (u_values d))%nat /\ nth i (u_values d) None <> None /\ point_in d out i cell) /\
    ag_value out cell = match idxs with [] => None | _ => Some (kernel vs) end.

(** ** C35, the whole aggregation *)
(** the keyword asks for this grid on this coordinate; a missing start or stop is the smallest or largest value of the coordinate *)
Definition smallest (l : list (option Q)) (m : Q) : Prop := (exists x, In (Some x) l /\ x == m) /\ forall x, In (Some x) l -> m <= x.
Definition largest (l : list (option Q)) (m : Q) : Prop := (exists x, In (Some x) l /\ x == m) /\ forall x, In (Some x) l -> x <= m.
Definition asks (cs : list coord) (g : gridspec) (kr : nat * request) : Prop :=
  addresses cs (gs_name g) (fst kr) /\ gs_step g = Some (rq_step (snd kr)) /\
  exists c, nth_error cs (fst kr) = Some c /\
    match gs_start g with Some a => rq_start (snd kr) = a | None => smallest (c_points c) (rq_start (snd kr)) end /\
    match gs_stop g with Some b => rq_stop (snd kr) = b | None => largest (c_points c) (rq_stop (snd kr)) end.
(** the dimension of the result for a coordinate: the requested cells, or one cell reported with the range of the data *)
Definition right_dimension (rs : list (nat * request)) (ci : nat) (c : coord) (g : gaxis) (b : list (Q * Q)) : Prop :=
  (forall r, In (ci, r) rs -> exists a, g = Cells a /\ cells_for c r a /\ b = ax_bounds a) /\
  (~ In ci (map fst rs) -> (exists m, g = Whole m) /\ exists lo hi, b = [(lo, hi)] /\ smallest (c_points c) lo /\ largest (c_points c) hi).
Definition right_dimensions {V} (d : udata) (rs : list (nat * request)) (out : aggregated (V := V)) : Prop :=
  length (ag_axes out) = length (ag_dims out) /\ length (ag_bounds out) = length (ag_dims out) /\
  forall j ci g b c, nth_error (ag_dims out) j = Some ci -> nth_error (ag_axes out) j = Some g -> nth_error (ag_bounds out) j = Some b -> nth_error (u_coords d) ci = Some c ->
    right_dimension rs ci c g b.
(** no coordinate value is missing *)
Definition all_located (d : udata) : Prop := forall r, In r (rows d) -> located r = true.
(** a range upwards, in positive steps *)
Definition upwards (r : request) : Prop := rq_start r < rq_stop r /\ 0 < rq_step r.
Definition has_latitude (d : udata) : Prop := exists c, In c (u_coords d) /\ c_std c = Some (lit "latitude").
(** ** C35, conservation *)
Definition every_cell {V} (out : aggregated (V := V)) (cells : list (list nat)) : Prop := NoDup cells /\ forall c, In c cells <-> a_cell out c.
(** what the result says about the number of points in a cell *)
Definition counts {V} (kernel : list Q -> list (option V)) (count : option (list (option V)) -> nat) : Prop := count None = 0%nat /\ forall vs, vs <> [] -> count (Some (kernel vs)) = length vs.
Definition total {V} (count : option (list (option V)) -> nat) (out : aggregated (V := V)) (cells : list (list nat)) : nat := fold_right Nat.add 0%nat (map (fun c => count (ag_value out c)) cells).
Definition unmasked (d : udata) (i : nat) : Prop := (i < length (u_values d))%nat /\ nth i (u_values d) None <> None.
Definition number_unmasked (d : udata) : nat := length (filter (fun o => negb (is_missing o)) (u_values d)).
(** point i lies in every requested range *)
Definition inside (d : udata) (rs : list (nat * request)) (i : nat) : Prop :=
  forall k r c x, In (k, r) rs -> nth_error (u_coords d) k = Some c -> nth i (c_points c) None = Some x ->
    (is_lon_coord c -> exists x', same_meridian x x' /\ rq_start r <= x' < rq_stop r) /\ (~ is_lon_coord c -> rq_start r <= x < rq_stop r).
(** the requested ranges for longitudes are within 0..360, or within -180..180 with the first cell's centre below zero; those for latitudes within the poles *)
Definition lon_fits (r : request) : Prop :=
  (0 <= rq_start r /\ rq_stop r <= 360) \/ (-(180) <= rq_start r /\ rq_start r + rq_step r / 2 < 0 /\ rq_stop r <= 180).
Definition usual_range (c : coord) (r : request) : Prop := (is_lon_coord c -> lon_fits r) /\ (c_name c = lit "latitude" -> -(90) <= rq_start r /\ rq_stop r <= 90).
Definition usual_ranges (d : udata) (rs : list (nat * request)) : Prop := forall k r c, In (k, r) rs -> nth_error (u_coords d) k = Some c -> usual_range c r.
