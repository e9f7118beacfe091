(** Specification for C98: what a finished plot shows. *)
From Coq Require Import String.
From Verif Require Import Base PyStr QBase HavSpec FmtModel LkModel.
From Coq Require Import List Reals.
Import ListNotations.
Open Scope string_scope. Open Scope list_scope. Open Scope nat_scope. Notation length := List.length.

(** a map: two coordinates, called lon... and lat... in capitals or not *)
Definition called (w : String.string) (name : str) : Prop := exists rest, lower name = lit w ++ rest.
Definition looks_like_a_map (p : plot) : Prop := p_kind p = Flat /\ called "lon" (p_xname p) /\ called "lat" (p_yname p).
(** the coordinates themselves *)
Definition longitude_names : list str := map lit ["lon"; "longitude"; "Longitude"; "LON"].
Definition latitude_names : list str := map lit ["lat"; "latitude"; "Latitude"; "LAT"].
(** texts: the user's, or else the plot's own *)
Definition users (asked own result : option str) : Prop := match asked with Some t => result = Some t | None => result = own end.
(** a label, or another one if it is missing or empty *)
Definition label_of (a b r : option str) : Prop := ((a = None \/ a = Some []) /\ r = b) \/ ((exists c t, a = Some (c :: t)) /\ r = a).
(** great circle between the lower left and the upper right corner, in km *)
Definition across (e : Q * Q * Q * Q) : R := let '(x0, x1, y0, y1) := e in great_circle (Q2R y0) (Q2R x0) (Q2R y1) (Q2R x1).
Definition coast_for (d : R) (r : str) : Prop := ((d < 100)%R /\ r = lit "10m") \/ ((100 <= d < 500)%R /\ r = lit "50m") \/ ((500 <= d)%R /\ r = lit "110m").
Definition picture_for (d : R) (r : str) : Prop :=
  ((d < 2500)%R /\ r = lit "raster/world.topo.bathy.200407.3x5400x2700.png") \/ ((2500 <= d < 5000)%R /\ r = lit "raster/world.topo.bathy.200407.3x2700x1350.png") \/ ((5000 <= d)%R /\ r = lit "raster/world.topo.bathy.200407.3x1350x675.png").
(** ticks found by matplotlib: at most so many intervals, with steps of the decades given *)
Definition wide_steps : list nat := [1; 3; 6; 9; 10].
Definition narrow_steps : list nat := [1; 2; 4; 5; 10].
Definition steps_for (width : Q) (l : list nat) : Prop := (width < 5 /\ l = narrow_steps)%Q \/ (5 <= width /\ l = wide_steps)%Q.
Definition bins_for (width height : Q) (nx ny : nat) : Prop :=
  ((22 # 10) * width < height /\ nx = 4%nat /\ ny = 11%nat)%Q \/ (height <= (22 # 10) * width /\ (22 # 10) * height < width /\ nx = 14%nat /\ ny = 4%nat)%Q \/
  (height <= (22 # 10) * width /\ width <= (22 # 10) * height /\ nx = 9%nat /\ ny = 7%nat)%Q.
(** on the globe *)
Definition no_more_than (m : Q) (t : Q) : Prop := (- m <= t <= m)%Q.
(** the default ticks of a map *)
Definition default_ticks (locate : nat -> list nat -> Q -> Q -> list Q) (e : Q * Q * Q * Q) (xt yt : list Q) : Prop :=
  let '(x0, x1, y0, y1) := e in
  exists nx ny sx sy, bins_for (x1 - x0) (y1 - y0) nx ny /\ steps_for (x1 - x0) sx /\ steps_for (y1 - y0) sy /\
  (forall t, In t xt <-> In t (locate nx sx x0 x1) /\ no_more_than 360 t) /\ (forall t, In t yt <-> In t (locate ny sy y0 y1) /\ no_more_than 90 t).
(** ticks with a step: from the lower limit on, beyond the upper one by less than a step *)
Definition stepped (lo hi s : Q) (ticks : list Q) : Prop :=
  (exists t, nth_error ticks 0 = Some t /\ t == lo)%Q /\ (forall k t, nth_error ticks k = Some t -> t == lo + inject_Z (Z.of_nat k) * s /\ t < hi + s)%Q /\ (exists t, In t ticks /\ hi <= t)%Q.
Definition ticks_of_axis (step : option Q) (lo hi : Q) (default ticks : list Q) : Prop := match step with Some s => stepped lo hi s ticks | None => ticks = default end.
