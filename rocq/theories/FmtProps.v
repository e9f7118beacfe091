(** C87: the size, the limits, the ticks, the labels and the levels of a plot. *)
From Coq Require Import String.
From Verif Require Import Base PyStr QBase DateModel DateProofs DistModel FileListModel AeroModel AeroSpec AggModel FmtModel FmtSpec FmtProofs.
From Coq Require Import List Lia.
Import ListNotations.
Open Scope string_scope. Open Scope list_scope. Open Scope Q_scope. Notation length := List.length.

(** The figure is as wide and as high as asked; what was not asked for is chosen so that the sides are as 4 to 3; 8 by 6 if nothing was asked for. *)
Theorem C87_size width height : let '(w, h) := figure_size width height in
  (forall x, width = Some x -> w == x) /\ (forall x, height = Some x -> h == x) /\ (width = None \/ height = None -> w * 3 == h * 4) /\ (width = None -> height = None -> w == 8 /\ h == 6).
Proof. exact (size_ok width height). Qed.
Print Assumptions C87_size.
Example C87_size_case : figure_size (Some 10) None = (10, 10 * (3 / 4)) /\ figure_size (Some 1) (Some 7) = (1, 7).
Proof. split; reflexivity. Qed.

(** An axis begins at the lower limit asked for (or where it began), and ends at the upper one if no step was asked for, or if the step divides the range; the ticks begin at the lower limit, are one step apart, and the last is the
    first that is not below the upper limit; the axis ends there. *)
Theorem C87_limits_partial lo hi step bottom top : asked lo bottom < asked hi top -> (forall s, step = Some s -> 0 < s) ->
  exists v ts, y_axis false bottom top lo hi step = Ok (v, ts) /\ fst v == asked lo bottom /\ (step = None -> snd v == asked hi top /\ ts = None) /\
  forall s, step = Some s -> exists t, ts = Some t /\ evenly (asked lo bottom) s t /\ t <> [] /\ asked hi top <= last t 0 < asked hi top + s /\ snd v == last t 0 /\ (multiple (asked hi top - asked lo bottom) s -> snd v == asked hi top).
Proof. exact (limits_ok lo hi step bottom top). Qed.
Print Assumptions C87_limits_partial.
Example C87_limits_case : exists v ts, y_axis false 0 97 (Some 10) (Some 50) (Some 20) = Ok (v, Some ts) /\ fst v == 10 /\ snd v == 50 /\ length ts = 3%nat.
Proof. eexists _, _. split; [vm_compute; reflexivity|]. repeat split; vm_compute; reflexivity. Qed.
(** A step that does not divide the range: the axis goes past the upper limit. *)
Theorem C87_limits_refuted lo hi step bottom top s v ts : asked lo bottom < asked hi top -> step = Some s -> 0 < s -> ~ multiple (asked hi top - asked lo bottom) s ->
  y_axis false bottom top lo hi step = Ok (v, ts) -> exists x, asked hi top < x /\ shows v x.
Proof. exact (beyond lo hi step bottom top s v ts). Qed.
Print Assumptions C87_limits_refuted.
Example C87_limits_refuted_case : exists v ts, y_axis false 0 97 (Some 0) (Some 100) (Some 30) = Ok (v, Some ts) /\ snd v == 120.
Proof. eexists _, _. split; vm_compute; reflexivity. Qed.

(** An axis of pressures shows the greatest at the bottom, *)
Theorem C87_pressure_partial bottom top : bottom < top -> exists v, y_axis true bottom top None None None = Ok (v, None) /\ ~ upwards v /\ forall x, shows v x <-> bottom <= x <= top.
Proof. exact (pressure_down bottom top). Qed.
Print Assumptions C87_pressure_partial.
Example C87_pressure_case : exists v, y_axis true 100 1000 None None None = Ok (v, None) /\ fst v == 1000 /\ snd v == 100.
Proof. eexists. split; [reflexivity|]. split; reflexivity. Qed.
(** but not if both limits were given; *)
Theorem C87_pressure_refuted bottom top lo hi : lo < hi -> exists v, y_axis true bottom top (Some lo) (Some hi) None = Ok (v, None) /\ upwards v.
Proof. exact (pressure_both bottom top lo hi). Qed.
Print Assumptions C87_pressure_refuted.
Example C87_pressure_refuted_case : exists v, y_axis true 100 1000 (Some 200) (Some 900) None = Ok (v, None) /\ fst v == 200 /\ snd v == 900.
Proof. eexists. split; [reflexivity|]. split; reflexivity. Qed.
(** if only the lower limit was given, what is below it is shown and what is above it is not; *)
Theorem C87_lower_limit_refuted bottom top m : bottom < m < top -> exists v, y_axis true bottom top (Some m) None None = Ok (v, None) /\ forall x, shows v x <-> bottom <= x <= m.
Proof. exact (pressure_from bottom top m). Qed.
Print Assumptions C87_lower_limit_refuted.
Example C87_lower_limit_case : exists v, y_axis true 100 1000 (Some 300) None None = Ok (v, None) /\ shows v 150 /\ ~ shows v 700.
Proof. destruct (pressure_from 100 1000 300) as (v & E & H); [lra|]. exists v. split; [exact E|]. split; [apply H; lra|]. intros C. apply H in C. lra. Qed.
(** and if a step was given, there are no ticks. *)
Theorem C87_pressure_ticks_refuted bottom top s : 0 < s -> s <= top - bottom -> exists v, y_axis true bottom top None None (Some s) = Ok (v, Some []).
Proof. exact (pressure_ticks bottom top s). Qed.
Print Assumptions C87_pressure_ticks_refuted.
Example C87_pressure_ticks_case : exists v, y_axis true 100 1000 None None (Some 100) = Ok (v, Some []).
Proof. apply C87_pressure_ticks_refuted; lra. Qed.

(** A map begins at longitude -180 or 0, as the limit asked for or else the data say: a longitude of that turn is drawn where it belongs. *)
Theorem C87_map data xmin s : begins data xmin s -> forall lon, s <= lon < s + 360 -> drawn_at (central_longitude None data xmin) lon (lon - s - 180).
Proof. exact (map_ok data xmin s). Qed.
Print Assumptions C87_map.
Example C87_map_case : begins [None; Some [10; 350]] None 0 /\ central_longitude None [None; Some [10; 350]] None == -180 /\ begins [Some [10; 350]; Some [5; -3]] None (-180) /\ central_longitude None [Some [10; 350]; Some [5; -3]] None == -360.
Proof.
  split; [|split; [reflexivity|split; [|reflexivity]]].
  - apply (data_positive _ [10; 350] 10); [right; left; reflexivity|left; reflexivity|]. intros l x [E|[E|[]]]; [discriminate E|injection E as <-]. intros [<-|[<-|[]]]; lra.
  - apply (data_negative _ [5; -3] (-3)); [right; left; reflexivity|right; left; reflexivity|lra].
Qed.
(** A border of the map that was not asked for should stay where it is; when another one was, it does only if the central longitude is a multiple of 360 (and it is -180 for data from 0 to 360). *)
Theorem C87_map_limits_refuted x1 x2 y1 y2 xmax ymin ymax a b c d central : map_limits (x1, x2, y1, y2) None xmax ymin ymax = Some (a, b, c, d) -> (same_longitude a (x1 + central) <-> multiple central 360).
Proof. exact (kept_border x1 x2 y1 y2 xmax ymin ymax a b c d central). Qed.
Print Assumptions C87_map_limits_refuted.
Example C87_map_limits_case : exists b c d, map_limits (-180, 180, -90, 90) None None (Some 0) None = Some (-180, b, c, d) /\ ~ same_longitude (-180) (-180 + central_longitude None [Some [10; 350]] None).
Proof.
  eexists _, _, _. split; [reflexivity|]. intros (k & K). change (central_longitude None [Some [10; 350]] None) with (0 - 180) in K. assert (E : inject_Z (k * 2) == inject_Z 1) by (rewrite inject_Z_mult; change (inject_Z 2) with 2; change (inject_Z 1) with 1; lra).
  unfold Qeq in E. cbn in E. lia.
Qed.
(** The limits of a map that were asked for are those it gets. *)
Theorem C87_map_limits x1 x2 y1 y2 xmin xmax ymin ymax a b c d : map_limits (x1, x2, y1, y2) xmin xmax ymin ymax = Some (a, b, c, d) -> a = asked xmin x1 /\ b = asked xmax x2 /\ c = asked ymin y1 /\ d = asked ymax y2.
Proof. exact (map_limits_some x1 x2 y1 y2 xmin xmax ymin ymax a b c d). Qed.
Print Assumptions C87_map_limits.
Theorem C87_map_global x1 x2 y1 y2 xmin xmax ymin ymax : map_limits (x1, x2, y1, y2) xmin xmax ymin ymax = None <-> (xmin = None /\ xmax = None /\ ymin = None /\ ymax = None) /\ (144 < y2 - y1 \/ 288 < x2 - x1).
Proof. exact (map_global x1 x2 y1 y2 xmin xmax ymin ymax). Qed.
Print Assumptions C87_map_global.
Example C87_map_global_case : map_limits (-150, 150, -10, 10) None None None None = None /\ map_limits (-100, 150, -70, 70) None None None None <> None.
Proof. split; [reflexivity|discriminate]. Qed.
(** The smaller the map, the finer its coastlines and its picture. *)
Theorem C87_coastlines ext : let r := resolution coastline_scales ext in (ext < 100 -> r = lit "10m") /\ (100 <= ext < 500 -> r = lit "50m") /\ (500 <= ext -> r = lit "110m").
Proof. exact (coast_ok ext). Qed.
Print Assumptions C87_coastlines.
Theorem C87_picture ext : let r := resolution bluemarble_scales ext in
  (ext < 2500 -> r = lit "raster/world.topo.bathy.200407.3x5400x2700.png") /\ (2500 <= ext < 5000 -> r = lit "raster/world.topo.bathy.200407.3x2700x1350.png") /\ (5000 <= ext -> r = lit "raster/world.topo.bathy.200407.3x1350x675.png").
Proof. exact (marble_ok ext). Qed.
Print Assumptions C87_picture.
Example C87_coastlines_case : resolution coastline_scales 499 = lit "50m" /\ resolution bluemarble_scales 1 = lit "raster/world.topo.bathy.200407.3x5400x2700.png".
Proof. split; reflexivity. Qed.

(** A time on the x axis of a line plot is drawn at matplotlib's number for it, so that the tick there names it; *)
Theorem C87_times_partial t : exists x, generic_x (Some (lit "time")) [days_since_1600 t] = [x] /\ number_of t x.
Proof. exact (line_time t). Qed.
Print Assumptions C87_times_partial.
Theorem C87_other_axis std points : std <> Some (lit "time") -> generic_x std points = points.
Proof. exact (other_axis std points). Qed.
Print Assumptions C87_other_axis.
Example C87_times_case : days_since_1600 (mkDT 1600 1 1 6 0 0) == 1 # 4 /\ number_of (mkDT 1970 1 2 12 0 0) (3 # 2).
Proof. split; vm_compute; reflexivity. Qed.
(** on a heat map, a contour plot or a scatter plot of two coordinates it is drawn where the tick names the moment 135140 days (370 years) later. *)
Theorem C87_times_refuted t u x : valid_datetime t = true -> valid_datetime u = true -> flat_x (Some (lit "time")) [days_since_1600 t] = [x] -> number_of u x -> toordinal u = (toordinal t + 135140)%Z /\ seconds_of_day u = seconds_of_day t.
Proof. exact (flat_time t u x). Qed.
Print Assumptions C87_times_refuted.
Example C87_times_refuted_case : flat_x (Some (lit "time")) [days_since_1600 (mkDT 2008 7 1 0 0 0)] = [days_since_1600 (mkDT 2008 7 1 0 0 0)] /\ number_of (mkDT 2378 7 2 0 0 0) (days_since_1600 (mkDT 2008 7 1 0 0 0)).
Proof. split; [reflexivity|vm_compute; reflexivity]. Qed.
(** The text of a tick tells the times of day apart on an axis of less than a day, the days on one of more than five, and the moments on one between. *)
Theorem C87_tick_text r t u : format_datetime r t = format_datetime r u -> (r < 1 -> same_clock t u) /\ (1 <= r -> r <= 5 -> t = u) /\ (5 < r -> same_day t u).
Proof. exact (labels_tell r t u). Qed.
Print Assumptions C87_tick_text.
Example C87_tick_text_case : format_datetime (1 # 2) (mkDT 2008 7 1 12 30 0) = Clock 12 30 /\ format_datetime 9 (mkDT 2008 7 1 12 30 0) = Day 2008 7 1.
Proof. split; reflexivity. Qed.

(** A label is the name, and the units in brackets. *)
Theorem C87_label_partial n u : n <> [] -> u <> [] -> ~ mentions (lit "since") u -> get_label (Some n) u true = n ++ lit " (" ++ u ++ lit ")".
Proof. exact (label_ok n u). Qed.
Print Assumptions C87_label_partial.
Example C87_label_case : get_label (Some (lit "rain")) (lit "mm") true = lit "rain (mm)".
Proof. reflexivity. Qed.
(** Without units, or with units of time, a blank is left behind. *)
Theorem C87_label_refuted n u : n <> [] -> u = [] \/ mentions (lit "since") u -> get_label (Some n) u true = n ++ lit " ".
Proof. exact (label_blank n u). Qed.
Print Assumptions C87_label_refuted.
Example C87_label_refuted_case : get_label (Some (lit "Time")) (lit "days since 1600-01-01 00:00:00") true = lit "Time ".
Proof. reflexivity. Qed.

(** A contour plot has the levels asked for, or as many as were asked for, or 7; *)
Theorem C87_contour_partial kw mn mx : (forall x l, dict_get kw (lit "contlevels") = Some (Nums (x :: l)) -> contour_levels kw mn mx = Levels (x :: l)) /\
  ((forall x l, dict_get kw (lit "contlevels") <> Some (Nums (x :: l))) -> (forall n, dict_get kw (lit "contnlevels") = Some (Num n) -> contour_levels kw mn mx = Number n) /\ (dict_get kw (lit "contnlevels") = None -> contour_levels kw mn mx = Number 7)).
Proof. exact (contour_ok kw mn mx). Qed.
Print Assumptions C87_contour_partial.
Example C87_contour_case : contour_levels [(lit "contlevels", Nums [1; 5; 9])] 0 10 = Levels [1; 5; 9] /\ contour_levels [(lit "contnlevels", Num 4)] 0 10 = Number 4.
Proof. split; reflexivity. Qed.
(** but the step between the levels is ignored, by the plot and by its colour bar (other plots give it to the colour bar). *)
Theorem C87_contour_refuted kw kw' mn mx : (forall n, n <> lit "vstep" -> dict_get kw n = dict_get kw' n) -> contour_levels kw mn mx = contour_levels kw' mn mx /\ contour_bar_step kw = None.
Proof. exact (contour_ignores kw kw' mn mx). Qed.
Print Assumptions C87_contour_refuted.
Theorem C87_bar_step kw s : dict_get kw (lit "vstep") = Some (Num s) -> other_bar_step kw = Some s.
Proof. exact (bar_step kw s). Qed.
Print Assumptions C87_bar_step.
Example C87_contour_refuted_case : contour_levels [(lit "vmin", Num 0); (lit "vmax", Num 100); (lit "vstep", Num 5)] 0 10 = Number 7 /\ other_bar_step [(lit "vstep", Num 5)] = Some 5.
Proof. split; reflexivity. Qed.
