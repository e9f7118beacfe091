(** What a finished plot shows: maps, logarithmic scales, colour bars, titles, coast lines, ticks and files.  cis/plotting/genericplot.py, cis/plotting/formatted_plot.py, cis/plotting/plot.py.
    The limits themselves are those of C87, the arrays those of C77 and C88. *)
From Coq Require Import String.
From Verif Require Import Base PyStr QBase ProdModel AggModel FmtModel HavModel.
From Coq Require Import List Reals.
Import ListNotations.
Open Scope string_scope. Open Scope list_scope. Open Scope nat_scope. Notation length := List.length.

(** the classes of plots; Flat: ContourPlot, ContourfPlot, Heatmap and ScatterPlot2D *)
Inductive kind := Line | Scatter | Histogram | Flat | Comparative | Histogram2 | Taylor.
(** is_map, genericplot.py:103-104, 176-178, comparativescatter.py:62-63, taylor.py:296-297; names of the axes *)
Definition is_map (k : kind) (xname yname : str) : bool :=
  match k with Flat => starts_with (lit "lon") (lower xname) && starts_with (lit "lat") (lower yname) | _ => false end.
(** a colour bar, plot.py:280-309: the step of its ticks, logarithmic labels, its scale, orientation and label *)
Record bar := mkBar { b_step : option Q; b_log : bool; b_scale : option Q; b_orient : option str; b_label : option str }.
(** the axes as the user sees them *)
Record axes := mkAx { x_log : bool; y_log : bool; rescaled : bool; grid_lines : bool; map_lines : bool; x_label : option str; y_label : option str; title : option str;
                      x_ticks : option (list Q); y_ticks : option (list Q); coast : option (str * str); picture : option str; colour_bar : option bar }.
Definition blank : axes := mkAx false false false false false None None None None None None None None.
(** the plot: kind, names and labels of the axes, width and height of the data, and its options *)
Record plot := mkPlot { p_kind : kind; p_xname : str; p_yname : str; p_xlabel : str; p_ylabel : str; p_wide : bool; p_label : option str;
                        p_bar : bool; p_vstep : option Q; p_logv : bool; p_scale : option Q; p_orient : option str; p_barlabel : option str; p_coast : bool; p_colour : str }.
Definition map_plot (p : plot) : bool := is_map (p_kind p) (p_xname p) (p_yname p).
(** 'a or b' for a text that may be None *)
Definition or_else (a b : option str) : option str := match a with None | Some [] => b | _ => a end.
(** genericplot.py:137-146, histogram2d.py:24-33 *)
Definition the_bar (p : plot) : option bar :=
  match p_kind p with
  | Flat => if p_bar p then Some (mkBar (p_vstep p) (p_logv p) (p_scale p) (match p_orient p with None => Some (if map_plot p && p_wide p then lit "horizontal" else lit "vertical") | o => o end) (or_else (p_barlabel p) (p_label p))) else None
  | Histogram2 => if p_bar p then Some (mkBar (p_vstep p) (p_logv p) (p_scale p) (p_orient p) (or_else (p_barlabel p) (Some (lit "Frequency")))) else None
  | _ => None
  end.
(** _get_extent and the resolutions, plot.py:144-151, 168-218: great circle from the lower left to the upper right corner *)
Definition corner_distance (x0 x1 y0 y1 : Q) : R := haversine (Q2R y0) (Q2R x0) (Q2R y1) (Q2R x1).
Definition finest (scales : list (R * str)) (ext : R) : str :=
  match scales with [] => [] | (_, r) :: rest => fold_left (fun res sr => if Rgtb (fst sr) ext then snd sr else res) rest r end.
Definition coast_scales : list (R * str) := [(0, lit "110m"); (500, lit "50m"); (100, lit "10m")]%R.
Definition picture_scales : list (R * str) := [(0, lit "raster/world.topo.bathy.200407.3x1350x675.png"); (5000, lit "raster/world.topo.bathy.200407.3x2700x1350.png"); (2500, lit "raster/world.topo.bathy.200407.3x5400x2700.png")]%R.

Section Drawing.
(** matplotlib's MaxNLocator(nbins, steps).tick_values(lo, hi) *)
Variable locate : nat -> list nat -> Q -> Q -> list Q.
(** get_best_map_ticks, plot.py:221-262 *)
Definition best_ticks (extent : Q * Q * Q * Q) : list Q * list Q :=
  let '(xmin, xmax, ymin, ymax) := extent in
  let lon_steps := if Qltb (xmax - xmin) 5 then [1; 2; 4; 5; 10] else [1; 3; 6; 9; 10] in
  let lat_steps := if Qltb (ymax - ymin) 5 then [1; 2; 4; 5; 10] else [1; 3; 6; 9; 10] in
  let '(nx, ny) := if Qltb ((22 # 10) * (xmax - xmin)) (ymax - ymin) then (4, 11) else if Qltb ((22 # 10) * (ymax - ymin)) (xmax - xmin) then (14, 4) else (9, 7) in
  (filter (fun t => Qleb (-360) t && Qleb t 360) (locate nx lon_steps xmin xmax), filter (fun t => Qleb (-90) t && Qleb t 90) (locate ny lat_steps ymin ymax)).
(** what is known of the map: a rectangular projection, the limits before and after they are set, and whether natural earth can be reached *)
Variable rectangular : bool.
Variable extent_before : Q * Q * Q * Q.
Variable extent_after : option (Q * Q * Q * Q) -> Q * Q * Q * Q.
Variable natural_earth : bool.
Definition resolution_of (scales : list (R * str)) (e : Q * Q * Q * Q) : str := let '(x0, x1, y0, y1) := e in finest scales (corner_distance x0 x1 y0 y1).
(** __call__, genericplot.py:99-101, 155-174; comparativescatter.py:43-44; histogram2d.py:55-59: labels, colour bar or title, coast lines and ticks *)
Definition with_labels (p : plot) (a : axes) : axes :=
  mkAx (x_log a) (y_log a) (rescaled a) (grid_lines a) (map_lines a) (Some (p_xlabel p)) (Some (p_ylabel p)) (title a) (x_ticks a) (y_ticks a) (coast a) (picture a) (colour_bar a).
Definition with_bar (p : plot) (a : axes) : axes :=
  match the_bar p with
  | Some b => mkAx (x_log a) (y_log a) (rescaled a) (grid_lines a) (map_lines a) (x_label a) (y_label a) (title a) (x_ticks a) (y_ticks a) (coast a) (picture a) (Some b)
  | None => match p_kind p with
            | Flat => mkAx (x_log a) (y_log a) (rescaled a) (grid_lines a) (map_lines a) (x_label a) (y_label a) (p_label p) (x_ticks a) (y_ticks a) (coast a) (picture a) (colour_bar a)
            | _ => a
            end
  end.
Definition with_coast (p : plot) (a : axes) : axes :=
  if p_coast p && natural_earth then mkAx (x_log a) (y_log a) (rescaled a) (grid_lines a) (map_lines a) (x_label a) (y_label a) (title a) (x_ticks a) (y_ticks a) (Some (resolution_of coast_scales extent_before, p_colour p)) (picture a) (colour_bar a) else a.
(** set_map_ticks, plot.py:265-277 *)
Definition with_ticks (a : axes) : axes :=
  if rectangular then mkAx (x_log a) (y_log a) (rescaled a) (grid_lines a) (map_lines a) (x_label a) (y_label a) (title a) (Some (fst (best_ticks extent_before))) (Some (snd (best_ticks extent_before))) (coast a) (picture a) (colour_bar a)
  else mkAx (x_log a) (y_log a) (rescaled a) (grid_lines a) true (x_label a) (y_label a) (title a) (x_ticks a) (y_ticks a) (coast a) (picture a) (colour_bar a).
Definition draw (p : plot) (a : axes) : axes :=
  match p_kind p with
  | Taylor => a
  | _ => let b := with_bar p (with_labels p a) in if map_plot p then with_ticks (with_coast p b) else b
  end.
(** set_log_scales, formatted_plot.py:7-19; genericplot.py:70-74, 180-185; taylor.py:299-300 *)
Definition log_scales (p : plot) (logx logy : bool) (a : axes) : axes :=
  let set (rescale : bool) := mkAx (logx || x_log a) (logy || y_log a) (((logx || logy) && rescale) || rescaled a) (grid_lines a) (map_lines a) (x_label a) (y_label a) (title a) (x_ticks a) (y_ticks a) (coast a) (picture a) (colour_bar a) in
  match p_kind p with Taylor => a | Flat => if map_plot p then a else set false | _ => set true end.
(** format_plot, formatted_plot.py:22-41; the font size is not modelled *)
Definition given (o old : option str) : option str := match o with Some s => Some s | None => old end.
Definition format (grid : bool) (xlabel ylabel ttl : option str) (a : axes) : axes :=
  mkAx (x_log a) (y_log a) (rescaled a) (grid || grid_lines a) (map_lines a) (given xlabel (x_label a)) (given ylabel (y_label a)) (given ttl (title a)) (x_ticks a) (y_ticks a) (coast a) (picture a) (colour_bar a).
(** apply_map_axis_limits, 69-82: the ticks of a map after its limits are set *)
Definition map_ticks (xmin xmax ymin ymax xstep ystep : option Q) (a : axes) : res axes :=
  let e := extent_after (map_limits extent_before xmin xmax ymin ymax) in
  let '(x1, x2, y1, y2) := e in
  let '(xt, yt) := best_ticks e in
  bind (match xstep with Some s => arange x1 (x2 + s)%Q s | None => Ok xt end) (fun xt =>
  bind (match ystep with Some s => arange y1 (y2 + s)%Q s | None => Ok yt end) (fun yt =>
  Ok (mkAx (x_log a) (y_log a) (rescaled a) (grid_lines a) (map_lines a) (x_label a) (y_label a) (title a) (Some xt) (Some yt) (coast a) (picture a) (colour_bar a)))).
Record options := mkO { logx : bool; logy : bool; grid : bool; xlabel : option str; ylabel : option str; user_title : option str; xmin : option Q; xmax : option Q; xstep : option Q; ymin : option Q; ymax : option Q; ystep : option Q;
                        bluemarble : bool; output : option str }.
Inductive event := Shown | Saved (name : str).
(** apply_axis_limits (C87) on the other plots, whose axes show these ranges: ticks are set only where there is a step *)
Variable view_x view_y : view.
Definition or_ticks (new old : option (list Q)) : option (list Q) := match new with Some t => Some t | None => old end.
Definition limits (o : options) (a : axes) : res axes :=
  bind (apply_axis_limits (xmin o) (xmax o) (xstep o) view_x) (fun x => bind (apply_axis_limits (ymin o) (ymax o) (ystep o) view_y) (fun y =>
  Ok (mkAx (x_log a) (y_log a) (rescaled a) (grid_lines a) (map_lines a) (x_label a) (y_label a) (title a) (or_ticks (snd x) (x_ticks a)) (or_ticks (snd y) (y_ticks a)) (coast a) (picture a) (colour_bar a)))).
(** Plotter.__init__, 188-205, and output_to_file_or_screen, 207-220, for a plot that is not a list *)
Definition finish (p : plot) (o : options) (a : axes) : res (axes * list event) :=
  let a := draw p a in
  let a := log_scales p (logx o) (logy o) a in
  let a := format (grid o) (xlabel o) (ylabel o) (user_title o) a in
  bind (if map_plot p then
          bind (if rectangular then map_ticks (xmin o) (xmax o) (ymin o) (ymax o) (xstep o) (ystep o) a else Ok a) (fun a =>
          Ok (if bluemarble o then
                let e := if rectangular then extent_after (map_limits extent_before (xmin o) (xmax o) (ymin o) (ymax o)) else extent_before in
                mkAx (x_log a) (y_log a) (rescaled a) (grid_lines a) (map_lines a) (x_label a) (y_label a) (title a) (x_ticks a) (y_ticks a) (coast a) (Some (resolution_of picture_scales e)) (colour_bar a)
              else a))
        else match p_kind p with Taylor => Ok a | _ => limits o a end) (fun a =>
  Ok (a, [match output o with Some f => Saved f | None => Shown end])).
End Drawing.
