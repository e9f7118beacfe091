(** Size, limits, ticks, labels and levels of a plot: cis/plotting/formatted_plot.py, cis/plotting/genericplot.py, cis/plotting/contourplot.py, cis/plotting/plot.py. *)
From Coq Require Import String.
From Verif Require Import Base PyStr QBase DateModel DistModel FileListModel AeroModel AggModel.
From Coq Require Import List.
Import ListNotations.
Open Scope string_scope. Open Scope list_scope. Open Scope nat_scope. Notation length := List.length.

(** Plotter.set_width_and_height, formatted_plot.py:219-238: width and height of the figure *)
Definition figure_size (width height : option Q) : Q * Q :=
  match height, width with
  | Some h, Some w => (w, h)
  | Some h, None => (h * (4 / 3), h)
  | None, Some w => (w, w * (3 / 4))
  | None, None => (8, 6)
  end%Q.

(** *** limits and ticks, formatted_plot.py:85-106 *)
(** matplotlib (contract).  The limits of an axis: its left (bottom) and right (top) end; the left end is the greater one on a reversed axis.  set_xlim: a limit that is None stays.
    set_xticks: if there is more than one tick the limits are widened so that all are on the axis. *)
Definition view : Type := (Q * Q)%type.
Definition or_old (o : option Q) (x : Q) : Q := match o with Some y => y | None => x end.
Definition set_lim (lo hi : option Q) (v : view) : view := (or_old lo (fst v), or_old hi (snd v)).
Definition qmin (a b : Q) : Q := if Qleb a b then a else b.
Definition qmax (a b : Q) : Q := if Qleb a b then b else a.
Definition widen (v : view) (ticks : list Q) : view :=
  match ticks with
  | t :: (_ :: _) as r => let a := fold_left qmin r t in let b := fold_left qmax r t in
      if Qltb (fst v) (snd v) then (qmin (fst v) a, qmax (snd v) b) else (qmax (fst v) b, qmin (snd v) a)
  | _ => v
  end.
(** the limits, and the ticks that were set *)
Definition apply_axis_limits (lo hi step : option Q) (v : view) : res (view * option (list Q)) :=
  let v := set_lim lo hi v in
  match step with
  | None => Ok (v, None)
  | Some s => bind (arange (fst v) (snd v + s)%Q s) (fun ticks => Ok (widen v ticks, Some ticks))
  end.
(** plot.py:392-394 (basic_plot): the y axis is turned round if it shows pressures; then formatted_plot.py:197-198 *)
Definition y_axis (pressure : bool) (bottom top : Q) (lo hi step : option Q) : res (view * option (list Q)) :=
  apply_axis_limits lo hi step (if pressure then (top, bottom) else (bottom, top)).

(** *** maps *)
(** find_longitude_wrap_start (utils.py:234-248), for the longitudes of a data object (not empty), None if it has none *)
Definition wrap_start (lons : option (list Q)) : option Q :=
  match lons with Some (x :: l) => Some (if Qltb (fold_left qmin l x) 0 then (-180)%Q else 0%Q) | _ => None end.
(** get_x_wrap_start, formatted_plot.py:109-134 *)
Definition x_wrap_start (data : list (option (list Q))) (user_xmin : option Q) : option Q :=
  match user_xmin with
  | Some x => Some (if Qltb x 0 then (-180)%Q else 0%Q)
  | None => match flat_map (fun d => match wrap_start d with Some s => [s] | None => [] end) data with [] => None | s :: r => Some (fold_left qmin r s) end
  end.
(** 170-172; 0 is the default of basic_plot *)
Definition central_longitude (given : option Q) (data : list (option (list Q))) (user_xmin : option Q) : Q :=
  match given with Some c => c | None => match x_wrap_start data user_xmin with Some s => (s - 180)%Q | None => 0%Q end end.
(** apply_map_axis_limits, 44-68: the limits passed to set_extent, in the coordinates of PlateCarree(360); None: set_global.  [extent]: the limits (x1, x2, y1, y2) of the map, in its own coordinates. *)
Definition map_limits (extent : Q * Q * Q * Q) (xmin xmax ymin ymax : option Q) : option (Q * Q * Q * Q) :=
  let '(x1, x2, y1, y2) := extent in
  match xmin, xmax, ymin, ymax with
  | None, None, None, None => if Qltb ((90 - -90) * (8 / 10)) (y2 - y1) || Qltb ((180 - -180) * (8 / 10)) (x2 - x1) then None else Some (x1, x2, y1, y2)
  | _, _, _, _ => Some (or_old xmin x1, or_old xmax x2, or_old ymin y1, or_old ymax y2)
  end%Q.
(** drawcoastlines and drawbluemarble, plot.py:173-220, for a plot of that many km *)
Definition resolution (scales : list (Q * str)) (ext : Q) : str :=
  match scales with [] => [] | (_, r) :: rest => fold_left (fun res sr => if Qltb ext (fst sr) then snd sr else res) rest r end.
Definition coastline_scales : list (Q * str) := [(0, lit "110m"); (500, lit "50m"); (100, lit "10m")]%Q.
Definition bluemarble_scales : list (Q * str) := [(0, lit "raster/world.topo.bathy.200407.3x1350x675.png"); (5000, lit "raster/world.topo.bathy.200407.3x2700x1350.png"); (2500, lit "raster/world.topo.bathy.200407.3x5400x2700.png")]%Q.

(** *** times on the x axis *)
(** genericplot.py:89-93 (lines, scatter plots): units.convert from days since 1600 to days since 1970 (contract) *)
Definition epoch : datetime := mkDT 1970 1 1 0 0 0.
Definition generic_x (std : option str) (points : list Q) : list Q :=
  match std with Some s => if str_eqb s (lit "time") then map (fun p => p - inject_Z (toordinal epoch - toordinal std_ref))%Q points else points | None => points end.
(** genericplot.py:198-208 (heat maps, contours, scatter plots of two coordinates): the points *)
Definition flat_x (std : option str) (points : list Q) : list Q := points.
(** set_x_axis_as_time, plot.py:117-142; what the label of a tick says *)
Inductive tick_label := Clock (h m : Z) | ClockS (h m s : Z) | Day (y m d : Z) | Moment (t : datetime).
Definition format_datetime (day_range : Q) (t : datetime) : tick_label :=
  if Qltb day_range 1 && (second t =? 0)%Z then Clock (hour t) (minute t)
  else if Qltb day_range 1 then ClockS (hour t) (minute t) (second t)
  else if Qltb 5 day_range then Day (year t) (month t) (day t)
  else Moment t.

(** *** labels: format_units and get_label, plot.py:37-63.  Units are texts; iris's units are never false, and are not modelled. *)
Definition format_units (units : str) : str := if contains (lit "since") units then [] else match units with [] => [] | _ => lit "(" ++ units ++ lit ")" end.
Definition get_label (name : option str) (units : str) (with_units : bool) : str :=
  let name := match name with Some n => n | None => [] end in
  if with_units then (match name with [] => [] | _ => name ++ lit " " end) ++ format_units units else name.

(** *** contours: contourplot.py:9-36 and genericplot.py:109-146.  The keyword arguments: those a function names are not in its **kwargs *)
Inductive opt := Num (q : Q) | Nums (l : list Q) | Other.
Definition kwdict : Type := list (str * opt).
Definition without_names (names : list str) (kw : kwdict) : kwdict := filter (fun kv => negb (existsb (str_eqb (fst kv)) names)) kw.
Definition num (o : option opt) : option Q := match o with Some (Num q) => Some q | _ => None end.
Inductive levels := Levels (l : list Q) | Number (n : Q).
Definition contour_names : list str := [lit "contnlevels"; lit "vstep"; lit "contlevels"; lit "contlabel"; lit "contwidth"; lit "cont_label_kwargs"].
(** what Generic2DPlot.__init__ keeps as self.vstep *)
Definition generic_vstep (kw : kwdict) : option Q := num (dict_get kw (lit "vstep")).
Definition contour_levels (kw : kwdict) (data_min data_max : Q) : levels :=
  let rest := without_names contour_names kw in
  match dict_get kw (lit "contlevels") with
  | Some (Nums (x :: l)) => Levels (x :: l)
  | _ => match generic_vstep rest with
         | Some s => if Qeqb s 0 then Number (or_old (num (dict_get kw (lit "contnlevels"))) 7)
                     else Number ((or_old (num (dict_get rest (lit "vmax"))) data_max - or_old (num (dict_get rest (lit "vmin"))) data_min) / or_old (num (dict_get kw (lit "vstep"))) 1)
         | None => Number (or_old (num (dict_get kw (lit "contnlevels"))) 7)
         end
  end%Q.
(** add_color_bar is given self.vstep: the distance of the ticks of the colour bar, of a contour plot and of another plot *)
Definition contour_bar_step (kw : kwdict) : option Q := generic_vstep (without_names contour_names kw).
Definition other_bar_step (kw : kwdict) : option Q := generic_vstep kw.
