(** The axes of a plot and what is drawn against them: cis/plotting/plot.py:66-114 and 311-397, cis/utils.py:717-724, the default plot types of cis/data_io/gridded_data.py:399-405 and cis/data_io/ungridded_data.py:833-837. *)
From Coq Require Import String Ascii.
From Verif Require Import Base PyStr.

(** a coordinate: name(), standard_name, axis (guess_coord_axis for iris's), the shape of its points *)
Record acoord := mkA { a_name : str; a_std : option str; a_axis : option ascii; a_shape : list nat }.
Inductive akind := Gridded | Ungridded.
(** a data object: its shape and coordinates in the order of coords() *)
Record adata := mkData { d_kind : akind; d_shape : list nat; d_coords : list acoord }.

(** the keywords of data.coord(...) that are used: name_or_coord, standard_name (both perhaps None) or axis *)
Inductive query := ByName (n : option str) | ByStd (n : option str) | ByAxis (a : ascii).
Definition opt_is {A} (eqb : A -> A -> bool) (o : option A) (a : A) : bool := match o with Some x => eqb x a | None => false end.
Definition matches (q : query) (c : acoord) : bool :=
  match q with
  | ByName (Some n) => str_eqb (a_name c) n
  | ByStd (Some n) => opt_is str_eqb (a_std c) n
  | ByAxis a => opt_is Ascii.eqb (a_axis c) a
  | _ => true
  end.
(** Coord.py:226-231 and iris's Cube.coord: exactly one, else CoordinateNotFoundError *)
Definition the_one (l : list acoord) : res acoord := match l with [c] => Ok c | _ => Raises CoordinateNotFoundError end.
(** data.coord called with the keyword of q.  CoordList.get_coord (Coord.py:225-242) looks again by standard_name=name_or_coord if nothing is found. *)
Definition coord (d : adata) (q : query) : res acoord :=
  let l := filter (matches q) (d_coords d) in
  match d_kind d, l with
  | Ungridded, [] => the_one (filter (matches (ByStd (match q with ByName n => n | _ => None end))) (d_coords d))
  | _, _ => the_one l
  end.
(** len(coord.points) *)
Definition points (c : acoord) : nat := hd 0 (a_shape c).
(** 66-85 *)
Definition try_coord (d : adata) (q : query) : option acoord := match coord d q with Ok c => if 1 <? points c then Some c else None | Raises _ => None end.
Definition or_else {A} (a b : option A) : option A := match a with Some _ => a | None => b end.
(** tuple[k] *)
Definition item (l : list nat) (k : nat) : res nat := match nth_error l k with Some n => Ok n | None => Raises IndexError end.
(** 99-108: the loop over the coordinates *)
Fixpoint first_fitting (d : adata) (axis : ascii) (cs : list acoord) : res (option acoord) :=
  match cs with
  | [] => Ok None
  | c :: cs =>
      if Ascii.eqb axis "X" || (length (d_shape d) =? 1) then
        bind (item (a_shape c) 0) (fun n => bind (item (d_shape d) 0) (fun m => if n =? m then Ok (Some c) else first_fitting d axis cs))
      else if Ascii.eqb axis "Y" && (1 <? length (d_shape d)) then
        bind (item (a_shape c) 1) (fun n => bind (item (d_shape d) 1) (fun m => if n =? m then Ok (Some c) else first_fitting d axis cs))
      else first_fitting d axis cs
  end.
(** 88-114; an axis may be given by name.  (A Coord object given as axis is looked up like a name and not modelled.)  No coordinate: None.name() is an AttributeError. *)
Definition get_axis (d : adata) (axis : ascii) (name : option str) : res acoord :=
  bind (match or_else (try_coord d (ByName name)) (or_else (try_coord d (ByStd name)) (try_coord d (ByAxis axis))) with
        | Some c => Ok (Some c)
        | None => first_fitting d axis (d_coords d)
        end) (fun c => match c with Some c => Ok c | None => Raises AttributeError end).

(** iris.util.squeeze: the dimensions of length one are taken out; a coordinate along none of the others becomes scalar, with one point *)
Definition no_ones (l : list nat) : list nat := filter (fun n => negb (n =? 1)) l.
Definition squeeze_coord (c : acoord) : acoord := mkA (a_name c) (a_std c) (a_axis c) (match no_ones (a_shape c) with [] => [1] | l => l end).
Definition squeeze (d : adata) : adata := match d_kind d with Gridded => mkData Gridded (no_ones (d_shape d)) (map squeeze_coord (d_coords d)) | Ungridded => d end.

Inductive ptype := Contour | Contourf | HeatmapP | Line | Scatter | Scatter2D | ComparativeScatter | HistogramP | Histogram2D | TaylorP.
Definition plot_types : list (string * ptype) :=
  [("contour", Contour); ("contourf", Contourf); ("heatmap", HeatmapP); ("line", Line); ("scatter", Scatter); ("scatter2d", Scatter2D); ("comparativescatter", ComparativeScatter); ("histogram", HistogramP); ("histogram2d", Histogram2D); ("taylor", TaylorP)]%string.
Definition plot_type (s : str) : option ptype := option_map snd (find (fun p => str_eqb (lit (fst p)) s) plot_types).
(** subclasses of GenericPlot *)
Definition against_one (t : ptype) : bool := match t with Line | Scatter | HistogramP => true | _ => false end.
Definition default_type (d : adata) (lat_lon : bool) : res ptype :=
  match d_kind d with
  | Gridded => match length (d_shape d) with 1 => Ok Line | 2 => Ok HeatmapP | _ => Raises ValueError end
  | Ungridded => Ok (if lat_lon then Scatter2D else Line)
  end.
(** what is drawn: the data themselves or a coordinate *)
Inductive drawn := Values | Coordinate (c : acoord).
(** the x axis: a coordinate, or the values of another data object *)
Inductive xaxis := XCoord (c : acoord) | XData (std : option str).
Definition x_std (x : xaxis) : option str := match x with XCoord c => a_std c | XData s => s end.
Record shown := mkShown { s_type : ptype; s_x : xaxis; s_y : acoord; s_drawn : drawn; s_dates : bool; s_flip : bool }.
(** the xaxis argument: another data object, known by its standard name, or perhaps a name *)
Inductive xarg := OtherData (std : option str) | Named (n : option str).
Definition is_std (s : option str) (n : string) : bool := opt_is str_eqb s (lit n).
(** 341-397: the plot type, axes and data chosen, whether dates are shown on the x axis and whether the y axis is turned upside down.  The drawing itself is not part of this function. *)
Definition basic_plot (d0 : adata) (how : option str) (x : xarg) (y : option str) : res shown :=
  let d := squeeze d0 in
  bind (match x with
        | OtherData s => match how with
                         | None => Ok (Some (lit "comparativescatter"), XData s)
                         | Some h => if str_eqb h (lit "comparativescatter") || str_eqb h (lit "histogram2d") then Ok (how, XData s) else Raises ValueError
                         end
        | Named n => bind (get_axis d "X" n) (fun c => Ok (how, XCoord c))
        end) (fun hx => let '(how, xa) := hx in
  bind (get_axis d "Y" y) (fun ya =>
  bind (match how with
        | Some ((_ :: _) as h) => match plot_type h with Some t => Ok t | None => Raises ValueError end
        | _ => default_type d (is_std (x_std xa) "longitude" && is_std (a_std ya) "latitude")
        end) (fun t =>
  let dr := if against_one t && (match y with Some _ => true | None => false end) then Coordinate ya else Values in
  let dates := is_std (x_std xa) "time" && negb (match t with ComparativeScatter | Histogram2D | HistogramP => true | _ => false end) in
  Ok (mkShown t xa ya dr dates (is_std (a_std ya) "air_pressure"))))).
(** 394: ax.invert_yaxis() turns the axis over, whichever way it is: the axis after some layers *)
Definition upside_down (layers : list shown) : bool := fold_left (fun up s => if s_flip s then negb up else up) layers false.
