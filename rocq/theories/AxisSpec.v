(** The axes a plot should have, C79. *)
From Coq Require Import String Ascii.
From Verif Require Import Base PyStr AxisModel.

(** the coordinate [c], and no other, is so *)
Definition only_one (P : acoord -> Prop) (cs : list acoord) (c : acoord) : Prop := exists k, nth_error cs k = Some c /\ P c /\ forall j c', nth_error cs j = Some c' -> P c' -> j = k.
Definition named (n : str) (c : acoord) : Prop := a_name c = n.
Definition of_axis (a : ascii) (c : acoord) : Prop := a_axis c = Some a.
(** neither the name nor the standard name of the coordinate *)
Definition unknown (n : str) (c : acoord) : Prop := a_name c <> n /\ a_std c <> Some n.
Definition several (c : acoord) : Prop := 1 < points c.
(** an axis "X" or "Y" *)
Definition x_or_y (a : ascii) : Prop := a = "X"%char \/ a = "Y"%char.
(** the first coordinate whose length is that of the data along their first dimension *)
Definition first_along (cs : list acoord) (n : nat) (c : acoord) : Prop := exists k, nth_error cs k = Some c /\ hd_error (a_shape c) = Some n /\ forall j c', j < k -> nth_error cs j = Some c' -> hd_error (a_shape c') <> Some n.
(** plots of one value against another: lines, scatter plots and histograms *)
Definition one_dimensional (t : ptype) : Prop := t = Line \/ t = Scatter \/ t = HistogramP.
Definition std_is (c : acoord) (n : string) : Prop := a_std c = Some (lit n).
(** the type the data object is drawn as if none is asked for *)
Definition usual_type (d : adata) (x y : acoord) (t : ptype) : Prop :=
  match d_kind d with
  | Gridded => (length (d_shape d) = 1 /\ t = Line) \/ (length (d_shape d) = 2 /\ t = HeatmapP)
  | Ungridded => (std_is x "longitude" /\ std_is y "latitude" /\ t = Scatter2D) \/ (~ (std_is x "longitude" /\ std_is y "latitude") /\ t = Line)
  end.
Definition type_named (s : string) (t : ptype) : Prop :=
  match t with
  | Contour => s = "contour" | Contourf => s = "contourf" | HeatmapP => s = "heatmap" | Line => s = "line" | Scatter => s = "scatter" | Scatter2D => s = "scatter2d"
  | ComparativeScatter => s = "comparativescatter" | HistogramP => s = "histogram" | Histogram2D => s = "histogram2d" | TaylorP => s = "taylor"
  end%string.
(** no dimension has length one *)
Definition squeezed (d : adata) : Prop := d_kind d = Gridded -> Forall (fun n => n <> 1) (d_shape d) /\ Forall (fun c => (a_shape c <> [] /\ Forall (fun n => n <> 1) (a_shape c)) \/ a_shape c = [1]) (d_coords d).
(** name() is the standard name if there is one *)
Definition well_named (c : acoord) : Prop := forall s, a_std c = Some s -> a_name c = s.
