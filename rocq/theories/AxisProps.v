(** C79: the axes of a plot and what is drawn. *)
From Coq Require Import String Ascii.
From Verif Require Import Base PyStr AxisModel AxisSpec AxisProofs.

(** A coordinate asked for by its name is the axis, if no other has the name and it has more than one point. *)
Theorem C79_named_partial : forall d a n c, only_one (named n) (d_coords d) c -> several c -> get_axis d a (Some n) = Ok c.
Proof. exact named_ok. Qed.
Print Assumptions C79_named_partial.

(** If none is asked for, the axis is the coordinate that lies along it. *)
Theorem C79_guess_partial : forall d a c, 2 <= length (d_coords d) -> only_one (of_axis a) (d_coords d) c -> several c -> get_axis d a None = Ok c.
Proof. exact guess_ok. Qed.
Print Assumptions C79_guess_partial.

(** If there is none, it is the first coordinate as long as the data (X, or data of one dimension); without such a coordinate the plot fails. *)
Theorem C79_fallback_partial : forall d a n r, 2 <= length (d_coords d) -> (forall c, only_one (of_axis a) (d_coords d) c -> ~ several c) -> d_shape d = n :: r -> a = "X"%char \/ r = [] -> Forall (fun c => a_shape c <> []) (d_coords d) ->
  (forall c, first_along (d_coords d) n c -> get_axis d a None = Ok c) /\ (Forall (fun c => hd_error (a_shape c) <> Some n) (d_coords d) -> get_axis d a None = Raises AttributeError).
Proof. exact fallback. Qed.
Print Assumptions C79_fallback_partial.

(** Whatever is chosen is a coordinate of the data. *)
Theorem C79_own_coordinate : forall d a name c, get_axis d a name = Ok c -> In c (d_coords d).
Proof. exact axis_in. Qed.
Print Assumptions C79_own_coordinate.

(** The type asked for, else the usual one; lines, scatter plots and histograms show the y axis asked for, everything else the data; dates on a time axis; pressure downwards. *)
Theorem C79_chosen : forall d how x y s, basic_plot d how (Named x) y = Ok s -> exists cx, s_x s = XCoord cx /\ get_axis (squeeze d) "X" x = Ok cx /\ get_axis (squeeze d) "Y" y = Ok (s_y s) /\
  (how = None -> usual_type (squeeze d) cx (s_y s) (s_type s)) /\ (forall h, h <> ""%string -> how = Some (lit h) -> type_named h (s_type s)) /\
  (one_dimensional (s_type s) -> y <> None -> s_drawn s = Coordinate (s_y s)) /\ (~ one_dimensional (s_type s) \/ y = None -> s_drawn s = Values) /\
  (s_dates s = true <-> std_is cx "time" /\ ~ In (s_type s) [ComparativeScatter; HistogramP; Histogram2D]) /\ (s_flip s = true <-> std_is (s_y s) "air_pressure").
Proof. exact chosen. Qed.
Print Assumptions C79_chosen.
Theorem C79_bad_type : forall d x y cx cy h, get_axis (squeeze d) "X" x = Ok cx -> get_axis (squeeze d) "Y" y = Ok cy -> h <> ""%string -> (forall t, ~ type_named h t) -> basic_plot d (Some (lit h)) (Named x) y = Raises ValueError.
Proof. exact bad_type. Qed.
Print Assumptions C79_bad_type.

(** Against another data object only the comparative plots are drawn. *)
Theorem C79_compared : forall d how std y s, basic_plot d how (OtherData std) y = Ok s -> s_x s = XData std /\ s_drawn s = Values /\ s_dates s = false /\
  ((how = None /\ s_type s = ComparativeScatter) \/ (how = Some (lit "comparativescatter") /\ s_type s = ComparativeScatter) \/ (how = Some (lit "histogram2d") /\ s_type s = Histogram2D)).
Proof. exact compared. Qed.
Print Assumptions C79_compared.

(** Dimensions of length one do not matter: data without any are left as they are. *)
Theorem C79_squeeze : forall d, squeezed d -> squeeze d = d.
Proof. exact squeeze_id. Qed.
Print Assumptions C79_squeeze.

(** Refuted: an axis that the data do not have is reported.  A name no coordinate has is ignored, and another coordinate is taken. *)
Theorem C79_unknown_refuted : forall d a n c, 2 <= length (d_coords d) -> Forall (unknown n) (d_coords d) -> only_one (of_axis a) (d_coords d) c -> several c -> get_axis d a (Some n) = Ok c.
Proof. exact unknown_guess. Qed.
Print Assumptions C79_unknown_refuted.

(** Refuted: so is the name of a coordinate with one point. *)
Theorem C79_single_refuted : forall d a n c0 c, 2 <= length (d_coords d) -> Forall well_named (d_coords d) -> only_one (named n) (d_coords d) c0 -> ~ several c0 -> only_one (of_axis a) (d_coords d) c -> several c -> get_axis d a (Some n) = Ok c.
Proof. exact single_guess. Qed.
Print Assumptions C79_single_refuted.

(** Refuted: an axis is found for every data object.  Data of two or more dimensions whose coordinates have one (such as time and height) and none of which is a y axis make the plot fail with IndexError. *)
Theorem C79_curtain_refuted : forall d, 2 <= length (d_coords d) -> (forall c, only_one (of_axis "Y"%char) (d_coords d) c -> ~ several c) -> 1 < length (d_shape d) -> Forall (fun c => length (a_shape c) = 1) (d_coords d) -> get_axis d "Y" None = Raises IndexError.
Proof. exact y_index_error. Qed.
Print Assumptions C79_curtain_refuted.

(** Refuted: the y axis is turned upside down if it shows pressures.  A profile on pressure levels is drawn with the pressures on the x axis, and its values upside down. *)
Theorem C79_profile_refuted : forall n ax, 1 < n -> exists s, basic_plot (mkData Gridded [n] [mkA (lit "air_pressure") (Some (lit "air_pressure")) ax [n]]) None (Named None) None = Ok s /\
  s_x s = XCoord (mkA (lit "air_pressure") (Some (lit "air_pressure")) ax [n]) /\ s_drawn s = Values /\ s_type s = Line /\ s_flip s = true.
Proof. intros n ax N. eexists. split; [exact (profile n ax N)|]. auto. Qed.
Print Assumptions C79_profile_refuted.

(** Refuted: pressures go downwards.  Every layer turns the axis over, so that with an even number of layers they go upwards. *)
Theorem C79_layers : forall layers, upside_down layers = Nat.odd (length (filter s_flip layers)).
Proof. exact upside_odd. Qed.
Print Assumptions C79_layers.
Theorem C79_layers_refuted : ~ forall layers, layers <> [] -> Forall (fun s => std_is (s_y s) "air_pressure" /\ s_flip s = true) layers -> upside_down layers = true.
Proof.
  intros H. pose (c := mkA (lit "air_pressure") (Some (lit "air_pressure")) None [2]). pose (s := mkShown HeatmapP (XCoord c) c Values false true).
  assert (E : upside_down [s; s] = true) by (apply H; [discriminate|repeat constructor]). discriminate E.
Qed.
Print Assumptions C79_layers_refuted.

Definition lat := mkA (lit "latitude") (Some (lit "latitude")) (Some "Y"%char) [3].
Definition lon := mkA (lit "longitude") (Some (lit "longitude")) (Some "X"%char) [4].
Definition time1 := mkA (lit "time") (Some (lit "time")) (Some "T"%char) [1].
Example C79_map : exists s, basic_plot (mkData Gridded [1; 3; 4] [time1; lat; lon]) None (Named None) None = Ok s /\ s_type s = HeatmapP /\ s_x s = XCoord lon /\ s_y s = lat /\ s_drawn s = Values.
Proof. eexists. split; [reflexivity|]. auto. Qed.
Example C79_typo : exists s, basic_plot (mkData Gridded [3; 4] [lat; lon]) None (Named (Some (lit "altitud"))) None = Ok s /\ s_x s = XCoord lon.
Proof. eexists. split; reflexivity. Qed.
Example C79_named_case : exists s, basic_plot (mkData Ungridded [3] [lat; mkA (lit "longitude") (Some (lit "longitude")) (Some "X"%char) [3]; mkA (lit "time") (Some (lit "time")) (Some "T"%char) [3]]) None (Named (Some (lit "time"))) (Some (lit "latitude")) = Ok s /\
  s_type s = Line /\ s_drawn s = Coordinate lat /\ s_dates s = true.
Proof. eexists. split; [reflexivity|]. auto. Qed.
Example C79_curtain : basic_plot (mkData Gridded [5; 6] [mkA (lit "time") (Some (lit "time")) (Some "T"%char) [5]; mkA (lit "altitude") (Some (lit "altitude")) (Some "Z"%char) [6]]) None (Named None) None = Raises IndexError.
Proof. reflexivity. Qed.
