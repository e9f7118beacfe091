(** C98: what a finished plot shows. *)
From Coq Require Import String.
From Verif Require Import Base PyStr QBase FmtModel HavSpec LkModel LkSpec LkProofs.
From Coq Require Import List Reals Lra.
Import ListNotations.
Open Scope string_scope. Open Scope list_scope. Open Scope nat_scope.

(** a plot of two coordinates is a map if the one begins with lon and the other with lat *)
Theorem C98_map_partial p : map_plot p = true <-> looks_like_a_map p.
Proof. exact (map_iff p). Qed.
Print Assumptions C98_map_partial.
Section Props.
Variable locate : nat -> list nat -> Q -> Q -> list Q.
Variable rectangular : bool.
Variable before : Q * Q * Q * Q.
Variable after : option (Q * Q * Q * Q) -> Q * Q * Q * Q.
Variable natural_earth : bool.
Variable view_x view_y : view.
Notation finish := (finish locate rectangular before after natural_earth view_x view_y).
(** scales are logarithmic where that was asked for *)
Theorem C98_scales_partial p o a ev : finish p o blank = Ok (a, ev) -> ~ looks_like_a_map p -> p_kind p <> Taylor -> x_log a = logx o /\ y_log a = logy o /\ (rescaled a = true <-> (logx o = true \/ logy o = true) /\ p_kind p <> Flat).
Proof. intros H M. apply (scales locate rectangular before after natural_earth view_x view_y p o a ev H). destruct (map_plot p) eqn:E; [exfalso; apply M, map_iff, E|reflexivity]. Qed.
(** but never on maps and Taylor diagrams *)
Theorem C98_scales_never p o a ev : finish p o blank = Ok (a, ev) -> looks_like_a_map p \/ p_kind p = Taylor -> x_log a = false /\ y_log a = false.
Proof. intros H [M|M]; apply (scales_lost locate rectangular before after natural_earth view_x view_y p o a ev H); [left; apply map_iff; exact M|right; exact M]. Qed.
Theorem C98_grid p o a ev : finish p o blank = Ok (a, ev) -> grid_lines a = grid o.
Proof. exact (grid_iff locate rectangular before after natural_earth view_x view_y p o a ev). Qed.
(** labels and titles of the user replace those of the plot *)
Theorem C98_labels p o a ev : finish p o blank = Ok (a, ev) -> p_kind p <> Taylor -> users (xlabel o) (Some (p_xlabel p)) (x_label a) /\ users (ylabel o) (Some (p_ylabel p)) (y_label a).
Proof. exact (labels locate rectangular before after natural_earth view_x view_y p o a ev). Qed.
Theorem C98_title p o a ev : finish p o blank = Ok (a, ev) -> users (user_title o) (match p_kind p with Flat => if p_bar p then None else p_label p | _ => None end) (title a).
Proof. exact (titles locate rectangular before after natural_earth view_x view_y p o a ev). Qed.
(** colour bars *)
Theorem C98_bar p o a ev : finish p o blank = Ok (a, ev) -> ((exists b, colour_bar a = Some b) <-> (p_kind p = Flat \/ p_kind p = Histogram2) /\ p_bar p = true).
Proof. exact (bar_iff locate rectangular before after natural_earth view_x view_y p o a ev). Qed.
Theorem C98_bar_options p o a ev b : finish p o blank = Ok (a, ev) -> colour_bar a = Some b -> b_step b = p_vstep p /\ b_log b = p_logv p /\ b_scale b = p_scale p.
Proof. exact (bar_details locate rectangular before after natural_earth view_x view_y p o a ev b). Qed.
Theorem C98_bar_label p o a ev b : finish p o blank = Ok (a, ev) -> colour_bar a = Some b -> label_of (p_barlabel p) (match p_kind p with Flat => p_label p | _ => Some (lit "Frequency") end) (b_label b).
Proof. exact (bar_label locate rectangular before after natural_earth view_x view_y p o a ev b). Qed.
(** without an orientation given: horizontal below a wide map, otherwise vertical *)
Theorem C98_bar_orientation p o a ev b : finish p o blank = Ok (a, ev) -> colour_bar a = Some b ->
  match p_orient p with
  | Some w => b_orient b = Some w
  | None => (p_kind p = Flat -> (looks_like_a_map p /\ p_wide p = true -> b_orient b = Some (lit "horizontal")) /\ (~ (looks_like_a_map p /\ p_wide p = true) -> b_orient b = Some (lit "vertical"))) /\ (p_kind p = Histogram2 -> b_orient b = None)
  end.
Proof. exact (bar_orient locate rectangular before after natural_earth view_x view_y p o a ev b). Qed.
(** coast lines on maps only, the finer the shorter the way from corner to corner; the same for the picture *)
Theorem C98_coast_partial p o a ev : finish p o blank = Ok (a, ev) -> match coast a with
  | Some (r, c) => looks_like_a_map p /\ p_coast p = true /\ natural_earth = true /\ c = p_colour p /\ coast_for (across before) r
  | None => ~ (looks_like_a_map p /\ p_coast p = true /\ natural_earth = true) end.
Proof. exact (coasts locate rectangular before after natural_earth view_x view_y p o a ev). Qed.
Theorem C98_picture_partial p o a ev : finish p o blank = Ok (a, ev) -> match picture a with
  | Some r => looks_like_a_map p /\ bluemarble o = true /\ picture_for (across (if rectangular then after (map_limits before (xmin o) (xmax o) (ymin o) (ymax o)) else before)) r
  | None => ~ (looks_like_a_map p /\ bluemarble o = true) end.
Proof. exact (pictures locate rectangular before after natural_earth view_x view_y p o a ev). Qed.
(** ticks of maps on the globe, or as asked *)
Theorem C98_ticks_partial p o a ev : rectangular = true -> looks_like_a_map p -> finish p o blank = Ok (a, ev) ->
  let e := after (map_limits before (xmin o) (xmax o) (ymin o) (ymax o)) in let '(x1, x2, y1, y2) := e in
  (x1 < x2)%Q -> (y1 < y2)%Q -> (forall s, xstep o = Some s -> (0 < s)%Q) -> (forall s, ystep o = Some s -> (0 < s)%Q) ->
  exists xt yt xd yd, x_ticks a = Some xt /\ y_ticks a = Some yt /\ default_ticks locate e xd yd /\ ticks_of_axis (xstep o) x1 x2 xd xt /\ ticks_of_axis (ystep o) y1 y2 yd yt.
Proof. exact (ticks locate rectangular before after natural_earth view_x view_y p o a ev). Qed.
(** saved under its name, or shown *)
Theorem C98_output p o a ev : finish p o blank = Ok (a, ev) -> (forall f, output o = Some f -> ev = [Saved f]) /\ (output o = None -> ev = [Shown]).
Proof. exact (outputs locate rectangular before after natural_earth view_x view_y p o a ev). Qed.
Theorem C98_complete p o : (forall s, xstep o = Some s \/ ystep o = Some s -> ~ (s == 0)%Q) -> exists a ev, finish p o blank = Ok (a, ev).
Proof. exact (completes locate rectangular before after natural_earth view_x view_y p o). Qed.
End Props.
Print Assumptions C98_scales_partial.
Print Assumptions C98_scales_never.
Print Assumptions C98_grid.
Print Assumptions C98_labels.
Print Assumptions C98_title.
Print Assumptions C98_bar.
Print Assumptions C98_bar_options.
Print Assumptions C98_bar_label.
Print Assumptions C98_bar_orientation.
Print Assumptions C98_coast_partial.
Print Assumptions C98_picture_partial.
Print Assumptions C98_ticks_partial.
Print Assumptions C98_output.
Print Assumptions C98_complete.
(** on other projections limits and steps are ignored *)
Theorem C98_projection_refuted locate before after ne vx vy p o a ev : looks_like_a_map p -> finish locate false before after ne vx vy p o blank = Ok (a, ev) -> x_ticks a = None /\ y_ticks a = None /\ map_lines a = true.
Proof. exact (not_rectangular locate before after ne vx vy p o a ev). Qed.
Print Assumptions C98_projection_refuted.
Theorem C98_projection_limits_refuted locate before after ne vx vy p o o' a ev : looks_like_a_map p -> logx o = logx o' -> logy o = logy o' -> grid o = grid o' -> xlabel o = xlabel o' -> ylabel o = ylabel o' -> user_title o = user_title o' -> bluemarble o = bluemarble o' -> output o = output o' ->
  finish locate false before after ne vx vy p o blank = Ok (a, ev) -> finish locate false before after ne vx vy p o' blank = Ok (a, ev).
Proof. exact (limits_ignored locate before after ne vx vy p o o' a ev). Qed.
Print Assumptions C98_projection_limits_refuted.
(** a map all round the Earth is taken to be as small as its height *)
Theorem C98_extent_refuted x0 y0 y1 : (0 <= y1 - y0)%Q -> (y1 - y0 <= 180)%Q -> across (x0, x0 + 360, y0, y1)%Q = (Q2R (y1 - y0) * PI / 180 * 6378)%R.
Proof. exact (whole_circle x0 y0 y1). Qed.
Print Assumptions C98_extent_refuted.

Definition ex_plot (k : kind) (x y : String.string) : plot := mkPlot k (lit x) (lit y) (lit x) (lit y) true (Some (lit "rain")) true None false None None None true (lit "k").
Definition ex_options : options := mkO true false true None (Some (lit "mine")) None None None (Some 30%Q) None None None true (Some (lit "f.png")).
Definition ex_locate (n : nat) (l : list nat) (a b : Q) : list Q := [a; b].
Definition ex_finish := finish ex_locate true (-180, 180, -1, 1)%Q (fun _ => (-180, 180, -1, 1)%Q) true (0, 1)%Q (0, 1)%Q.
(** a band round the equator, 40000 km long, is drawn with the coast lines for plots of less than 500 km *)
Theorem C98_band_refuted : coast_for (across (-180, 180, -1, 1)%Q) (lit "50m").
Proof.
  right. left. split; [|reflexivity]. assert (E : across (-180, 180, -1, 1)%Q = (Q2R (1 - -1) * PI / 180 * 6378)%R).
  { rewrite <- (whole_circle (-180) (-1) 1) by (vm_compute; discriminate). reflexivity. }
  rewrite E. assert (T : Q2R (1 - -1)%Q = 2%R) by (unfold Q2R; change (Qnum (1 - -1)%Q) with 2%Z; change (Qden (1 - -1)%Q) with 1%positive; Lra.lra). rewrite T. pose proof PI_4. pose proof PI2_3_2. unfold Rdiv. assert (PI > 3)%R by (pose proof PI2_3_2; Lra.lra). split; Lra.lra.
Qed.
Print Assumptions C98_band_refuted.
(** fluxes are no coordinates, but they make a map *)
Theorem C98_map_refuted : exists p, p_xname p = lit "longwave_flux" /\ p_yname p = lit "latent_heat_flux" /\ map_plot p = true /\ exists a ev, ex_finish p ex_options blank = Ok (a, ev) /\ x_log a = false /\ logx ex_options = true.
Proof. exists (ex_plot Flat "longwave_flux" "latent_heat_flux"). split; [reflexivity|]. split; [reflexivity|]. split; [reflexivity|]. eexists _, _. split; [reflexivity|]. split; reflexivity. Qed.
Print Assumptions C98_map_refuted.

Example C98_coordinates : forall x y, In x longitude_names -> In y latitude_names -> is_map Flat x y = true.
Proof. intros x y X Y. cbn in X, Y. repeat (destruct X as [<-|X]; [repeat (destruct Y as [<-|Y]; [reflexivity|]); destruct Y|]). destruct X. Qed.
Example C98_of_map : exists a, ex_finish (ex_plot Flat "longitude" "Latitude") ex_options blank = Ok (a, [Saved (lit "f.png")]) /\ y_label a = Some (lit "mine") /\ x_label a = Some (lit "longitude") /\ option_map (@length Q) (x_ticks a) = Some 13 /\
  y_ticks a = Some [-1; 1]%Q /\ option_map b_orient (colour_bar a) = Some (Some (lit "horizontal")).
Proof. eexists. split; [reflexivity|]. repeat split. Qed.
Example C98_of_line : exists a, ex_finish (ex_plot Line "time" "rain") ex_options blank = Ok (a, [Saved (lit "f.png")]) /\ x_log a = true /\ y_log a = false /\ rescaled a = true /\ picture a = None.
Proof. eexists. split; [reflexivity|]. repeat split. Qed.
