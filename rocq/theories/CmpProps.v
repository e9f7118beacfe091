(** C88: comparative scatter plots, histograms, lines and scatter plots show every value where it belongs. *)
From Coq Require Import String.
From Verif Require Import Base PyStr QBase UtilModel CmpModel CmpSpec CmpProofs.
From Coq Require Import List Lia.
Import ListNotations.
Open Scope string_scope. Open Scope list_scope. Open Scope Q_scope. Notation length := List.length.

Definition track : nd := mkNd [4%nat] (Masked [1; 2; 4; 9] (Some [false; false; true; false])).
Definition other : nd := mkNd [4%nat] (Plain [5; 6; 7; 8]).
Example track_good : good track /\ good other.
Proof. repeat split. Qed.

(** A scatter plot has one point for each element: its x and its value; arrays of different sizes are refused. *)
Theorem C88_scatter x d : good x -> good d ->
  (length (an_data (n_arr x)) = length (an_data (n_arr d)) -> exists l, scatter_plot x d = Ok l /\ length l = length (an_data (n_arr d)) /\ forall i u v, nth_error l i = Some (u, v) <-> holds x i u /\ holds d i v) /\
  (length (an_data (n_arr x)) <> length (an_data (n_arr d)) -> scatter_plot x d = Raises ValueError).
Proof. exact (scatter_ok x d). Qed.
Print Assumptions C88_scatter.
(** So has a comparison of two variables. *)
Theorem C88_comparison_partial x d : good x -> good d ->
  (length (an_data (n_arr x)) = length (an_data (n_arr d)) -> exists l, comparative_scatter (XData x) d = Ok l /\ length l = length (an_data (n_arr d)) /\ forall i u v, nth_error l i = Some (u, v) <-> holds x i u /\ holds d i v) /\
  (length (an_data (n_arr x)) <> length (an_data (n_arr d)) -> comparative_scatter (XData x) d = Raises ValueError).
Proof. exact (scatter_ok x d). Qed.
Print Assumptions C88_comparison_partial.
Example C88_comparison_case : comparative_scatter (XData track) other = Ok [(Some 1, Some 5); (Some 2, Some 6); (None, Some 7); (Some 9, Some 8)].
Proof. reflexivity. Qed.
(** Two variables on the same grid, with the dimensions in the other order, are compared at different places: x at row 0, column 1 (of n by m) and y at row 0, column 1 (of m by n), which is the place of x at row 1, column 0. *)
Theorem C88_comparison_refuted x y n m : (2 <= n)%nat -> (2 <= m)%nat -> good x -> good y -> n_shape x = [n; m] -> n_shape y = [m; n] ->
  exists l u v, comparative_scatter (XData x) y = Ok l /\ nth_error l 1 = Some (u, v) /\ holds x (0 * m + 1) u /\ holds y (0 * n + 1) v.
Proof. exact (transposed x y n m). Qed.
Print Assumptions C88_comparison_refuted.
Definition grid : nd := mkNd [2; 3]%nat (Plain [11; 12; 13; 21; 22; 23]).
Definition same_grid : nd := mkNd [3; 2]%nat (Plain [11; 21; 12; 22; 13; 23]).
Example C88_comparison_refuted_case : good grid /\ good same_grid /\ exists l, comparative_scatter (XData grid) same_grid = Ok l /\ nth_error l 1 = Some (Some 12, Some 21).
Proof. split; [repeat split|]. split; [repeat split|]. eexists. split; reflexivity. Qed.
(** A coordinate of more than one point on the x axis is refused, although it is documented. *)
Theorem C88_coordinate_refuted a y : good a -> (1 < length (an_data (n_arr a)))%nat -> comparative_scatter (XCoord a) y = Raises ValueError /\ comparative_scatter (XIris a) y = Raises ValueError.
Proof. exact (coordinate_refused a y). Qed.
Print Assumptions C88_coordinate_refuted.
Example C88_coordinate_case : comparative_scatter (XCoord other) track = Raises ValueError.
Proof. reflexivity. Qed.
(** The line through equal values goes over all of both axes, and changes neither. *)
Theorem C88_diagonal ax p q ax' : plot_xy_line ax = (p, q, ax') -> x_lim ax' = x_lim ax /\ y_lim ax' = y_lim ax /\ fst p = snd p /\ fst q = snd q /\ (forall v, between (x_lim ax) v \/ between (y_lim ax) v -> fst p <= v <= fst q) /\
  (forall v, v = fst p \/ v = fst q -> between (x_lim ax) v \/ between (y_lim ax) v).
Proof. exact (diagonal_ok ax p q ax'). Qed.
Print Assumptions C88_diagonal.
Example C88_diagonal_case : exists ax', plot_xy_line (mkAxes (0, 10) (7, -3) true) = ((-3, -3), (10, 10), ax') /\ x_lim ax' = (0, 10).
Proof. eexists. split; reflexivity. Qed.

(** A histogram: the bars are on equal parts of the range of the values; the height of a bar is the number of values in its part; every value is in one part; the heights add up to the number of values that are not missing. *)
Theorem C88_histogram n a : (0 < n)%nat -> good a -> exists h es lo hi, histogram (Z.of_nat n) a = Ok (h, es) /\ range_of (fun x => exists i, holds a i (Some x)) lo hi /\
  length h = n /\ length es = S n /\ (forall i, (i <= n)%nat -> exists e, nth_error es i = Some e /\ e == part_edge lo hi n i) /\
  (forall i c, nth_error h i = Some c -> counted (fun p => exists x, holds a p (Some x) /\ in_part lo hi n i x) (places a) c) /\
  (forall p x, holds a p (Some x) -> exists! i, in_part lo hi n i x) /\ counted (fun p => exists x, holds a p (Some x)) (places a) (total h).
Proof. exact (histogram_ok n a). Qed.
Print Assumptions C88_histogram.
Example C88_histogram_case : exists es, histogram 4 track = Ok ([2; 0; 0; 1]%nat, es).
Proof. eexists. vm_compute. reflexivity. Qed.
Theorem C88_bar_styles s : (In s [lit "bar"; lit "step"; lit "stepfilled"] -> histogram_style (Some s) = Ok (Some s)) /\ (s <> [] -> ~ In s [lit "bar"; lit "step"; lit "stepfilled"] -> histogram_style (Some s) = Raises InvalidHistogramStyleError).
Proof. exact (bar_styles s). Qed.
Print Assumptions C88_bar_styles.
(** Without bins there is no histogram. *)
Theorem C88_no_bins n a : (n <= 0)%Z -> histogram n a = Raises ValueError.
Proof. exact (no_bins n a). Qed.
Print Assumptions C88_no_bins.
(** A histogram of two variables: the coloured rectangles are on equal parts of both ranges; the colour stands for the number of places with the one value in the one part and the other in the other, and is not 0;
    every place with both values is in a coloured rectangle; the numbers add up to the number of those places. *)
Theorem C88_histogram2d x y nx ny : (0 < nx)%nat -> (0 < ny)%nat -> good x -> good y -> length (an_data (n_arr x)) = length (an_data (n_arr y)) ->
  exists ps xlo xhi ylo yhi, histogram2d (XData x) y (Z.of_nat nx) (Z.of_nat ny) = Ok ps /\
  range_of (fun u => exists i v, both x y i u v) xlo xhi /\ range_of (fun v => exists i u, both x y i u v) ylo yhi /\
  (forall p, In p ps -> exists i j, patch_at xlo xhi nx ylo yhi ny i j p /\ (0 < p_count p)%nat /\ counted (fun k => exists u v, both x y k u v /\ in_part xlo xhi nx i u /\ in_part ylo yhi ny j v) (places x) (p_count p)) /\
  (forall k u v, both x y k u v -> exists p i j, In p ps /\ patch_at xlo xhi nx ylo yhi ny i j p /\ in_part xlo xhi nx i u /\ in_part ylo yhi ny j v) /\
  counted (fun k => exists u v, both x y k u v) (places x) (total (map p_count ps)).
Proof. exact (histogram2d_ok x y nx ny). Qed.
Print Assumptions C88_histogram2d.
Example C88_histogram2d_case : exists p q, histogram2d (XData track) other 2 2 = Ok [p; q] /\ p_count p = 2%nat /\ p_x0 p == 1 /\ p_x1 p == 5 /\ p_y0 p == 5 /\ p_y1 p == 13 # 2.
Proof. eexists _, _. split; [vm_compute; reflexivity|]. repeat split; vm_compute; reflexivity. Qed.
(** Arrays of different sizes are refused. *)
Theorem C88_sizes x y nx ny : good x -> good y -> length (an_data (n_arr x)) <> length (an_data (n_arr y)) -> histogram2d (XData x) y nx ny = Raises MaskError.
Proof. exact (sizes_refused x y nx ny). Qed.
Print Assumptions C88_sizes.

(** A line goes through every value at its x; *)
Theorem C88_line x d n : good x -> good d -> n_shape x = [n] -> n_shape d = [n] -> exists l, lines x d = Ok [l] /\ forall i u v, nth_error l i = Some (u, v) <-> holds x i u /\ holds d i v.
Proof. exact (line_1d x d n). Qed.
Print Assumptions C88_line.
Example C88_line_case : lines track other = Ok [[(Some 1, Some 5); (Some 2, Some 6); (None, Some 7); (Some 9, Some 8)]].
Proof. reflexivity. Qed.
(** of two-dimensional ungridded data there is a line for each column, *)
Theorem C88_line_tracks x d n m : (0 < m)%nat -> good x -> good d -> n_shape x = [n; m] -> n_shape d = [n; m] -> exists ls, lines x d = Ok ls /\ length ls = m /\
  forall j l, nth_error ls j = Some l -> length l = n /\ forall i u v, (i < n)%nat -> (nth_error l i = Some (u, v) <-> holds x (i * m + j) u /\ holds d (i * m + j) v).
Proof. exact (line_tracks x d n m). Qed.
Print Assumptions C88_line_tracks.
(** and so of two-dimensional gridded data, against the coordinate of the first dimension. *)
Theorem C88_line_columns_partial x d n m : (0 < m)%nat -> good x -> good d -> n_shape x = [n] -> n_shape d = [n; m] -> exists ls, lines x d = Ok ls /\ length ls = m /\
  forall j l, nth_error ls j = Some l -> length l = n /\ forall i u v, (i < n)%nat -> (nth_error l i = Some (u, v) <-> holds x i u /\ holds d (i * m + j) v).
Proof. exact (line_2d x d n m). Qed.
Print Assumptions C88_line_columns_partial.
Example C88_line_columns_case : lines (mkNd [2]%nat (Plain [1; 2])) grid = Ok [[(Some 1, Some 11); (Some 2, Some 21)]; [(Some 1, Some 12); (Some 2, Some 22)]; [(Some 1, Some 13); (Some 2, Some 23)]].
Proof. reflexivity. Qed.
(** The coordinate of the second dimension is refused if the lengths differ; *)
Theorem C88_line_refused x d n n' rest : n <> n' -> n_shape x = [n'] -> n_shape d = n :: rest -> lines x d = Raises InvalidDimensionError.
Proof. exact (line_refused x d n n' rest). Qed.
Print Assumptions C88_line_refused.
Example C88_line_refused_case : lines (mkNd [3]%nat (Plain [1; 2; 3])) grid = Raises InvalidDimensionError.
Proof. reflexivity. Qed.
(** if not, the value in row 0, column 1 is drawn at the coordinate of column 0, and that in row 1, column 0 at that of column 1. *)
Theorem C88_line_refuted x d n : (2 <= n)%nat -> good x -> good d -> n_shape x = [n] -> n_shape d = [n; n] -> exists ls l l' u u' v v', lines x d = Ok ls /\ nth_error ls 0 = Some l /\ nth_error ls 1 = Some l' /\
  nth_error l' 0 = Some (u, v) /\ holds x 0 u /\ holds d (0 * n + 1) v /\ nth_error l 1 = Some (u', v') /\ holds x 1 u' /\ holds d (1 * n + 0) v'.
Proof. exact (line_square x d n). Qed.
Print Assumptions C88_line_refuted.
Example C88_line_refuted_case : lines (mkNd [2]%nat (Plain [10; 20])) (mkNd [2; 2]%nat (Plain [11; 12; 21; 22])) = Ok [[(Some 10, Some 11); (Some 20, Some 21)]; [(Some 10, Some 12); (Some 20, Some 22)]].
Proof. reflexivity. Qed.
Theorem C88_line_styles s : (In s [lit "solid"; lit "dashed"; lit "dashdot"; lit "dotted"] -> line_style (Some s) = Ok (Some s)) /\ (s <> [] -> ~ In s [lit "solid"; lit "dashed"; lit "dashdot"; lit "dotted"] -> line_style (Some s) = Raises InvalidLineStyleError).
Proof. exact (line_styles s). Qed.
Print Assumptions C88_line_styles.
Theorem C88_line_plot s x d : line_plot s x d = match line_style s, lines x d with Ok st, Ok l => Ok (st, l) | Raises e, _ => Raises e | _, Raises e => Raises e end.
Proof. exact (line_styled s x d). Qed.
Print Assumptions C88_line_plot.
