(** Comparative scatter plots, histograms, lines and scatter plots: cis/plotting/comparativescatter.py, histogram.py, histogram2d.py, lineplot.py, scatterplot.py. *)
From Coq Require Import String.
From Verif Require Import Base PyStr QBase UtilModel.
From Coq Require Import List.
Import ListNotations.
Open Scope string_scope. Open Scope list_scope. Open Scope nat_scope. Notation length := List.length.

(** A numpy array of numbers: its shape and its elements in order (C order, as flatten gives them), with the mask if it is a masked array (UtilModel). NaN is not modelled. *)
Record nd := mkNd { n_shape : list nat; n_arr : anarray Q }.
Definition cells (a : nd) : list (option Q) := map (fun p : Q * bool => if snd p then None else Some (fst p)) (combine (an_data (n_arr a)) (getmaskarray (n_arr a))).
Definition size (a : nd) : nat := length (an_data (n_arr a)).

(** *** comparativescatter.py *)
(** 19: [getattr(xaxis, 'points', None) or xaxis.data].  Data objects (UngriddedData, GriddedData) have no points.  The points of a coordinate are an array: Python asks whether it is true, which numpy answers for one element only (False for none).
    The data of a coordinate of CIS are its points; iris's coordinates have no data. *)
Inductive xaxis := XData (a : nd) | XCoord (a : nd) | XIris (a : nd).
Definition truth (a : nd) : res bool := match cells a with [] => Ok false | [Some q] => Ok (negb (Qeqb q 0)) | [None] => Ok false | _ => Raises ValueError end.
Definition x_values (x : xaxis) : res nd :=
  match x with
  | XData a => Ok a
  | XCoord a => bind (truth a) (fun _ => Ok a)
  | XIris a => bind (truth a) (fun t => if t then Ok a else Raises AttributeError)
  end.
(** ax.plot of flat arrays (matplotlib, contract): the n-th values make the n-th point, which is not drawn if one of them is masked; arrays of different lengths: ValueError *)
Definition points_drawn (x y : nd) : res (list (option Q * option Q)) := if length (cells x) =? length (cells y) then Ok (combine (cells x) (cells y)) else Raises ValueError.
(** 39 (__init__ and __call__) *)
Definition comparative_scatter (x : xaxis) (y : nd) : res (list (option Q * option Q)) := bind (x_values x) (fun xs => points_drawn xs y).

(** _plot_xy_line, 46-59, and no_autoscale (utils.py:728-733).  The axes: their limits, and whether plotting may change them (matplotlib, contract: [ax.plot] then widens the limits so that they show what was drawn). *)
Record axes := mkAxes { x_lim : Q * Q; y_lim : Q * Q; autoscale : bool }.
Definition min2 (a b : Q) : Q := if Qleb a b then a else b.
Definition max2 (a b : Q) : Q := if Qleb a b then b else a.
Definition set_autoscale_on (b : bool) (ax : axes) : axes := mkAxes (x_lim ax) (y_lim ax) b.
Definition grow (l : Q * Q) (a b : Q) : Q * Q := if Qleb (fst l) (snd l) then (min2 (fst l) (min2 a b), max2 (snd l) (max2 a b)) else (max2 (fst l) (max2 a b), min2 (snd l) (min2 a b)).
Definition plot_segment (p q : Q * Q) (ax : axes) : axes := if autoscale ax then mkAxes (grow (x_lim ax) (fst p) (fst q)) (grow (y_lim ax) (snd p) (snd q)) true else ax.
Definition plot_xy_line (ax : axes) : (Q * Q) * (Q * Q) * axes :=
  let ax := set_autoscale_on false ax in
  let lo := min2 (min2 (fst (x_lim ax)) (snd (x_lim ax))) (min2 (fst (y_lim ax)) (snd (y_lim ax))) in
  let hi := max2 (max2 (fst (x_lim ax)) (snd (x_lim ax))) (max2 (fst (y_lim ax)) (snd (y_lim ax))) in
  ((lo, lo), (hi, hi), set_autoscale_on true (plot_segment (lo, lo) (hi, hi) ax)).

(** *** histograms.  numpy (contract): the bins are n equal parts of the range of the values, which is from 0 to 1 if there are none, and half a unit either side if they are all equal; a value is in the last bin whose lower edge is not above it,
    and the greatest value in the last bin.  Arithmetic is exact. *)
Definition lowest (l : list Q) : Q := match l with [] => 0%Q | x :: r => fold_left min2 r x end.
Definition highest (l : list Q) : Q := match l with [] => 1%Q | x :: r => fold_left max2 r x end.
Definition outer (l : list Q) : Q * Q := let a := lowest l in let b := highest l in if Qeqb a b then (a - (1 # 2), b + (1 # 2))%Q else (a, b).
Definition edges (n : nat) (r : Q * Q) : list Q := map (fun i => fst r + inject_Z (Z.of_nat i) * ((snd r - fst r) / inject_Z (Z.of_nat n)))%Q (seq 0 (S n)).
Definition bin_of (es : list Q) (top x : Q) : nat := let k := searchsorted_right es x in if Qeqb x top then k - 2 else k - 1.
Definition bin_in (n : nat) (l : list Q) (x : Q) : nat := bin_of (edges n (outer l)) (snd (outer l)) x.
Definition count_if {A} (f : A -> bool) (l : list A) : nat := length (filter f l).
(** MaskedArray.compressed *)
Definition compressed (a : nd) : list Q := flat_map (fun c => match c with Some q => [q] | None => [] end) (cells a).
(** histogram.py:37-42 (flatten gives the same values when nothing is masked); ax.hist calls numpy.histogram: the heights of the bars, and the edges *)
Definition histogram (n : Z) (a : nd) : res (list nat * list Q) :=
  if (n <=? 0)%Z then Raises ValueError
  else let l := compressed a in let m := Z.to_nat n in Ok (map (fun i => count_if (fun x => bin_in m l x =? i) l) (seq 0 m), edges m (outer l)).
(** histogram.py:27-35 *)
Definition histogram_style (itemstyle : option str) : res (option str) :=
  match itemstyle with
  | None | Some [] => Ok None
  | Some s => if existsb (str_eqb s) [lit "bar"; lit "step"; lit "stepfilled"] then Ok (Some s) else Raises InvalidHistogramStyleError
  end.

(** *** histogram2d.py:39-61 *)
(** ma.masked_array(array, mask) with a mask of another shape: numpy repeats a mask of one element, reshapes one of the same size, and refuses others *)
Definition remasked (a b : nd) : res nd :=
  if length (getmaskarray (n_arr b)) =? size a then Ok (mkNd (n_shape a) (masked_array (n_arr a) (getmaskarray (n_arr b))))
  else match getmaskarray (n_arr b) with [m] => Ok (mkNd (n_shape a) (masked_array (n_arr a) (repeat m (size a)))) | _ => Raises MaskError end.
(** apply_intersection_mask_to_two_arrays, utils.py:384-399 *)
Definition intersection_mask (a b : nd) : res (nd * nd) := bind (remasked a b) (fun a' => bind (remasked b a) (fun b' => Ok (a', b'))).
(** numpy.histogram2d: the counts, by bins of x and then of y *)
Definition histogram2d_counts (nx ny : nat) (xs ys : list Q) : list (list nat) :=
  map (fun i => map (fun j => count_if (fun p : Q * Q => (bin_in nx xs (fst p) =? i) && (bin_in ny ys (snd p) =? j)) (combine xs ys)) (seq 0 ny)) (seq 0 nx).
Definition transpose (ncols : nat) (m : list (list nat)) : list (list nat) := map (fun j => map (fun row => nth j row 0) m) (seq 0 ncols).
(** ax.pcolor(x, y, C) (matplotlib, contract): C[j][i] colours the rectangle from x[i] to x[i+1] and y[j] to y[j+1]; masked ones (here: zeros) are not drawn *)
Record patch := mkPatch { p_x0 : Q; p_x1 : Q; p_y0 : Q; p_y1 : Q; p_count : nat }.
Definition pcolor (x y : list Q) (c : list (list nat)) : list patch :=
  flat_map (fun jr : nat * list nat => flat_map (fun iv : nat * nat => if snd iv =? 0 then [] else [mkPatch (nth (fst iv) x 0%Q) (nth (S (fst iv)) x 0%Q) (nth (fst jr) y 0%Q) (nth (S (fst jr)) y 0%Q) (snd iv)])
    (combine (seq 0 (length (snd jr))) (snd jr))) (combine (seq 0 (length c)) c).
Definition histogram2d (x : xaxis) (y : nd) (nx ny : Z) : res (list patch) :=
  bind (x_values x) (fun xa => bind (intersection_mask xa y) (fun ab =>
  let xs := compressed (fst ab) in let ys := compressed (snd ab) in
  if ((nx <=? 0) || (ny <=? 0))%Z then Raises ValueError
  else let mx := Z.to_nat nx in let my := Z.to_nat ny in
       Ok (pcolor (edges mx (outer xs)) (edges my (outer ys)) (transpose my (histogram2d_counts mx my xs ys))))).

(** *** lineplot.py:15-33 *)
Definition line_style (itemstyle : option str) : res (option str) :=
  match itemstyle with
  | None | Some [] => Ok None
  | Some s => if existsb (str_eqb s) [lit "solid"; lit "dashed"; lit "dashdot"; lit "dotted"] then Ok (Some s) else Raises InvalidLineStyleError
  end.
(** ax.plot of arrays of one or two dimensions (matplotlib, contract): one line for each column, of the x of the column (the one column, if x has one) *)
Definition columns (a : nd) : option nat := match n_shape a with [_] => Some 1 | [_; c] => Some c | _ => None end.
Definition column (a : nd) (c j : nat) (n : nat) : list (option Q) := map (fun i => nth (i * c + j) (cells a) None) (seq 0 n).
Definition lines (x d : nd) : res (list (list (option Q * option Q))) :=
  match n_shape x, n_shape d with
  | n :: _, n' :: _ =>
    if negb (n =? n') then Raises InvalidDimensionError
    else match columns x, columns d with
         | Some cx, Some cd => if (1 <? cx) && (1 <? cd) && negb (cx =? cd) then Raises ValueError
                               else Ok (map (fun j => combine (column x cx (j mod cx) n) (column d cd (j mod cd) n)) (seq 0 (Nat.max cx cd)))
         | _, _ => Raises ValueError
         end
  | _, _ => Raises IndexError
  end.
Definition line_plot (itemstyle : option str) (x d : nd) : res (option str * list (list (option Q * option Q))) :=
  bind (line_style itemstyle) (fun s => bind (lines x d) (fun l => Ok (s, l))).
(** scatterplot.py:28 *)
Definition scatter_plot (x d : nd) : res (list (option Q * option Q)) := points_drawn x d.
