(** What a Taylor diagram shows, C76 (Taylor 2001; doc/plotting.rst:36, 183-201). *)
From Coq Require Import Reals String.
From Verif Require Import Base PyStr UtilModel UtilSpec StatsModel TaylorModel.
Open Scope R_scope.

(** ** Statistics of lists of numbers *)
Definition sum (l : list R) : R := fold_right Rplus 0 l.
Definition mean (l : list R) : R := sum l / INR (length l).
(** the sum of the products of the deviations from the means *)
Definition codeviation (xs ys : list R) : R := sum (map (fun p => (fst p - mean xs) * (snd p - mean ys)) (combine xs ys)).
(** the standard deviation, and Pearson's correlation *)
Definition deviation (xs : list R) : R := sqrt (codeviation xs xs / (INR (length xs) - 1)).
Definition correlation (xs ys : list R) : R := codeviation xs ys / sqrt (codeviation xs xs * codeviation ys ys).
(** the root mean square difference of the two once their means are taken away *)
Definition centred_rms (xs ys : list R) : R :=
  sqrt (sum (map (fun p => ((fst p - mean xs) - (snd p - mean ys)) * ((fst p - mean xs) - (snd p - mean ys))) (combine xs ys)) / (INR (length xs) - 1)).

(** ** The data sets *)
(** [xs] are the values of the data set that are not missing, in order; all are finite *)
Definition has_values (d : tset) (xs : list R) : Prop :=
  array_ok (ts_values d) /\ map fst (filter (fun p : rv * bool => negb (snd p)) (combine (an_data (ts_values d)) (getmaskarray (ts_values d)))) = map Some xs.
(** a data set with one dimension *)
Definition one_dimensional (d : tset) : Prop := ts_rows d = 1%nat /\ length (an_data (ts_values d)) = ts_cols d.
Definition missing_at (d : tset) : list bool := getmaskarray (ts_values d).
(** every data set is one-dimensional and misses the same points (perhaps none) as the first *)
Definition comparable (data : list tset) : Prop :=
  Forall one_dimensional data /\ forall d e, In d data -> In e data -> missing_at d = missing_at e.

(** ** The picture *)
(** the statistics of [xs] against the reference [ys]: the radius, the cosine of the angle, the bias *)
Definition shows (xs ys : list R) (gamma corr bias : rv) : Prop :=
  gamma = Some (deviation xs / deviation ys) /\ bias = Some ((mean xs - mean ys) / deviation ys) /\
  (codeviation xs xs <> 0 -> corr = Some (correlation xs ys)) /\ (codeviation xs xs = 0 -> corr = None).
(** nothing is folded or left out: the keyword arguments' defaults *)
Definition plain_options (o : topts) : Prop :=
  o_labels o <> None /\ o_extend o = 0 /\ o_fold o = false /\ o_gammamax o = None /\ o_stdbiasmax o = None /\ o_bias o = None.
(** the distance in the picture of the point with the given radius and cosine from the reference's, at (1, 0) *)
Definition distance_from_reference (gamma corr : R) : R :=
  sqrt ((gamma * corr - 1) * (gamma * corr - 1) + (gamma * sqrt (1 - corr * corr)) * (gamma * sqrt (1 - corr * corr))).
(** the marks a label carries *)
Definition marked (base : str) (marks : list (Prop * string)) (l : str) : Prop :=
  exists bs : list bool, Forall2 (fun b (m : Prop * string) => b = true <-> fst m) bs marks /\
    l = base ++ concat (map (fun p : bool * (Prop * string) => if fst p then lit (snd (snd p)) else []) (combine bs marks)).
Definition below (x : rv) (b : R) : Prop := exists v, x = Some v /\ v < b.
Definition above (x : rv) (b : R) : Prop := exists v, x = Some v /\ b < v.
(** the values that are compared: those not missing; with the log option, the logarithms, of data without missing values and all positive *)
Definition compares (logs : bool) (d : tset) (xs : list R) : Prop :=
  if logs then exists vs, has_values d vs /\ Forall (fun m => m = false) (missing_at d) /\ Forall (fun v => 0 < v) vs /\ xs = map ln vs
  else has_values d xs.

(** the same call with nothing to mark or fold *)
Definition as_is (o : topts) : topts := mkOpts (o_labels o) (o_colors o) (-1) false (o_logv o) None None (o_bias o).
Definition folded_corr (extend : R) (c c' : rv) : Prop :=
  match c with
  | None => c' = None
  | Some c => exists v, c' = Some v /\ (extend <= -1 -> v = c) /\ (extend = 0 -> v = Rabs c) /\ (-1 < extend -> extend <> 0 -> v = Rmax c extend)
  end.
Definition folded_gamma (gammamax : rv) (g g' : rv) : Prop :=
  match g, gammamax with Some g, Some m => exists v, g' = Some v /\ (m <> 0 -> v = Rmin g m) | _, _ => g' = g end.
(** the limit on the bias that is in force *)
Definition bias_limit (o : topts) (m : R) : Prop := o_bias o <> None /\ o_stdbiasmax o = Some m /\ m <> 0.
Definition folded_bias (o : topts) (b b' : rv) : Prop :=
  (forall m, bias_limit o m -> b' = option_map (fun b => Rmax (Rmin b m) (- m)) b) /\ ((forall m, ~ bias_limit o m) -> b' = b).
(** the label the user gave, or the name of the data set *)
Definition base_label (given : option str) (d : tset) (l : str) : Prop := (exists g, given = Some g /\ g <> [] /\ l = g) \/ ((given = None \/ given = Some []) /\ l = ts_name d).
(** a data set of two dimensions (or one) without missing values *)
Definition full_grid (d : tset) (vs : list R) : Prop := has_values d vs /\ Forall (fun m => m = false) (missing_at d) /\ length vs = (ts_rows d * ts_cols d)%nat.
