(** The statistical comparison of two data sets, cis/stats.py:279-404 and scipy's masked statistics it calls. *)
From Verif Require Import Base UtilModel.
From Coq Require Import Reals.
Open Scope R_scope.

(** A float is a real number, or not finite (NaN or infinite: [None]); rounding and overflow are not modelled.  Every operation of stats.py gives a value that is not finite
    if an argument is not finite. *)
Definition rv := option R.
Definition rv2 (f : R -> R -> rv) (a b : rv) : rv := match a, b with Some x, Some y => f x y | _, _ => None end.
Definition rv_add : rv -> rv -> rv := rv2 (fun x y => Some (x + y)).
Definition rv_sub : rv -> rv -> rv := rv2 (fun x y => Some (x - y)).
(** x / 0 is NaN or infinite *)
Definition rv_div : rv -> rv -> rv := rv2 (fun x y => if Req_EM_T y 0 then None else Some (x / y)).
Definition isfinite (x : rv) : bool := match x with Some _ => true | None => false end.

(** a flattened array, masked or not *)
Definition farr := anarray rv.
Definition f_len (a : farr) : nat := length (an_data a).
(** numpy's broadcasting of two flat arrays *)
Definition stretch (n : nat) (a : farr) : farr :=
  match a with
  | Plain [x] => Plain (repeat x n)
  | Masked [x] None => Masked (repeat x n) None
  | Masked [x] (Some [m]) => Masked (repeat x n) (Some (repeat m n))
  | _ => a
  end.
Definition broadcast (a b : farr) : res (farr * farr) :=
  if (f_len a =? f_len b)%nat then Ok (a, b)
  else if (f_len a =? 1)%nat then Ok (stretch (f_len b) a, b)
  else if (f_len b =? 1)%nat then Ok (a, stretch (f_len a) b)
  else Raises ValueError.
Definition zip_with {A B C} (f : A -> B -> C) (a : list A) (b : list B) : list C := map (fun p => f (fst p) (snd p)) (combine a b).
(** numpy.ma's [getmask] and [mask_or] *)
Definition getmask (a : farr) : option (list bool) := match a with Masked _ m => m | Plain _ => None end.
Definition mask_or (a b : option (list bool)) : option (list bool) :=
  match a, b with Some x, Some y => Some (orl x y) | Some x, None => Some x | None, m => m end.
(** [a + b], [a - b]: a masked array if one of the two is *)
Definition elementwise (f : rv -> rv -> rv) (a b : farr) : res farr :=
  bind (broadcast a b) (fun ab => let '(a, b) := ab in
    let d := zip_with f (an_data a) (an_data b) in
    Ok (if is_masked_array a || is_masked_array b then Masked d (mask_or (getmask a) (getmask b)) else Plain d)).
(** [a / b]: numpy.ma's division also masks the elements whose quotient is not finite or whose divisor is zero (numpy.ma.core._DomainedOperation) *)
Definition division (a b : farr) : res farr :=
  bind (broadcast a b) (fun ab => let '(a, b) := ab in
    let d := zip_with rv_div (an_data a) (an_data b) in
    Ok (if is_masked_array a || is_masked_array b
        then Masked d (Some (orl (map (fun x => negb (isfinite x)) d) (orl (getmaskarray a) (getmaskarray b)))) else Plain d)).
(** the elements that are not masked *)
Definition compressed (a : farr) : list rv := map fst (filter (fun p : rv * bool => negb (snd p)) (combine (an_data a) (getmaskarray a))).
(** numpy.ma.count *)
Definition ma_count (a : farr) : nat := length (compressed a).
Definition all_finite (l : list rv) : option (list R) :=
  fold_right (fun x acc => match x, acc with Some r, Some l => Some (r :: l) | _, _ => None end) (Some []) l.
Definition r_sum (l : list R) : R := fold_left Rplus l 0.
Definition r_mean (l : list R) : R := r_sum l / INR (length l).
(** numpy.mean: masked or NaN ([None]) if there is no element *)
Definition np_mean (a : farr) : rv :=
  match all_finite (compressed a) with Some (x :: l) => Some (r_mean (x :: l)) | _ => None end.
(** numpy.std with ddof = 1: masked or NaN ([None]) for fewer than two elements *)
Definition np_std (a : farr) : rv :=
  match all_finite (compressed a) with
  | Some (x :: y :: l) => let m := r_mean (x :: y :: l) in
      Some (sqrt (r_sum (map (fun v => (v - m) * (v - m)) (x :: y :: l)) / (INR (length (x :: y :: l)) - 1)))
  | _ => None
  end.

(** the masked arrays of cis/utils.py:384-399 (UtilModel); numpy.ma rejects a mask of another size than the array, unless it has one element *)
Definition common_mask (a b : farr) : res (farr * farr) :=
  if (f_len a =? f_len b)%nat then Ok (apply_intersection_mask_to_two_arrays a b) else Raises MaskError.

Section Scipy.
(** scipy.stats.spearmanr's rank coefficient, and scipy.stats.linregress (gradient, intercept, r, standard error), of pairs of values *)
Variable rank_coefficient : list (rv * rv) -> rv.
Variable regression : list (rv * rv) -> res (rv * rv * rv * rv).
(** the elements masked in neither array *)
Definition unmasked_pairs (a b : farr) : list (rv * rv) :=
  map fst (filter (fun p : (rv * rv) * bool => negb (snd p)) (combine (combine (an_data a) (an_data b)) (orl (getmaskarray a) (getmaskarray b)))).
(** scipy.stats.mstats.spearmanr: the sizes must agree; at least two unmasked pairs; ranks of the unmasked ones *)
Definition mstats_spearmanr (a b : farr) : res rv :=
  if negb (f_len a =? f_len b)%nat then Raises ValueError
  else let ps := unmasked_pairs a b in if (length ps <? 2)%nat then Raises ValueError else Ok (rank_coefficient ps).
(** scipy.stats.mstats.linregress; None for everything if all is masked *)
Definition mstats_linregress (a b : farr) : res (rv * rv * rv * rv) :=
  match mask_or (getmask a) (getmask b) with
  | Some _ => match unmasked_pairs a b with [] => Ok (None, None, None, None) | ps => regression ps end
  | None => regression (combine (an_data a) (an_data b))
  end.

(** the result classes, stats.py:25-276, with their values *)
Inductive statistic :=
| PointsCount (n : nat) | DatasetMean (v : rv) (ds_no : nat) | DatasetStddev (v : rv) (ds_no : nat) | AbsoluteMean (v : rv) | AbsoluteStddev (v : rv)
| RelativeMean (v : rv) | RelativeStddev (v : rv) | SpearmansRank (v : rv)
| LinearRegressionGradient (v : rv) | LinearRegressionIntercept (v : rv) | LinearRegressionRValue (v : rv) | LinearRegressionStderr (v : rv).

(** stats.py:316-324 *)
Definition points_count (d1 d2 : farr) : res (list statistic) := bind (elementwise rv_add d1 d2) (fun s => Ok [PointsCount (ma_count s)]).
(** 326-337 *)
Definition means (d1 d2 : farr) : res (list statistic) := bind (common_mask d1 d2) (fun c => Ok [DatasetMean (np_mean (fst c)) 1; DatasetMean (np_mean (snd c)) 2]).
(** 339-350 *)
Definition stddevs (d1 d2 : farr) : res (list statistic) := bind (common_mask d1 d2) (fun c => Ok [DatasetStddev (np_std (fst c)) 1; DatasetStddev (np_std (snd c)) 2]).
(** 352-368 *)
Definition abs_mean (d1 d2 : farr) : res (list statistic) := bind (elementwise rv_sub d2 d1) (fun d => Ok [AbsoluteMean (np_mean d)]).
Definition abs_stddev (d1 d2 : farr) : res (list statistic) := bind (elementwise rv_sub d2 d1) (fun d => Ok [AbsoluteStddev (np_std d)]).
(** 370-386 *)
Definition rel_mean (d1 d2 : farr) : res (list statistic) := bind (elementwise rv_sub d2 d1) (fun d => bind (division d d1) (fun q => Ok [RelativeMean (np_mean q)])).
Definition rel_stddev (d1 d2 : farr) : res (list statistic) := bind (elementwise rv_sub d2 d1) (fun d => bind (division d d1) (fun q => Ok [RelativeStddev (np_std q)])).
(** 388-394 *)
Definition spearmans_rank (d1 d2 : farr) : res (list statistic) := bind (mstats_spearmanr d1 d2) (fun s => Ok [SpearmansRank s]).
(** 396-404 *)
Definition linear_regression (d1 d2 : farr) : res (list statistic) :=
  bind (mstats_linregress d1 d2) (fun g => let '(grad, intercept, r, stderr) := g in
    Ok [LinearRegressionGradient grad; LinearRegressionIntercept intercept; LinearRegressionRValue r; LinearRegressionStderr stderr]).

(** 298-314.  The arguments are the flattened data of the two data objects (line 294; the arrays' own shapes play no part). *)
Fixpoint extend_all (l : list (res (list statistic))) : res (list statistic) :=
  match l with [] => Ok [] | x :: l => bind x (fun x => bind (extend_all l) (fun r => Ok (x ++ r))) end.
Definition analyze (d1 d2 : farr) : res (list statistic) :=
  extend_all [points_count d1 d2; means d1 d2; stddevs d1 d2; abs_mean d1 d2; abs_stddev d1 d2; rel_mean d1 d2; rel_stddev d1 d2; spearmans_rank d1 d2; linear_regression d1 d2].
End Scipy.
