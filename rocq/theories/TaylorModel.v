(** The numbers of a Taylor diagram, cis/plotting/taylor.py:56-175, and numpy.ma's functions it calls. *)
From Coq Require Import Reals String.
From Verif Require Import Base PyStr UtilModel StatsModel.
Open Scope R_scope.

(** A data set: the name CommonData.name() gives and its values.  An array with one dimension is one row.  Simplification: arrays of three or more dimensions are not modelled
    (numpy.ma.corrcoef gives other numbers again for them, or raises). *)
Record tset := mkSet { ts_name : str; ts_rows : nat; ts_cols : nat; ts_values : farr }.

(** numpy.ma.log followed by [.data] (taylor.py:107-113): the logarithm of what is positive and not masked.  numpy.ma copies the argument itself into the masked elements of the result
    (numpy.ma.core._MaskedUnaryOperation.__call__), and [.data] of the masked array drops its mask. *)
Definition log_element (p : rv * bool) : rv :=
  match p with
  | (Some x, false) => if Rle_dec x 0 then Some x else Some (ln x)
  | (x, _) => x
  end.
Definition log_set (d : tset) : tset := mkSet (ts_name d) (ts_rows d) (ts_cols d) (Plain (map log_element (combine (an_data (ts_values d)) (getmaskarray (ts_values d))))).

(** the rows of an array, each element with whether it is masked *)
Fixpoint rows_of {A} (r c : nat) (l : list A) : list (list A) := match r with O => [] | S r => firstn c l :: rows_of r c (skipn c l) end.
Definition valid (r : list (rv * bool)) : list rv := map fst (filter (fun p : rv * bool => negb (snd p)) r).
Definition rv_mean (l : list rv) : rv := match all_finite l with Some (x :: l) => Some (r_mean (x :: l)) | _ => None end.
(** [x -= x.mean(axis=rowvar)], numpy.ma.extras._covhelper *)
Definition centred (r : list (rv * bool)) : list (rv * bool) := map (fun p => (rv_sub (fst p) (rv_mean (valid r)), snd p)) r.
(** the elements masked in neither row *)
Definition both (a b : list (rv * bool)) : list (rv * rv) :=
  map (fun p : (rv * bool) * (rv * bool) => (fst (fst p), fst (snd p))) (filter (fun p : (rv * bool) * (rv * bool) => negb (snd (fst p)) && negb (snd (snd p))) (combine a b)).
(** the variance (ddof = 0) *)
Definition r_var (l : list R) : R := r_sum (map (fun v => (v - r_mean l) * (v - r_mean l)) l) / INR (List.length l).
(** numpy.ma.corrcoef's quotient for two rows: the covariance over the square root of the product of the variances of what is valid in both.  Without masked elements numpy takes the diagonal of
    the covariance matrix for the variances: the same numbers. *)
Definition row_correlation (a b : list (rv * bool)) : rv :=
  let ps := both (centred a) (centred b) in
  match all_finite (valid a), all_finite (valid b), all_finite (map fst ps), all_finite (map snd ps) with
  | Some _, Some _, Some xs, Some ys =>
      match xs with
      | [] => None
      | _ => rv_div (Some (r_sum (zip_with Rmult xs ys) / INR (List.length xs))) (Some (sqrt (r_var xs * r_var ys)))
      end
  | _, _, _, _ => None
  end.
(** numpy.ma.corrcoef(a, b)[0, 1] (taylor.py:122): a mask common to the two if their shapes agree; their rows one after the other; the correlation of the first two rows *)
Definition corrcoef01 (a b : tset) : res rv :=
  if negb (ts_cols a =? ts_cols b)%nat then Raises ValueError
  else
    let ma := getmaskarray (ts_values a) in let mb := getmaskarray (ts_values b) in
    let '(ma, mb) := if (ts_rows a =? ts_rows b)%nat then (orl ma mb, orl ma mb) else (ma, mb) in
    match rows_of (ts_rows a) (ts_cols a) (combine (an_data (ts_values a)) ma) ++ rows_of (ts_rows b) (ts_cols b) (combine (an_data (ts_values b)) mb) with
    | r0 :: r1 :: _ => Ok (row_correlation r0 r1)
    | _ => Raises IndexError
    end.

(** 123: numpy.ma.minimum and maximum *)
Definition clamp (lo hi : R) (x : rv) : rv := option_map (fun x => Rmin (Rmax x lo) hi) x.
Definition rb {A B} (d : {A} + {B}) : bool := if d then true else false.
(** comparisons with a masked element are false where they choose something *)
Definition rv_ltb (x y : rv) : bool := match x, y with Some x, Some y => rb (Rlt_dec x y) | _, _ => false end.
Definition rv_abs (x : rv) : rv := option_map Rabs x.
(** Python's [x or y] and truth of a float that may be None *)
Definition truthy (x : rv) : bool := match x with Some x => negb (rb (Req_EM_T x 0)) | None => false end.

Inductive bias_style := BiasColour | BiasSize | BiasFlag | BiasOther.
(** the keyword arguments: labels, whether colours are given, extend, fold, logv, gammamax, stdbiasmax, bias *)
Record topts := mkOpts { o_labels : option (list (option str)); o_colors : bool; o_extend : R; o_fold : bool; o_logv : bool; o_gammamax : rv; o_stdbiasmax : rv; o_bias : option bias_style }.
(** what the constructor leaves in the plot object *)
Record tplot := mkPlot { p_labels : list str; p_corrs : list rv; p_gammas : list rv; p_stdbiases : list rv; p_gammamax : rv; p_maxstdbias : rv; p_minstdbias : rv }.

(** [l or d.name()], 80 *)
Definition label_or (l : option str) (n : str) : str := match l with Some ((_ :: _) as l) => l | _ => n end.
Fixpoint map_r {A B} (f : A -> res B) (l : list A) : res (list B) := match l with [] => Ok [] | x :: l => bind (f x) (fun y => bind (map_r f l) (fun ys => Ok (y :: ys))) end.
(** numpy.ma.amax, amin of what is not excluded: masked if there is nothing *)
Definition kept (mask : list bool) (l : list rv) : list rv := map snd (filter (fun p : bool * rv => negb (fst p)) (combine mask l)).
Definition extreme (f : R -> R -> R) (l : list rv) : rv :=
  fold_left (fun acc x => match acc, x with Some a, Some x => Some (f a x) | None, x => x | a, None => a end) l None.
Definition mask_of (l : list rv) : list bool := map (fun x => negb (isfinite x)) l.
Definition flag (suffix : String.string) (hit : rv -> bool) (ls : list str) (vs : list rv) : list str := map (fun p => if hit (snd p) then fst p ++ lit suffix else fst p) (combine ls vs).

(** taylor.py:56-170 (colour maps, markers and the logging are not modelled) *)
Definition taylor (data : list tset) (o : topts) : res tplot :=
  match o_labels o with
  | None => Raises TypeError
  | Some labels =>
    let labels := map (fun p => label_or (fst p) (ts_name (snd p))) (combine labels data) in
    (* 94-104 *)
    match o_bias o with
    | Some BiasOther => Raises ValueError
    | b => if (match b with Some BiasColour => o_colors o | _ => false end) then Raises ValueError else
      (* 106-107 *)
      let data := if o_logv o then map log_set data else data in
      (* 109-119 *)
      let means := map (fun d => np_mean (ts_values d)) data in
      let sigmas := map (fun d => np_std (ts_values d)) data in
      match data, means, sigmas with
      | ref :: _, ref_mean :: _, ref_sigma :: _ =>
        let stdbiases := map (fun m => rv_div (rv_sub m ref_mean) ref_sigma) means in
        let gammas := map (fun s => rv_div s ref_sigma) sigmas in
        (* 122-123 *)
        bind (map_r (fun d => corrcoef01 d ref) data) (fun corrs =>
        let corrs := map (clamp (-1) 1) corrs in
        let has_bias := match b with Some _ => true | None => false end in
        (* 137-143 *)
        let mask := mask_of gammas in
        let mask := if truthy (o_gammamax o) && negb (o_fold o) then orl mask (map (fun g => rv_ltb (o_gammamax o) g) gammas) else mask in
        let mask := if has_bias then
            let mask := orl mask (mask_of stdbiases) in
            if truthy (o_stdbiasmax o) then orl mask (map (fun s => rv_ltb (o_stdbiasmax o) (rv_abs s)) stdbiases) else mask
          else mask in
        (* 145-149 *)
        let gammamax := if truthy (o_gammamax o) then o_gammamax o else extreme Rmax (kept mask gammas) in
        let maxstd := if has_bias then if truthy (o_stdbiasmax o) then o_stdbiasmax o else extreme Rmax (map rv_abs (kept mask stdbiases)) else None in
        if (has_bias && (List.length data <=? 1)%nat)%bool then Raises ValueError (* amin of no element *) else
        let minstd := if has_bias then
            match extreme Rmin (map rv_abs (kept (tl mask) (tl stdbiases))), maxstd with Some a, Some m => Some (Rmin a (m / 8)) | _, _ => None end
          else None in
        (* 154-160 *)
        let past := rb (Rlt_dec (-1) (o_extend o)) in
        let labels := if past then flag " $-$" (fun c => rv_ltb c (Some (o_extend o))) labels corrs else labels in
        let corrs := if past && o_fold o then
            if rb (Req_EM_T (o_extend o) 0) then map rv_abs corrs else map (option_map (fun c => Rmax c (o_extend o))) corrs
          else corrs in
        (* 161-164 *)
        let labels := if truthy gammamax then flag " $>$" (fun g => rv_ltb gammamax g) labels gammas else labels in
        let gammas := if truthy gammamax && o_fold o then map (fun g => match g, gammamax with Some g, Some m => Some (Rmin g m) | _, _ => None end) gammas else gammas in
        (* 165-171 *)
        let limit := match o_stdbiasmax o with Some m => m | None => 0 end in
        let over := has_bias && truthy (o_stdbiasmax o) in
        let labels := if over then flag " B+" (fun s => rv_ltb (Some limit) s) (flag " B-" (fun s => rv_ltb s (Some (- limit))) labels stdbiases) stdbiases else labels in
        let stdbiases := if over && o_fold o then map (option_map (fun s => Rmax (Rmin s limit) (- limit))) stdbiases else stdbiases in
        Ok (mkPlot labels corrs gammas stdbiases gammamax maxstd minstd))
      | _, _, _ => Raises IndexError
      end
    end
  end.
