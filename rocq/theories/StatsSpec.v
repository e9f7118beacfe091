(** What a statistical comparison should report, C37. *)
From Verif Require Import Base UtilModel UtilSpec StatsModel.
From Coq Require Import Reals.
Open Scope R_scope.

(** [ps] lists, in order, the pairs of elements at the same place that are missing in neither array *)
Inductive valid_pairs : list (rv * bool) -> list (rv * bool) -> list (rv * rv) -> Prop :=
| vp_nil : valid_pairs [] [] []
| vp_both x y c1 c2 ps : valid_pairs c1 c2 ps -> valid_pairs ((x, false) :: c1) ((y, false) :: c2) ((x, y) :: ps)
| vp_missing x m1 y m2 c1 c2 ps : m1 = true \/ m2 = true -> valid_pairs c1 c2 ps -> valid_pairs ((x, m1) :: c1) ((y, m2) :: c2) ps.
(** the elements of an array, each with whether it is missing *)
Definition elements_of (a : farr) : list (rv * bool) := combine (an_data a) (getmaskarray a).

(** the mean and the corrected standard deviation of some values: none if one of them is not finite or if they are too few *)
Definition total (l : list R) : R := fold_right Rplus 0 l.
Definition is_mean (l : list rv) (m : rv) : Prop :=
  (exists rs, l = map Some rs /\ rs <> [] /\ m = Some (total rs / INR (length rs))) \/ ((In None l \/ l = []) /\ m = None).
Definition is_stddev (l : list rv) (s : rv) : Prop :=
  (exists rs r m, l = map Some rs /\ (2 <= length rs)%nat /\ m = total rs / INR (length rs) /\ s = Some r /\ 0 <= r /\
     r * r * (INR (length rs) - 1) = total (map (fun x => (x - m) * (x - m)) rs)) \/
  ((In None l \/ (length l < 2)%nat) /\ s = None).
Definition difference (p : rv * rv) : rv := match p with (Some x, Some y) => Some (y - x) | _ => None end.
(** (y - x) / x; not finite if x is zero *)
Definition is_ratio (p : rv * rv) (q : rv) : Prop :=
  match p with (Some x, Some y) => (x <> 0 /\ q = Some ((y - x) / x)) \/ (x = 0 /\ q = None) | _ => q = None end.

(** everything but the relative differences *)
Definition rest_right (rank : list (rv * rv) -> rv) (regr : list (rv * rv) -> res (rv * rv * rv * rv)) (ps : list (rv * rv)) (out : list statistic) (rm rs : rv) : Prop :=
  exists m1 m2 s1 s2 am ad g i r e,
    out = [PointsCount (length ps); DatasetMean m1 1; DatasetMean m2 2; DatasetStddev s1 1; DatasetStddev s2 2; AbsoluteMean am; AbsoluteStddev ad;
           RelativeMean rm; RelativeStddev rs; SpearmansRank (rank ps);
           LinearRegressionGradient g; LinearRegressionIntercept i; LinearRegressionRValue r; LinearRegressionStderr e] /\
    is_mean (map fst ps) m1 /\ is_mean (map snd ps) m2 /\ is_stddev (map fst ps) s1 /\ is_stddev (map snd ps) s2 /\
    is_mean (map difference ps) am /\ is_stddev (map difference ps) ad /\ regr ps = Ok (g, i, r, e).
(** all of it *)
Definition right_statistics rank regr (ps : list (rv * rv)) (out : list statistic) : Prop :=
  exists rm rs qs, Forall2 is_ratio ps qs /\ is_mean qs rm /\ is_stddev qs rs /\ rest_right rank regr ps out rm rs.
(** what the relative differences are computed over instead *)
Definition usable (p : rv * rv) : Prop := exists x y, p = (Some x, Some y) /\ x <> 0.
Inductive usable_pairs : list (rv * rv) -> list (rv * rv) -> Prop :=
| up_nil : usable_pairs [] []
| up_yes p l l' : usable p -> usable_pairs l l' -> usable_pairs (p :: l) (p :: l')
| up_no p l l' : ~ usable p -> usable_pairs l l' -> usable_pairs (p :: l) l'.
