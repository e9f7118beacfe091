(** Specification for C22 (kernel), C23, C24, C25, C26: points, limits, statistics. *)
From Coq Require Import List Permutation QArith Qminmax Qabs Qreals Reals Lia.
Import ListNotations.
From Verif Require Import HavSpec.

(** [kept P l r]: r consists of the elements of l with P, in order *)
Inductive kept {A} (P : A -> Prop) : list A -> list A -> Prop :=
| kept_nil : kept P [] []
| kept_yes x l r : P x -> kept P l r -> kept P (x :: l) (x :: r)
| kept_no x l r : ~ P x -> kept P l r -> kept P (x :: l) r.

(** how many times larger the larger of two pressures is *)
Definition pressure_ratio (p q : Q) : Q := (Qmax p q / Qmin p q)%Q.

(** statistics of a list of numbers *)
Open Scope R_scope.
Definition total (l : list R) : R := fold_right Rplus 0 l.
Definition is_mean (l : list R) (m : R) : Prop := INR (length l) * m = total l.
Definition is_min (l : list R) (m : R) : Prop := In m l /\ forall x, In x l -> m <= x.
Definition is_max (l : list R) (m : R) : Prop := In m l /\ forall x, In x l -> x <= m.
(** corrected sample standard deviation: (n-1) s^2 is the sum of the squared deviations from the mean *)
Definition is_stddev (l : list R) (s : R) : Prop :=
  0 <= s /\ forall m, is_mean l m -> (INR (length l) - 1) * s ^ 2 = total (map (fun x => (x - m) ^ 2) l).

(** [first_best d l x]: x is the first element of l with the least d *)
Definition first_best {A} (d : A -> R) (l : list A) (x : A) : Prop :=
  exists l1 l2, l = l1 ++ x :: l2 /\ (forall y, In y l -> d x <= d y) /\ (forall y, In y l1 -> d x < d y).

(** ** Limits of a separation constraint *)
From Verif Require Import Base LonSpec ColModel.
Open Scope Q_scope.
(** every given limit on altitude, pressure ratio and time is met, strictly *)
Definition meets_limits (a_sep p_sep t_sep : option Q) (ref d : prow) : Prop :=
  (forall a, a_sep = Some a -> Qabs (p_alt d - p_alt ref) < a) /\
  (forall s, p_sep = Some s -> pressure_ratio (p_pres d) (p_pres ref) < s) /\
  (forall t, t_sep = Some t -> Qabs (p_time d - p_time ref) < t).
(** distance along the surface between two points *)
Definition surface_distance (p q : prow) : R := great_circle (Q2R (p_lat p)) (Q2R (p_lon p)) (Q2R (p_lat q)) (Q2R (p_lon q)).
Definition positive_pressure (p : prow) : Prop := 0 < p_pres p.
(** the same row but for the choice of a longitude range *)
Definition same_place (p q : prow) : Prop :=
  p_lat q = p_lat p /\ same_meridian (p_lon p) (p_lon q) /\ p_alt q = p_alt p /\ p_pres q = p_pres p /\ p_time q = p_time p /\ p_val q = p_val p.
(** the coordinates needed by the limits exist *)
Definition columns_for (a_sep p_sep t_sep : option Q) (cols : columns) : Prop :=
  (a_sep <> None -> In ALT cols) /\ (p_sep <> None -> In PRES cols) /\ (t_sep <> None -> In TIME cols).

(** ** Samples and outputs *)
(** the samples that are collocated, with their numbers: all, or those with a value when missing samples give missing output *)
Definition visited (mdfms : bool) (points : list prow) : list (nat * prow) := filter (fun ip : nat * prow => negb (mdfms && is_missing (snd ip))) (combine (seq 0 (length points)) points).
(** a kernel that gives [size] numbers or raises ValueError *)
Definition kernel_ok (k : kernel) (size : nat) : Prop := forall p d, match k p d with Ok c => length c = size | Raises e => e = ValueError end.
(** the output number j of a kernel result: missing (None) when the kernel raised *)
Definition outcome (r : res (list (option R))) (j : nat) : option R := match r with Ok c => nth j c None | Raises _ => None end.
(** on the equator, with a longitude between oa and ob *)
Definition on_equator (oa ob : Q) (p : prow) : Prop := (p_lat p == 0 /\ oa <= p_lon p <= ob)%Q.
(** the kernels mean, stddev, min, max, sum and moments *)
Definition statistics_kernels : list kernel := [k_mean; k_stddev; k_min; k_max; k_sum; k_moments].
