(** Specification for C91: points in space and time. *)
From Verif Require Import Base PyStr DateModel UngrModel HavModel PtModel.
From Coq Require Import Qabs Reals.
Open Scope Q_scope.

(** what is seen of a coordinate: both absent, or the same number *)
Definition same_coordinate (a b : option Q) : Prop := match a, b with Some a, Some b => a == b | None, None => True | _, _ => False end.
Definition same_place (p q : point) : Prop :=
  same_coordinate (p_lat p) (p_lat q) /\ same_coordinate (p_lon p) (p_lon q) /\ same_coordinate (p_alt p) (p_alt q) /\ same_coordinate (p_pres p) (p_pres q).
(** the coordinates of a point by name *)
Inductive names_coordinate (p : point) : str -> option Q -> Prop :=
| n_lat : names_coordinate p (lit "latitude") (p_lat p)
| n_lon : names_coordinate p (lit "longitude") (p_lon p)
| n_alt : names_coordinate p (lit "altitude") (p_alt p)
| n_pres : names_coordinate p (lit "air_pressure") (p_pres p)
| n_time : names_coordinate p (lit "time") (p_time p).
(** days from 1600-01-01 00:00 to the date *)
Definition days_since_1600 (d : datetime) (t : Q) : Prop := t * 86400 == inject_Z ((toordinal d - toordinal (mkDT 1600 1 1 0 0 0)) * 86400 + (hour d * 3600 + minute d * 60 + second d)).
(** a changed coordinate: the new one where one is given, else the old one *)
Definition changed (new old result : option Q) : Prop := (forall x, new = Some x -> result = Some x) /\ (new = None -> result = old).
(** the ratio of two positive pressures, the larger over the smaller *)
Definition pressure_ratio (a b r : Q) : Prop := 1 <= r /\ (a == b * r \/ b == a * r).
(** the position in degrees *)
Definition at_position (p : point) (lat lon : Q) : Prop := p_lat p = Some lat /\ p_lon p = Some lon.

(** ** Lists of points *)
(** p has every coordinate that the first point has *)
Definition has_coordinates_of (first p : point) : bool :=
  let ok (a b : option Q) := match a, b with Some _, None => false | _, _ => true end in
  ok (p_lat first) (p_lat p) && ok (p_lon first) (p_lon p) && ok (p_alt first) (p_alt p) && ok (p_pres first) (p_pres p) && ok (p_time first) (p_time p).
(** p and q have the same coordinates (not: the same values) *)
Definition same_coordinates (p q : point) : Prop := has_coordinates_of p q = true /\ has_coordinates_of q p = true.
(** what of p is seen again: the coordinates that the first point has, and one value *)
Definition only (a b : option Q) : option Q := match a with Some _ => b | None => None end.
Definition one_value (p : point) : option Q := match p_val p with One v :: _ => v | _ => Some 0 end.
Definition seen_again (first p : point) : point :=
  mkPt (only (p_lat first) (p_lat p)) (only (p_lon first) (p_lon p)) (only (p_alt first) (p_alt p)) (only (p_pres first) (p_pres p)) (only (p_time first) (p_time p)) [One (one_value p)].
(** the first value is a number *)
Definition number_first (p : point) : Prop := match p_val p with Many _ :: _ => False | _ => True end.
(** standard names and units of the coordinates of the first point *)
Definition named_coordinates (first : point) : list (str * str) :=
  flat_map (fun x : option Q * (str * str) => match fst x with Some _ => [snd x] | None => [] end)
    [(p_lat first, (lit "latitude", lit "degrees north")); (p_lon first, (lit "longitude", lit "degrees east")); (p_pres first, (lit "air_pressure", lit "Pa"));
     (p_alt first, (lit "altitude", lit "meters")); (p_time first, (lit "time", lit "days since 1600-01-01 00:00:00"))].
