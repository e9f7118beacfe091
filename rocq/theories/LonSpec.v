(** Specifications for C05 and C06. *)
From Verif Require Import Base QBase LonModel.
Open Scope Q_scope.

Definition in_range (s x : Q) : Prop := s <= x < s + 360.
(** the same meridian *)
Definition same_meridian (x y : Q) : Prop := exists k : Z, y == x + 360 * inject_Z k.

(** an old column (longitude, bounds, contents) moved to a new place on the axis: same contents, longitude and both
    bounds changed by the same whole number of turns *)
Definition moved {A} (old new : Q * option (Q * Q) * A) : Prop :=
  snd old = snd new /\
  exists k : Z, fst (fst new) == fst (fst old) + 360 * inject_Z k
    /\ match snd (fst old), snd (fst new) with
       | Some (lo, hi), Some (lo', hi') => lo' == lo + 360 * inject_Z k /\ hi' == hi + 360 * inject_Z k
       | None, None => True
       | _, _ => False
       end.
Definition bounds_list {A} (ax : lon_axis A) : list (option (Q * Q)) :=
  match lon_bounds ax with Some b => map Some b | None => repeat None (length (lon_points ax)) end.
(** the columns of an axis with their longitudes and bounds *)
Definition table {A} (ax : lon_axis A) : list (Q * option (Q * Q) * A) :=
  combine (combine (lon_points ax) (bounds_list ax)) (lon_columns ax).
Definition well_formed {A} (ax : lon_axis A) : Prop :=
  length (bounds_list ax) = length (lon_points ax) /\ length (lon_columns ax) = length (lon_points ax).
(** the axis spans less than a full turn *)
Definition spans_less_than_turn (l : list Q) : Prop := forall x y, In x l -> In y l -> y - x < 360.
