(** Specification for C99: places near a position, on the globe. *)
From Verif Require Import Base HavSpec ColSpec ColModel.
From Coq Require Import List Reals QArith Qreals Permutation.
Import ListNotations.
Open Scope R_scope.

(** the places of a rectangle of latitudes la..lb and longitudes oa..ob, in degrees *)
Definition of_rectangle (la lb oa ob lat lon : R) : Prop := la <= lat <= lb /\ oa <= lon <= ob.
(** a rectangle of the globe, at most once around *)
Definition on_globe (la lb oa ob : R) : Prop := -90 <= la /\ la <= lb /\ lb <= 90 /\ oa <= ob /\ ob <= oa + 360.
(** the great-circle distance from a position to the nearest, and to the furthest, place of a rectangle *)
Definition nearest_at (la lb oa ob lat lon d : R) : Prop :=
  (forall p q, of_rectangle la lb oa ob p q -> d <= great_circle lat lon p q) /\ exists p q, of_rectangle la lb oa ob p q /\ d = great_circle lat lon p q.
Definition furthest_at (la lb oa ob lat lon d : R) : Prop :=
  (forall p q, of_rectangle la lb oa ob p q -> great_circle lat lon p q <= d) /\ exists p q, of_rectangle la lb oa ob p q /\ d = great_circle lat lon p q.
(** rows of latitude and longitude *)
Definition is_latitude (row : list Q) : Prop := (-90 <= nth 0 row 0 <= 90)%Q.
(** no longitude of the data is more than 360 degrees from another, or more than 360 degrees east of the position *)
Definition one_turn (data : list (list Q)) : Prop := forall a b, In a data -> In b data -> (nth 1 a 0 - nth 1 b 0 <= 360)%Q.
Definition not_far_east (data : list (list Q)) (x : list Q) : Prop := forall a, In a data -> (nth 1 a 0 - nth 1 x 0 <= 360)%Q.
(** the same for rows of a data frame *)
Definition row_of (p : prow) : list Q := [p_lat p; p_lon p].
(** the rows that a constraint should leave: those at most h away (any, if there is no distance or it is zero) that meet the other limits *)
Definition should_keep (h_sep a_sep p_sep t_sep : option Q) (ref d : prow) : Prop :=
  (forall h, h_sep = Some h -> ~ (h == 0)%Q -> surface_distance d ref <= Q2R h) /\ meets_limits a_sep p_sep t_sep ref d.
(** rows of a data frame on the globe, whose longitudes are at most one turn apart and at most one turn east of every sample *)
Definition has_latitude (p : prow) : Prop := (-90 <= p_lat p <= 90)%Q.
Definition longitudes_near (data samples : list prow) : Prop :=
  (forall a b, In a data -> In b data -> (p_lon a - p_lon b <= 360)%Q) /\ (forall a s, In a data -> In s samples -> (p_lon a - p_lon s <= 360)%Q).
(** a table gives one list of rows for every sample: the rows that P leaves, each as often as in the data *)
Definition one_for_each (P : prow -> prow -> Prop) (data samples : list prow) (outs : list (list prow)) : Prop :=
  Forall2 (fun s out => exists l, kept (P s) data l /\ Permutation l out) samples outs.
