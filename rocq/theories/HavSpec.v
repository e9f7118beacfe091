(** Specification for C20, C21, C22: the geometry of the sphere. *)
From Coq Require Import Reals List.
Import ListNotations.
Open Scope R_scope.

(** degrees to radians *)
Definition radians (d : R) : R := d * PI / 180.
(** the point of the unit sphere at a latitude and longitude in degrees *)
Definition unit_vector (lat lon : R) : R * R * R :=
  (cos (radians lat) * cos (radians lon), cos (radians lat) * sin (radians lon), sin (radians lat)).
Definition dot3 (u v : R * R * R) : R :=
  let '(a, b, c) := u in let '(x, y, z) := v in a * x + b * y + c * z.
(** the angle, between 0 and pi, between two unit vectors *)
Definition central_angle (u v : R * R * R) : R := acos (dot3 u v).
(** great-circle distance on a sphere of radius 6378 km *)
Definition great_circle (lat1 lon1 lat2 lon2 : R) : R := 6378 * central_angle (unit_vector lat1 lon1) (unit_vector lat2 lon2).
(** the straight line through the sphere between two places, km *)
Definition chord_km (lat1 lon1 lat2 lon2 : R) : R :=
  let '(a, b, c) := unit_vector lat1 lon1 in let '(x, y, z) := unit_vector lat2 lon2 in
  6378 * sqrt ((a - x) ^ 2 + (b - y) ^ 2 + (c - z) ^ 2).
(** the chord subtending an arc of s km *)
Definition chord_of_arc (s : R) : R := 2 * 6378 * sin (s / (2 * 6378)).
From Coq Require Import QArith Qreals.
(** positions as rows of exact numbers: latitude, longitude *)
Definition latitude (row : list Q) : R := Q2R (nth 0 row 0%Q).
Definition longitude (row : list Q) : R := Q2R (nth 1 row 0%Q).
Definition row_distance (a b : list Q) : R := great_circle (latitude a) (longitude a) (latitude b) (longitude b).
Definition row_chord (a b : list Q) : R := chord_km (latitude a) (longitude a) (latitude b) (longitude b).
Definition is_position (row : list Q) : Prop := length row = 2%nat.
(** all latitudes in [la, lb] and all longitudes in [oa, ob], degrees *)
Definition in_box (la lb oa ob : Q) (row : list Q) : Prop :=
  length row = 2%nat /\ (la <= nth 0 row 0 <= lb)%Q /\ (oa <= nth 1 row 0 <= ob)%Q.
Open Scope R_scope.
(** the first of the nearest data points *)
Definition first_nearest (data : list (list Q)) (x : list Q) (i : nat) : Prop :=
  (i < length data)%nat /\ (forall k, (k < length data)%nat -> row_distance (nth i data []) x <= row_distance (nth k data []) x) /\
  (forall k, (k < i)%nat -> row_distance (nth i data []) x < row_distance (nth k data []) x).
