(** Specifications for C38, C40, C46, C47. *)
From Verif Require Import Base PyStr QBase UngrModel.
Open Scope Q_scope.

(** the data as a table: row i holds the i-th value of every coordinate and the i-th data value *)
Definition row_at (d : udata) (i : nat) : list (option Q) * option Q := (map (fun c => nth i (c_points c) None) (u_coords d), nth i (u_values d) None).
Definition rows (d : udata) : list (list (option Q) * option Q) := map (row_at d) (seq 0 (length (u_values d))).
(** every coordinate has one point per value *)
Definition aligned (d : udata) : Prop := Forall (fun c => length (c_points c) = length (u_values d)) (u_coords d).
(** all coordinates of the row are there *)
Definition located (r : list (option Q) * option Q) : bool := forallb (fun o : option Q => match o with Some _ => true | None => false end) (fst r).
(** what identifies a coordinate *)
Definition identity_of (c : coord) : option str * str * str * str := (c_std c, c_long c, c_var c, c_axis c).
(** [l] has the standard name n *)
Definition has_std (n : str) (c : coord) : Prop := c_std c = Some n.
(** no two coordinates share a standard name (the empty name is none) *)
Definition unique_standard_names (l : list coord) : Prop :=
  forall i j a b n, nth_error l i = Some a -> nth_error l j = Some b -> n <> [] -> c_std a = Some n -> c_std b = Some n -> i = j.
(** same kind, same number of coordinates, same shapes *)
Definition compatible (gridded : bool) (first x : item) : Prop := i_gridded x = gridded /\ i_shapes x = i_shapes first.
(** the same up to the rank: a shape may be longer than the other *)
Definition same_up_to_rank (a b : list nat) : Prop := exists r, a = b ++ r \/ b = a ++ r.
Definition loosely_compatible (gridded : bool) (first x : item) : Prop := i_gridded x = gridded /\ Forall2 same_up_to_rank (i_shapes first) (i_shapes x).
Definition same_ranks (a b : item) : Prop := map (@length nat) (i_shapes a) = map (@length nat) (i_shapes b).
(** the i-th point of the data: every standard coordinate in its own field (None if the data do not have it) *)
Definition standard_value (d : udata) (n : str) (i : nat) (v : option Q) : Prop :=
  (forall c, In c (u_coords d) -> has_std n c -> v = nth i (c_points c) None) /\ ((forall c, In c (u_coords d) -> ~ has_std n c) -> v = None).
Definition point_of (d : udata) (i : nat) (p : hyperpoint) : Prop :=
  standard_value d (lit "latitude") i (hp_lat p) /\ standard_value d (lit "longitude") i (hp_lon p) /\ standard_value d (lit "altitude") i (hp_alt p) /\
  standard_value d (lit "air_pressure") i (hp_pres p) /\ standard_value d (lit "time") i (hp_time p) /\ hp_val p = [nth i (u_values d) None].
