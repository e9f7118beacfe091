(** Specification for C68: collocating ungridded data onto a gridded sample. *)
From Coq Require Import String.
From Verif Require Import Base PyStr QBase LonSpec UngrModel UngrSpec SubsetSpec GridIndexModel GridIndexSpec AggModel AggSpec GColModel.
From Coq Require Import List.
Import ListNotations.
Open Scope string_scope. Open Scope list_scope. Open Scope nat_scope. Notation length := List.length.

Definition five_names : list str := [lit "latitude"; lit "longitude"; lit "altitude"; lit "air_pressure"; lit "time"].
(** the data have a coordinate of this name *)
Definition data_has (d : udata) (nm : str) : Prop := exists c, In c (u_coords d) /\ c_std c = Some nm.
(** a dimension of the sample along which the data can be placed: latitude, longitude, altitude, pressure or time, and the data have it too *)
Definition shared (sample : cube) (d : udata) (ci : nat) (s : sdim) (nm : str) : Prop :=
  nth_error (cu_dims sample) ci = Some s /\ sd_std s = Some nm /\ In nm five_names /\ data_has d nm.
(** the dimensions of the result: all of these, in the order of the sample *)
Definition sample_dims (sample : cube) (d : udata) (dims : list nat) : Prop :=
  StronglySorted lt dims /\ forall ci, In ci dims <-> exists s nm, shared sample d ci s nm.
(** bounds halfway between the points; the outermost as far from their points on the one side as on the other *)
Definition mid (p q : Q) : Q := ((p + q) / 2)%Q.
Definition halfway (pts : list Q) (b : list (Q * Q)) : Prop :=
  length b = length pts /\ 2 <= length pts /\
  (forall k p q, nth_error pts k = Some p -> nth_error pts (S k) = Some q ->
     exists x y, nth_error b k = Some x /\ nth_error b (S k) = Some y /\ (snd x == mid p q)%Q /\ (fst y == mid p q)%Q) /\
  (forall p q x, nth_error pts 0 = Some p -> nth_error pts 1 = Some q -> nth_error b 0 = Some x -> (mid (fst x) (mid p q) == p)%Q) /\
  (forall p q x, nth_error pts (length pts - 2) = Some p -> nth_error pts (length pts - 1) = Some q -> nth_error b (length pts - 1) = Some x -> (mid (mid p q) (snd x) == q)%Q).
(** cut off at the poles *)
Definition cut (x y : Q) : Prop := ((-(90) <= x <= 90 /\ y == x) \/ (x < -(90) /\ y == -(90)) \/ (90 < x /\ y == 90))%Q.
(** the cells of a dimension: the sample's own, or halfway between its points; latitudes within the poles are cut off there *)
Definition cells_of (s : sdim) (a : axis) : Prop :=
  ax_points a = sd_points s /\
  match sd_bounds s with
  | Some b => ax_bounds a = b
  | None =>
    exists b, halfway (sd_points s) b /\
      ((sd_std s = Some (lit "latitude") /\ Forall (fun p => (-(90) <= p <= 90)%Q) (sd_points s) /\
        Forall2 (fun x y : Q * Q => cut (fst x) (fst y) /\ cut (snd x) (snd y)) b (ax_bounds a))
       \/ (~ (sd_std s = Some (lit "latitude") /\ Forall (fun p => (-(90) <= p <= 90)%Q) (sd_points s)) /\ ax_bounds a = b))
  end.
(** the sample's longitudes: 0..360, or -180..180 if one is negative *)
Definition convention (sample : cube) (low : Q) : Prop :=
  exists pts, In (Some (lit "longitude"), pts) (all_coords sample) /\
    (((exists p, In p pts /\ (p < 0)%Q) /\ low = (-(180))%Q) \/ ((forall p, In p pts -> (0 <= p)%Q) /\ low = 0%Q)).
(** where point i of the data is along a coordinate, in the sample's convention for longitudes *)
Definition position (sample : cube) (d : udata) (i : nat) (nm : str) (x' : Q) : Prop :=
  exists c x, In c (u_coords d) /\ c_std c = Some nm /\ nth i (c_points c) None = Some x /\
    if str_eqb nm (lit "longitude") then exists low, convention sample low /\ same_meridian x x' /\ in_range low x' else (x' == x)%Q.
(** point i is in the cell *)
Definition in_the_cell {V} (sample : cube) (d : udata) (out : gcol (V := V)) (i : nat) (cell : list nat) : Prop :=
  forall j ci a k s nm, nth_error (gc_dims out) j = Some ci -> nth_error (gc_axes out) j = Some a -> nth_error cell j = Some k -> shared sample d ci s nm ->
    exists x', position sample d i nm x' /\ contains a (Z.of_nat k) x'.
Definition cell_index {V} (out : gcol (V := V)) (cell : list nat) : Prop := Forall2 (fun k a => k < length (ax_bounds a)) cell (gc_axes out).
(** where the sample itself is missing *)
Definition unwanted (mdfms : bool) (sample : cube) (cell : list nat) : Prop := mdfms = true /\ cu_masked sample cell = true.
(** what a cell holds, if the index serves it: the kernel of the values of exactly the points in it *)
Definition right_cells {V} (served : gcol (V := V) -> list nat -> Prop) (k : list Q -> res (list (option V))) (mdfms : bool) (sample : cube) (d : udata) (out : gcol (V := V)) : Prop :=
  forall cell, cell_index out cell -> exists idxs vs, NoDup idxs /\ values_at d idxs vs /\
    (forall i, In i idxs <-> unmasked d i /\ in_the_cell sample d out i cell) /\
    (unwanted mdfms sample cell \/ idxs = [] \/ ~ served out cell -> gc_value out cell = None) /\
    (~ unwanted mdfms sample cell -> idxs <> [] -> served out cell -> gc_value out cell = match k vs with Ok v => Some v | Raises _ => None end).
Definition every {V} (out : gcol (V := V)) (cell : list nat) : Prop := True.
(** not the first cell of a dimension stored downwards *)
Definition not_first_down {V} (out : gcol (V := V)) (cell : list nat) : Prop :=
  forall j a, nth_error (gc_axes out) j = Some a -> (exists p q r, ax_points a = p :: q :: r /\ (q < p)%Q) -> nth_error cell j <> Some 0.

(** a sample as it may come: no two coordinates of the same standard name, points everywhere; the shared dimensions have at least two points in strict order (either way)
    if bounds have to be made, otherwise adjoining cells in the order of the points *)
Definition ordered_up (l : list Q) : Prop := forall i j p q, i < j -> nth_error l i = Some p -> nth_error l j = Some q -> (p < q)%Q.
Definition ordered_down (l : list Q) : Prop := forall i j p q, i < j -> nth_error l i = Some p -> nth_error l j = Some q -> (q < p)%Q.
Definition good_dim (s : sdim) : Prop :=
  match sd_bounds s with
  | None => 2 <= length (sd_points s) /\ (ordered_up (sd_points s) \/ ordered_down (sd_points s))
  | Some b => b <> [] /\ length (sd_points s) = length b /\ ((ordered_up (sd_points s) /\ contiguous_up b) \/ (2 <= length b /\ ordered_down (sd_points s) /\ contiguous_down b))
  end.
Definition good_sample (sample : cube) : Prop :=
  (forall i j nm p q, nth_error (all_coords sample) i = Some (Some nm, p) -> nth_error (all_coords sample) j = Some (Some nm, q) -> i = j) /\
  (forall sp, In sp (all_coords sample) -> snd sp <> []) /\
  (forall s nm, In s (cu_dims sample) -> sd_std s = Some nm -> In nm five_names -> good_dim s).
(** stored upwards *)
Definition upward_sample (sample : cube) : Prop := forall s nm, In s (cu_dims sample) -> sd_std s = Some nm -> In nm five_names -> ordered_up (sd_points s).
(** every coordinate of the sample is a dimension shared with the data *)
Definition all_shared (sample : cube) (d : udata) : Prop := cu_aux sample = [] /\ forall ci s, nth_error (cu_dims sample) ci = Some s -> exists nm, shared sample d ci s nm.
(** the kernel says ValueError, if anything *)
Definition only_value_error {V} (k : list Q -> res (list (option V))) : Prop := forall vs e, k vs = Raises e -> e = ValueError.
(** the way to find the data of a cell: all in it (the default) *)
Definition bin_of (how : str) : Prop := how = [] \/ how = lit "bin".
