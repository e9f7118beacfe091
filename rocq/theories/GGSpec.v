(** Specification for C70: gridded data on the grid of a sample. *)
From Coq Require Import String.
From Verif Require Import Base PyStr QBase LonSpec UngrModel InterpModel InterpSpec GUModel GUSpec GGModel.
From Coq Require Import List Permutation.
Import ListNotations.
Open Scope string_scope. Open Scope list_scope. Open Scope nat_scope. Notation length := List.length.

(** one of these coordinates has this name *)
Definition is_among (name : str) (ds : list gdim) : Prop := exists d, In d ds /\ gd_name d = name.
(** the coordinates of the sample *)
Definition coords_of (s : sample) : list gdim := sa_dims s ++ map fst (sa_aux s).
(** selecting in order *)
Inductive selected {A} (P : A -> Prop) : list A -> list A -> Prop :=
| sel_nil : selected P [] []
| sel_yes x l r : P x -> selected P l r -> selected P (x :: l) (x :: r)
| sel_no x l r : ~ P x -> selected P l r -> selected P (x :: l) r.
(** The dimensions of the result: the coordinates of the sample that are dimensions of the data, in the order of the sample, with the sample's points;
    then the other dimensions of the data, in their order, as they are. *)
Definition result_dims (s : sample) (g : gdata) (dims : list (str * list Q)) : Prop :=
  exists own rest, selected (fun c => is_among (gd_name c) (g_dims g)) (coords_of s) own /\ selected (fun d => ~ is_among (gd_name d) (coords_of s)) (g_dims g) rest /\
    dims = map (fun d => (gd_name d, points_of d)) (own ++ rest).
(** what is wanted along a dimension of the data at place e of the result: the sample's coordinate there; the same index, in a dimension the sample does not have *)
Definition wanted_at (s : sample) (dims : list (str * list Q)) (e : list nat) (d : gdim) (t : target) : Prop :=
  exists p pts k, nth_error dims p = Some (gd_name d, pts) /\ nth_error e p = Some k /\
    ((is_among (gd_name d) (coords_of s) /\ t = At (nth k pts 0%Q)) \/ (~ is_among (gd_name d) (coords_of s) /\ t = Index k)).
(** the sample has no value there: it counts if all dimensions of the sample are dimensions of the data *)
Definition sample_missing (s : sample) (g : gdata) (e : list nat) : Prop :=
  (forall d, In d (sa_dims s) -> is_among (gd_name d) (g_dims g)) /\ exists m, sa_mask s = Some m /\ m (firstn (length (sa_dims s)) e) = true.
(** the result [r] for the variable [g] *)
Definition collocated (scheme : gdata -> list target -> option Q) (mdfms : bool) (s : sample) (g r : gdata) : Prop :=
  exists dims, result_dims s g dims /\ map (fun d => (gd_name d, points_of d)) (g_dims r) = dims /\
    forall e, on_grid (map snd dims) e ->
      (mdfms = true /\ sample_missing s g e -> g_values r e = None) /\
      (~ (mdfms = true /\ sample_missing s g e) -> exists ts, Forall2 (wanted_at s dims e) (g_dims g) ts /\ g_values r e = scheme g ts).
(** The same variable, but with its longitudes in another turn and the columns in the order of these: along each dimension the places of [g'] are those of [g], in some order. *)
Definition same_place (d d' : gdim) (sigma : list nat) : Prop :=
  gd_std d' = gd_std d /\ gd_other d' = gd_other d /\ d_circular (gd_dim d') = d_circular (gd_dim d) /\ Permutation sigma (seq 0 (length (points_of d))) /\ length (points_of d') = length (points_of d) /\
  forall j, j < length (points_of d) -> if is_lon (gd_std d) then same_meridian (nth (nth j sigma 0) (points_of d) 0%Q) (nth j (points_of d') 0%Q) else nth j (points_of d') 0%Q = nth (nth j sigma 0) (points_of d) 0%Q.
Definition same_variable (g g' : gdata) : Prop :=
  g_aux g' = g_aux g /\ exists sigmas, Forall2 (fun dd sigma => same_place (fst dd) (snd dd) sigma) (combine (g_dims g) (g_dims g')) sigmas /\ length (g_dims g') = length (g_dims g) /\
    forall e, on_grid (map points_of (g_dims g')) e -> g_values g' e = g_values g (zip_with (fun sigma k => nth k sigma 0) sigmas e).

(** no two of the same name *)
Definition different_names (ds : list gdim) : Prop := NoDup (map gd_name ds).
(** the sample: different names, longitudes not empty *)
Definition good_sample (s : sample) : Prop := different_names (coords_of s) /\ forall d, In d (coords_of s) -> gd_std d = Some (lit "longitude") -> points_of d <> [].
(** coordinates of the sample which are not its dimensions count as dimensions of size one if the data have them as dimensions *)
Definition scalars_only (s : sample) (g : gdata) : Prop := forall d b, In (d, b) (sa_aux s) -> is_among (gd_name d) (g_dims g) -> b = true /\ length (points_of d) = 1.
(** the data: different names, one longitude, a dimension with increasing points *)
Definition good_data (g : gdata) : Prop :=
  different_names (g_dims g) /\ ~ In (Some (lit "longitude")) (g_aux g) /\ forall d, In d (g_dims g) -> gd_std d = Some (lit "longitude") -> increasing (points_of d) /\ points_of d <> [].
(** one of the dimensions of the sample is not in the data, but other coordinates of it are instead: as many as there are dimensions *)
Definition made_up_for (s : sample) (g : gdata) : Prop :=
  (exists d, In d (sa_dims s) /\ ~ is_among (gd_name d) (g_dims g)) /\ exists own, selected (fun c => is_among (gd_name c) (g_dims g)) (coords_of s) own /\ length (sa_dims s) <= length own.
(** the variables have the same dimensions, of the same sizes *)
Definition alike (g g0 : gdata) : Prop := map (fun d => (gd_name d, length (points_of d))) (g_dims g) = map (fun d => (gd_name d, length (points_of d))) (g_dims g0).
