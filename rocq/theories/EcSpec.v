(** Specification for C84: what is read from EarthCARE files. *)
From Coq Require Import String.
From Verif Require Import Base PyStr QBase IndexSpec UngrModel EcModel.
From Coq Require Import List Ascii.
Import ListNotations.
Open Scope string_scope. Open Scope list_scope. Open Scope nat_scope. Notation length := List.length.

(** a file has a variable; all files have one of this name *)
Definition has (f : efile) (n : str) (v : evar) : Prop := In (n, v) f.
Definition everywhere (files : list efile) (n : str) : Prop := Forall (fun f => exists v, has f n v) files.
(** an array has an element for each index, one size for each dimension *)
Definition whole (v : evar) : Prop := length (e_data v) = cells (e_shape v) /\ length (e_dims v) = length (e_shape v).
Definition good_file (f : efile) : Prop := NoDup (map fst f) /\ forall n v, has f n v -> whole v.
(** the element at an index *)
Definition element (v : evar) (idx : list nat) (o : option Q) : Prop := valid_index (e_shape v) idx /\ nth_error (e_data v) (flat_pos (e_shape v) idx) = Some o.
(** dimensions that stand for several variables: their names, where they are, and what is written between the name of a variable and an index *)
Definition extra_dims : list (string * nat * string) :=
  [("class", 2, "_CLASSNUM_"); ("aerosol_components", 2, "_AEROSOL_COMPONENTSNUM_"); ("band", 0, "_BANDNUM_"); ("VNS_band", 0, "_BANDNUM_"); ("background", 1, "_BACKGROUNDNUM_")]%string.
Definition is_extra (d : str) : Prop := exists n p mk, In (n, p, mk) extra_dims /\ d = lit n.
Definition no_extra (v : evar) : Prop := Forall (fun d => ~ is_extra d) (e_dims v).
(** s is written with a marker *)
Definition marked (s : str) (mk : string) : Prop := exists a b, s = a ++ lit mk ++ b.
(** how variable n is asked for: by its name, which means index 0, or with one marker and one digit, the index *)
Definition asked_as (s n : str) (k : nat) : Prop :=
  (s = n /\ k = 0 /\ forall d p mk, In (d, p, mk) extra_dims -> ~ marked s mk) \/
  (exists d p mk, In (d, p, mk) extra_dims /\ k < 10 /\ s = n ++ lit mk ++ [ascii_of_nat (48 + k)] /\ forall d' p' mk', In (d', p', mk') extra_dims -> marked s mk' -> mk' = mk).
(** variable v has pixels of shape dims: it has no extra dimension, or one, in its place, with index k in it *)
Definition pixels (v : evar) (k : nat) (dims : list nat) : Prop :=
  (no_extra v /\ dims = e_shape v) \/
  (exists n p mk d1 d2 s1 s2 e, In (n, p, mk) extra_dims /\ e_dims v = d1 ++ lit n :: d2 /\ length d1 = p /\ Forall (fun d => ~ is_extra d) (d1 ++ d2) /\
     e_shape v = s1 ++ e :: s2 /\ length s1 = p /\ k < e /\ dims = s1 ++ s2).
(** its value at pixel idx *)
Definition pixel (v : evar) (k : nat) (idx : list nat) (o : option Q) : Prop :=
  (no_extra v /\ element v idx o) \/ (exists n p mk i1 i2, In (n, p, mk) extra_dims /\ In (lit n) (e_dims v) /\ idx = i1 ++ i2 /\ length i1 = p /\ element v (i1 ++ k :: i2) o).
(** a coordinate's value at a pixel: its own element, or with one dimension less that of the row *)
Definition fits (c : evar) (dims : list nat) : Prop := e_shape c = dims \/ exists n m, dims = [n; m] /\ e_shape c = [n].
Definition at_pixel (c : evar) (dims idx : list nat) (o : option Q) : Prop :=
  (e_shape c = dims /\ element c idx o) \/ (exists n m i j, dims = [n; m] /\ e_shape c = [n] /\ idx = [i; j] /\ element c [i] o).
(** seconds since 2000-01-01 as days since 1600-01-01, which is 146097 days earlier *)
Definition of_2000 (x o : option Q) : Prop := match x, o with Some x, Some s => (s == 146097 + x / 86400)%Q | None, None => True | _, _ => False end.
(** the names of the positions *)
Definition position_in (files : list efile) (lo la : string) : Prop :=
  let all l := Forall (fun n : string => everywhere files (lit n)) l in
  all ["ScienceData/longitude"; "ScienceData/latitude"; "ScienceData/time"]%string /\ lo = "ScienceData/longitude"%string /\ la = "ScienceData/latitude"%string \/
  ~ all ["ScienceData/longitude"; "ScienceData/latitude"; "ScienceData/time"]%string /\ all ["ScienceData/ellipsoid_longitude"; "ScienceData/ellipsoid_latitude"; "ScienceData/time"]%string /\
    lo = "ScienceData/ellipsoid_longitude"%string /\ la = "ScienceData/ellipsoid_latitude"%string.
(** the heights *)
Definition height_in (files : list efile) (n : string) : Prop :=
  everywhere files (lit "ScienceData/height") /\ n = "ScienceData/height"%string \/
  ~ everywhere files (lit "ScienceData/height") /\ everywhere files (lit "ScienceData/sample_altitude") /\ n = "ScienceData/sample_altitude"%string.
(** the vertical position of a pixel, if there is one: the height, if it has the shape of the pixels; without heights the number of the column, if only the rows have a longitude and columns do not come with an extra dimension *)
Definition vertical (files : list efile) (f : efile) (lon v : evar) (dims idx : list nat) (z : list (option Q)) : Prop :=
  (exists n h, height_in files n /\ has f (lit n) h /\ ((e_shape h = dims /\ exists o, element h idx o /\ z = [o]) \/ (e_shape h <> dims /\ z = []))) \/
  ((forall n, ~ height_in files n) /\ ((e_shape lon <> dims /\ no_extra v /\ exists i j, idx = [i; j] /\ z = [Some (inject_Z (Z.of_nat j))]) \/ ((e_shape lon = dims \/ ~ no_extra v) /\ z = []))).
