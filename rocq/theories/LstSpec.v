(** Specification for C89: which variables a file has. *)
From Coq Require Import String.
From Verif Require Import Base PyStr LstModel.
From Coq Require Import List Ascii.
Import ListNotations.
Open Scope string_scope. Open Scope list_scope. Open Scope nat_scope. Notation length := List.length.

(** the variable [name], with these dimensions, is in the group at the end of the path *)
Inductive located : group -> list str -> str -> list str -> Prop :=
| here vars subs name dims : In (name, dims) vars -> located (Group vars subs) [] name dims
| below vars subs k g path name dims : In (k, g) subs -> located g path name dims -> located (Group vars subs) (k :: path) name dims.
(** the full name: group/group/.../variable *)
Fixpoint full_name (path : list str) (name : str) : str := match path with [] => name | k :: rest => k ++ lit "/" ++ full_name rest name end.
(** NetCDF's rules: no name has a slash, and within a group the names of the variables differ, and those of the groups *)
Definition plain (s : str) : Prop := ~ In "/"%char s.
Inductive lawful : group -> Prop :=
| lawful_group vars subs : NoDup (map fst vars) -> (forall n d, In (n, d) vars -> plain n) -> NoDup (map fst subs) -> (forall k g, In (k, g) subs -> plain k) -> (forall k g, In (k, g) subs -> lawful g) -> lawful (Group vars subs).
Definition ends (suffix s : str) : Prop := exists p, s = p ++ suffix.
(** the names a file has for the user: of the NetCDF variables over the dimensions the product knows; of HDF4, the datasets or the tables *)
Definition asks (t : option str) (kind : str) : Prop := match t with None => kind = lit "sd" | Some t => lower t = kind end.
Inductive offers (valid : option (list str)) (t : option str) : str * content -> str -> Prop :=
| offers_netcdf file root path name dims : ends (lit ".nc") file \/ ends (lit ".h5") file -> located root path name dims -> (forall l, valid = Some l -> forall d, In d dims -> In d l) -> offers valid t (file, NetCDF root) (full_name path name)
| offers_sd file l v n : ends (lit ".hdf") file -> asks t (lit "sd") -> In n l -> offers valid t (file, HDF4 (mkHdf (Some l) v)) n
| offers_vd file l s n : ends (lit ".hdf") file -> asks t (lit "vd") -> In n l -> offers valid t (file, HDF4 (mkHdf s (Some l))) n.
Inductive usable (t : option str) : str * content -> Prop :=
| usable_netcdf file root : ends (lit ".nc") file \/ ends (lit ".h5") file -> lawful root -> usable t (file, NetCDF root)
| usable_hdf file h : ends (lit ".hdf") file -> asks t (lit "sd") \/ asks t (lit "vd") -> usable t (file, HDF4 h).

(** a dataset that lies beside the latitudes of its own file; one that lies on the grid of heights *)
Definition beside (field : str) (f : list (str * list nat)) (n : str) : Prop := exists s, In (field, s) f /\ In (n, s) f.
Definition level (f : list (str * nat) * list (str * list nat)) (n : str) : Prop :=
  (exists r, In (lit "Latitude", r) (fst f) /\ In (n, r) (fst f)) \/ beside (lit "Height") (snd f) n.
Definition over_altitudes (altitudes : nat) (f : list (str * list nat)) (n : str) : Prop := exists k rest, In (lit "Latitude", k :: rest) f /\ In (n, [k; altitudes]) f.
(** names of a file are given once *)
Definition once {A} (f : list (str * A)) : Prop := NoDup (map fst f).
(** variables are printed one after the other, until one cannot be read *)
Inductive prints (data : str -> res str) : list str -> list str -> option exn -> Prop :=
| printed_all : prints data [] [] None
| printed v rest s out e : data v = Ok s -> prints data rest out e -> prints data (v :: rest) (s :: out) e
| stopped v rest e : data v = Raises e -> prints data (v :: rest) [] (Some e).
