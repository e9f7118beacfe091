(** Specification for C95: the variable a name stands for. *)
From Coq Require Import String.
From Verif Require Import Base PyStr FileListModel LstModel LstSpec HdfModel HdfSpec NamModel.
From Coq Require Import List Ascii.
Import ListNotations.
Open Scope string_scope. Open Scope list_scope. Open Scope nat_scope. Notation length := List.length.

(** the variable is at the end of the path that the name spells *)
Definition names (root : group) (n : str) (dims : list str) : Prop := exists path name, located root path name dims /\ n = full_name path name.
(** the path leads to that group *)
Inductive leads : group -> list str -> group -> Prop :=
| there g : leads g [] g
| via vars subs k g path h : In (k, g) subs -> leads g path h -> leads (Group vars subs) (k :: path) h.
(** what the files have under a name, file by file: a dataset; a table *)
Inductive found {F V} (look : F -> option V) : list F -> list V -> Prop :=
| found_none : found look [] []
| found_skip f fs vs : look f = None -> found look fs vs -> found look (f :: fs) vs
| found_one f fs v vs : look f = Some v -> found look fs vs -> found look (f :: fs) (v :: vs).
Definition stored {V} (d : list (str * list V)) (x : str) (vs : list V) : Prop := dict_get d x = match vs with [] => None | _ => Some vs end.
Definition in_file {SD VD} (f : hfile SD VD) (x : str) : Prop := dataset (h_sd f) x <> None \/ dataset (h_vd f) x <> None.
(** the table of a name counts only where there is no dataset of that name *)
Definition own_table {SD VD} (x : str) (f : hfile SD VD) : option VD := match dataset (h_sd f) x with Some _ => None | None => dataset (h_vd f) x end.
Definition asked_once (x : str) (l : list str) : Prop := count_occ (list_eq_dec ascii_dec) l x = 1.
(** which classes of handles can be read, and how *)
Inductive readable : str -> reader -> Prop :=
| r_sds : readable (lit "SDS") ReadSD | r_hdfsds : readable (lit "HDF_SDS") ReadSD | r_vds : readable (lit "VDS") ReadVD
| r_var : readable (lit "Variable") ReadNetCDF | r_mfvar : readable (lit "_Variable") ReadNetCDF.
