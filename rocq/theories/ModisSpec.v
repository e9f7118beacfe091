(** Specification for C45: the k-th slice. *)
From Verif Require Import Base QBase IndexSpec ModisModel.
From Coq Require Import List.
Import ListNotations.
Open Scope list_scope. Open Scope nat_scope.

(** a file as opened: dimensions lead x rows x columns, all of the variable there, nothing selected *)
Definition file (lead : list nat) (s : sds) : Prop :=
  exists rows columns, s_dims s = lead ++ [rows; columns] /\ length (s_values s) = cells (s_dims s) /\ s_start s = None /\ s_count s = None.
Definition slice_size (lead : list nat) (s : sds) : nat := cells (skipn (length lead) (s_dims s)).
(** the k-th slice of one file is the k-th block of rows x columns values; that of all files, one after the other *)
Definition file_slice (lead : list nat) (k : nat) (s : sds) : list Z := firstn (slice_size lead s) (skipn (k * slice_size lead s) (s_values s)).
Definition slice (lead : list nat) (k : nat) (var : list sds) : list Z := flat_map (file_slice lead k) var.
