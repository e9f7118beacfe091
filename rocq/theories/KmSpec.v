(** Specification for C83: where the pixels of a MODIS L2 variable are. *)
From Coq Require Import String.
From Verif Require Import Base PyStr QBase UngrModel KmModel.
From Coq Require Import List.
Import ListNotations.
Open Scope string_scope. Open Scope list_scope. Open Scope nat_scope. Notation length := List.length.

(** pixel r of an axis made [factor] times finer is j pixels after the middle of the old pixel k of n *)
Definition lies (factor n r k j : nat) : Prop := r = factor / 2 + factor * k + j /\ j < factor /\ k < n /\ (j = 0 \/ S k < n).
(** the number at j / f of the way from x to y *)
Definition between (f j : nat) (x y : Q) : Q := (x + inject_Z (Z.of_nat j) / inject_Z (Z.of_nat f) * (y - x))%Q.
(** an array has a number for each cell *)
Definition full (g : grid) : Prop := length (g_cells g) = g_n g * g_m g.
(** all arrays of a file have one shape, of m columns *)
Definition one_shape (m : nat) (f : kfile) : Prop := let same g := full g /\ g_m g = m /\ g_n g = g_n (k_var f) in same (k_lat f) /\ same (k_lon f) /\ same (k_time f) /\ same (k_var f).
(** what stands in cell i of an array, if it is not masked *)
Definition there (g : grid) (i : nat) (o : option Q) : Prop := exists x b, nth_error (g_cells g) i = Some (x, b) /\ o = if b then None else Some x.
(** the cells of all files *)
Definition all_cells (files : list kfile) : list (kfile * nat) := flat_map (fun f => map (pair f) (seq 0 (g_n (k_var f) * g_m (k_var f)))) files.
(** seconds since 1993-01-01 as days since 1600-01-01, which is 143541 days earlier *)
Definition of_1993 (x o : option Q) : Prop := match x, o with Some x, Some s => (s == 143541 + x / 86400)%Q | None, None => True | _, _ => False end.
(** a cell's own latitude, longitude, time and value *)
Definition own_cell (fi : kfile * nat) (r : list (option Q) * option Q) : Prop :=
  exists la lo x t, fst r = [la; lo; t] /\ there (k_lat (fst fi)) (snd fi) la /\ there (k_lon (fst fi)) (snd fi) lo /\ there (k_time (fst fi)) (snd fi) x /\ of_1993 x t /\ there (k_var (fst fi)) (snd fi) (snd r).
(** arrays of one shape, but the variable may be finer *)
Definition placed (m : nat) (f : kfile) : Prop := let same g := full g /\ g_m g = m /\ g_n g = g_n (k_time f) in same (k_lat f) /\ same (k_lon f) /\ same (k_time f).
