(** Specification for C40, gridded data. *)
From Verif Require Import Base QBase UngrModel GViewModel.
(** the standard coordinates of a point, by number *)
Definition field (k : nat) (p : hyperpoint) : option Q :=
  match k with 0 => hp_lat p | 1 => hp_lon p | 2 => hp_alt p | 3 => hp_pres p | 4 => hp_time p | _ => None end.
(** the point at an index: the coordinate along every dimension in its own field, no other coordinates, and the value *)
Definition grid_point (g : gview) (idx : list nat) (p : hyperpoint) : Prop :=
  (forall dim k pts, nth_error (g_coords g) dim = Some (Some (k, pts)) -> field k p = nth_error pts (nth dim idx 0)) /\
  (forall k, (forall dim pts, nth_error (g_coords g) dim <> Some (Some (k, pts))) -> field k p = None) /\
  hp_val p = [g_data g idx].
(** every dimension has its own standard coordinate, with one point per index *)
Definition standard_grid (g : gview) : Prop :=
  Forall2 (fun n c => exists k pts, c = Some (k, pts) /\ k < 5 /\ length pts = n) (g_shape g) (g_coords g) /\
  (forall d e k p q, nth_error (g_coords g) d = Some (Some (k, p)) -> nth_error (g_coords g) e = Some (Some (k, q)) -> d = e).
