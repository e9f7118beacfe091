(** GriddedHyperPointView: cis/data_io/hyperpoint_view.py:191-305. *)
From Verif Require Import Base QBase DateModel IndexModel UngrModel.
Open Scope nat_scope.

(** The shape of the data; for every dimension the standard coordinate along it, if any: which one (0 latitude .. 4 time) and its points
    (__init__, 195-217: coords and dims_to_std_coords_map); the value at an index, None for a masked one. *)
Record gview := mkG { g_shape : list nat; g_coords : list (option (nat * list Q)); g_data : list nat -> option Q }.
(** 241-246: the values of the standard coordinates, and the number of None values appended for dimensions without one *)
Fixpoint coord_values (coords : list (option (nat * list Q))) (idx : list nat) (val : list (option Q)) (extra : nat) : res (list (option Q) * nat) :=
  match idx, coords with
  | [], _ => Ok (val, extra)
  | _ :: _, [] => Raises IndexError
  | i :: idx, Some (k, pts) :: coords => match nth_error pts i with Some x => coord_values coords idx (set_nth k (Some x) val) extra | None => Raises IndexError end
  | _ :: idx, None :: coords => coord_values coords idx val (S extra)
  end.
(** self.data[indices]: one value, or the values of a sub-array when the tuple is too short (flattened here) *)
Definition data_values (g : gview) (idx : list nat) : list (option Q) := map (fun rest => g_data g (idx ++ rest)) (index_iterator (skipn (length idx) (g_shape g))).
(** 219-249 with a tuple.  HyperPoint takes six arguments: TypeError when None values were appended. *)
Definition g_get (g : gview) (idx : list nat) : res hyperpoint :=
  bind (coord_values (g_coords g) idx (repeat None 5) 0) (fun ve =>
  if (length (g_shape g) <? length idx) || existsb (fun b => b) (map (fun ij : nat * nat => snd ij <=? fst ij) (combine idx (g_shape g))) then Raises IndexError
  else if 0 <? snd ve then Raises TypeError
  else let val k := nth k (fst ve) None in Ok (mkHP (val 0) (val 1) (val 2) (val 3) (val 4) (data_values g idx))).
(** 219-249 with a flat index *)
Definition g_get_flat (g : gview) (i : nat) : res hyperpoint := match unravel_index i (g_shape g) with Ok idx => g_get g idx | Raises _ => Raises IndexError end.
(** 267-274 *)
Definition g_iter_all (g : gview) : res (list hyperpoint) := map_res (g_get g) (index_iterator (g_shape g)).
(** 276-285 *)
Definition g_iter_non_masked (g : gview) : res (list hyperpoint) := map_res (g_get g) (filter (fun idx => negb (is_missing (g_data g idx))) (index_iterator (g_shape g))).
(** 287-300 *)
Definition g_enumerate_non_masked (g : gview) : res (list (nat * hyperpoint)) :=
  map_res (fun i => bind (g_get_flat g i) (fun p => Ok (i, p)))
    (filter (fun i => match unravel_index i (g_shape g) with Ok idx => negb (is_missing (g_data g idx)) | Raises _ => true end) (seq 0 (num_iterations (g_shape g)))).
(** __iter__, 257-265, of a view over all points: the sizes of the coordinates that have more than one point *)
Definition g_iter (g : gview) : res (list hyperpoint) :=
  map_res (g_get g) (index_iterator (filter (fun n => 1 <? n) (flat_map (fun c : option (nat * list Q) => match c with Some (_, pts) => [length pts] | None => [] end) (g_coords g)))).
