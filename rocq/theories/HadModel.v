(** The products HadGEM_CONVSH and HadGEM_PP: cis/data_io/products/HadGEM.py. *)
From Coq Require Import String.
From Verif Require Import Base PyStr QBase DateModel FileListModel L3Model NcgModel.
From Coq Require Import List Ascii.
Import ListNotations.
Open Scope string_scope. Open Scope list_scope. Open Scope nat_scope. Notation length := List.length.

(** iris.util.squeeze (contract): the dimensions of length one go; their coordinates, and what others have over them, stay as scalars *)
Definition longer (n : nat) : bool := negb (n =? 1).
Definition kept (shape : list nat) : list nat := filter longer shape.
Fixpoint expand (shape i : list nat) : list nat :=
  match shape with
  | [] => []
  | n :: s => if longer n then match i with j :: i => j :: expand s i | [] => 0 :: expand s [] end else 0 :: expand s i
  end.
Definition new_number (shape : list nat) (d : nat) : nat := length (kept (firstn d shape)).
Definition squeeze_aux (shape : list nat) (a : auxc) : auxc :=
  mkAux (x_std a) (x_long a) (x_var a) (x_units a) (map (new_number shape) (filter (fun d => longer (nth d shape 1)) (x_dims a))) (kept (x_shape a)) (fun i => x_at a (expand (x_shape a) i)).
Definition scalar_of (k : dimc) : auxc := mkAux (k_std k) (k_long k) (k_var k) (k_units k) [] [] (fun _ => nth_error (k_points k) 0).
Fixpoint long_dims (shape : list nat) (ks : list (option dimc)) : list (option dimc) :=
  match shape, ks with n :: s, k :: ks => if longer n then k :: long_dims s ks else long_dims s ks | _, _ => [] end.
Fixpoint scalars (shape : list nat) (ks : list (option dimc)) : list auxc :=
  match shape, ks with n :: s, k :: ks => (if longer n then [] else match k with Some k => [scalar_of k] | None => [] end) ++ scalars s ks | _, _ => [] end.
Definition squeeze (c : gcube) : gcube :=
  mkGcube (q_var c) (q_std c) (q_long c) (q_units c) (kept (q_shape c)) (long_dims (q_shape c) (q_dims c)) (fun i => q_at c (expand (q_shape c) i)) (map (squeeze_aux (q_shape c)) (q_aux c) ++ scalars (q_shape c) (q_dims c)) (q_atts c).
(** HadGEM_CONVSH.load_multiple_files_callback, 14-22 *)
Definition convsh_several (c : gcube) : res gcube :=
  bind (pop (lit "history") (q_atts c)) (fun r => Ok (squeeze (mkGcube (q_var c) (q_std c) (q_long c) (q_units c) (q_shape c) (q_dims c) (q_at c) (q_aux c) (snd r)))).

(** names of coordinates: Coord.name() *)
Definition coord_name (std long var : option str) : str :=
  match (if full std then std else if full long then long else if full var then var else None) with Some s => s | None => lit "unknown" end.
Definition hybrid_dim (k : option dimc) : bool := match k with Some k => str_eqb (coord_name (k_std k) (k_long k) (k_var k)) (lit "Hybrid height") | None => false end.
Definition hybrid_aux (a : auxc) : bool := str_eqb (coord_name (x_std a) (x_long a) (x_var a)) (lit "Hybrid height").
Definition t_dim (k : option dimc) : bool := match k with Some k => is (k_long k) (lit "t") | None => false end.
Definition t_aux (a : auxc) : bool := is (x_long a) (lit "t").
(** cube.coord: exactly one coordinate like that, else CoordinateNotFoundError *)
Definition only_one (c : gcube) (p : option dimc -> bool) (q : auxc -> bool) : bool := length (filter p (q_dims c)) + length (filter q (q_aux c)) =? 1.

Section Had.
Variable together : list gcube -> option gcube.
Variable std_time : str -> Q -> option Q.
(** cf_units: how numbers in these units are converted to those; None: they cannot be (ValueError) *)
Variable unit_to : str -> str -> option (Q -> Q).
(** 62-67; the attribute formula of the coordinate is not modelled *)
Definition metres_dim (k : option dimc) : res (option dimc) :=
  match k with
  | Some d => if hybrid_dim k then match unit_to (k_units d) (lit "m") with Some f => Ok (Some (mkDimc (k_std d) (k_long d) (k_var d) (lit "m") (map f (k_points d)))) | None => Raises ValueError end else Ok k
  | None => Ok k
  end.
Definition metres_aux (a : auxc) : res auxc :=
  if hybrid_aux a then match unit_to (x_units a) (lit "m") with Some f => Ok (mkAux (x_std a) (x_long a) (x_var a) (lit "m") (x_dims a) (x_shape a) (fun i => option_map f (x_at a i))) | None => Raises ValueError end else Ok a.
Definition hybrid_in_metres (c : gcube) : res gcube :=
  if only_one c hybrid_dim hybrid_aux then
    bind (map_res metres_dim (q_dims c)) (fun ks => bind (map_res metres_aux (q_aux c)) (fun xs =>
    Ok (mkGcube (q_var c) (q_std c) (q_long c) (q_units c) (q_shape c) ks (q_at c) xs (q_atts c))))
  else Ok c.
(** 69-72 *)
Definition time_dim_of (k : option dimc) : option dimc := match k with Some d => if t_dim k then Some (mkDimc (Some (lit "time")) (k_long d) (k_var d) (k_units d) (k_points d)) else k | None => k end.
Definition time_aux_of (a : auxc) : auxc := if t_aux a then mkAux (Some (lit "time")) (x_long a) (x_var a) (x_units a) (x_dims a) (x_shape a) (x_at a) else a.
Definition t_is_time (c : gcube) : gcube :=
  if only_one c t_dim t_aux then mkGcube (q_var c) (q_std c) (q_long c) (q_units c) (q_shape c) (map time_dim_of (q_dims c)) (q_at c) (map time_aux_of (q_aux c)) (q_atts c) else c.
(** _create_cube, 24-76 and gridded_NetCDF.py:97-134: iris calls the callback with every cube of the files, whatever its name; then the variable is looked for among them.
    For heights and pressures the cubes are loaded again, without the callback.  The callbacks do not raise ValueError. *)
Definition create_cube_by (callback edit : gcube -> res gcube) (raw : list gcube) (variable : option str) : res gcube :=
  bind (map_res callback raw) (fun cs =>
  match load_cube together cs (match variable with Some v => named_cube v | None => fun _ => true end) with
  | Ok c => bind (edit c) (add_available_aux_coords together raw)
  | Raises ValueError => Raises InvalidVariableError
  | Raises e => Raises e
  end).
(** gridded_NetCDF.py:72-92 *)
Definition create_data_object_by (callback edit : gcube -> res gcube) (raw : list gcube) (variable : option str) : res gcube :=
  bind (create_cube_by callback edit raw variable) (fun c => match convert_cube_time_coord std_time c with Raises CoordinateNotFoundError => Ok c | r => r end).
Definition convsh (several : bool) (raw : list gcube) (variable : option str) : res gcube :=
  create_data_object_by (if several then convsh_several else fun c => Ok c) (fun c => bind (hybrid_in_metres c) (fun c => Ok (t_is_time c))) raw variable.
(** 78-87 *)
Definition convsh_names (loaded : list gcube) : list str := nodup str_eq_dec (map cube_name loaded).

(** HadGEM_PP, 101-121.  Cube.var_name (contract): ValueError for an empty text or one with white space *)
Definition white (c : ascii) : bool := existsb (Ascii.eqb c) [" "; "009"; "010"; "011"; "012"; "013"]%char.
Definition var_name_ok (s : str) : bool := match s with [] => false | _ => negb (existsb white s) end.
Definition with_var (c : gcube) (s : str) : gcube := mkGcube (Some s) (q_std c) (q_long c) (q_units c) (q_shape c) (q_dims c) (q_at c) (q_aux c) (q_atts c).
Definition blanks (s : str) : str := map (fun c => if Ascii.eqb c " " then "_"%char else c) s.
Definition pp_several (c : gcube) : gcube := if var_name_ok (cube_name c) then with_var c (cube_name c) else c.
Definition pp_single (c : gcube) : gcube :=
  if var_name_ok (cube_name c) then with_var c (cube_name c) else if var_name_ok (blanks (cube_name c)) then with_var c (blanks (cube_name c)) else c.
Definition pp (several : bool) (raw : list gcube) (variable : option str) : res gcube :=
  create_data_object_by (fun c => Ok (if several then pp_several c else pp_single c)) (fun c => Ok c) raw variable.
End Had.
