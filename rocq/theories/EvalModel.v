(** Model of the evaluation of expressions over data: cis/evaluate.py:14-100 (the history text, 97-126, is not modelled). *)
From Coq Require Import String.
From Verif Require Import Base PyStr UngrModel RdrModel.
From Coq Require Import QArith List.
Import ListNotations.
Open Scope string_scope. Open Scope list_scope. Open Scope nat_scope. Notation length := List.length.

(** Python dictionaries in insertion order *)
Section Dict.
  Context {V : Type}.
  Fixpoint dict_get (d : list (str * V)) (k : str) : option V :=
    match d with [] => None | (k', v) :: d => if str_eqb k' k then Some v else dict_get d k end.
  Fixpoint dict_set (d : list (str * V)) (k : str) (v : V) : list (str * V) :=
    match d with [] => [(k, v)] | (k', v') :: d => if str_eqb k' k then (k', v) :: d else (k', v') :: dict_set d k v end.
End Dict.

(** What the built-in function [eval] is given: the names of the modules and of the built-in functions, and the arrays. *)
Record namespace := mkNs { ns_modules : list str; ns_builtins : list str; ns_locals : list (str * array) }.
(** What it gives: an array (a numpy scalar is an array of shape ()), or something without the attribute [shape] *)
Inductive value := VArray (a : array) | VOther.

(** 19-21 *)
Definition SAFE_BUILTINS : list str := map lit ["abs"; "all"; "any"; "bool"; "divmod"; "enumerate"; "filter"; "int"; "len"; "map"; "max";
  "min"; "pow"; "range"; "reversed"; "round"; "sorted"; "sum"; "zip"].
Definition SAFE_MODULES : list str := [lit "numpy"].

(** '__' in expr, 35 *)
Fixpoint double_underscore (s : str) : bool :=
  match s with
  | a :: ((b :: _) as s') => (if ascii_dec a "_"%char then if ascii_dec b "_"%char then true else false else false) || double_underscore s'
  | _ => false
  end.
(** data_flattened of data and coordinates (ungridded_data.py:333-340; HeapModel shows when it is that of the data) *)
Definition flattened (a : array) : array := mkArr [length (a_vals a)] (a_vals a).
(** 42-48 *)
Definition local_arrays (data_list : list dobj) : list (str * array) :=
  fold_left (fun d var => dict_set d (alias_of var) (if i_gridded (o_item var) then o_arr var else flattened (o_arr var))) data_list [].

(** The data object made.  Its standard name is None and its long name is a text holding the expression (71-72). *)
Record made := mkMade { m_name : str; m_units : str; m_attributes : list (str * str); m_gridded : bool; m_coords : list (str * array); m_arr : array }.
(** make_new_with_same_coordinates with flatten=True: ungridded_data.py:502-532 (data and coordinates flattened), gridded_data.py:84-104 (flatten ignored) *)
Definition make_new_with_same_coordinates (sample : dobj) (a : array) (name units : str) : made :=
  if i_gridded (o_item sample) then mkMade name units [] true (o_coords sample) a
  else mkMade name units [] false (map (fun nc => (fst nc, flattened (snd nc))) (o_coords sample)) (flattened a).
(** add_attributes, ungridded_data.py:357-364: the dictionary's update.  (gridded_data.py:256-270 sets the reserved names as attributes of the cube: not modelled.) *)
Definition add_attributes (attributes : list (str * str)) (m : made) : made :=
  mkMade (m_name m) (m_units m) (fold_left (fun d kv => dict_set d (fst kv) (snd kv)) attributes (m_attributes m)) (m_gridded m) (m_coords m) (m_arr m).

(** [reduce(mul, shape)], 83: TypeError for the empty shape *)
Definition reduce_mul (shape : list nat) : res nat := match shape with [] => Raises TypeError | n :: s => Ok (fold_left Nat.mul s n) end.
(** _post_process, 59-94 (units that cf_units does not know raise ValueError: not modelled) *)
Definition post_process_result (data_list : list dobj) (result : value) (output_var units : option str) (attributes : option (list (str * str))) : res made :=
  let output_var := match output_var with Some v => v | None => lit "calculated_variable" end in
  let units := match units with Some u => u | None => lit "unknown" end in
  match data_list with
  | [] => Raises IndexError
  | sample_data :: _ =>
      let shape := a_shape (o_arr sample_data) in
      match (if i_gridded (o_item sample_data) then Ok shape else match reduce_mul shape with Ok n => Ok [n] | Raises e => Raises e end) with
      | Raises e => Raises e
      | Ok sample_shape =>
          match result with
          | VOther => Raises AttributeError
          | VArray a => if list_eq_dec Nat.eq_dec sample_shape (a_shape a)
                        then let data := make_new_with_same_coordinates sample_data a output_var units in
                             Ok (match attributes with Some at_ => add_attributes at_ data | None => data end)
                        else Raises EvaluationError
          end
      end
  end.
(** evaluate, 23-57; [pyeval] is the built-in [eval] *)
Definition evaluate (pyeval : namespace -> str -> res value) (data_list : list dobj) (expr : str) (output_var units : option str) (attributes : option (list (str * str))) : res made :=
  if double_underscore expr then Raises EvaluationError
  else match pyeval (mkNs SAFE_MODULES SAFE_BUILTINS (local_arrays data_list)) expr with
       | Raises NameError => Raises EvaluationError
       | Raises ValueError => Raises EvaluationError
       | Raises e => Raises e
       | Ok result => post_process_result data_list result output_var units attributes
       end.
