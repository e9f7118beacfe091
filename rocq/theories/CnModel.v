(** The choice of a method and the names of collocated data: GriddedData.sampled_from (cis/data_io/gridded_data.py:347-397), UngriddedData.sampled_from and UngriddedCoordinates.sampled_from
    (cis/data_io/ungridded_data.py:813-831, 1001-1025, 1213-1255), collocated_onto (cis/data_io/common_data.py:159-178, 403-422), collocate and get_kernel (cis/collocation/col.py),
    get_variable_details of the kernels and the metadata of the collocators' results (cis/collocation/col_framework.py:78-87, col_implementations.py:81-112, 172-175, 433-455, 690, 879-900).
    The values are those of C25, C68, C69 and C70: here, collocations whose values can be calculated.  Names that are None are empty texts. *)
From Coq Require Import String.
From Verif Require Import Base PyStr FileListModel ProdModel.
From Coq Require Import List QArith.
Import ListNotations.
Open Scope string_scope. Open Scope list_scope. Open Scope nat_scope. Notation length := List.length.

(** names, units and history of a variable *)
Record var := mkV { v_name : str; v_long : str; v_std : option str; v_units : str; v_history : list str }.
Definition details : Type := str * str * option str * str.
(** a kernel: the details of its outputs.  Kernel.get_variable_details, col_framework.py:78-87; moments.get_variable_details, col_implementations.py:437-455 *)
Record kernel := mkKernel { k_name : str; k_details : details -> list details }.
Definition one_output (d : details) : list details := [d].
Definition moments_outputs (d : details) : list details :=
  let '(name, long, std, units) := d in
  [(name, long, std, units); (name ++ lit "_std_dev", lit "Corrected sample standard deviation of " ++ long, None, units);
   (name ++ lit "_num_points", lit "Number of points used to calculate the mean of " ++ long, None, [])].
Definition moments : kernel := mkKernel (lit "moments") moments_outputs.
(** the kernels, in the order of their classes; col_implementations.py:365-586, 750-771 *)
Definition kclass (i : nat) (name : String.string) : pclass := mkClass i (lit name) 0 true [] (fun _ => false).
Definition leaf i name : ctree := Node (kclass i name) [].
Definition kernels : ctree :=
  Node (kclass 0 "Kernel")
    [Node (kclass 1 "AbstractDataOnlyKernel") [leaf 2 "mean"; leaf 3 "stddev"; leaf 4 "min"; leaf 5 "max"; leaf 6 "sum"; leaf 7 "moments"];
     Node (kclass 8 "nn_horizontal") [leaf 9 "nn_h"]; leaf 10 "nn_horizontal_only"; Node (kclass 11 "nn_altitude") [leaf 12 "nn_a"]; Node (kclass 13 "nn_pressure") [leaf 14 "nn_p"];
     Node (kclass 15 "nn_time") [leaf 16 "nn_t"]; leaf 17 "gridded_gridded_nn"; leaf 18 "gridded_gridded_li"].
Definition kernel_called (n : str) : kernel := if str_eqb n (lit "moments") then moments else mkKernel n one_output.
(** the kernel argument: absent, a name, a Kernel, or something else that is true *)
Inductive kernel_arg := KNone | KName (s : str) | KObject (k : kernel) | KThing.
(** get_kernel, col.py:46-63 with col_framework.py:244-285; no plugins *)
Definition choose_kernel (a : kernel_arg) : res kernel :=
  match a with
  | KNone | KName [] => Ok moments
  | KName n => match get_kernel (find_plugin_classes None kernels) (Some n) with Ok c => Ok (kernel_called (c_name c)) | Raises e => Raises e end
  | KObject k => Ok k
  | KThing => Raises ValueError
  end.

Section Collocation.
Context {V : Type}.
(** a limit as the user gives it (C53, C12); None: the limit None *)
Variable limit : str -> V -> res Q.
(** SepConstraintKdtree( **kwargs ), col_implementations.py:265-296: which limits it checks.  An argument it does not have is a TypeError *)
Definition limit_names : list str := map lit ["h_sep"; "a_sep"; "p_sep"; "t_sep"].
Fixpoint limits_of (kwargs : list (str * option V)) (names : list str) : res (list (str * Q)) :=
  match names with
  | [] => Ok []
  | n :: names => match dict_get kwargs n with
                  | Some (Some v) => bind (limit n v) (fun q => bind (limits_of kwargs names) (fun l => Ok ((n, q) :: l)))
                  | _ => limits_of kwargs names
                  end
  end.
Definition sep_constraint (kwargs : list (str * option V)) : res (list (str * Q)) :=
  if forallb (fun kv => existsb (str_eqb (fst kv)) limit_names) kwargs then limits_of kwargs limit_names else Raises TypeError.

Inductive way := Bin | Box (limits : list (str * Q)) | Linear | Nearest.
Inductive source := UData (d : var) (files : str) | UList (l : list var) | GData (d : var) (files : str) | GList (l : list var) | Coordinates (files : str) | SomethingElse.
Inductive place := Grid | Points | Positions.
(** gridded_data.py:366-392: gridded sample.  The kernel is None for gridded data *)
Definition plan_onto_grid (data : source) (how : str) (k : kernel_arg) (kwargs : list (str * option V)) : res (way * option kernel) :=
  match data with
  | UData _ _ | UList _ =>
    bind (if str_eqb how [] || str_eqb how (lit "bin") then Ok Bin else if str_eqb how (lit "box") then bind (sep_constraint kwargs) (fun l => Ok (Box l)) else Raises ValueError) (fun w =>
      bind (choose_kernel k) (fun k => Ok (w, Some k)))
  | GData _ _ | GList _ =>
    match k with
    | KNone => if str_eqb how [] || str_eqb how (lit "lin") then Ok (Linear, None) else if str_eqb how (lit "nn") then Ok (Nearest, None) else Raises ValueError
    | _ => Raises ValueError
    end
  | _ => Raises ValueError
  end.
(** ungridded_data.py:1232-1253 *)
Definition plan_onto_points (data : source) (how : str) (k : kernel_arg) (kwargs : list (str * option V)) : res (way * option kernel) :=
  match data with
  | UData _ _ | UList _ =>
    if existsb (str_eqb how) [[]; lit "box"] then bind (sep_constraint kwargs) (fun l => bind (choose_kernel k) (fun k => Ok (Box l, Some k))) else Raises ValueError
  | GData _ _ | GList _ =>
    if existsb (str_eqb how) [[]; lit "lin"; lit "nn"] then Ok (if str_eqb how (lit "nn") then Nearest else Linear, None) else Raises ValueError
  | _ => Raises ValueError
  end.
Definition plan (s : place) := match s with Grid => plan_onto_grid | _ => plan_onto_points end.

(** the names asked for: '' if none *)
Record asked := mkAsked { a_name : str; a_long : str; a_units : str }.
Definition or (a b : str) : str := match a with [] => b | _ => a end.
(** which standard names iris knows, and which units cf_units reads *)
Variable valid : str -> bool.
Variable readable : str -> bool.
(** set_standard_name_if_valid (C94) *)
Definition if_valid (s : option str) : option str := match s with Some s => if valid s then Some s else None | None => None end.
Definition details_of (d : var) : details := (v_name d, v_long d, v_std d, v_units d).
(** GeneralUngriddedCollocator, col_implementations.py:70-74, 104-109; Metadata's tidying of units is C94 *)
Definition onto_points_u (k : kernel) (d : var) : list var := map (fun '(n, l, s, u) => mkV n l (if_valid s) u []) (k_details k (details_of d)).
(** GriddedUngriddedCollocator, 172-175 *)
Definition onto_points_g (a : asked) (d : var) : list var := [mkV (or (a_name a) (v_name d)) (or (a_long a) (v_long d)) (if_valid (v_std d)) (or (a_units a) (v_units d)) []].
(** GeneralGriddedCollocator, 879-900: units that cannot be read leave those of the source (916-932) *)
Definition onto_grid_u (a : asked) (k : kernel) (d : var) : list var :=
  map (fun '(n, l, s, u) => mkV n l (if_valid s) (if readable u then u else v_units d) []) (k_details k (or (a_name a) (v_name d), or (a_long a) (v_long d), v_std d, or (a_units a) (v_units d))).
(** GriddedCollocator: iris' interpolation keeps names, units and attributes (contract) *)
Definition onto_grid_g (d : var) : list var := [d].
Definition variables (data : source) : list var := match data with UData d _ | GData d _ => [d] | UList l | GList l => l | _ => [] end.
(** the results of the collocators; with missing_data_for_missing_sample, gridded data onto UngriddedCoordinates ask these for their data: an AttributeError (gridded_interpolation.py:119, for the first variable) *)
Definition results (s : place) (mdfms : bool) (a : asked) (data : source) (k : option kernel) : res (list var) :=
  match s, k with
  | Grid, Some k => Ok (flat_map (onto_grid_u a k) (variables data))
  | Grid, None => match variables data with [] => Raises IndexError | l => Ok (flat_map onto_grid_g l) end
  | _, Some k => Ok (flat_map (onto_points_u k) (variables data))
  | Positions, None => match mdfms, variables data with true, _ :: _ => Raises AttributeError | _, l => Ok (flat_map (onto_points_g a) l) end
  | Points, None => Ok (flat_map (onto_points_g a) (variables data))
  end.
(** collocate, col.py:22-43: the history.  str() of lists of texts, of the collocator and of the kernel are parameters *)
Variable show_list : list str -> str.
Variable version : str.
Definition newline : str := ["010"%char].
Definition name_of (data : source) : str := match data with UData d _ | GData d _ => v_name d | UList l | GList l => show_list (map v_name l) | _ => lit "Unknown" end.
Definition files_of (data : source) : str := match data with UData _ f | GData _ f | Coordinates f => f | _ => lit "Unknown" end.
Definition history (sample_files : str) (data : source) (collocator_text kernel_text : str) : str :=
  lit "Collocated onto sampling from: " ++ sample_files ++ lit " " ++ newline ++ lit "using CIS version " ++ version ++ lit " " ++ newline ++ lit "variables: " ++ name_of data ++ lit " " ++ newline ++
  lit "with files: " ++ files_of data ++ lit " " ++ newline ++ lit "using collocator: " ++ collocator_text ++ lit " " ++ newline ++ lit "kernel: " ++ kernel_text.
Definition add_history (h : str) (v : var) : var := mkV (v_name v) (v_long v) (v_std v) (v_units v) (v_history v ++ [h]).
Variable texts : way -> option kernel -> str * str.
Definition collocate (s : place) (sample_files : str) (mdfms : bool) (a : asked) (data : source) (w : way) (k : option kernel) : res (list var) :=
  match results s mdfms a data k with
  | Ok l => Ok (map (add_history (history sample_files data (fst (texts w k)) (snd (texts w k)))) l)
  | Raises TypeError | Raises AttributeError => Raises CoordinateNotFoundError
  | Raises e => Raises e
  end.
Definition sampled_from (s : place) (sample_files : str) (data : source) (how : str) (k : kernel_arg) (mdfms : bool) (a : asked) (kwargs : list (str * option V)) : res (list var) :=
  bind (plan s data how k kwargs) (fun wk => collocate s sample_files mdfms a data (fst wk) (snd wk)).
(** the default of missing_data_for_missing_sample: gridded_data.py:347, ungridded_data.py:813, 1004 *)
Definition default_mdfms (s : place) : bool := match s with Positions => false | _ => true end.
(** collocated_onto, common_data.py:159-178, 403-422, with its default of missing_data_for_missing_sample, True; UngriddedCoordinates 1001-1002 *)
Definition collocated_onto (data : source) (s : place) (sample_files : str) (how : str) (k : kernel_arg) (mdfms : option bool) (a : asked) (kwargs : list (str * option V)) : res (list var) :=
  match data with
  | Coordinates _ => Raises NotImplementedError
  | SomethingElse => Raises AttributeError
  | _ => sampled_from s sample_files data how k (match mdfms with Some b => b | None => true end) a kwargs
  end.
End Collocation.
