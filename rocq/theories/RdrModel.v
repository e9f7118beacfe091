(** Model of reading lists of variables and datagroups: cis/data_io/data_reader.py:67-181. *)
From Verif Require Import Base PyStr UngrModel FileListModel ParseModel.
From Coq Require Import QArith.
From Coq Require Import List.
Import ListNotations.
Open Scope nat_scope.

(** An array: its shape and its values in row-major order (None: a missing value). *)
Record array := mkArr { a_shape : list nat; a_vals : list (option Q) }.
(** A data object, as far as reading and evaluating are concerned: its variable name, the alias set on it (None: not set), the files
    set on it, its kind and the shapes of its coordinates ([o_item], the part [append] looks at), the values of its coordinates and its data.
    A reader that gives a list for one variable (MODIS L2 with three dimensions) is not modelled here. *)
Record dobj := mkObj { o_var : str; o_alias : option str; o_files : list str; o_item : item; o_coords : list (str * array); o_arr : array }.
(** common_data.py:25-38: the alias, or the variable name if none was set *)
Definition alias_of (o : dobj) : str := match o_alias o with Some a => a | None => o_var o end.
(** data_reader.py:91 and 94: the attribute [filenames], the setter of [alias] (common_data.py:40-47) *)
Definition set_files (fs : list str) (o : dobj) : dobj := mkObj (o_var o) (o_alias o) fs (o_item o) (o_coords o) (o_arr o).
Definition set_alias (a : str) (o : dobj) : dobj := mkObj (o_var o) (Some a) (o_files o) (o_item o) (o_coords o) (o_arr o).

(** What the reader is given at its construction (data_reader.py:53-65) and [fnmatch.fnmatch name pattern]. *)
Record reader := mkReader {
  r_get_data : list str -> str -> option str -> res dobj;
  r_get_vars : list str -> option str -> res (list str);
  r_fnmatch : str -> str -> bool
}.

(** _expand_wildcards, 102-128.  The variables of the files are asked for anew for every wildcard (line 113 resets the cache). *)
Fixpoint expand_each (r : reader) (filenames : list str) (product : option str) (variables : list str) : res (list str) :=
  match variables with
  | [] => Ok []
  | variable :: rest =>
      match (if has_wildcard variable
             then match r_get_vars r filenames product with
                  | Ok file_variables => Ok (filter (fun n => r_fnmatch r n variable) file_variables)
                  | Raises e => Raises e end
             else Ok [variable]) with
      | Raises e => Raises e
      | Ok here => match expand_each r filenames product rest with Ok more => Ok (here ++ more) | Raises e => Raises e end
      end
  end.
Definition expand_wildcards (r : reader) (variables filenames : list str) (product : option str) : res (list str) :=
  match expand_each r filenames product variables with
  | Raises e => Raises e
  | Ok [] => Raises ValueError
  | Ok valid_vars => Ok valid_vars
  end.

(** CommonDataList.append on the objects: UngrModel.list_append decides *)
Definition obj_append (gridded : bool) (l : list dobj) (x : dobj) : res (list dobj) :=
  match list_append gridded (map o_item l) (o_item x) with Ok _ => Ok (l ++ [x]) | Raises e => Raises e end.

(** the loop, 88-99; [data_list] is None until the first object decides its kind *)
Fixpoint read_loop (r : reader) (filenames : list str) (product : option str) (aliases : option (list str)) (idx : nat)
    (variables : list str) (data_list : option (bool * list dobj)) : res (option (bool * list dobj)) :=
  match variables with
  | [] => Ok data_list
  | variable :: rest =>
      match r_get_data r filenames variable product with
      | Raises e => Raises e
      | Ok raw =>
          let var_data := set_files filenames raw in
          match (match aliases with
                 | None => Ok var_data
                 | Some als => match nth_error als idx with Some a => Ok (set_alias a var_data) | None => Raises ValueError end
                 end) with
          | Raises e => Raises e
          | Ok var_data =>
              let gl := match data_list with Some gl => gl | None => (i_gridded (o_item var_data), []) end in
              match obj_append (fst gl) (snd gl) var_data with
              | Raises e => Raises e
              | Ok l => read_loop r filenames product aliases (S idx) rest (Some (fst gl, l))
              end
          end
      end
  end.
(** read_data_list, 67-100, given lists (listify, 82-83); an empty list of aliases counts as none (84). *)
Definition read_data_list (r : reader) (filenames variables : list str) (product : option str) (aliases : option (list str)) : res (list dobj) :=
  let aliases := match aliases with Some [] => None | _ => aliases end in
  match expand_wildcards r variables filenames product with
  | Raises e => Raises e
  | Ok variables =>
      match read_loop r filenames product aliases 0 variables None with
      | Raises e => Raises e
      | Ok None => Raises AssertionError
      | Ok (Some gl) => Ok (snd gl)
      end
  end.

(** A datagroup: the dictionary of 'filenames', 'variables', and perhaps 'product' and 'aliases'. *)
Record datagroup := mkGroup { g_files : list str; g_vars : list str; g_product : option str; g_aliases : option (list str) }.
(** read_single_datagroup, 155-181 *)
Definition read_single_datagroup (r : reader) (g : datagroup) : res (list dobj) := read_data_list r (g_files g) (g_vars g) (g_product g) (g_aliases g).
(** read_datagroups, 130-153: a plain list, extended with what each group gives *)
Fixpoint read_datagroups (r : reader) (gs : list datagroup) : res (list dobj) :=
  match gs with
  | [] => Ok []
  | g :: gs => match read_single_datagroup r g with
               | Raises e => Raises e
               | Ok l => match read_datagroups r gs with Ok more => Ok (l ++ more) | Raises e => Raises e end
               end
  end.
(** read_data, cis/__init__.py:27-44 (the file names already expanded): the only variable *)
Definition read_data (r : reader) (filenames : list str) (variable : str) (product : option str) : res dobj :=
  match read_data_list r filenames [variable] product None with
  | Raises e => Raises e
  | Ok l => if 1 <? length l then Raises ValueError else match l with o :: _ => Ok o | [] => Raises IndexError end
  end.
(** parse.py:714-749 on datagroups: the specifications become variables and aliases (ParseModel.set_aliases); files and product stay *)
Definition with_aliases (gs : list datagroup) : res (list datagroup) :=
  match set_aliases (map g_vars gs) with
  | Raises e => Raises e
  | Ok r => Ok (map (fun gr : datagroup * (list str * list str) => mkGroup (g_files (fst gr)) (fst (snd gr)) (g_product (fst gr)) (Some (snd (snd gr)))) (combine gs r))
  end.
