(** The variables of files and the info command: cis/info.py, cis/cis_main.py (info_cmd), cis/parse.py (validate_info_args), cis/data_io/products/AProduct.py (get_variable_names, get_variables), cis/data_io/netcdf.py, cis/data_io/hdf.py,
    and get_variable_names of CALIOP, MODIS L2 and CloudSat. *)
From Coq Require Import String.
From Verif Require Import Base PyStr FileListModel ProdModel ParseModel.
From Coq Require Import List Ascii.
Import ListNotations.
Open Scope string_scope. Open Scope list_scope. Open Scope nat_scope. Notation length := List.length.

(** *** NetCDF, netcdf.py:25-99.  A group: its variables with the names of their dimensions, and its groups *)
Inductive group := Group (vars : list (str * list str)) (subs : list (str * group)).
Definition vars_of (g : group) : list (str * list str) := match g with Group v _ => v end.
Definition subs_of (g : group) : list (str * group) := match g with Group _ s => s end.
Definition vdict : Type := list (str * list str).
(** 68-72: the variables of a group, added under the path *)
Definition add_group (path : list str) (vars : vdict) (d : vdict) : vdict := fold_left (fun d v => dict_set d (join_on "/" (path ++ [fst v])) (snd v)) vars d.
(** get_variables_for_group, 60-75 *)
Fixpoint get_variables_for_group (g : group) (previous : list str) (d : vdict) : vdict :=
  match g with
  | Group _ subs =>
    (fix loop (subs : list (str * group)) (d : vdict) : vdict :=
       match subs with
       | [] => d
       | (k, sub) :: rest => loop rest (get_variables_for_group sub (previous ++ [k]) (add_group (previous ++ [k]) (vars_of sub) d))
       end) subs d
  end.
(** _get_all_fully_qualified_variables, 51-79 *)
Definition all_variables (root : group) : vdict := get_variables_for_group root [] (vars_of root).
(** get_netcdf_file_variables, 25-48; the names of the dimensions of the root *)
Definition remove_key (k : str) (d : vdict) : vdict := filter (fun kv => negb (str_eqb (fst kv) k)) d.
Definition netcdf_variables (exclude_coords : bool) (dims : list str) (root : group) : vdict :=
  if exclude_coords then fold_left (fun d k => remove_key k d) dims (all_variables root) else all_variables root.
(** remove_variables_with_non_spatiotemporal_dimensions, 82-99 *)
Definition spatiotemporal (valid : option (list str)) (d : vdict) : vdict :=
  match valid with None => d | Some names => filter (fun kv => forallb (fun dim => existsb (str_eqb dim) names) (snd kv)) d end.

(** *** HDF4: the datasets (SD) and tables (VD) of a file; None if they cannot be read (hdf_sd.py:24-35, hdf_vd.py:31-48: the error is logged) *)
Record hdf := mkHdf { h_sd : option (list str); h_vd : option (list str) }.
(** get_hdf4_file_variables, hdf.py:6-24 *)
Definition hdf4_variables (f : hdf) (data_type : option str) : res (option (list str) * option (list str)) :=
  match data_type with
  | None => Ok (h_sd f, None)
  | Some t => if str_eqb (lower t) (lit "sd") then Ok (h_sd f, None)
              else if str_eqb (lower t) (lit "vd") then Ok (None, h_vd f) else Raises ValueError
  end.
(** *** AProduct.get_variable_names, AProduct.py:70-97: the files with their names; a Dataset that cannot be opened: OSError.  The names as a set *)
Inductive content := NetCDF (root : group) | HDF4 (f : hdf) | Unreadable.
Definition or_empty (o : option (list str)) : list str := match o with Some l => l | None => [] end.
Definition file_names (valid : option (list str)) (f : str * content) (data_type : option str) : res (list str * option str) :=
  if ends_with (lit ".nc") (fst f) then match snd f with NetCDF g => Ok (map fst (spatiotemporal valid (netcdf_variables false [] g)), data_type) | _ => Raises OSError end
  else if ends_with (lit ".hdf") (fst f) then
    let t := match data_type with None => Some (lit "SD") | t => t end in
    bind (hdf4_variables (match snd f with HDF4 h => h | _ => mkHdf None None end) t) (fun sv => Ok (or_empty (fst sv) ++ or_empty (snd sv), t))
  else if ends_with (lit ".h5") (fst f) then match snd f with NetCDF g => Ok (map fst (spatiotemporal valid (netcdf_variables false [] g)), data_type) | _ => Raises OSError end
  else Raises TypeError.
Fixpoint base_names (valid : option (list str)) (files : list (str * content)) (data_type : option str) : res (list str) :=
  match files with
  | [] => Ok []
  | f :: rest => bind (file_names valid f data_type) (fun r => bind (base_names valid rest (snd r)) (fun l => Ok (fst r ++ l)))
  end.
Definition get_variable_names (valid : option (list str)) (files : list (str * content)) (data_type : option str) : res (list str) := bind (base_names valid files data_type) (fun l => Ok (nodup str_eq_dec l)).

(** *** CALIOP (caliop.py:24-46) and MODIS L2 (MODIS.py:205-220): the datasets of each file with their shapes; [altitudes]: how many altitudes the first CALIOP file has *)
Definition sdfile : Type := list (str * list nat).
Definition shape_eqb (a b : list nat) : bool := if list_eq_dec Nat.eq_dec a b then true else false.
Definition of_shape (s : list nat) (files : list sdfile) : list str := nodup str_eq_dec (flat_map (fun f => map fst (filter (fun v => shape_eqb (snd v) s) f)) files).
Definition modis_names (files : list sdfile) : res (list str) :=
  match files with
  | [] => Raises IndexError
  | f :: _ => match dict_get f (lit "Latitude") with Some s => Ok (of_shape s files) | None => Raises KeyError end
  end.
Definition caliop_names (altitudes : nat) (files : list sdfile) : res (list str) :=
  match files with
  | [] => Raises IndexError
  | f :: _ => match dict_get f (lit "Latitude") with Some (n :: _) => Ok (of_shape [n; altitudes] files) | Some [] => Raises IndexError | None => Raises KeyError end
  end.
(** CloudSat, cloudsat.py:14-42: the tables with their numbers of records, and the datasets with their shapes *)
Definition csfile : Type := (list (str * nat) * list (str * list nat))%type.
Definition cloudsat_file (f : csfile) : res (list str) :=
  match filter (fun v => str_eqb (fst v) (lit "Latitude")) (fst f) with
  | [] => Raises IndexError
  | (_, n) :: _ => Ok (map fst (filter (fun v => snd v =? n) (fst f)) ++
      match dict_get (snd f) (lit "Height") with Some s => map fst (filter (fun v => shape_eqb (snd v) s) (snd f)) | None => [] end)
  end.
Fixpoint cloudsat_all (files : list csfile) : res (list str) := match files with [] => Ok [] | f :: rest => bind (cloudsat_file f) (fun l => bind (cloudsat_all rest) (fun m => Ok (l ++ m))) end.
Definition cloudsat_names (files : list csfile) : res (list str) := bind (cloudsat_all files) (fun l => Ok (nodup str_eq_dec l)).

(** *** get_variables, AProduct.py:231-250 (so too get_data and get_coordinates): what a product does; an exception has arguments, of which the first is reported *)
Inductive outcome (A : Type) := Gives (a : A) | Throws (kind : str) (args : list str).
Arguments Gives {A} a. Arguments Throws {A} kind args.
Inductive reported (A : Type) := Returned (a : A) | PluginException (product kind message : str) | Other (e : exn).
Arguments Returned {A} a. Arguments PluginException {A} product kind message. Arguments Other {A} e.
Definition through_product {A} (product : str) (r : outcome A) : reported A :=
  match r with Gives a => Returned a | Throws k (m :: _) => PluginException product k m | Throws _ [] => Other IndexError end.

(** *** info (info.py:6-22): what is printed, and the error that ends it *)
Section Info.
Variable data : str -> res str.   (* str(get_data(filenames, variable, product)) *)
Variable names : res (list str).  (* get_variables(filenames, product, type) *)
Fixpoint print_each (variables : list str) : list str * option exn :=
  match variables with
  | [] => ([], None)
  | v :: rest => match data v with Ok s => let r := print_each rest in (s :: fst r, snd r) | Raises e => ([], Some e) end
  end.
Definition info (variables : option (list str)) : list str * option exn :=
  match variables with
  | Some l => print_each l
  | None => match names with Ok l => (l, None) | Raises e => ([], Some e) end
  end.
End Info.
(** validate_info_args, parse.py:882-895, with the functions that check files and products *)
Section Args.
Variable V : Type.
Variable check_variables check_files check_product : checker V.
Definition info_args (text : str) : res (list (str * stored V)) :=
  match colon_words text with
  | [_] => parse_one [(lit "filenames", check_files)] 1 text
  | _ => parse_one [(lit "variables", check_variables); (lit "filenames", check_files); (lit "product", check_product)] 2 text
  end.
End Args.
