(** Which variable a name reads: cis/data_io/netcdf.py (read_many_files_individually 135-161, read 164-196), cis/data_io/hdf.py (_read_hdf4 44-85, read 88-107),
    cis/data_io/hdf_sd.py (HDF_SDS 38-133, but not which piece of a dataset is read, and read 136-167), cis/data_io/hdf_vd.py (read 51-89), and the choice of a reader by LazyData (cis/data_io/ungridded_data.py:165-217).
    NetCDF variables are identified by their dimensions (any list of texts). *)
From Coq Require Import String.
From Verif Require Import Base PyStr FileListModel ProdModel LstModel HdfModel.
From Coq Require Import List Ascii.
Import ListNotations.
Open Scope string_scope. Open Scope list_scope. Open Scope nat_scope. Notation length := List.length.

(** *** NetCDF.  read, netcdf.py:180-195: the groups first (KeyError), then the variable *)
Fixpoint descend (g : group) (groups : list str) : res group :=
  match groups with [] => Ok g | k :: rest => match dict_get (subs_of g) k with Some g => descend g rest | None => Raises KeyError end end.
Definition read_one (root : group) (full : str) : res (list str) :=
  let parts := split_on "/" full in
  bind (descend root (removelast parts)) (fun g => match dict_get (vars_of g) (last parts []) with Some v => Ok v | None => Raises InvalidVariableError end).
Fixpoint read_names (root : group) (names : list str) (data : vdict) : res vdict :=
  match names with [] => Ok data | n :: rest => bind (read_one root n) (fun v => read_names root rest (dict_set data n v)) end.
(** a file that cannot be opened (None): OSError, 174-177 *)
Definition read_file (f : option group) (names : list str) : res vdict := match f with Some root => read_names root names [] | None => Raises OSError end.
(** read_many_files_individually, 135-161, with add_element_to_list_in_dict (cis/utils.py:14-18) *)
Fixpoint individually (data : list (str * list (list str))) (files : list (option group)) (names : list str) : res (list (str * list (list str))) :=
  match files with [] => Ok data | f :: rest => bind (read_file f names) (fun d => individually (add_all data d) rest names) end.
Definition read_many_files_individually (files : list (option group)) (names : list str) : res (list (str * list (list str))) := individually [] files names.

(** *** HDF4; here a name may be asked for several times *)
Section Hdf.
Context {SD VD : Type}.
(** hdf_sd.read, 136-167: a set of names *)
Definition sd_read (f : hfile SD VD) (variables : list str) : list (str * SD) := flat_map (fun x => match dict_get (h_sd f) x with Some d => [(x, d)] | None => [] end) (nodup str_eq_dec variables).
(** list.remove: the first one *)
Fixpoint remove1 (l : list str) (k : str) : list str := match l with [] => [] | x :: l => if str_eqb x k then l else x :: remove1 l k end.
(** hdf_vd.read, 51-89: names that cannot be attached are left out *)
Definition vd_read (f : hfile SD VD) (variables : list str) : list (str * VD) :=
  fold_left (fun d x => match dict_get (h_vd f) x with Some v => dict_set d x v | None => d end) variables [].
(** _read_hdf4, hdf.py:44-85 *)
Definition hdf4_handles (f : hfile SD VD) (variables : list str) : res (list (str * SD) * list (str * VD)) :=
  if negb (ends_with (lit ".hdf") (h_name f)) then Raises OSError else
  let sds := sd_read f variables in
  let vds := vd_read f (fold_left remove1 (map fst sds) variables) in
  if forallb (fun x => match dict_get sds x, dict_get vds x with None, None => false | _, _ => true end) variables then Ok (sds, vds) else Raises InvalidVariableError.
(** read, 88-107 *)
Fixpoint handles_from (sdata : list (str * list SD)) (vdata : list (str * list VD)) (files : list (hfile SD VD)) (variables : list str) : res (list (str * list SD) * list (str * list VD)) :=
  match files with
  | [] => Ok (sdata, vdata)
  | f :: files => bind (hdf4_handles f variables) (fun sv => handles_from (add_all sdata (fst sv)) (add_all vdata (snd sv)) files variables)
  end.
Definition hdf4_read (files : list (hfile SD VD)) (variables : list str) := handles_from [] [] files variables.
End Hdf.

(** *** HDF_SDS, hdf_sd.py:38-133: the file is opened for every question and closed again.  The attributes _sd and _sds: never set, an open handle, one that has been ended.
    pyhdf (contract): ending an open handle succeeds, ending an ended one is an error.  [o_lost]: open files to which the object no longer refers *)
Inductive stage := Never | Live | Ended.
Record sds_object := mkObject { o_sd : stage; o_sds : stage; o_lost : nat }.
Definition new_object : sds_object := mkObject Never Never 0.
Definition live (s : stage) : nat := match s with Live => 1 | _ => 0 end.
(** what happens when a question is asked: can the file be opened, is the dataset found, and what pyhdf answers (None: HDF4Error) *)
Record attempt (A : Type) := mkAttempt { t_opens : bool; t_selects : bool; t_answer : option A }.
Arguments mkAttempt {A}. Arguments t_opens {A}. Arguments t_selects {A}. Arguments t_answer {A}.
(** _open_sds, 56-63 *)
Definition open_sds {A} (o : sds_object) (t : attempt A) : sds_object * bool :=
  if t_opens t then
    let o := mkObject Live (o_sds o) (o_lost o + live (o_sd o)) in
    if t_selects t then (mkObject Live Live (o_lost o), true) else (o, false)
  else (o, false).
(** _close_sds, 65-76 *)
Definition end_handle (s : stage) : stage * bool := match s with Never => (Never, true) | Live => (Ended, true) | Ended => (Ended, false) end.
Definition close_sds (o : sds_object) : sds_object * bool :=
  let (sds, ok) := end_handle (o_sds o) in let (sd, ok') := end_handle (o_sd o) in (mkObject sd sds (o_lost o), ok && ok').
(** get, attributes, info, dimensions, 78-133; None: an exception *)
Definition ask {A} (o : sds_object) (t : attempt A) : sds_object * option A :=
  let (o, ok) := open_sds o t in
  let r := if ok then t_answer t else None in
  let (o, closed) := close_sds o in (o, if closed then r else None).
Fixpoint ask_all {A} (o : sds_object) (ts : list (attempt A)) : sds_object * list (option A) :=
  match ts with [] => (o, []) | t :: ts => let (o, r) := ask o t in let (o, rs) := ask_all o ts in (o, r :: rs) end.
(** the files it keeps open *)
Definition open_files (o : sds_object) : nat := o_lost o + live (o_sd o).

(** *** LazyData, ungridded_data.py:165-217, of handles; a handle is known by the name of its class *)
Inductive reader := ReadSD | ReadVD | ReadNetCDF | ByCallback.
Definition static_mappings : list (str * reader) :=
  [(lit "SDS", ReadSD); (lit "HDF_SDS", ReadSD); (lit "VDS", ReadVD); (lit "Variable", ReadNetCDF); (lit "_Variable", ReadNetCDF)].
Definition choose_reader (callback : bool) (kinds : list str) : res reader :=
  if callback then Ok ByCallback else
  match kinds with
  | [] => Raises IndexError
  | k :: _ => match dict_get static_mappings k with
              | Some r => if forallb (fun k' => str_eqb k' k) kinds then Ok r else Raises InvalidDataTypeError
              | None => Raises InvalidDataTypeError
              end
  end.
