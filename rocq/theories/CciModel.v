(** ESA CCI Level 2 files: cis/data_io/products/CCI.py:14-85, with read_many_files_individually and get_metadata (cis/data_io/netcdf.py:135-232),
    Coord.convert_julian_to_std_time and convert_TAI_time_to_std_time (cis/data_io/Coord.py:60-70) and cis/time_util.py:168-206. *)
From Coq Require Import String.
From Verif Require Import Base PyStr QBase DateModel UngrModel RafModel HdfModel.
From Coq Require Import List.
Import ListNotations.
Open Scope string_scope. Open Scope list_scope. Open Scope nat_scope. Notation length := List.length.

(** the two products, CCI.py:58-85 *)
Inductive cci := Cloud | Aerosol.
(** cftime's toordinal(fractional=True) of a date of the Gregorian calendar (contract): the Julian date, that is days since noon, 1 January 4713 BC *)
Definition julian_ordinal (t : datetime) : Q := (inject_Z (toordinal t) + (3442849 # 2) + inject_Z (seconds_of_day t) / 86400)%Q.
(** cis/time_util.py:193-206, per element *)
Definition convert_julian_date_to_std_time (days : Q) : Q := (days - julian_ordinal std_ref)%Q.
(** _fix_time, CCI.py:64-66 and 78-81 *)
Definition fix_time (k : cci) (x : Q) : Q :=
  match k with Cloud => convert_julian_date_to_std_time x | Aerosol => convert_sec_since_to_std_time (mkDT 1970 1 1 0 0 0) x end.
(** read_many_files_individually, netcdf.py:135-161: all the variables of all the files; a variable that is not in a file is InvalidVariableError *)
Definition read_variables (files : list ncfile) (names : list str) : res (list (list nvar)) := map_res (column files) names.
(** get_metadata of the variable of the first file, netcdf.py:196-232: its standard name if it is a valid one; otherwise set_standard_name_if_valid (cis/utils.py:615-627) sets None,
    also where Metadata.__init__ (ungridded_data.py:31-35) had guessed one from the name *)
Definition first_std (vs : list nvar) : option str := match vs with v :: _ => v_std v | [] => None end.
Definition cci_coord (axis name : str) (g : Q -> Q) (vs : list nvar) : res coord :=
  bind (concat_arrays (map array_of vs)) (fun a => Ok (mkCoord (first_std vs) (match vs with v :: _ => v_long v | [] => [] end) name axis (fst a) (map (option_map g) (snd a)))).
(** _create_coord_list, CCI.py:20-41; without files data["lon"] is a KeyError.  (The longitudes and latitudes are put together only when they are used.) *)
Definition coord_list (k : cci) (files : list ncfile) : res (list coord) :=
  let build names :=
    bind (read_variables files names) (fun vars =>
    match names, vars with
    | [lo; la; t], [los; las; ts] =>
      bind (cci_coord (lit "X") lo (fun x => x) los) (fun x =>
      bind (cci_coord (lit "Y") la (fun x => x) las) (fun y =>
      bind (cci_coord (lit "T") t (fix_time k) ts) (fun t => append_all [] [x; y; t])))
    | _, _ => Raises KeyError
    end) in
  match files with
  | [] => Raises KeyError
  | _ => match read_variables files [lit "lon"; lit "lat"; lit "time"] with
         | Raises InvalidVariableError => build [lit "longitude"; lit "latitude"; lit "time"]
         | _ => build [lit "lon"; lit "lat"; lit "time"]
         end
  end.
(** create_coords, CCI.py:47-48, and create_data_object, 50-57; the values are loaded and points without a position left out (UngriddedData._post_process) *)
Definition create_coords (k : cci) (files : list ncfile) : res (list coord) := coord_list k files.
Definition create_data_object (k : cci) (files : list ncfile) (variable : str) : res udata :=
  bind (coord_list k files) (fun cs =>
  bind (column files variable) (fun vs =>
  bind (concat_arrays (map array_of vs)) (fun a => Ok (mkU cs (fst a) (snd a))))).
Definition read_cci (k : cci) (files : list ncfile) (variable : str) : res udata := bind (create_data_object k files variable) post_process.
