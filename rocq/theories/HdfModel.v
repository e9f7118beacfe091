(** HDF4 files: the CloudSat and CALIOP products, cis/data_io/products/cloudsat.py and caliop.py, with cis/data_io/hdf.py (44-136), hdf_sd.py (136-167, 203-223),
    hdf_vd.py (50-91) and Metadata (cis/data_io/ungridded_data.py:21-46, 149-163).  The values of a variable: ReadModel.v. *)
From Coq Require Import String.
From Verif Require Import Base PyStr QBase DateModel FileListModel UtilModel ReadModel ProdModel UngrModel RafModel.
From Coq Require Import List.
Import ListNotations.
Open Scope string_scope. Open Scope list_scope. Open Scope nat_scope. Notation length := List.length.

(** Metadata.guess_standard_name, ungridded_data.py:149-163 *)
Definition guess_standard_name (name : str) : option str :=
  let n := lower name in
  if starts_with (lit "lat") n then Some (lit "latitude")
  else if starts_with (lit "lon") n then Some (lit "longitude")
  else if starts_with (lit "alt") n || str_eqb n (lit "height") then Some (lit "altitude")
  else if starts_with (lit "pres") n || str_eqb n (lit "air_pressure") then Some (lit "air_pressure")
  else if str_eqb n (lit "time") then Some (lit "time")
  else None.

(** utils.py:15-19 *)
Definition add_element {V} (d : list (str * list V)) (k : str) (v : V) : list (str * list V) := dict_set d k (match dict_get d k with Some l => l ++ [v] | None => [v] end).

(** A file: its name, its SD datasets, its vdata, and the fields of its first vdata.  Files that cannot be opened are not modelled. *)
Record hfile (SD VD : Type) := mkHfile { h_name : str; h_sd : list (str * SD); h_vd : list (str * VD); h_first : list (str * VD) }.
Arguments mkHfile {SD VD}. Arguments h_name {SD VD}. Arguments h_sd {SD VD}. Arguments h_vd {SD VD}. Arguments h_first {SD VD}.
Section Handles.
Context {SD VD : Type}.
(** hdf.py:44-87 with hdf_sd.py:136-167 and hdf_vd.py:50-91; [variables] without repetitions.  Looking up a name gives the first dataset of that name. *)
Definition read_hdf4 (f : hfile SD VD) (variables : list str) : res (list (str * SD) * list (str * VD)) :=
  if negb (ends_with (lit ".hdf") (h_name f)) then Raises OSError else
  let sds := flat_map (fun x => match dict_get (h_sd f) x with Some d => [(x, d)] | None => [] end) variables in
  let vdvariables := filter (fun x => match dict_get sds x with Some _ => false | None => true end) variables in
  let vds := flat_map (fun x => match dict_get (h_vd f) x with Some d => [(x, d)] | None => [] end) vdvariables in
  if forallb (fun x => match dict_get sds x, dict_get vds x with None, None => false | _, _ => true end) variables then Ok (sds, vds) else Raises InvalidVariableError.
(** hdf.py:90-107 *)
Definition add_all {V} (d : list (str * list V)) (l : list (str * V)) : list (str * list V) := fold_left (fun d kv => add_element d (fst kv) (snd kv)) l d.
Fixpoint read_from (sdata : list (str * list SD)) (vdata : list (str * list VD)) (files : list (hfile SD VD)) (variables : list str) : res (list (str * list SD) * list (str * list VD)) :=
  match files with
  | [] => Ok (sdata, vdata)
  | f :: files => bind (read_hdf4 f variables) (fun sv => read_from (add_all sdata (fst sv)) (add_all vdata (snd sv)) files variables)
  end.
Definition hdf_read (files : list (hfile SD VD)) (variables : list str) := read_from [] [] files variables.
End Handles.
Definition key {V} (d : list (str * V)) (k : str) : res V := match dict_get d k with Some v => Ok v | None => Raises KeyError end.

(** the elements of an array, missing ones as None *)
Definition seen (a : varr) : list (option Q) := map (fun xm : fval * bool => if snd xm then None else fst xm) (combine (an_data a) (getmaskarray a)).
(** utils.py:94-135, axis 1: every element repeated; axis 0: the array repeated *)
Definition expand_1 (n : nat) (l : list (option Q)) : arr := ([length l; n], flat_map (fun x => repeat x n) l).
Definition expand_0 (n : nat) (l : list (option Q)) : arr := ([n; length l], concat (repeat l n)).
Definition named_coord (name long axis : str) (a : arr) : coord := mkCoord (guess_standard_name name) long name axis (fst a) (snd a).
Definition time_coord (name axis : str) (a : arr) : coord := mkCoord (Some (lit "time")) [] name axis (fst a) (snd a).
Definition since_1993 : Q -> Q := convert_sec_since_to_std_time (mkDT 1993 1 1 0 0 0).
Definition first_long {V} (long : V -> str) (l : list V) : str := match l with v :: _ => long v | [] => [] end.

(** ** CloudSat.  An SD dataset and a vdata (one field): raw values and attributes. *)
Record cs_sd := mkCsd { cs_shape : list nat; cs_raw : list fval; cs_fill : option fval; cs_missing : option Q; cs_missop : option str; cs_range : option (Q * Q); cs_factor : option Q; cs_offset : option Q; cs_long : str }.
Record cs_vd := mkCvd { cv_raw : list fval; cv_missing : option fval; cv_range : option (Q * Q); cv_factor : option Q; cv_offset : option Q; cv_long : str }.
Definition cs_file := hfile cs_sd cs_vd.
(** 182-222, 224-274 *)
Definition sds_array (d : cs_sd) : arr := (cs_shape d, seen (cloudsat_sds_get_data (cs_raw d) (cs_fill d) (cs_missing d) (cs_missop d) (cs_range d) (cs_factor d) (cs_offset d))).
Definition vds_array (d : cs_vd) : arr := ([length (cv_raw d)], seen (cloudsat_vds_get_data (cv_raw d) (cv_missing d) (cv_range d) (cv_factor d) (cv_offset d))).
(** 45-61: hdf_vd.get_data, without range, factor and offset; [time += start] in place *)
Definition plain_vd (d : cs_vd) : list (option Q) := seen (vd_get_data (cv_raw d) None (cv_missing d)).
Definition add_opt (a b : option Q) : option Q := match a, b with Some x, Some y => Some (x + y)%Q | _, _ => None end.
Definition add_in_place (time start : list (option Q)) : res (list (option Q)) :=
  if length start =? length time then Ok (map (fun ab : option Q * option Q => add_opt (fst ab) (snd ab)) (combine time start))
  else match start with [s] => Ok (map (fun t => add_opt t s) time) | _ => Raises ValueError end.
Definition generate_time_array (vdata : list (str * list cs_vd)) : res arr :=
  bind (key vdata (lit "Profile_time")) (fun ts => bind (key vdata (lit "TAI_start")) (fun ss =>
  bind (map_res (fun ij : cs_vd * cs_vd => bind (add_in_place (plain_vd (fst ij)) (plain_vd (snd ij))) (fun l => Ok ([length l], map (option_map since_1993) l))) (combine ts ss)) concat_arrays)).
Definition vd_coord (vdata : list (str * list cs_vd)) (levels : option nat) (name : str) : res coord :=
  bind (key vdata name) (fun ds => bind (concat_arrays (map vds_array ds)) (fun a =>
  Ok (named_coord name (first_long cv_long ds) [] (match levels with Some m => expand_1 m (snd a) | None => a end)))).
Definition profile_coords (vdata : list (str * list cs_vd)) (levels : option nat) (height : option coord) : res (list coord) :=
  bind (vd_coord vdata levels (lit "Latitude")) (fun lat => bind (vd_coord vdata levels (lit "Longitude")) (fun lon =>
  bind (generate_time_array vdata) (fun t =>
  append_all [] (lat :: lon :: (match height with Some h => [h] | None => [] end) ++ [time_coord (lit "Profile_time") (lit "X") (match levels with Some m => expand_1 m (snd t) | None => t end)])))).
(** 63-96 *)
Definition cloudsat_profile_coords (files : list cs_file) : res (list coord) :=
  bind (hdf_read files [lit "Latitude"; lit "Longitude"; lit "TAI_start"; lit "Profile_time"]) (fun sv => profile_coords (snd sv) None None).
(** 98-155.  len(height_data[0]): the second dimension; there must be a first row *)
Definition levels_of (shape : list nat) : res nat := match shape with S _ :: m :: _ => Ok m | [S _] => Raises TypeError | _ => Raises IndexError end.
Definition cloudsat_coords (files : list cs_file) : res (list coord) :=
  match hdf_read files [lit "Latitude"; lit "Longitude"; lit "TAI_start"; lit "Profile_time"; lit "Height"] with
  | Ok (sdata, vdata) =>
    bind (key sdata (lit "Height")) (fun ds => bind (concat_arrays (map sds_array ds)) (fun a => bind (levels_of (fst a)) (fun m =>
    profile_coords vdata (Some m) (Some (named_coord (lit "Height") (first_long cs_long ds) (lit "Y") a)))))
  | Raises InvalidVariableError => cloudsat_profile_coords files
  | Raises e => Raises e
  end.
(** 160-180 *)
Definition cloudsat_create (files : list cs_file) (variable : str) : res udata :=
  bind (hdf_read files [variable]) (fun sv =>
  match dict_get (snd sv) variable with
  | Some ds => bind (cloudsat_profile_coords files) (fun cs => bind (concat_arrays (map vds_array ds)) (fun a => Ok (mkU cs (fst a) (snd a))))
  | None => match dict_get (fst sv) variable with
            | Some ds => bind (cloudsat_coords files) (fun cs => bind (concat_arrays (map sds_array ds)) (fun a => Ok (mkU cs (fst a) (snd a))))
            | None => Raises ValueError
            end
  end).
Definition read_cloudsat (files : list cs_file) (variable : str) : res udata := bind (cloudsat_create files variable) post_process.
(** 15-43; as a list, for a set *)
Definition cloudsat_names (files : list cs_file) : res (list str) :=
  bind (map_res (fun f : cs_file =>
    match dict_get (h_vd f) (lit "Latitude") with
    | None => Raises IndexError
    | Some l => Ok (map fst (filter (fun nv : str * cs_vd => length (cv_raw (snd nv)) =? length (cv_raw l)) (h_vd f)) ++
                    match dict_get (h_sd f) (lit "Height") with
                    | Some h => map fst (filter (fun nv : str * cs_sd => if list_eq_dec Nat.eq_dec (cs_shape (snd nv)) (cs_shape h) then true else false) (h_sd f))
                    | None => []
                    end)
    end) files) (fun ls => Ok (concat ls)).

(** ** CALIOP *)
Record cal_sd := mkCal { ca_shape : list nat; ca_raw : list fval; ca_fillvalue : option fval; ca_format : option str; ca_fill : option fval; ca_range : option (list Q); ca_offset : option Q; ca_scale : option Q; ca_long : str }.
Record cal_field := mkField { cf_raw : list fval; cf_missing : option fval }.
Definition cal_file := hfile cal_sd cal_field.
Definition mixed_resolution : list str := [lit "Atmospheric_Volume_Description"; lit "CAD_Score"; lit "Extinction_QC_Flag_1064"; lit "Extinction_QC_Flag_532"].
(** 151-228 *)
Definition calipso_data (d : cal_sd) : arr := (ca_shape d, seen (caliop_get_data (ca_raw d) (ca_fillvalue d) (ca_format d) (ca_fill d) (ca_range d) (ca_offset d) (ca_scale d))).
(** a[:, k]; only for arrays of two dimensions (of more: not modelled) *)
Definition take_column (k : nat) (a : arr) : res (list (option Q)) :=
  match fst a with [n; w] => if k <? w then Ok (map (fun j => nth (j * w + k) (snd a) None) (seq 0 n)) else Raises IndexError | _ => Raises IndexError end.
(** a[:, :, 0] *)
Definition first_slice (a : arr) : res arr :=
  match fst a with [n; m; S w] => Ok ([n; m], map (fun i => nth (i * S w) (snd a) None) (seq 0 (n * m))) | _ => Raises IndexError end.
(** 62-71, 252-260: SD datasets only; a file without one of them is passed over *)
Definition sd_handles (files : list cal_file) (variables : list str) : list (str * list cal_sd) :=
  fold_left (fun d f => add_all d (flat_map (fun x => match dict_get (h_sd f) x with Some v => [(x, v)] | None => [] end) variables)) files [].
(** the altitudes of the first file in m; a field that is not there: HDF4Error *)
Definition lidar_altitudes (files : list cal_file) : res (list (option Q)) :=
  match files with
  | [] => Raises IndexError
  | f :: _ => match dict_get (h_first f) (lit "Lidar_Data_Altitudes") with
              | Some v => Ok (seen (vd_get_data (cf_raw v) None (cf_missing v)))
              | None => Raises OSError
              end
  end.
Definition calipso_read (sdata : list (str * list cal_sd)) (name : str) : res arr := bind (key sdata name) (fun ds => concat_arrays (map calipso_data ds)).
Definition long_of (sdata : list (str * list cal_sd)) (name : str) : str := match dict_get sdata name with Some (d :: _) => ca_long d | _ => [] end.
(** 48-129 *)
Definition caliop_coords (include_pressure : bool) (files : list cal_file) (index_offset : nat) : res (list coord) :=
  let sdata := sd_handles files [lit "Latitude"; lit "Longitude"; lit "Profile_Time"; lit "Pressure"] in
  bind (lidar_altitudes files) (fun alts =>
  let alts := map (option_map (fun q => q * 1000)%Q) alts in
  let len_x := length alts in
  bind (calipso_read sdata (lit "Latitude")) (fun lat =>
  bind (match fst lat with n :: _ => Ok n | [] => Raises IndexError end) (fun len_y =>
  let alt := expand_0 len_y alts in
  bind (if include_pressure then bind (calipso_read sdata (lit "Pressure")) (fun a => Ok (Some a)) else Ok None) (fun pres =>
  bind (take_column index_offset lat) (fun lat =>
  bind (bind (calipso_read sdata (lit "Longitude")) (take_column index_offset)) (fun lon =>
  bind (bind (calipso_read sdata (lit "Profile_Time")) (take_column index_offset)) (fun t =>
  append_all [] (named_coord (lit "Latitude") (long_of sdata (lit "Latitude")) (lit "Y") (expand_1 len_x lat)
              :: named_coord (lit "Longitude") (long_of sdata (lit "Longitude")) (lit "X") (expand_1 len_x lon)
              :: time_coord (lit "Profile_Time") (lit "T") (expand_1 len_x (map (option_map since_1993) t))
              :: mkCoord (Some (lit "altitude")) [] (lit "altitude") [] (fst alt) (snd alt)
              :: match pres with
                 | Some p => if list_eq_dec Nat.eq_dec (fst p) (fst alt) then [named_coord (lit "Pressure") (long_of sdata (lit "Pressure")) (lit "P") p] else []
                 | None => []
                 end)))))))).
(** 236-282 *)
Definition caliop_column_coords (files : list cal_file) (index_offset : nat) : res (list coord) :=
  let sdata := sd_handles files [lit "Latitude"; lit "Longitude"; lit "Profile_Time"] in
  bind (bind (calipso_read sdata (lit "Latitude")) (take_column index_offset)) (fun lat =>
  bind (bind (calipso_read sdata (lit "Longitude")) (take_column index_offset)) (fun lon =>
  bind (bind (calipso_read sdata (lit "Profile_Time")) (take_column index_offset)) (fun t =>
  append_all [] [named_coord (lit "Latitude") (long_of sdata (lit "Latitude")) (lit "Y") ([length lat], lat);
                 named_coord (lit "Longitude") (long_of sdata (lit "Longitude")) (lit "X") ([length lon], lon);
                 time_coord (lit "Profile_Time") (lit "T") ([length t], map (option_map since_1993) t)]))).
(** 284-310 and 331-346: level 2 with the middle of three shots, level 1 *)
Inductive caliop_product := Caliop_L1 | Caliop_L2 | Caliop_L2_no_pressure.
Definition caliop_create (p : caliop_product) (files : list cal_file) (variable : str) : res udata :=
  bind (match p with
        | Caliop_L1 => caliop_coords true files 0
        | Caliop_L2 => if starts_with (lit "Column") variable then caliop_column_coords files 1 else caliop_coords true files 1
        | Caliop_L2_no_pressure => if starts_with (lit "Column") variable then caliop_column_coords files 1 else caliop_coords false files 1
        end) (fun cs =>
  bind (hdf_read files [variable]) (fun sv =>
  bind (key (fst sv) variable) (fun ds =>
  bind (map_res (fun d => match p with
                          | Caliop_L1 => Ok (calipso_data d)
                          | _ => if existsb (str_eqb variable) mixed_resolution then first_slice (calipso_data d) else Ok (calipso_data d)
                          end) ds) (fun arrs =>
  bind (concat_arrays arrs) (fun a => Ok (mkU cs (fst a) (snd a))))))).
Definition read_caliop (p : caliop_product) (files : list cal_file) (variable : str) : res udata := bind (caliop_create p files variable) post_process.
(** 23-46 *)
Definition caliop_names (files : list cal_file) : res (list str) :=
  match files with
  | [] => Raises IndexError
  | f :: _ =>
    bind (key (h_sd f) (lit "Latitude")) (fun la =>
    bind (match ca_shape la with n :: _ => Ok n | [] => Raises IndexError end) (fun len_x =>
    bind (lidar_altitudes files) (fun alts =>
    Ok (flat_map (fun f : cal_file => map fst (filter (fun nv : str * cal_sd => if list_eq_dec Nat.eq_dec (ca_shape (snd nv)) [len_x; length alts] then true else false) (h_sd f))) files))))
  end.
