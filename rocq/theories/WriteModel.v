(** Saving ungridded data to netCDF and reading the file back: cis/data_io/write_netcdf.py, UngriddedData.save_data and UngriddedDataList.save_data
    (cis/data_io/ungridded_data.py:375-378, 1048-1059), the product [cis] (cis/data_io/products/products.py:8-56). *)
From Verif Require Import Base PyStr QBase FileListModel DateModel UtilModel ReadModel.
Open Scope string_scope. Open Scope list_scope. Open Scope Q_scope. Notation length := List.length.

(** The attributes of metadata.misc that reading takes notice of (they are written back, write_netcdf.py:36-42). *)
Record attrs := mkAttrs { at_valid_max : option (option Q); at_valid_min : option (option Q); at_valid_range : option (list Q); at_offset : option anum; at_scale : option anum }.
(** A coordinate or data object: metadata._name, metadata.standard_name, data.dtype, metadata.missing_value, those attributes, data.flatten().  Names are taken to be
    accepted by netCDF, without a slash; missing values to be numbers of the type ([None]: None or an empty string).  The other attributes are left out. *)
Record wvar := mkWVar { w_name : option str; w_standard_name : option str; w_dtype : str; w_missing : option Q; w_attrs : attrs; w_data : varr }.
(** A variable of the file: type, raw values, _FillValue (or missing_value), attributes. *)
Record stored := mkStored { s_type : dtype; s_raw : list fval; s_fill : Q; s_attrs : attrs }.
(** A file: the length of dimension obs and the variables, in the order of creation *)
Record ncfile := mkFile { nf_obs : nat; nf_vars : list (str * stored) }.

(** write_netcdf.py:7-16 *)
Definition types : list (str * dtype) :=
  [(lit "int8", DInt true 8); (lit "int16", DInt true 16); (lit "int32", DInt true 32); (lit "int64", DInt true 64);
   (lit "uint8", DInt false 8); (lit "uint16", DInt false 16); (lit "uint32", DInt false 32); (lit "uint64", DInt false 64); (lit "float32", DFloat); (lit "float64", DFloat)].
Definition nonempty (o : option str) : option str := match o with Some (c :: s) => Some (c :: s) | _ => None end.
(** 97-102 *)
Definition variable_name (v : wvar) (prefer_standard_name : bool) : option str :=
  let name := nonempty (w_name v) in
  match name, prefer_standard_name with
  | Some n, false => Some n
  | _, _ => match nonempty (w_standard_name v) with Some s => Some s | None => name end
  end.
(** numpy.around: to the nearest integer, halves to the even one *)
Definition around (q : Q) : Z :=
  let f := Qfloor q in let r := q - inject_Z f in
  if Qltb r (1 # 2) then f else if Qltb (1 # 2) r then (f + 1)%Z else if Z.even f then f else (f + 1)%Z.
Section Fill.
(** the default fill value of a type (netCDF4.default_fillvals) *)
Variable default_fill : dtype -> Q.
Definition fill_of (t : dtype) (v : wvar) : Q := match w_missing v with Some m => m | None => default_fill t end.
(** [var[:] = data] (netCDF4's documented packing): masked elements become the fill value, the others (x - add_offset) / scale_factor, rounded for an integer type *)
Definition attr_num (o : option anum) (d : Q) : Q := match o with Some n => n_val n | None => d end.
Definition pack_one (t : dtype) (v : wvar) (x : Q) : Q :=
  let y := (x - attr_num (at_offset (w_attrs v)) 0) / attr_num (at_scale (w_attrs v)) 1 in if is_int t then inject_Z (around y) else y.
Definition pack (t : dtype) (v : wvar) : list fval :=
  map (fun c : fval * bool => if snd c then Some (fill_of t v) else option_map (pack_one t v) (fst c)) (combine (an_data (w_data v)) (getmaskarray (w_data v))).
(** one element is repeated along the dimension; any other wrong number is an IndexError (109-113) *)
Definition assign (n : nat) (l : list fval) : res (list fval) :=
  if (length l =? n)%nat then Ok l else match l with [x] => Ok (repeat x n) | _ => Raises InconsistentDimensionsError end.
(** __create_variable, 86-122.  A name that is there already: nothing is written. *)
Definition create_variable (f : ncfile) (v : wvar) (prefer_standard_name : bool) : res ncfile :=
  match dict_get types (w_dtype v) with
  | None => Raises KeyError
  | Some t =>
    match variable_name v prefer_standard_name with
    | None => Raises TypeError
    | Some n => match dict_get (nf_vars f) n with
                | Some _ => Ok f
                | None => bind (assign (nf_obs f) (pack t v)) (fun raw => Ok (mkFile (nf_obs f) (nf_vars f ++ [(n, mkStored t raw (fill_of t v) (w_attrs v))])))
                end
    end
  end.
Fixpoint create_all (f : ncfile) (vs : list wvar) (prefer_standard_name : bool) : res ncfile :=
  match vs with [] => Ok f | v :: vs => bind (create_variable f v prefer_standard_name) (fun f => create_all f vs prefer_standard_name) end.
(** 147-161, with a new file *)
Definition write_coordinate_list (coords : list wvar) : res ncfile :=
  match coords with [] => Raises IndexError | c :: _ => create_all (mkFile (length (an_data (w_data c))) []) coords true end.
(** UngriddedData.save_data is the case of one element; UngriddedDataList.save_data, with the coordinates of its first element *)
Definition save_data (coords ds : list wvar) : res ncfile :=
  match ds with [] => Raises IndexError | _ => bind (write_coordinate_list coords) (fun f => create_all f ds false) end.
End Fill.

(** the file's variable as netCDF4 gives it *)
Definition open_variable (s : stored) : nc_var :=
  mkVar (nc_getitem (s_raw s) [s_fill s]) (s_type s) (at_valid_max (s_attrs s)) (at_valid_min (s_attrs s)) (at_valid_range (s_attrs s)) (at_offset (s_attrs s)) (at_scale (s_attrs s)).
(** products.py:25 *)
Definition axis_names : list str := [lit "longitude"; lit "latitude"; lit "altitude"; lit "time"; lit "air_pressure"].
Definition is_axis (n : str) : bool := existsb (str_eqb n) axis_names.
(** products.py:16-56: the coordinates (their names and values) and the values of the variable, read in full *)
Definition cis_read (f : ncfile) (variable : str) : res (list (str * varr) * varr) :=
  match dict_get (nf_vars f) variable with
  | None => Raises InvalidVariableError
  | Some s =>
    bind (map_res (fun p : str * stored => bind (nc_get_data (open_variable (snd p))) (fun d => Ok (fst p, d))) (filter (fun p => is_axis (fst p)) (nf_vars f))) (fun coords =>
    bind (nc_get_data (open_variable s)) (fun d => Ok (coords, d)))
  end.
