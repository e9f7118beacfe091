(** Reading the values of a variable: masking and scaling, cis/data_io/netcdf.py:253-320, hdf_sd.py:170-200, hdf_vd.py:92-137, products/MODIS.py:8-65,
    products/caliop.py:151-228, products/cloudsat.py:182-287. *)
From Verif Require Import Base PyStr QBase UtilModel.
Open Scope Q_scope.

(** Elements are rationals or NaN ([None]); arrays are flat (shapes play no part; MODIS.py:21-22 squeezes).  Float rounding and integer overflow of the data are not modelled. *)
Definition varr := anarray fval.
(** the type of the elements of a variable *)
Inductive dtype := DFloat | DInt (signed : bool) (bits : positive).
(** [np.array(v, dtype)]: truncation to an integer, then wrapping to the range of the type (C cast) *)
Definition cast (t : dtype) (q : Q) : Q :=
  match t with
  | DFloat => q
  | DInt signed bits => let n := (2 ^ Zpos bits)%Z in let z := (Qtrunc q mod n)%Z in inject_Z (if signed && (n / 2 <=? z)%Z then z - n else z)%Z
  end.
Definition is_int (t : dtype) : bool := match t with DFloat => false | _ => true end.

(** comparisons with a number are false for NaN *)
Definition v_gt (v : Q) (x : fval) : bool := match x with Some q => Qltb v q | None => false end.
Definition v_ge (v : Q) (x : fval) : bool := match x with Some q => Qleb v q | None => false end.
Definition v_lt (v : Q) (x : fval) : bool := match x with Some q => Qltb q v | None => false end.
Definition v_le (v : Q) (x : fval) : bool := match x with Some q => Qleb q v | None => false end.
Definition v_eq (a b : fval) : bool := negb (f_ne a b).
(** numpy.ma.masked_where: the condition is true where the array is masked, the result keeps the mask *)
Definition mask_if (p : fval -> bool) (a : varr) : varr :=
  Masked (an_data a) (Some (orl (map (fun c : fval * bool => snd c || p (fst c)) (combine (an_data a) (getmaskarray a))) (getmaskarray a))).
(** numpy.ma.masked_outside: the limits in any order *)
Definition masked_outside (v1 v2 : Q) (a : varr) : varr :=
  let lo := if Qltb v2 v1 then v2 else v1 in let hi := if Qltb v2 v1 then v1 else v2 in mask_if (fun x => v_lt lo x || v_gt hi x) a.
(** arithmetic with a number: the mask is kept *)
Definition map_data (f : Q -> Q) (a : varr) : varr := match a with Plain d => Plain (map (option_map f) d) | Masked d m => Masked (map (option_map f) d) m end.

(** an attribute that is a number, and whether it is a float *)
Record anum := mkNum { n_val : Q; n_float : bool }.
(** netcdf.py:298-320.  The second and third branch work in place: numpy refuses to store floats in an integer array (TypeError: casting rule 'same_kind') *)
Definition in_place (t : dtype) (n : anum) (f : Q -> Q) (a : varr) : res varr := if is_int t && n_float n then Raises TypeError else Ok (map_data f a).
Definition apply_offset_and_scaling (t : dtype) (a : varr) (add_offset scale_factor : option anum) : res varr :=
  let by_offset := match add_offset with Some o => if negb (Qeqb (n_val o) 0) then in_place t o (fun x => x + n_val o) a else Ok a | None => Ok a end in
  match scale_factor with
  | Some s =>
    match add_offset with
    | Some o => if negb (Qeqb (n_val o) 0) || negb (Qeqb (n_val s) 1) then Ok (map_data (fun x => x * n_val s + n_val o) a)
                else by_offset
    | None => if negb (Qeqb (n_val s) 1) then in_place t s (fun x => x * n_val s) a else by_offset
    end
  | None => by_offset
  end.

(** a netCDF4 Variable: what [var[:]] gives with automatic masking and scaling on or off, and its attributes (valid_max and valid_min: [Some None] if not a number) *)
Record nc_var := mkVar {
  nv_read : bool -> varr; nv_type : dtype; nv_valid_max : option (option Q); nv_valid_min : option (option Q); nv_valid_range : option (list Q);
  nv_offset : option anum; nv_scale : option anum }.
(** netcdf.py:253-295.  [masked_outside(data, *valid_range)]: two limits; a third element is taken for the [copy] argument; any other number is a TypeError, which is caught *)
Definition nc_get_data (var : nc_var) : res varr :=
  let data := nv_read var false in
  let data := match nv_valid_max var with Some (Some v) => mask_if (v_gt (cast (nv_type var) v)) data | _ => data end in
  let data := match nv_valid_min var with Some (Some v) => mask_if (v_lt (cast (nv_type var) v)) data | _ => data end in
  let data := match nv_valid_range var with Some [a; b] => masked_outside a b data | Some [a; b; _] => masked_outside a b data | _ => data end in
  apply_offset_and_scaling (nv_type var) data (nv_offset var) (nv_scale var).
(** What netCDF4 documents for [var[:]]: with automatic masking off, a plain array; otherwise the elements equal to _FillValue or missing_value are masked
    (its scaling is not modelled: the code turns it off) *)
Definition nc_getitem (raw : list fval) (fills : list Q) (auto : bool) : varr :=
  if auto then Masked raw (Some (map (fun x => existsb (fun v => v_eq x (Some v)) fills) raw)) else Plain raw.

(** ** HDF4: [sds.get()] and [vd.read] give plain arrays *)
Definition fill_mask (v : option fval) (d : list fval) : varr := match v with Some v => create_masked_array_for_missing_data v_eq d v | None => Plain d end.
Definition range_mask (r : option (Q * Q)) (a : varr) : varr := match r with Some (lo, hi) => masked_outside lo hi a | None => a end.
Definition or_default (n : option Q) (d : Q) : Q := match n with Some q => q | None => d end.
(** hdf_sd.py:170-200; the defaults 0.0 and 1.0 are floats *)
Definition sd_get_data (t : dtype) (d : list fval) (fill : option fval) (range : option (Q * Q)) (add_offset scale_factor : option anum) : res varr :=
  apply_offset_and_scaling t (range_mask range (fill_mask fill d))
    (Some (match add_offset with Some o => o | None => mkNum 0 true end)) (Some (match scale_factor with Some s => s | None => mkNum 1 true end)).
(** hdf_vd.py:112-137 *)
Definition vd_get_data (d : list fval) (missing_values : option (list (option fval))) (missing_attr : option fval) : varr :=
  create_masked_array_for_missing_values v_eq (Plain d) (match missing_values with Some l => l | None => [missing_attr] end).
(** MODIS.py:8-65 *)
Definition modis_get_data (d : list fval) (fill : option fval) (range : option (Q * Q)) (add_offset scale_factor : option Q) : varr :=
  map_data (fun x => (x - or_default add_offset 0) * or_default scale_factor 1) (range_mask range (fill_mask fill d)).
(** caliop.py:166-174 *)
Definition calipso_fill_values : list (str * Q) :=
  [(lit "Float_32"%string, -(9999)); (lit "Int_16"%string, -(9999)); (lit "Int_32"%string, -(9999)); (lit "UInt_8"%string, -(127)); (lit "ExtinctionQC Fill Value"%string, 32768);
   (lit "FeatureFinderQC No Features Found"%string, 32767); (lit "FeatureFinderQC Fill Value"%string, 65535)].
Definition lookup_fill (f : option str) : option Q :=
  match f with Some f => option_map snd (find (fun p => str_eqb (fst p) f) calipso_fill_values) | None => None end.
(** caliop.py:151-228.  [range]: the numbers of valid_range, split at "..." and converted (the conversion is not modelled).  A zero scale_factor is not modelled:
    division by zero masks everything or gives infinities. *)
Definition caliop_missing (fillvalue : option fval) (format : option str) (fill : option fval) : option fval :=
  match fillvalue with Some v => Some v | None => match lookup_fill format with Some v => Some (Some v) | None => fill end end.
Definition caliop_get_data (d : list fval) (fillvalue : option fval) (format : option str) (fill : option fval) (range : option (list Q)) (add_offset scale_factor : option Q) : varr :=
  let data := fill_mask (caliop_missing fillvalue format fill) d in
  let data := match range with Some [a; b] => masked_outside a b data | _ => data end in
  map_data (fun x => x / or_default scale_factor 1 + or_default add_offset 0) data.
(** cloudsat.py:246-260 *)
Definition missop_mask (missing : option Q) (missop : option str) (a : varr) : varr :=
  match missing, missop with
  | Some v, Some op =>
    if str_eqb op (lit "<"%string) then mask_if (v_lt v) a
    else if str_eqb op (lit "<="%string) then mask_if (v_le v) a
    else if str_eqb op (lit "=="%string) then mask_if (fun x => v_eq x (Some v)) a
    else if str_eqb op (lit "=>"%string) then mask_if (v_ge v) a
    else if str_eqb op (lit ">"%string) then mask_if (v_gt v) a
    else a
  | _, _ => a
  end.
(** cloudsat.py:276-287 *)
Definition cloudsat_scale (factor offset : option Q) : varr -> varr := map_data (fun x => (x - or_default offset 0) / or_default factor 1).
(** cloudsat.py:224-274, 182-222 *)
Definition cloudsat_sds_get_data (d : list fval) (fill : option fval) (missing : option Q) (missop : option str) (range : option (Q * Q)) (factor offset : option Q) : varr :=
  cloudsat_scale factor offset (range_mask range (missop_mask missing missop (fill_mask fill d))).
Definition cloudsat_vds_get_data (d : list fval) (missing : option fval) (range : option (Q * Q)) (factor offset : option Q) : varr :=
  cloudsat_scale factor offset (range_mask range (fill_mask missing d)).
