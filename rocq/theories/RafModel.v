(** NCAR-RAF and GASSP files: cis/data_io/products/NCAR_NetCDF_RAF.py, with the reading functions of cis/data_io/netcdf.py (8-48, 135-196),
    Coord.from_many_coordinates (cis/data_io/Coord.py:8-22), concatenate and expand_1d_to_2d_array (cis/utils.py:21-43, 94-135). *)
From Coq Require Import String.
From Verif Require Import Base PyStr QBase DateModel FileListModel AeroModel UngrModel.
From Coq Require Import List.
Import ListNotations.
Open Scope string_scope. Open Scope list_scope. Open Scope nat_scope. Notation length := List.length.

(** A global attribute is a text or a number.  A variable: its dimensions, shape, units, standard name (if it is a valid one) and long name, and its values
    as they are read (cis/data_io/netcdf.py:253-320 is in ReadModel.v; None: masked or NaN).
    Simplification: a variable in a group is a variable with a '/' in its name; a group that is not in a file is InvalidVariableError (really KeyError). *)
Inductive attr := Txt (s : str) | Num (q : Q).
Record nvar := mkVar { v_dims : list str; v_shape : list nat; v_units : str; v_std : option str; v_long : str; v_data : list (option Q) }.
Record ncfile := mkFile { f_attrs : list (str * attr); f_vars : list (str * nvar) }.

(** str.split() (Python contract): the words between blanks *)
Fixpoint words_from (s : str) : str * list str :=
  match s with
  | [] => ([], [])
  | c :: s => let (w, ws) := words_from s in if is_blank c then ([], match w with [] => ws | _ => w :: ws end) else (c :: w, ws)
  end.
Definition words (s : str) : list str := let (w, ws) := words_from s in match w with [] => ws | _ => w :: ws end.

Section Raf.
(** float() of a text (None: ValueError); the conversion of times to the standard time, given the units of the variable and the time stamp of the file
    (Coord.convert_to_std_time, Coord.py:72-93, and cis/time_util.py:139-165; cf_units) *)
Variable float_of : str -> option Q.
Variable convert : str -> option attr -> res (Q -> Q).

(** NCAR_NetCDF_RAF.py:88: the attributes of a file with names in lower case *)
Definition lowered (f : ncfile) : list (str * attr) := fold_left (fun d kv => dict_set d (lower (fst kv)) (snd kv)) (f_attrs f) [].
Definition attr_of (f : ncfile) (name : str) : option attr := dict_get (lowered f) (lower name).
Definition has_attr (f : ncfile) (name : str) : bool := match attr_of f name with Some _ => true | None => false end.
Definition var_of (f : ncfile) (name : str) : option nvar := dict_get (f_vars f) name.
Definition has_var (f : ncfile) (name : str) : bool := match var_of f name with Some _ => true | None => false end.

(** 127-144 *)
Definition coordinate_variable (f : ncfile) (name : str) : res str :=
  match attr_of f name with
  | Some (Txt v) => if has_var f v then Ok v else Raises InvalidVariableError
  | _ => Raises InvalidVariableError
  end.
(** 146-179; for a text of blanks only, split()[0] fails *)
Definition parse_altitude (a : attr) : res Q :=
  match a with
  | Num q => Ok q
  | Txt s => match float_of s with
             | Some q => Ok q
             | None => match words s with [] => Raises IndexError | w :: _ => Ok (match float_of w with Some q => q | None => 0%Q end) end
             end
  end.
Definition parse_lat_lon (a : attr) : res Q :=
  match a with
  | Num q => Ok q
  | Txt s => match float_of s with
             | Some q => Ok q
             | None => match words s with [] => Raises IndexError | w :: _ => match float_of w with Some q => Ok q | None => Raises InvalidVariableError end end
             end
  end.
Definition attr_or_key_error (f : ncfile) (name : str) : res attr := match attr_of f name with Some a => Ok a | None => Raises KeyError end.

(** what the variable selector finds; the fixed values are one for each file *)
Record selector := mkSel {
  s_time : str; s_lat : option str; s_lon : option str; s_alt : option str; s_station : option (list Q * list Q); s_altitude : option (list Q);
  s_pressure : option str; s_stamps : option (list attr); s_time_dims : list str }.
(** 181-204, 215-226, 228-249 *)
Definition stationary (files : list ncfile) (f : ncfile) (t : str) : res selector :=
  bind (map_res (fun g => bind (attr_or_key_error g (lit "Station_Lat")) parse_lat_lon) files) (fun lats =>
  if negb (has_attr f (lit "Station_Lon")) then Raises InvalidVariableError else
  bind (map_res (fun g => bind (attr_or_key_error g (lit "Station_Lon")) parse_lat_lon) files) (fun lons =>
  bind (if has_attr f (lit "Station_Altitude") then map_res (fun g => bind (attr_or_key_error g (lit "Station_Altitude")) parse_altitude) files
        else Ok (map (fun _ => 0%Q) files)) (fun alts =>
  Ok (mkSel t None None None (Some (lats, lons)) (Some alts) None None [])))).
Definition lat_lon_specified (files : list ncfile) (f : ncfile) (t : str) : res selector :=
  bind (coordinate_variable f (lit "Latitude_Coordinate")) (fun la =>
  bind (coordinate_variable f (lit "Longitude_Coordinate")) (fun lo =>
  if has_attr f (lit "Vertical_Coordinate") then
    bind (coordinate_variable f (lit "Vertical_Coordinate")) (fun al => Ok (mkSel t (Some la) (Some lo) (Some al) None None None None []))
  else Ok (mkSel t (Some la) (Some lo) None None (Some (map (fun _ => 0%Q) files)) None None []))).
Definition best_coordinates (f : ncfile) : res selector :=
  match attr_of f (lit "Coordinates") with
  | None => Raises KeyError
  | Some (Num _) => Raises AttributeError
  | Some (Txt s) => match words s with
                    | [lo; la; al; t] => if forallb (has_var f) [lo; la; al; t] then Ok (mkSel t (Some la) (Some lo) (Some al) None None None None []) else Raises InvalidVariableError
                    | _ => Raises InvalidVariableError
                    end
  end.
(** 69-125 and 206-213 *)
Definition select (files : list ncfile) : res selector :=
  match files with
  | [] => Raises InvalidVariableError
  | f :: _ =>
    if (length (f_vars f) =? 0) || (length (f_attrs f) =? 0) then Raises InvalidVariableError else
    bind (if has_attr f (lit "Time_Coordinate") then
            bind (coordinate_variable f (lit "Time_Coordinate")) (fun t =>
            if has_attr f (lit "Latitude_Coordinate") then lat_lon_specified files f t
            else if has_attr f (lit "Station_Lat") then stationary files f t
            else Raises InvalidVariableError)
          else if has_attr f (lit "Coordinates") then best_coordinates f
          else Raises InvalidVariableError) (fun s =>
    let pressure := if has_var f (lit "PSXC") then Some (lit "PSXC") else if has_var f (lit "PRE") then Some (lit "PRE") else None in
    bind (if has_attr f (lit "Time_Stamp_Info") then bind (map_res (fun g => attr_or_key_error g (lit "Time_Stamp_Info")) files) (fun l => Ok (Some l)) else Ok None) (fun stamps =>
    bind (match var_of f (s_time s) with Some v => Ok (v_dims v) | None => Raises KeyError end) (fun dims =>
    Ok (mkSel (s_time s) (s_lat s) (s_lon s) (s_alt s) (s_station s) (s_altitude s) pressure stamps dims))))
  end.
(** 251-277 *)
Fixpoint first_on (d : str) (vars : list (str * nvar)) : res (option str) :=
  match vars with
  | [] => Ok None
  | (n, v) :: vars => match v_dims v with [] => Raises IndexError | d0 :: _ => if str_eqb d0 d then Ok (Some n) else first_on d vars end
  end.
Definition opt_list {A} (o : option A) : list A := match o with Some x => [x] | None => [] end.
Definition find_auxiliary_coordinate (f : ncfile) (s : selector) (name : str) : res (option str) :=
  match var_of f name with
  | None => Raises KeyError
  | Some v =>
    let known := opt_list (s_lat s) ++ opt_list (s_lon s) ++ opt_list (s_alt s) ++ opt_list (s_pressure s) ++ s_time_dims s in
    match filter (fun d => negb (existsb (str_eqb d) known)) (v_dims v) with
    | [] => Ok None
    | [d] => if has_var f d then Ok (Some d) else first_on d (f_vars f)
    | _ => Raises InvalidVariableError
    end
  end.
(** 279-284 with utils.py:600-612 *)
Definition dimensions_compatible (a b : list str) : bool := forallb (fun ab => str_eqb (fst ab) (snd ab)) (combine a b).
Definition variable_names (files : list ncfile) : res (list str) :=
  bind (select files) (fun s => match files with
    | [] => Raises IndexError
    | f :: _ => Ok (map fst (filter (fun nv => negb (length (v_dims (snd nv)) =? 0) && dimensions_compatible (v_dims (snd nv)) (s_time_dims s)) (f_vars f)))
    end).

(** An array: its shape and its elements in C order.  concatenate, utils.py:21-43, and LazyData.data, ungridded_data.py:276-296 *)
Definition arr := (list nat * list (option Q))%type.
Definition concat2 (a b : arr) : res arr :=
  match fst a, fst b with
  | n :: ta, m :: tb => if list_eq_dec Nat.eq_dec ta tb then Ok ((n + m) :: ta, snd a ++ snd b) else Raises ValueError
  | _, _ => Raises ValueError
  end.
Definition concat_arrays (l : list arr) : res arr :=
  match l with [] => Raises IndexError | a :: l => fold_left (fun acc b => bind acc (fun a => concat2 a b)) l (Ok a) end.
Definition array_of (v : nvar) : arr := (v_shape v, v_data v).
Definition column (files : list ncfile) (name : str) : res (list nvar) :=
  map_res (fun f => match var_of f name with Some v => Ok v | None => Raises InvalidVariableError end) files.

(** 506-523 *)
Definition create_coord (axis std name : str) (vs : list nvar) : res coord :=
  bind (concat_arrays (map array_of vs)) (fun a => Ok (mkCoord (Some std) (match vs with v :: _ => v_long v | [] => [] end) name axis (fst a) (snd a))).
(** 525-549; without time stamps each time variable is converted without one (zip_longest); as many stamps as files otherwise *)
Fixpoint zip_stamps (vs : list nvar) (ts : list (option attr)) : list (nvar * option attr) :=
  match vs, ts with [], _ => [] | v :: vs, [] => (v, None) :: zip_stamps vs [] | v :: vs, t :: ts => (v, t) :: zip_stamps vs ts end.
Definition create_time_coord (stamps : option (list attr)) (name : str) (vs : list nvar) : res coord :=
  bind (map_res (fun vt : nvar * option attr => bind (convert (v_units (fst vt)) (snd vt)) (fun g => Ok (v_shape (fst vt), map (option_map g) (v_data (fst vt)))))
                (zip_stamps vs (match stamps with Some l => map Some l | None => [None] end))) (fun arrs =>
  bind (concat_arrays arrs) (fun a => Ok (mkCoord (Some (lit "time")) (match vs with v :: _ => v_long v | [] => [] end) name (lit "T") (fst a) (snd a)))).
(** 551-572 *)
Definition create_fixed_value_coord (axis name : str) (values : list Q) (counts : list nat) : coord :=
  let points := flat_map (fun vn : Q * nat => repeat (Some (fst vn)) (snd vn)) (combine values counts) in
  mkCoord (Some name) [] name axis [length points] points.
Definition size (shape : list nat) : nat := fold_left Nat.mul shape 1.
(** 403-444 *)
Definition variable_coord (files : list ncfile) (axis std : str) (name : option str) : res coord :=
  match name with None => Raises KeyError | Some n => bind (column files n) (create_coord axis std n) end.
Definition create_coordinates_list (files : list ncfile) (s : selector) : res (list coord) :=
  bind (column files (s_time s)) (fun times =>
  bind (create_time_coord (s_stamps s) (s_time s) times) (fun time =>
  let counts := map (fun v => size (v_shape v)) times in
  bind (match s_station s with
        | Some (lats, lons) => Ok (create_fixed_value_coord (lit "Y") (lit "latitude") lats counts, create_fixed_value_coord (lit "X") (lit "longitude") lons counts)
        | None => bind (variable_coord files (lit "Y") (lit "latitude") (s_lat s)) (fun la => bind (variable_coord files (lit "X") (lit "longitude") (s_lon s)) (fun lo => Ok (la, lo)))
        end) (fun ll =>
  bind (match s_altitude s with
        | Some alts => Ok (create_fixed_value_coord (lit "Z") (lit "altitude") alts counts)
        | None => variable_coord files (lit "Z") (lit "altitude") (s_alt s)
        end) (fun al =>
  bind (append_all [] [time; fst ll; snd ll; al]) (fun cs =>
  match s_pressure s with
  | None => Ok cs
  | Some p => bind (variable_coord files (lit "P") (lit "air_pressure") (Some p)) (coords_append cs)
  end))))).
(** 447-473 and utils.py:94-135 *)
Definition stretch_coord (len_y : nat) (c : coord) : coord :=
  set_points c [length (c_points c); len_y] (flat_map (fun x => repeat x len_y) (c_points c)).
Definition add_aux_coordinate (cs : list coord) (f : ncfile) (aux : str) (n : nat) : res (list coord) :=
  match var_of f aux with
  | None => Raises InvalidVariableError
  | Some v => match v_shape v with
              | [] | [_] | [1; _] => Ok (map (stretch_coord (length (v_data v))) cs ++ [mkCoord (v_std v) (v_long v) aux [] [n; length (v_data v)] (concat (repeat (v_data v) n))])
              | _ => Raises ValueError
              end
  end.
(** 380-401: all variables are looked up in all files first *)
Definition load (files : list ncfile) (s : selector) (variable : option str) : res (list (list nvar)) :=
  map_res (column files) (s_time s :: opt_list (s_lat s) ++ opt_list (s_lon s) ++ opt_list (s_alt s) ++ opt_list (s_pressure s) ++ opt_list variable).
(** 475-504 *)
Definition create_coords (files : list ncfile) : res (list coord) :=
  bind (select files) (fun s => bind (load files s None) (fun _ => create_coordinates_list files s)).
Definition create_data_object (files : list ncfile) (variable : str) : res udata :=
  bind (select files) (fun s =>
  bind (load files s (Some variable)) (fun _ =>
  bind (create_coordinates_list files s) (fun cs =>
  match files with
  | [] => Raises IndexError
  | f :: _ =>
    bind (find_auxiliary_coordinate f s variable) (fun aux =>
    bind (match aux with
          | None => Ok cs
          | Some a => bind (get_coord cs (by_std (lit "time"))) (fun t => add_aux_coordinate cs f a (length (c_points t)))
          end) (fun cs =>
    bind (column files variable) (fun vs =>
    bind (concat_arrays (map array_of vs)) (fun a => Ok (mkU cs (fst a) (snd a))))))
  end))).
(** reading the data: the values are loaded and points without a position left out (UngriddedData._post_process) *)
Definition read_raf (files : list ncfile) (variable : str) : res udata := bind (create_data_object files variable) post_process.
End Raf.

(** 322-366: the file type, or the reasons why it is not known.  os.path.isfile is a parameter; the texts of the messages are left out. *)
Definition file_format (is_file : bool) (attributes : option (list (str * attr))) : res str :=
  if negb is_file then Raises FileFormatError else
  match attributes with
  | None => Raises FileFormatError
  | Some l =>
    let f := mkFile l [] in
    match attr_of f (lit "GASSP_Version") with
    | Some _ => Ok (lit "NetCDF/GASSP")
    | None => match attr_of f (lit "Conventions") with
              | Some (Txt c) => if str_eqb c (lit "NCAR-RAF/nimbus") then Ok (lit "NetCDF/NCAR-RAF/nimbus") else Raises FileFormatError
              | _ => Raises FileFormatError
              end
    end
  end.
