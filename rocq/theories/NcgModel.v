(** The product NetCDF_Gridded: cis/data_io/products/gridded_NetCDF.py, load_cube (cis/data_io/gridded_data.py:14-37) and
    convert_cube_time_coord_to_standard_time (cis/time_util.py:209-239).  Attributes of coordinates other than the names and the units, and bounds, are left out; attributes of a cube are texts. *)
From Coq Require Import String.
From Verif Require Import Base PyStr QBase.
From Coq Require Import List.
Import ListNotations.
Open Scope string_scope. Open Scope list_scope. Open Scope nat_scope. Notation length := List.length.

(** iris cubes: names, shape, a coordinate for each dimension that has one, the value at each index, auxiliary coordinates over some dimensions, attributes *)
Record dimc := mkDimc { k_std : option str; k_long : option str; k_var : option str; k_units : str; k_points : list Q }.
Record auxc := mkAux { x_std : option str; x_long : option str; x_var : option str; x_units : str; x_dims : list nat; x_shape : list nat; x_at : list nat -> option Q }.
Record gcube := mkGcube { q_var : option str; q_std : option str; q_long : option str; q_units : str; q_shape : list nat; q_dims : list (option dimc); q_at : list nat -> option Q; q_aux : list auxc; q_atts : list (str * str) }.
Definition is (o : option str) (s : str) : bool := match o with Some t => str_eqb t s | None => false end.
Definition opt_eqb (a b : option str) : bool := match a, b with Some x, Some y => str_eqb x y | None, None => true | _, _ => false end.

Section Ncg.
(** iris merges, or concatenates, the cubes of several files to one; None: neither can be done *)
Variable together : list gcube -> option gcube.
(** the standard time for a number in these units (num2date and date2num; None: not units of time) *)
Variable std_time : str -> Q -> option Q.

(** gridded_data.py:14-37, where [raw] are the cubes in the files *)
Definition load_cube (raw : list gcube) (constraint : gcube -> bool) : res gcube :=
  match filter constraint raw with
  | [] => Raises ValueError
  | [c] => Ok c
  | cs => match together cs with Some c => Ok c | None => Raises ValueError end
  end.
(** Cube.add_aux_coord (contract): for every dimension in turn IndexError if the cube has not got it, ValueError if the lengths differ; ValueError for a second coordinate of the same names and units *)
Fixpoint check_dims (shape dims cshape : list nat) : res unit :=
  match dims, shape with
  | d :: dims, n :: shape => match nth_error cshape d with None => Raises IndexError | Some m => if n =? m then check_dims shape dims cshape else Raises ValueError end
  | _, _ => Ok tt
  end.
Definition same_coord (std long var : option str) (units : str) (a : auxc) : bool := opt_eqb std (x_std a) && opt_eqb long (x_long a) && opt_eqb var (x_var a) && str_eqb units (x_units a).
Definition same_dimc (std long var : option str) (units : str) (k : option dimc) : bool :=
  match k with Some k => opt_eqb std (k_std k) && opt_eqb long (k_long k) && opt_eqb var (k_var k) && str_eqb units (k_units k) | None => false end.
Definition add_aux_coord (c : gcube) (a : auxc) : res gcube :=
  bind (check_dims (x_shape a) (x_dims a) (q_shape c)) (fun _ =>
  if existsb (same_coord (x_std a) (x_long a) (x_var a) (x_units a)) (q_aux c) || existsb (same_dimc (x_std a) (x_long a) (x_var a) (x_units a)) (q_dims c) then Raises ValueError
  else Ok (mkGcube (q_var c) (q_std c) (q_long c) (q_units c) (q_shape c) (q_dims c) (q_at c) (q_aux c ++ [a]) (q_atts c))).
(** 145-180 *)
Definition standard_gravity : Q := (980665 # 100000)%Q.
Definition positional (std long var units : string) (g : gcube) (f : Q -> Q) : auxc :=
  mkAux (Some (lit std)) (Some (lit long)) (Some (lit var)) (lit units) (seq 0 (length (q_shape g))) (q_shape g) (fun i => option_map f (q_at g i)).
Definition from_geopotential (g : gcube) : auxc := positional "altitude" "Geopotential height at layer midpoints" "altitude" "meter" g (fun v => (v / standard_gravity)%Q).
Definition from_geopotential_height (g : gcube) : auxc := positional "altitude" "Geopotential height at layer midpoints" "altitude" "meter" g (fun v => v).
Definition from_air_pressure (g : gcube) : auxc := positional "air_pressure" "Air Pressure" "air_pressure" "Pa" g (fun v => v).
(** 182-195: in this order (a dictionary) *)
Definition aux_coord_creation_functions : list (str * (gcube -> auxc)) := [(lit "geopotential", from_geopotential); (lit "geopotential_height", from_geopotential_height); (lit "air_pressure", from_air_pressure)].
Definition add_available (raw : list gcube) (c : gcube) (nf : str * (gcube -> auxc)) : res gcube :=
  match bind (load_cube raw (fun g => is (q_std g) (fst nf))) (fun g => add_aux_coord c (snd nf g)) with
  | Raises ValueError => Ok c
  | r => r
  end.
Definition add_available_aux_coords (raw : list gcube) (c : gcube) : res gcube := fold_left (fun r nf => bind r (fun c => add_available raw c nf)) aux_coord_creation_functions (Ok c).
(** 97-134; [variable]: the name, or None *)
Definition named_cube (variable : str) (c : gcube) : bool := is (q_var c) variable || is (q_std c) variable || is (q_long c) variable.
Definition create_cube (raw : list gcube) (variable : option str) : res gcube :=
  match load_cube raw (match variable with Some v => named_cube v | None => fun _ => true end) with
  | Ok c => add_available_aux_coords raw c
  | Raises ValueError => Raises InvalidVariableError
  | Raises e => Raises e
  end.
(** time_util.py:209-239.  The only coordinate with the standard name time is converted if it is that of a dimension; if it is auxiliary over dimensions, add_dim_coord raises ValueError (contract);
    one of no dimension is left.  No or several such coordinates: CoordinateNotFoundError *)
Definition is_time_dim (k : option dimc) : bool := match k with Some k => is (k_std k) (lit "time") | None => false end.
Fixpoint convert_points (units : str) (l : list Q) : res (list Q) :=
  match l with [] => Ok [] | x :: l => match std_time units x with None => Raises ValueError | Some y => bind (convert_points units l) (fun m => Ok (y :: m)) end end.
Definition standard_units : str := lit "days since 1600-01-01 00:00:00".
Fixpoint convert_dims (ks : list (option dimc)) : res (list (option dimc)) :=
  match ks with
  | [] => Ok []
  | k :: ks =>
    bind (if is_time_dim k then match k with Some k => bind (convert_points (k_units k) (k_points k)) (fun l => Ok (Some (mkDimc (k_std k) (k_long k) (k_var k) standard_units l))) | None => Ok k end else Ok k) (fun k' =>
    bind (convert_dims ks) (fun ks' => Ok (k' :: ks')))
  end.
Definition convert_cube_time_coord (c : gcube) : res gcube :=
  match filter is_time_dim (q_dims c), filter (fun a => is (x_std a) (lit "time")) (q_aux c) with
  | [_], [] => bind (convert_dims (q_dims c)) (fun ks => Ok (mkGcube (q_var c) (q_std c) (q_long c) (q_units c) (q_shape c) ks (q_at c) (q_aux c) (q_atts c)))
  | [], [a] => match x_dims a with [] => Ok c | _ => Raises ValueError end
  | _, _ => Raises CoordinateNotFoundError
  end.
(** 72-92 *)
Definition create_data_object (raw : list gcube) (variable : option str) : res gcube :=
  bind (create_cube raw variable) (fun c => match convert_cube_time_coord c with Raises CoordinateNotFoundError => Ok c | r => r end).

(** 24-49; [loaded]: the cubes iris.load makes of the files; [of_space_or_time]: whether units are those of a time, a reference time, a vertical coordinate or an angle (cf_units);
    a set of names.  Cube.name(): the standard, long or variable name, or unknown *)
Variable of_space_or_time : str -> bool.
Definition full (o : option str) : bool := match o with Some (_ :: _) => true | _ => false end.
Definition cube_name (c : gcube) : str :=
  match (if full (q_std c) then q_std c else if full (q_long c) then q_long c else if full (q_var c) then q_var c else None) with Some s => s | None => lit "unknown" end.
Definition offered (c : gcube) : bool := forallb (fun k => match k with Some k => negb ((1 <? length (k_points k)) && negb (of_space_or_time (k_units k))) | None => true end) (q_dims c).
Definition variable_name (c : gcube) : str := match q_var c with Some ((_ :: _) as s) => s | _ => cube_name c end.
Definition get_variable_names (loaded : list gcube) : list str := nodup str_eq_dec (map variable_name (filter offered loaded)).
(** 51-70; any of the names may be popped from the set: [pop] *)
Definition create_coords (raw loaded : list gcube) (pop : list str -> str) (variable : option str) : res gcube :=
  create_data_object raw (match variable with Some v => Some v | None => if 1 <? length (get_variable_names loaded) then Some (pop (get_variable_names loaded)) else None end).
End Ncg.
