(** MODIS Level 3 files, cis/data_io/products/MODIS.py:68-185. *)
From Coq Require Import String.
From Verif Require Import Base PyStr QBase DateModel DistModel ProdModel AeroModel.
From Coq Require Import List Ascii ZArith.
Import ListNotations.
Open Scope string_scope. Open Scope list_scope. Open Scope nat_scope. Notation length := List.length.

(** the attributes of a file, hdf.py:27-41: texts and other things, in the order of the dictionary *)
Inductive attr := Text (s : str) | Other.
(** str.find *)
Fixpoint find_from (p s : str) : option nat := if starts_with p s then Some 0 else match s with [] => None | _ :: r => option_map S (find_from p r) end.
Definition py_find (p s : str) : Z := match find_from p s with Some i => Z.of_nat i | None => (-1)%Z end.
(** s[i:j]: a negative index counts from the end *)
Definition bound (n : nat) (i : Z) : nat := Z.to_nat (if (i <? 0)%Z then Z.max 0 (i + Z.of_nat n) else Z.min i (Z.of_nat n)).
Definition py_slice (s : str) (i j : Z) : str := let a := bound (length s) i in let b := bound (length s) j in firstn (b - a) (skipn a s).
Definition quote : ascii := Ascii false true false false false true false false.
Definition newline : ascii := Ascii false true false true false false false false.
Definition is_quote (c : ascii) : bool := if ascii_dec c quote then true else false.
(** re.findall with a pattern of a quote, anything, a quote: the first of them is in the first line with two quotes, from its first quote to its last *)
Fixpoint from_quote (s : str) : str := match s with [] => [] | c :: r => if is_quote c then s else from_quote r end.
Definition line_match (l : str) : option str := if 2 <=? length (filter is_quote l) then Some (rev (from_quote (rev (from_quote l)))) else None.
Fixpoint first_match (ls : list str) : option str := match ls with [] => None | l :: r => match line_match l with Some m => Some m | None => first_match r end end.
(** 73-86; [res]: what has been found so far *)
Fixpoint parse_datetime (res0 : str) (attrs : list attr) (keyword : str) : res str :=
  match attrs with
  | [] => Ok res0
  | Other :: _ => Raises AttributeError
  | Text s :: rest =>
    let i_start := py_find keyword s in
    let ssub := py_slice s i_start (Z.of_nat (length s)) in
    let i_end := py_find (lit "END_OBJECT") ssub in
    let ssubsub := py_slice s i_start (i_start + i_end) in
    match first_match (split_on newline ssubsub) with
    | Some m => match remove_char quote m with [] => parse_datetime [] rest keyword | r => Ok r end
    | None => parse_datetime res0 rest keyword
    end
  end.

(** A file: its attributes; latitudes (YDim), longitudes (XDim) and the variable, rows of values, as _get_MODIS_SDS_data reads them (C41; None: masked) *)
Record mfile := mkM { m_attrs : list attr; m_lat : list (option Q); m_lon : list (option Q); m_var : list (list (option Q)) }.
(** A cube of one moment *)
Record mcube := mkC { c_lat : list Q; c_lon : list Q; c_point : Q; c_bounds : Q * Q; c_rows : list (list (option Q)) }.
Section M3.
(** parse_datetimestr_to_std_time, parse_datetime.py:6-8 *)
Variable parse : str -> res Q.
Definition range_date (f : mfile) (date time : string) : res Q :=
  bind (parse_datetime [] (m_attrs f) (lit date)) (fun d => bind (parse_datetime [] (m_attrs f) (lit time)) (fun t => parse (d ++ lit " " ++ t))).
(** 88-102 *)
Definition get_start_date (f : mfile) : res Q := range_date f "RANGEBEGINNINGDATE" "RANGEBEGINNINGTIME".
Definition get_end_date (f : mfile) : res Q := range_date f "RANGEENDINGDATE" "RANGEENDINGTIME".
(** iris.coords.DimCoord (contract): points that are all there, going up or down *)
Fixpoint all_there (l : list (option Q)) : option (list Q) := match l with [] => Some [] | Some x :: r => option_map (cons x) (all_there r) | None :: _ => None end.
Fixpoint steps (lt : Q -> Q -> bool) (l : list Q) : bool := match l with x :: ((y :: _) as r) => lt x y && steps lt r | _ => true end.
Definition dim_coord (l : list (option Q)) : res (list Q) :=
  match all_there l with Some p => if (steps Qltb p || steps (fun x y => Qltb y x) p) && negb (length p =? 0) then Ok p else Raises ValueError | None => Raises ValueError end.
(** 133-163: the cube of a file.  iris.cube.Cube (contract) refuses coordinates that have not the length of their dimension: latitudes of dimension 0, longitudes of dimension 1 *)
Definition file_cube (f : mfile) : res mcube :=
  bind (dim_coord (m_lat f)) (fun lat => bind (dim_coord (m_lon f)) (fun lon =>
  bind (get_start_date f) (fun s => bind (get_end_date f) (fun e =>
  if (length (m_var f) =? length lat) && forallb (fun r => length r =? length lon) (m_var f) then Ok (mkC lat lon (calculate_mid_time s e) (s, e) (m_var f)) else Raises ValueError)))).
(** CubeList.merge_cube of several cubes *)
Variable together : list mcube -> res mcube.
(** 120-166, 180-185 *)
Definition create_data_object (files : list mfile) : res mcube :=
  bind (map_res file_cube files) (fun cs => match cs with [c] => Ok c | cs => together cs end).
End M3.
(** 109-122, the names offered: variables on the dimensions of the grid, of any file (a set) *)
Definition offered (files : list (list (str * list str))) : list str :=
  nodup (list_eq_dec ascii_dec) (flat_map (fun f => map fst (filter (fun v => match snd v with [a; b] => str_eqb a (lit "YDim:mod08") && str_eqb b (lit "XDim:mod08") | _ => false end) f)) files).
