(** EarthCARE files, cis/data_io/products/EarthCARE.py. *)
From Coq Require Import String.
From Verif Require Import Base PyStr QBase DateModel DistModel AeroModel IndexSpec InterpModel UngrModel.
From Coq Require Import List Ascii.
Import ListNotations.
Open Scope string_scope. Open Scope list_scope. Open Scope nat_scope. Notation length := List.length.

(** a variable of a file: the names and sizes of its dimensions, its elements in C order (None: masked) *)
Record evar := mkE { e_dims : list str; e_shape : list nat; e_data : list (option Q) }.
Definition efile := list (str * evar).
Definition evar_of (f : efile) (n : str) : option evar := option_map snd (find (fun kv => str_eqb (fst kv) n) f).
(** read_many_files_individually, netcdf.py:135-161: every file must have the variable.  [0]: what the product uses of it is always the variable of the first file *)
Definition all_have (files : list efile) (n : str) : bool := forallb (fun f => match evar_of f n with Some _ => true | None => false end) files.
Definition first_of (files : list efile) (n : str) : res evar :=
  if all_have files n then match files with f :: _ => match evar_of f n with Some v => Ok v | None => Raises InvalidVariableError end | [] => Raises KeyError end else Raises InvalidVariableError.

(** 72-74: a dimension's name, the marker for the index in it, its expected place *)
Definition known_dims : list (str * str * nat) :=
  [(lit "class", lit "_CLASSNUM_", 2); (lit "aerosol_components", lit "_AEROSOL_COMPONENTSNUM_", 2); (lit "band", lit "_BANDNUM_", 0); (lit "VNS_band", lit "_BANDNUM_", 0); (lit "background", lit "_BACKGROUNDNUM_", 1)].
Definition d_name (k : str * str * nat) : str := fst (fst k).
Definition d_marker (k : str * str * nat) : str := snd (fst k).
Definition d_place (k : str * str * nat) : nat := snd k.
(** 341-353: the variable asked for, and perhaps the index; the last character is the index, whatever stands before it *)
Definition asked (variable : str) : res (str * option nat) :=
  match find (fun k => contains (d_marker k) variable) known_dims with
  | None => Ok (variable, None)
  | Some k => match rev variable with
              | c :: _ => if is_digit c then Ok (firstn (length variable - (length (d_marker k) + 1)) variable, Some (Z.to_nat (digits_val [c]))) else Raises ValueError
              | [] => Raises ValueError
              end
  end.
Definition remove_at {A} (i : nat) (l : list A) : list A := firstn i l ++ skipn (S i) l.
Definition insert_at {A} (i : nat) (x : A) (l : list A) : list A := firstn i l ++ x :: skipn i l.
(** 148-164: the shape the coordinates should have; known dimensions in their place are left out (del of an index that is not there: IndexError) *)
Definition in_place (v : evar) (k : str * str * nat) : bool := match nth_error (e_dims v) (d_place k) with Some d => str_eqb d (d_name k) | None => false end.
Definition required_shape (v : evar) : res (list nat) :=
  fold_left (fun acc k => bind acc (fun s => if in_place v k then if d_place k <? length s then Ok (remove_at (d_place k) s) else Raises IndexError else Ok s)) known_dims (Ok (e_shape v)).
Definition found_known (v : evar) : bool := existsb (in_place v) known_dims.
(** expand_1d_to_2d_array(array, length, axis=1) and axis=0, cis/utils.py:94-135 *)
Definition expand1 (l : list (option Q)) (len : nat) : list (option Q) := flat_map (fun x => repeat x len) l.
Definition expand0 (l : list (option Q)) (len : nat) : list (option Q) := concat (repeat l len).
(** tuple[1] *)
Definition second (s : list nat) : res nat := match s with _ :: x :: _ => Ok x | _ => Raises IndexError end.
Fixpoint shape_eqb (a b : list nat) : bool := match a, b with [], [] => true | x :: a, y :: b => (x =? y) && shape_eqb a b | _, _ => false end.
(** 167-197: longitude or latitude *)
Definition place_coord (std axis : string) (c : evar) (req : list nat) : res (list coord) :=
  if length req <? length (e_shape c) then Ok []
  else if length (e_shape c) <? length req then bind (second req) (fun m => Ok [mkCoord (Some (lit std)) [] [] (lit axis) [length (e_data c); m] (expand1 (e_data c) m)])
  else Ok [mkCoord (Some (lit std)) [] [] (lit axis) (e_shape c) (e_data c)].
(** convert_TAI_time_to_std_time(2000-01-01), 327-330 *)
Definition since_2000 (x : Q) : Q := convert_sec_since_to_std_time (mkDT 2000 1 1 0 0 0) x.
(** 199-216 *)
Definition time_coord (c : evar) (req : list nat) : res (list coord) :=
  let build sh l := [mkCoord (Some (lit "time")) [] [] (lit "T") sh (map (option_map since_2000) l)] in
  if length (e_shape c) <? length req then bind (second req) (fun m => Ok (build [length (e_data c); m] (expand1 (e_data c) m)))
  else if shape_eqb (e_shape c) req then Ok (build (e_shape c) (e_data c)) else Ok [].
(** 218-285 *)
Definition height_name (files : list efile) : option str :=
  if all_have files (lit "ScienceData/height") then Some (lit "ScienceData/height") else if all_have files (lit "ScienceData/sample_altitude") then Some (lit "ScienceData/sample_altitude") else None.
Definition height_coord (files : list efile) (lon v : evar) (req : list nat) : res (list coord) :=
  let build sh l := [mkCoord (Some (lit "altitude")) [] (lit "altitude") (lit "Z") sh l] in
  match height_name files with
  | Some n => bind (first_of files n) (fun h => if shape_eqb (e_shape h) req then Ok (build (e_shape h) (e_data h)) else Ok [])
  | None => if (length (e_shape lon) + 1 =? length req) && negb (found_known v)
            then bind (second req) (fun m => Ok (build [hd 0 req; m] (expand0 (map (fun j => Some (inject_Z (Z.of_nat j))) (seq 0 m)) (hd 0 req))))
            else Ok []
  end.
(** 104-133: where the positions are *)
Definition position_names (files : list efile) : option (str * str) :=
  let has l := forallb (all_have files) l in
  if has [lit "ScienceData/longitude"; lit "ScienceData/latitude"; lit "ScienceData/time"] then Some (lit "ScienceData/longitude", lit "ScienceData/latitude")
  else if has [lit "ScienceData/ellipsoid_longitude"; lit "ScienceData/ellipsoid_latitude"; lit "ScienceData/time"] then Some (lit "ScienceData/ellipsoid_longitude", lit "ScienceData/ellipsoid_latitude") else None.
(** _create_coord_list for a variable, 92-309 *)
Definition coord_list (files : list efile) (variable : str) : res (list coord) :=
  match position_names files with
  | None => Ok []
  | Some (lo, la) =>
    bind (first_of files variable) (fun v => bind (required_shape v) (fun req =>
    bind (first_of files lo) (fun lon => bind (place_coord "longitude" "X" lon req) (fun x =>
    bind (first_of files la) (fun lat => bind (place_coord "latitude" "Y" lat req) (fun y =>
    bind (first_of files (lit "ScienceData/time")) (fun time => bind (time_coord time req) (fun t =>
    bind (height_coord files lon v req) (fun z =>
    let cs := x ++ y ++ t ++ z in
    Ok (match cs, req with [], [n] => [mkCoord None (lit "index_x") (lit "index_x") (lit "X") [n] (map (fun j => Some (inject_Z (Z.of_nat j))) (seq 0 n))] | _, _ => cs end))))))))))
  end.
(** data[..., k, ...] with k in place p, 385-400: an index that is not there is an IndexError; for a place the code has no case for, the result has no value (NameError) *)
Definition take (v : evar) (p k : nat) : res (list nat * list (option Q)) :=
  match nth_error (e_shape v) p with
  | None => Raises NameError
  | Some e => if k <? e then let s := remove_at p (e_shape v) in
                Ok (s, map (fun idx => nth (flat_pos (e_shape v) (insert_at p k idx)) (e_data v) None) (product (map (seq 0) s)))
              else Raises IndexError
  end.
(** 355-425: the first known dimension the variable has, anywhere, decides which place the index is used in.  None: nothing is returned.
    Simplification: the attribute long_name, which is used for messages and names, is there. *)
Definition create_data_object (files : list efile) (variable : str) : res (option udata) :=
  bind (asked variable) (fun vk => let '(variable, k) := vk in
  bind (coord_list files variable) (fun cs =>
  match first_of files variable with
  | Raises _ => Ok None
  | Ok v =>
    let nd := length (e_dims v) in
    if 3 <? nd then Raises NotImplementedError
    else match find (fun d => existsb (str_eqb (d_name d)) (e_dims v)) known_dims with
         | Some d => if nd <? 2 then Raises NameError else bind (take v (d_place d) (match k with Some k => k | None => 0 end)) (fun a => Ok (Some (mkU cs (fst a) (snd a))))
         | None => if nd =? 3 then Raises NotImplementedError else Ok (Some (mkU cs (e_shape v) (e_data v)))
         end
  end)).
(** points without a position are left out when the data are used *)
Definition read_ec (files : list efile) (variable : str) : res (option udata) :=
  bind (create_data_object files variable) (fun o => match o with Some d => bind (post_process d) (fun d => Ok (Some d)) | None => Ok None end).
