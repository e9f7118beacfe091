(** Coordinates looked up by criteria: cis/data_io/Coord.py:122-284, cis/data_io/ungridded_data.py:220-226, 624-637. *)
From Verif Require Import Base PyStr FileListModel QBase DateModel UngrModel.
Open Scope list_scope.

(** A coordinate: what UngrModel has of it and its attributes (metadata.misc).  Simplifications: the values of attributes are texts; the long name and
    the variable name are texts (the empty one if there is none). *)
Record acoord := mkA { k_coord : coord; k_attrs : list (str * str) }.
(** Coord.__init__, Coord.py:24-36: the axis letter in capitals *)
Definition make_coord (std : option str) (long var axis : str) (shape : list nat) (points : list (option Q)) (attrs : list (str * str)) : acoord :=
  mkA (mkCoord std long var (upper axis) shape points) attrs.
Definition k_name (c : acoord) : str := c_name (k_coord c).

(** The first argument: a name or a coordinate; the attributes: a mapping or not *)
Inductive wanted := Name (n : str) | Like (c : acoord).
Inductive attributes := Mapping (l : list (str * str)) | NoMapping.
Record query := mkQuery { w_name : option wanted; w_std : option str; w_long : option str; w_attrs : option attributes; w_axis : option str; w_var : option str }.
Definition nothing_asked : query := mkQuery None None None None None None.
(** The list that is given back: the list itself (the very object), or a new one *)
Inductive listing := Itself | New (l : list acoord).
Definition items (all : list acoord) (r : listing) : list acoord := match r with Itself => all | New l => l end.
(** one [if ... is not None: coords = [... for coord_ in coords if ...]] *)
Definition narrow (all : list acoord) (r : listing) (f : option (acoord -> bool)) : listing :=
  match f with Some f => New (filter f (items all r)) | None => r end.
(** [k in coord_.attributes and coord_.attributes[k] == v] for all *)
Definition has_attribute (c : acoord) (kv : str * str) : bool := match dict_get (k_attrs c) (fst kv) with Some v => str_eqb v (snd kv) | None => false end.
(** Coord.__eq__, 57-58 *)
Definition same_coord (a b : acoord) : bool := coord_eq (k_coord b) (k_coord a).
(** CoordList.get_coords, 152-214 *)
Definition get_coords (all : list acoord) (q : query) : res listing :=
  let by_name := match w_name q with Some (Name n) => Some (fun c => str_eqb (k_name c) n) | _ => None end in
  let by_coord := match w_name q with Some (Like o) => Some (fun c => same_coord c o) | _ => None end in
  let r := narrow all Itself by_name in
  let r := narrow all r (option_map (fun s c => std_eqb (c_std (k_coord c)) (Some s)) (w_std q)) in
  let r := narrow all r (option_map (fun s c => str_eqb (c_long (k_coord c)) s) (w_long q)) in
  let r := narrow all r (option_map (fun s c => str_eqb (c_axis (k_coord c)) (upper s)) (w_axis q)) in
  let r := narrow all r (option_map (fun s c => str_eqb (c_var (k_coord c)) s) (w_var q)) in
  bind (match w_attrs q with
        | None => Ok r
        | Some NoMapping => Raises ValueError
        | Some (Mapping l) => Ok (narrow all r (Some (fun c => forallb (has_attribute c) l)))
        end) (fun r => Ok (narrow all r by_coord)).
(** [get_coords(standard_name=name_or_coord)], 247: comparing the standard name, a text, with a coordinate asks the coordinate (Python's reflected
    comparison), which looks for the metadata of the text: an AttributeError, if there is any coordinate to compare *)
Definition by_standard_name (all : list acoord) (w : option wanted) : res (list acoord) :=
  match w with
  | None => Ok all
  | Some (Name n) => Ok (filter (fun c => std_eqb (c_std (k_coord c)) (Some n)) all)
  | Some (Like _) => match all with [] => Ok [] | _ => Raises AttributeError end
  end.
(** CoordList.get_coord, 216-259 *)
Definition get_coord (all : list acoord) (q : query) : res acoord :=
  bind (get_coords all q) (fun r =>
  bind (match items all r with [] => by_standard_name all (w_name q) | l => Ok l end) (fun l =>
  match l with [c] => Ok c | _ => Raises CoordinateNotFoundError end)).
(** CoordList.find_standard_coords, 266-284 *)
Definition standard_coords (all : list acoord) : res (list (option acoord)) :=
  map_res (fun n => match get_coord all (mkQuery None (Some n) None None None None) with
                    | Ok c => Ok (Some c) | Raises CoordinateNotFoundError => Ok None | Raises e => Raises e end) standard_names.
(** CoordList.append, 140-150, of a list that was given out and of the list that the data hold: appending to the list itself is seen by the data *)
Definition append_to (all : list acoord) (r : listing) (c : acoord) : res (list acoord * list acoord) :=
  match r with
  | Itself => if existsb (same_coord c) all then Raises DuplicateCoordinateError else Ok (all ++ [c], all ++ [c])
  | New l => Ok (all, l ++ [c])
  end.
