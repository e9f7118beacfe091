(** Names, units and times of ungridded data: Metadata (cis/data_io/ungridded_data.py:19-163), the part of LazyData that works on them (197-229, 319-426),
    the time conversions of Coord (cis/data_io/Coord.py:23-37, 60-110), cis/time_util.py:139-191 and set_standard_name_if_valid (cis/utils.py:615-627).
    iris' table of standard names is a parameter, [V] (which names are valid), and so is cf_units' reading of texts, [U].  Numbers and moments are exact. *)
From Coq Require Import String.
From Verif Require Import Base PyStr QBase DistModel ProdModel RafModel HdfModel.
From Coq Require Import List.
Import ListNotations.
Open Scope string_scope. Open Scope list_scope. Open Scope nat_scope. Notation length := List.length.

(** ** cf_units (contract).  What a unit measures ([None]: moments, "... since ..."; the Gregorian calendar only) and its linear scale: x of it is [u_shift + u_scale * x] base units -
       for moments, seconds since the standard reference time, 1600-01-01 00:00.  Unknown units (of an empty text) are left out. *)
Record unit := mkUnit { u_dim : option nat; u_scale : Q; u_shift : Q }.
Definition same_dim (a b : option nat) : bool := match a, b with Some a, Some b => Nat.eqb a b | None, None => true | _, _ => false end.
Definition unit_eqb (a b : unit) : bool := same_dim (u_dim a) (u_dim b) && Qeq_bool (u_scale a) (u_scale b) && Qeq_bool (u_shift a) (u_shift b).
(** cis_standard_time_unit, time_util.py:6 *)
Definition cis_standard_time_unit : unit := mkUnit None 86400 0.
(** the value of Metadata.units: a Unit, or a text that cf_units cannot read *)
Inductive units := UUnit (u : unit) | UText (s : str).
(** An array of numbers, or of dates (given as seconds since the reference time); masked elements are None. *)
Inductive array := Nums (l : list (option Q)) | Dates (l : list (option Q)).
(** Unit.num2date: ValueError if the unit has no reference time; Unit.date2num of the standard unit; an array of the other kind is a TypeError *)
Definition num2date (u : unit) (a : array) : res array :=
  match u_dim u with
  | Some _ => Raises ValueError
  | None => match a with Nums l => Ok (Dates (map (option_map (fun x => u_shift u + u_scale u * x)%Q) l)) | Dates _ => Raises TypeError end
  end.
Definition std_date2num (a : array) : res array := match a with Dates l => Ok (Nums (map (option_map (fun m => m / 86400)%Q) l)) | Nums _ => Raises TypeError end.
(** Unit.convert of an array of floats in place: ValueError for units that measure something else *)
Definition unit_convert (u v : unit) (a : array) : res array :=
  if same_dim (u_dim u) (u_dim v) then
    match a with Nums l => Ok (Nums (map (option_map (fun x => (u_shift u + u_scale u * x - u_shift v) / u_scale v)%Q) l)) | Dates _ => Raises TypeError end
  else Raises ValueError.

Section Contracts.
Variable V : str -> bool.
Variable U : str -> option unit.

(** ** Metadata *)
(** the text of Metadata.units.setter, 134-142 *)
Fixpoint is_in (sub s : str) : bool := starts_with sub s || match s with [] => false | _ :: s => is_in sub s end.
Definition tidy (s : str) : str :=
  if is_in (lit "since") (lower s) then let l := lower s in let l := replace_all (length l) (lit "since:") (lit "since") l in filter (fun c => negb (if ascii_dec c "," then true else false)) l
  else map (fun c => if ascii_dec c "#" then "1"%char else c) s.
(** 130-147 *)
Definition set_units (u : units) : units := match u with UUnit u => UUnit u | UText s => match U (tidy s) with Some u => UUnit u | None => UText (tidy s) end end.
(** Metadata: its names, units, range and history.  The range: not set, empty, or its ends (None: masked) *)
Inductive range := NoRange | EmptyRange | Range (lo hi : option Q) | DateRange (lo hi : option Q).
Record meta := mkMeta { m_name : str; m_std : option str; m_long : str; m_units : units; m_range : range; m_history : str }.
(** standard_name.setter, 113-126 *)
Definition set_standard_name (m : meta) (s : option str) : meta * option exn :=
  if match s with None => true | Some s => V s end then (mkMeta (m_name m) s (m_long m) (m_units m) (m_range m) (m_history m), None) else (m, Some ValueError).
(** utils.py:615-627 *)
Definition set_standard_name_if_valid (m : meta) (s : option str) : meta :=
  match set_standard_name m s with (m', None) => m' | (m', Some _) => fst (set_standard_name m' None) end.
(** __init__, 26-46; shape, factor, offset, missing value and misc are left out *)
Definition new_metadata (name std long : str) (u : units) (history : str) : res meta :=
  let m := mkMeta name (Some []) [] (UText []) NoRange [] in
  bind (match std with
        | _ :: _ => match set_standard_name m (Some std) with (m, None) => Ok m | (_, Some e) => Raises e end
        | [] => match name with _ :: _ => match set_standard_name m (guess_standard_name name) with (m, None) => Ok m | (_, Some e) => Raises e end | [] => Ok m end
        end) (fun m => Ok (mkMeta name (m_std m) long (set_units u) NoRange history)).
(** get_metadata of a NetCDF variable, netcdf.py:196-232: [std] is its attribute, "" if it has none *)
Definition netcdf_metadata (name std long : str) (u : str) (history : str) : res meta :=
  bind (new_metadata name [] long (UText u) history) (fun m => Ok (set_standard_name_if_valid m (Some std))).
(** == of units: Unit.__eq__ reads the other side as a unit, which is a ValueError for a text it cannot read *)
Definition units_eq (a b : units) : res bool :=
  match a, b with
  | UUnit a, UUnit b => Ok (unit_eqb a b)
  | UText a, UText b => Ok (str_eqb a b)
  | UUnit a, UText s | UText s, UUnit a => match U s with Some b => Ok (unit_eqb a b) | None => Raises ValueError end
  end.
(** __eq__, 48-56 *)
Definition std_eq (a b : option str) : bool := match a, b with Some a, Some b => str_eqb a b | None, None => true | _, _ => false end.
Definition meta_eq (a b : meta) : res bool := if str_eqb (m_name a) (m_name b) && std_eq (m_std a) (m_std b) && str_eqb (m_long a) (m_long b) then units_eq (m_units a) (m_units b) else Ok false.

(** ** Data with metadata.  The flattened array that is kept: none, a view of the data, or an array of its own *)
Inductive flat := NotKept | View | Own (a : array).
Record lazy := mkLazy { l_meta : meta; l_data : array; l_ordered : bool (* lies in order in memory *); l_flat : flat }.
Definition with_meta (l : lazy) (m : meta) : lazy := mkLazy m (l_data l) (l_ordered l) (l_flat l).
Definition put_units (l : lazy) (u : units) : lazy := let m := l_meta l in with_meta l (mkMeta (m_name m) (m_std m) (m_long m) (set_units u) (m_range m) (m_history m)).
(** name, 220-226 *)
Definition name_of (l : lazy) (default : str) : str :=
  match m_std (l_meta l) with Some (a :: s) => a :: s | _ => match m_long (l_meta l) with a :: s => a :: s | [] => match m_name (l_meta l) with a :: s => a :: s | [] => default end end end.
(** assigning to _data: a view shows the old array from then on (it is the only other reference that is modelled); a new array lies in order *)
Definition put_data (l : lazy) (a : array) : lazy := mkLazy (l_meta l) a true (match l_flat l with View => Own (l_data l) | f => f end).
(** data.setter, 328-331 *)
Definition set_data (l : lazy) (a : array) : lazy := mkLazy (l_meta l) a true NotKept.
(** data_flattened, 333-340 *)
Definition data_flattened (l : lazy) : lazy * array :=
  match l_flat l with
  | Own a => (l, a)
  | View => (l, l_data l)
  | NotKept => (mkLazy (l_meta l) (l_data l) (l_ordered l) (if l_ordered l then View else Own (l_data l)), l_data l)
  end.
(** add_history, 342-352; [stamp] is the time of the call with a blank *)
Definition add_history (l : lazy) (stamp new : str) : lazy :=
  let m := l_meta l in
  with_meta l (mkMeta (m_name m) (m_std m) (m_long m) (m_units m) (m_range m) (match m_history m with _ :: _ => m_history m ++ ["010"%char] ++ stamp ++ new | [] => stamp ++ new end)).
(** update_range, 386-409.  min and max leave masked elements out, and are masked when there is no other; of an empty array they are a ValueError. *)
Definition present (l : list (option Q)) : list Q := flat_map (fun o => match o with Some x => [x] | None => [] end) l.
Definition min_of (l : list (option Q)) : option Q := match present l with [] => None | x :: r => Some (fold_left (fun a b => if Qltb b a then b else a) r x) end.
Definition max_of (l : list (option Q)) : option Q := match present l with [] => None | x :: r => Some (fold_left (fun a b => if Qltb a b then b else a) r x) end.
Definition put_range (l : lazy) (r : range) : lazy := let m := l_meta l in with_meta l (mkMeta (m_name m) (m_std m) (m_long m) (m_units m) r (m_history m)).
Definition update_range (l : lazy) : lazy * option exn :=
  let standard := match units_eq (m_units (l_meta l)) (UUnit cis_standard_time_unit) with Ok b => b | Raises _ => false end in
  match l_data l with
  | Nums [] | Dates [] => (put_range l EmptyRange, None)
  | Nums v => (put_range l (if standard then DateRange (option_map (fun x => 86400 * x)%Q (min_of v)) (option_map (fun x => 86400 * x)%Q (max_of v)) else Range (min_of v) (max_of v)), None)
  | Dates v => if standard then (l, Some TypeError) else (put_range l (DateRange (min_of v) (max_of v)), None)
  end.
(** convert_units, 411-426 *)
Definition convert_units (l : lazy) (new : units) : lazy * option exn :=
  match match new with UUnit u => Ok u | UText s => match U s with Some u => Ok u | None => Raises ValueError end end with
  | Raises e => (l, Some e)
  | Ok v =>
    match m_units (l_meta l) with
    | UText _ => (l, Some ValueError)
    | UUnit u =>
      match unit_convert u v (l_data l) with
      | Raises e => (l, Some e)
      | Ok a => (put_units (mkLazy (l_meta l) a (l_ordered l) (l_flat l)) (UUnit v), None)
      end
    end
  end.
(** ** Coord *)
(** __init__, Coord.py:24-37, for an array; the axis is left out *)
Definition new_coord (m : meta) (a : array) (ordered : bool) : lazy :=
  let l := mkLazy m a ordered NotKept in match m_units m with UText s => if str_eqb s (lit "deg") then put_units l (UText (lit "degrees")) else l | UUnit _ => l end.
(** time_util.py:139-147, 149-165 *)
Definition convert_time_since_to_std_time (a : array) (u : unit) : res array := bind (num2date u a) std_date2num.
Definition convert_time_using_time_stamp_info_to_std_time (a : array) (units stamp : str) : res array :=
  match words units with
  | [] => Raises ValueError
  | w :: _ => match U (w ++ lit " since " ++ stamp) with Some u => convert_time_since_to_std_time a u | None => Raises ValueError end
  end.
(** convert_to_std_time, Coord.py:72-96; 98-101; 103-107 *)
Definition finish (l : lazy) (r : res array) : lazy * option exn := match r with Ok a => (put_units (put_data l a) (UUnit cis_standard_time_unit), None) | Raises e => (l, Some e) end.
Definition convert_to_std_time (l : lazy) (stamp : option str) : lazy * option exn :=
  match m_units (l_meta l) with
  | UUnit u => finish l (convert_time_since_to_std_time (l_data l) u)
  | UText s => if starts_with (lit "datetime") (lower s) then finish l (std_date2num (l_data l))
               else match stamp with None => (l, Some ValueError) | Some t => finish l (convert_time_using_time_stamp_info_to_std_time (l_data l) s t) end
  end.
Definition convert_datetime_to_standard_time (l : lazy) : lazy * option exn := finish l (std_date2num (l_data l)).
Definition convert_standard_time_to_datetime (l : lazy) : lazy * option exn :=
  match units_eq (m_units (l_meta l)) (UUnit cis_standard_time_unit) with
  | Raises e => (l, Some e)
  | Ok false => (l, None)
  | Ok true => match num2date cis_standard_time_unit (l_data l) with Raises e => (l, Some e) | Ok a => (put_units (set_data l a) (UText (lit "DateTime Object")), None) end
  end.
End Contracts.
