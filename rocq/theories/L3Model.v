(** ESA CCI Level 3 files: the time a cube covers, cis/data_io/products/CCI.py:88-185. *)
From Coq Require Import String.
From Verif Require Import Base PyStr QBase DateModel DistModel FileListModel AeroModel CciModel.
From Coq Require Import List Ascii.
Import ListNotations.
Open Scope string_scope. Open Scope list_scope. Open Scope Z_scope. Notation length := List.length.

(** datetime.strptime with '%Y%m%dT%H%M%SZ' and with '%Y%mT%H%M%SZ' (contract).  Simplification: months, days, ... of one digit, which Python takes too, are refused. *)
Definition field (n : nat) (s : str) : res (Z * str) :=
  let d := firstn n s in
  if (length d =? n)%nat && forallb is_digit d then Ok (digits_val d, skipn n s) else Raises ValueError.
Definition expect (c : ascii) (s : str) : res str := match s with x :: r => if ascii_dec x c then Ok r else Raises ValueError | [] => Raises ValueError end.
Definition strptime (with_day : bool) (s : str) : res datetime :=
  bind (field 4 s) (fun yr => bind (field 2 (snd yr)) (fun mo =>
  bind (if with_day then field 2 (snd mo) else Ok (1, snd mo)) (fun da =>
  bind (expect "T" (snd da)) (fun r => bind (field 2 r) (fun h => bind (field 2 (snd h)) (fun mi => bind (field 2 (snd mi)) (fun se =>
  bind (expect "Z" (snd se)) (fun r => match r with [] => new_datetime (mkDT (fst yr) (fst mo) (fst da) (fst h) (fst mi) (fst se)) | _ => Raises ValueError end)))))))).
(** relativedelta(months=1) for the first of a month (dateutil, contract) *)
Definition month_later (t : datetime) : res datetime :=
  if month t <? 12 then Ok (mkDT (year t) (month t + 1) (day t) (hour t) (minute t) (second t)) else new_datetime (mkDT (year t + 1) 1 (day t) (hour t) (minute t) (second t)).
(** convert_time_string_to_number, 88-98; [units] is date2num of the units.  A text of a 44th day is one of the last day of the month. *)
Definition convert_time_string_to_number (units : datetime -> Q) (s : str) : res Q :=
  if contains (lit "44T") s then
    bind (strptime false (replace_all (length s) (lit "44T") (lit "T") s)) (fun t => bind (month_later t) (fun t => bind (prev_day t) (fun t => Ok (units t))))
  else bind (strptime true s) (fun t => Ok (units t)).

(** A cube: its attributes and its time coordinate (points and bounds).  Values that are not texts are not modelled. *)
Record l3cube := mkL3 { q_attrs : list (str * str); q_time : option (list Q * option (Q * Q)) }.
Definition drop (n : str) (l : list (str * str)) : list (str * str) := filter (fun kv => negb (str_eqb (fst kv) n)) l.
(** cube.attributes.pop(name) *)
Definition pop (n : str) (l : list (str * str)) : res (str * list (str * str)) := match dict_get l n with Some v => Ok (v, drop n l) | None => Raises KeyError end.
Definition pop_bounds (units : datetime -> Q) (l : list (str * str)) : res (Q * Q * list (str * str)) :=
  bind (pop (lit "time_coverage_start") l) (fun s => bind (convert_time_string_to_number units (fst s)) (fun a =>
  bind (pop (lit "time_coverage_end") (snd s)) (fun e => bind (convert_time_string_to_number units (fst e)) (fun b => Ok (a, b, snd e))))).
(** Cloud_CCI_L3, 111-119; bounds of two numbers are refused for a coordinate that has not one point *)
Definition cloud_single (units : datetime -> Q) (c : l3cube) : res l3cube :=
  match q_time c with
  | None => Raises CoordinateNotFoundError
  | Some (points, _) => bind (pop_bounds units (q_attrs c)) (fun r => if (length points =? 1)%nat then Ok (mkL3 (snd r) (Some (points, Some (fst r)))) else Raises ValueError)
  end.
(** hours since 1970, 11 *)
Definition esa_hours (t : datetime) : Q := (inject_Z ((toordinal t - toordinal (mkDT 1970 1 1 0 0 0)) * 86400 + seconds_of_day t) / 3600)%Q.
(** Aerosol_CCI_L3, 142-162: for the one file that is known to be wrong, time_coord is used before it has a value.
    Simplification: the cube has no time coordinate yet (iris refuses a second one like it). *)
Definition aerosol_single (filename : str) (c : l3cube) : res l3cube :=
  match pop_bounds esa_hours (q_attrs c) with
  | Ok r => Ok (mkL3 (snd r) (Some ([(fst (fst r) + snd (fst r)) / 2]%Q, Some (fst r))))
  | Raises ValueError => if contains (lit "201101-ESACCI") filename then Raises NameError else Raises ValueError
  | Raises e => Raises e
  end.
(** 121-129 and 164-172: with several files, first the attributes that differ between files go *)
Definition varying (k : cci) : list str :=
  match k with
  | Cloud => [lit "number_of_processed_orbits"; lit "id"; lit "tracking_id"; lit "date_created"]
  | Aerosol => [lit "id"; lit "tracking_id"; lit "date_created"; lit "time_coverage_duration"; lit "history"; lit "inputfilelist"]
  end.
Definition without_varying (k : cci) (c : l3cube) : l3cube := mkL3 (fold_left (fun l n => drop n l) (varying k) (q_attrs c)) (q_time c).
(** the callback for a cube of one file of [several] or a single file (gridded_NetCDF.py:40-44) *)
Definition l3_callback (k : cci) (several : bool) (units : datetime -> Q) (filename : str) (c : l3cube) : res l3cube :=
  let c := if several then without_varying k c else c in
  match k with Cloud => cloud_single units c | Aerosol => aerosol_single filename c end.
