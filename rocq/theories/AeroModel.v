(** The names of the columns of an Aeronet file, cis/data_io/aeronet.py:3-118. *)
From Coq Require Import String.
From Verif Require Import Base PyStr QBase DistModel DateModel ProdModel FileListModel.
From Coq Require Import List Ascii DecimalString.
Import ListNotations.
Open Scope string_scope. Open Scope list_scope. Open Scope nat_scope. Notation length := List.length.

(** 3 *)
Definition delete_chars : str := lit "~!@#$%^&*=+~\|]}[{'; /?.>,<".
(** 14-35 *)
Definition renames : list (str * str) :=
  map (fun kv : string * string => (lit (fst kv), lit (snd kv)))
  [("Date(dd:mm:yy)", "date"); ("Date(dd-mm-yy)", "date"); ("Date(dd:mm:yyyy)", "date"); ("Date(dd-mm-yyyy)", "date");
   ("Date_(dd:mm:yy)", "date"); ("Date_(dd-mm-yy)", "date"); ("Date_(dd:mm:yyyy)", "date"); ("Date_(dd-mm-yyyy)", "date");
   ("Time(hh:mm:ss)", "time"); ("Time(hh-mm-ss)", "time"); ("Time_(hh:mm:ss)", "time"); ("Time_(hh-mm-ss)", "time");
   ("Latitude", "latitude"); ("Longitude", "longitude"); ("Latitude(Degrees)", "latitude"); ("Longitude(Degrees)", "longitude");
   ("Site_Latitude(Degrees)", "latitude"); ("Site_Longitude(Degrees)", "longitude"); ("Site_Elevation(m)", "altitude"); ("Elevation(m)", "altitude")].
(** str.replace(char, "") *)
Definition remove_char (c : ascii) (s : str) : str := filter (fun a => if ascii_dec a c then false else true) s.
(** str.strip(): blanks of ASCII at both ends *)
Definition is_blank (c : ascii) : bool := let n := nat_of_ascii c in (n =? 32) || ((9 <=? n) && (n <=? 13)) || ((28 <=? n) && (n <=? 31)).
Fixpoint lstrip (s : str) : str := match s with c :: r => if is_blank c then lstrip r else s | [] => [] end.
Definition rstrip (s : str) : str := rev (lstrip (rev s)).
Definition strip (s : str) : str := rstrip (lstrip s).
(** ".{}".format(n) *)
Definition decimal (n : nat) : str := lit (NilEmpty.string_of_uint (Nat.to_uint n)).

(** 54-65: is the text somewhere in the line *)
Fixpoint contains (p s : str) : bool := starts_with p s || match s with [] => false | _ :: s => contains p s end.
Inductive version := Aeronet2 | AeronetSda2 | Man2 | ManSda2 | Aeronet3 | AeronetSda3.
(** 46-69; a file of less than two lines: the unpacking raises ValueError *)
Definition get_version (lines : list str) : res version :=
  match lines with
  | first_line :: second_line :: _ =>
    let sda := contains (lit "SDA") first_line in
    if contains (lit "Maritime Aerosol Network") first_line then Ok (if sda then ManSda2 else Man2)
    else if starts_with (lit "AERONET Version 3") first_line then Ok (if sda then AeronetSda3 else Aeronet3)
    else if starts_with (lit "Version 2 Direct Sun Algorithm") second_line then Ok (if sda then AeronetSda2 else Aeronet2)
    else Raises FileFormatError
  | _ => Raises ValueError
  end.
(** 5-6 *)
Definition header_length (v : version) : nat := match v with Aeronet3 | AeronetSda3 => 7 | _ => 5 end.

(** 90-101: the columns; the last one of SDA files stands for several.  values[len(variables) - 2]: for a single column the index is -1, the last value *)
Definition newline : ascii := "010"%char.
Definition columns (first_line second_line : str) : res (list str) :=
  let variables := split_on "," (remove_char newline first_line) in
  let final := last variables [] in
  if str_eqb final (lit "Exact_Wavelengths_for_Input_AOD(um)") || str_eqb final (lit "Exact_Wavelengths_for_Input_AOD(nm)") then
    let values := split_on "," second_line in
    match (if length variables =? 1 then nth_error values (length values - 1) else nth_error values (length variables - 2)) with
    | None => Raises IndexError
    | Some v => bind (int_of v) (fun n => Ok (variables ++ repeat final (Z.to_nat (n - 1))))
    end
  else Ok variables.
(** 103: the next number of each repeated name (the code keeps the last one) *)
Definition count (v : str) (l : list str) : nat := length (filter (str_eqb v) l).
Fixpoint distinct (l : list str) : list str := match l with [] => [] | v :: l => if existsb (str_eqb v) l then distinct l else v :: distinct l end.
Definition repeated_items (variables : list str) : list (str * nat) := map (fun v => (v, 0)) (filter (fun v => 1 <? count v variables) (distinct variables)).
(** 105-122 *)
Definition finish (var : str) : str :=
  let var := strip (fold_left (fun s c => remove_char c s) delete_chars var) in
  match find (fun kv => str_eqb (fst kv) var) renames with Some kv => snd kv | None => var end.
Definition next_of (v : str) (numbers : list (str * nat)) : option nat := option_map snd (find (fun kv => str_eqb (fst kv) v) numbers).
Definition count_up (v : str) (numbers : list (str * nat)) : list (str * nat) := map (fun kv => if str_eqb (fst kv) v then (fst kv, S (snd kv)) else kv) numbers.
Fixpoint name_columns (numbers : list (str * nat)) (variables : list str) : list str :=
  match variables with
  | [] => []
  | v :: vs => match next_of v numbers with
    | Some n => finish (v ++ lit "." ++ decimal n) :: name_columns (count_up v numbers) vs
    | None => finish v :: name_columns numbers vs
    end
  end.
(** 72-124, with the version found; a file that ends with the header: no variables *)
Definition get_file_variables (lines : list str) : res (list str) :=
  bind (get_version lines) (fun v =>
  match skipn (header_length v - 1) lines with
  | first_line :: second_line :: _ => bind (columns first_line second_line) (fun cs => Ok (name_columns (repeated_items cs) cs))
  | _ => Ok []
  end).
