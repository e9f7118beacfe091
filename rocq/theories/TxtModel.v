(** Text files of hyperpoints, ASCII_Hyperpoints in cis/data_io/products/products.py:145-203. *)
From Coq Require Import String.
From Verif Require Import Base PyStr QBase DateModel UngrModel.
From Coq Require Import List Ascii.
Import ListNotations.
Open Scope string_scope. Open Scope list_scope. Open Scope nat_scope. Notation length := List.length.

(** a record of genfromtxt's array: latitude, longitude, altitude, time and value; None for a number that is masked or NaN *)
Record point := mkPoint { p_lat : option Q; p_lon : option Q; p_alt : option Q; p_time : datetime; p_value : option Q }.
(** an array of them: a single line gives an array without dimensions (genfromtxt squeezes its result), more lines one of one dimension *)
Inductive points := Zero (p : point) | One (l : list point).

Section Txt.
(** [number]: float(text) as genfromtxt uses it: a blank field is masked, one that is no number becomes NaN, either way there is no number.
    [moment]: dateutil.parser.parse *)
Variable number : str -> option Q.
Variable moment : str -> option datetime.

(** numpy's LineSplitter with delimiter "," (contract): what is left of "#", without blanks and line ends around it *)
Definition is_space (c : ascii) : bool := Ascii.eqb c " " || Ascii.eqb c "013" || Ascii.eqb c "010".
Fixpoint drop_spaces (s : str) : str := match s with c :: r => if is_space c then drop_spaces r else s | [] => [] end.
Fixpoint uncommented (s : str) : str := match s with c :: r => if Ascii.eqb c "#" then [] else c :: uncommented r | [] => [] end.
Definition content (line : str) : str := rev (drop_spaces (rev (drop_spaces (uncommented line)))).
(** one line's fields to a record.  Simplification: a time that cannot be parsed is a ValueError (what numpy makes of it depends on its version and that of dateutil). *)
Definition record (fields : list str) : res point :=
  match fields with
  | [la; lo; al; ti; v] => match moment ti with Some t => Ok (mkPoint (number la) (number lo) (number al) t (number v)) | None => Raises ValueError end
  | _ => Raises OSError
  end.
(** genfromtxt(filename, dtype="f8,f8,f8,O,f8", delimiter=',', missing_values='', usemask=True, invalid_raise=True, converters={"time": du.parse}), 163-169 (contract):
    lines without content are skipped, any other number of columns fails, which becomes an IOError (alias of OSError), and so does a file without lines *)
Definition genfromtxt (lines : list str) : res points :=
  let rows := map (split_on ",") (filter (fun l => negb (str_eqb l [])) (map content lines)) in
  if forallb (fun r => length r =? 5) rows then
    match rows with
    | [] => Raises OSError
    | [r] => bind (record r) (fun p => Ok (Zero p))
    | _ => bind (map_res record rows) (fun l => Ok (One l))
    end
  else Raises OSError.
(** utils.concatenate, cis/utils.py:21-43: numpy refuses arrays without dimensions *)
Definition concat2 (a b : points) : res points := match a, b with One a, One b => Ok (One (a ++ b)) | _, _ => Raises ValueError end.
Definition concatenate (arrays : list points) : res points :=
  match arrays with [] => Raises IndexError | a :: r => fold_left (fun acc x => bind acc (fun acc => concat2 acc x)) r (Ok a) end.
(** cis_standard_time_unit.date2num *)
Definition date2num (t : datetime) : Q := (inject_Z (toordinal t - toordinal std_ref) + inject_Z (seconds_of_day t) / 86400)%Q.
(** 171-190; len() of an array without dimensions is a TypeError *)
Definition txt_coord (name : string) (l : list (option Q)) : coord := mkCoord (Some (lit name)) [] [] [] [length l] l.
Definition txt_coords (l : list point) : res (list coord) :=
  append_all [] [txt_coord "latitude" (map p_lat l); txt_coord "longitude" (map p_lon l); txt_coord "altitude" (map p_alt l); txt_coord "time" (map (fun p => Some (date2num (p_time p))) l)].
Definition read_points (files : list (list str)) : res (list point) :=
  bind (map_res genfromtxt files) (fun arrays => bind (concatenate arrays) (fun a => match a with Zero _ => Raises TypeError | One l => Ok l end)).
(** create_data_object, 200-201 and 192-196: the name of the variable is not used; points without a position are left out (UngriddedData._post_process) *)
Definition read_txt (files : list (list str)) (variable : str) : res udata :=
  bind (read_points files) (fun l => bind (txt_coords l) (fun cs => post_process (mkU cs [length l] (map p_value l)))).
(** create_coords without a variable, 198 *)
Definition read_txt_coords (files : list (list str)) : res (list coord) := bind (read_points files) (fun l => bind (txt_coords l) post_process_coords).
End Txt.
