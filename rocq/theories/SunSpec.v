(** Specification for C74: what the lines of Aeronet files stand for. *)
From Coq Require Import String.
From Verif Require Import Base PyStr QBase AeroModel AeroSpec UngrModel UngrSpec.
From Coq Require Import List Ascii.
Import ListNotations.
Open Scope string_scope. Open Scope list_scope. Open Scope nat_scope. Notation length := List.length.

(** a file is its lines and its version *)
Definition afile : Type := list str * version.
Definition blank (l : str) : Prop := Forall (fun c => is_blank c = true) l.
Definition missing_texts : list string := [""; "#N/A"; "#N/A N/A"; "#NA"; "-1.#IND"; "-1.#QNAN"; "-NaN"; "-nan"; "1.#IND"; "1.#QNAN"; "<NA>"; "N/A"; "NA"; "NULL"; "NaN"; "n/a"; "nan"; "null"]%string.
(** the numbers that stand for no value: none in version 2, -999 in the others, -10000 too in those of the Maritime Aerosol Network that are not SDA *)
Definition missing_number (v : version) (q : Q) : Prop := match v with Aeronet2 | AeronetSda2 => False | Man2 => (q == -(999))%Q \/ (q == -(10000))%Q | _ => (q == -(999))%Q end.
Section Sun.
Variable float_of : str -> option Q.
Variable stamp : str -> str -> option Q.
Inductive number (v : version) (s : str) : option Q -> Prop :=
| n_missing t : In t missing_texts -> s = lit t -> number v s None
| n_marker q : ~ In s (map lit missing_texts) -> float_of s = Some q -> missing_number v q -> number v s None
| n_value q : ~ In s (map lit missing_texts) -> float_of s = Some q -> ~ missing_number v q -> number v s (Some q).
(** the names of the columns (C51), and the fields of a line (nothing, if it ends before) *)
Definition column_names (f : afile) (names : list str) : Prop := exists before header data rest cs, fst f = before ++ header :: data :: rest /\ length before = lines_before (snd f) /\ file_columns header data cs /\
  length names = length cs /\ forall i c, nth_error cs i = Some c -> exists s, nth_error names i = Some s /\ named cs i c s.
Definition field (names : list str) (line c s : str) : Prop := exists t fs i, without_newlines line t /\ pieces t fs /\ nth_error names i = Some c /\ s = nth i fs [].
(** the i-th piece of the third line, as in "lat=-15.7" *)
Definition in_header (f : afile) (i : nat) (q : Q) : Prop := exists l t ps a b, nth_error (fst f) 2 = Some l /\ without_newlines l t /\ pieces t ps /\ nth_error ps i = Some (a ++ "="%char :: b) /\ ~ In "="%char a /\ ~ In "="%char b /\ float_of b = Some q.
(** the lines of data: those after the one with the names that are not blank *)
Definition data_lines (f : afile) : list str := filter (fun l => negb (forallb is_blank l)) (skipn (S (lines_before (snd f))) (fst f)).
(** where the station, or the ship, was *)
Definition version2 (v : version) : Prop := v = Aeronet2 \/ v = AeronetSda2.
Definition maritime (v : version) : Prop := v = Man2 \/ v = ManSda2.
Definition in_column (f : afile) (names : list str) (line c : str) (o : option Q) : Prop := exists s, field names line c s /\ number (snd f) s o.
Definition longitude_of (f : afile) (names : list str) (line : str) (o : option Q) : Prop := (version2 (snd f) /\ exists q, in_header f 1 q /\ o = Some q) \/ (~ version2 (snd f) /\ in_column f names line (lit "longitude") o).
Definition latitude_of (f : afile) (names : list str) (line : str) (o : option Q) : Prop := (version2 (snd f) /\ exists q, in_header f 2 q /\ o = Some q) \/ (~ version2 (snd f) /\ in_column f names line (lit "latitude") o).
Definition altitude_of (f : afile) (names : list str) (line : str) (o : option Q) : Prop :=
  (version2 (snd f) /\ exists q, in_header f 3 q /\ o = Some q) \/ (maritime (snd f) /\ o = Some 0%Q) \/ (~ version2 (snd f) /\ ~ maritime (snd f) /\ in_column f names line (lit "altitude") o).
Definition time_of_line (names : list str) (line : str) (o : option Q) : Prop := exists d t q, field names line (lit "date") d /\ field names line (lit "time") t /\ stamp d t = Some q /\ o = Some q.
Definition sun_row (variable : str) (fl : afile * str) (r : list (option Q) * option Q) : Prop :=
  let (f, line) := fl in exists names lo la al t, column_names f names /\ fst r = [lo; la; al; t] /\ longitude_of f names line lo /\ latitude_of f names line la /\ altitude_of f names line al /\ time_of_line names line t /\ in_column f names line variable (snd r).
(** files that can be read: no blank line in the header; either no line after it, or distinct columns, all that is wanted among them, no line with more fields than columns, the wanted ones numbers *)
Definition is_number_text (s : str) : Prop := In s (map lit missing_texts) \/ exists q, float_of s = Some q.
Record well_formed (f : afile) (names : list str) : Prop := {
  w_names : column_names f names; w_distinct : NoDup names; w_date : In (lit "date") names; w_time : In (lit "time") names;
  w_lat : ~ version2 (snd f) -> In (lit "latitude") names; w_lon : ~ version2 (snd f) -> In (lit "longitude") names; w_alt : ~ version2 (snd f) -> ~ maritime (snd f) -> In (lit "altitude") names;
  w_header : version2 (snd f) -> (exists q, in_header f 1 q) /\ (exists q, in_header f 2 q) /\ (exists q, in_header f 3 q);
  w_fields : forall l, In l (data_lines f) -> exists t fs, without_newlines l t /\ pieces t fs /\ length fs <= length names;
  w_dates : forall l d t, In l (data_lines f) -> field names l (lit "date") d -> field names l (lit "time") t -> exists q, stamp d t = Some q;
  w_numbers : forall l c s, In l (data_lines f) -> In c [lit "latitude"; lit "longitude"; lit "altitude"] -> field names l c s -> is_number_text s }.
Definition header_ok (f : afile) : Prop := file_version (fst f) (snd f) /\ forall l, In l (firstn (S (lines_before (snd f))) (fst f)) -> ~ blank l.
Definition numbers_in (f : afile) (names : list str) (c : str) : Prop := In c names /\ forall l s, In l (data_lines f) -> field names l c s -> is_number_text s.
Definition readable (variable : str) (f : afile) : Prop := header_ok f /\ (length (fst f) <= S (lines_before (snd f)) \/ exists names, well_formed f names /\ numbers_in f names variable).
End Sun.
Definition all_lines (files : list afile) : list (afile * str) := flat_map (fun f => map (fun l => (f, l)) (data_lines f)) files.
Definition sun_names : list (option str) := [Some (lit "longitude"); Some (lit "latitude"); Some (lit "altitude"); Some (lit "time")].
Definition plain_variable (x : str) : Prop := ~ In x [lit "date"; lit "time"; lit "datetime"; lit "longitude"; lit "latitude"; lit "altitude"].
