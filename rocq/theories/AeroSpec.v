(** Specification for C51. *)
From Coq Require Import String.
From Verif Require Import Base PyStr QBase DistModel DateModel AeroModel.
From Coq Require Import List Ascii.
Import ListNotations.
Open Scope string_scope. Open Scope list_scope. Open Scope nat_scope. Notation length := List.length.

(** the versions of files: by their first two lines *)
Definition mentions (p s : str) : Prop := exists a b, s = a ++ p ++ b.
Definition begins (p s : str) : Prop := exists r, s = p ++ r.
Inductive file_version : list str -> version -> Prop :=
| fv_man l1 l2 rest : mentions (lit "Maritime Aerosol Network") l1 -> ~ mentions (lit "SDA") l1 -> file_version (l1 :: l2 :: rest) Man2
| fv_man_sda l1 l2 rest : mentions (lit "Maritime Aerosol Network") l1 -> mentions (lit "SDA") l1 -> file_version (l1 :: l2 :: rest) ManSda2
| fv_3 l1 l2 rest : ~ mentions (lit "Maritime Aerosol Network") l1 -> begins (lit "AERONET Version 3") l1 -> ~ mentions (lit "SDA") l1 -> file_version (l1 :: l2 :: rest) Aeronet3
| fv_3_sda l1 l2 rest : ~ mentions (lit "Maritime Aerosol Network") l1 -> begins (lit "AERONET Version 3") l1 -> mentions (lit "SDA") l1 -> file_version (l1 :: l2 :: rest) AeronetSda3
| fv_2 l1 l2 rest : ~ mentions (lit "Maritime Aerosol Network") l1 -> ~ begins (lit "AERONET Version 3") l1 -> begins (lit "Version 2 Direct Sun Algorithm") l2 ->
    ~ mentions (lit "SDA") l1 -> file_version (l1 :: l2 :: rest) Aeronet2
| fv_2_sda l1 l2 rest : ~ mentions (lit "Maritime Aerosol Network") l1 -> ~ begins (lit "AERONET Version 3") l1 -> begins (lit "Version 2 Direct Sun Algorithm") l2 ->
    mentions (lit "SDA") l1 -> file_version (l1 :: l2 :: rest) AeronetSda2.
(** how many lines precede the one with the names of the columns *)
Definition lines_before (v : version) : nat := match v with Aeronet3 | AeronetSda3 => 6 | _ => 4 end.
(** the columns of a file: the pieces between commas; a last one for the wavelengths stands for as many as the number, on the first line of data, under the column before it says *)
Definition pieces (s : str) (l : list str) : Prop := l <> [] /\ (forall p, In p l -> ~ In ","%char p) /\ s = join_on "," l.
Definition without_newlines (s t : str) : Prop := t = filter (fun c => negb (Ascii.eqb c "010"%char)) s.
Definition wavelengths : list str := [lit "Exact_Wavelengths_for_Input_AOD(um)"; lit "Exact_Wavelengths_for_Input_AOD(nm)"].
Inductive file_columns (header data : str) : list str -> Prop :=
| fc_plain t front final : without_newlines header t -> pieces t (front ++ [final]) -> ~ In final wavelengths -> file_columns header data (front ++ [final])
| fc_wavelengths t before col w values n z : without_newlines header t -> pieces t (before ++ [col; w]) -> In w wavelengths -> pieces data values ->
    nth_error values (length before) = Some n -> int_of n = Ok z -> file_columns header data (before ++ [col] ++ repeat w (Z.to_nat (Z.max 1 z)))
| fc_only t w values n z : without_newlines header t -> pieces t [w] -> In w wavelengths -> pieces data (values ++ [n]) -> int_of n = Ok z ->
    file_columns header data (repeat w (Z.to_nat (Z.max 1 z))).
(** characters that names cannot have, and the standard names of columns *)
Definition not_allowed : str := lit "~!@#$%^&*=+~\|]}[{'; /?.>,<".
Definition standard_names : list (string * list string) :=
  [("date", ["Date(dd:mm:yy)"; "Date(dd-mm-yy)"; "Date(dd:mm:yyyy)"; "Date(dd-mm-yyyy)"; "Date_(dd:mm:yy)"; "Date_(dd-mm-yy)"; "Date_(dd:mm:yyyy)"; "Date_(dd-mm-yyyy)"]);
   ("time", ["Time(hh:mm:ss)"; "Time(hh-mm-ss)"; "Time_(hh:mm:ss)"; "Time_(hh-mm-ss)"]);
   ("latitude", ["Latitude"; "Latitude(Degrees)"; "Site_Latitude(Degrees)"]); ("longitude", ["Longitude"; "Longitude(Degrees)"; "Site_Longitude(Degrees)"]);
   ("altitude", ["Site_Elevation(m)"; "Elevation(m)"])].
Definition allowed (c : ascii) : bool := negb (existsb (Ascii.eqb c) not_allowed).
(** a column name without the characters not allowed and without blanks at its start *)
Definition bare (v : str) : str := lstrip (filter allowed v).
(** the name of a column that occurs once: without blanks at the end too, and the standard name if it is in the list *)
Definition standard (s : str) : str := match find (fun e => existsb (fun n => str_eqb (lit n) s) (snd e)) standard_names with Some e => lit (fst e) | None => s end.
Definition single_name (v : str) : str := standard (rstrip (bare v)).
Definition repeated (cs : list str) (v : str) : Prop := 1 < count v cs.
(** the name of the i-th column: its own if it occurs once, otherwise with the number of columns of that name before it *)
Definition named (cs : list str) (i : nat) (v s : str) : Prop :=
  (count v cs = 1 /\ s = single_name v) \/ (1 < count v cs /\ s = bare v ++ decimal (count v (firstn i cs))).
(** different columns cannot be taken for each other: not by their names, nor when one that is repeated, or both, get a number *)
Definition is_number (d : str) : Prop := d <> [] /\ Forall (fun c => is_digit c = true) d.
Definition no_clash (cs : list str) : Prop :=
  forall v w, In v cs -> In w cs -> v <> w ->
  single_name v <> single_name w /\
  (repeated cs v -> forall d, is_number d -> bare v ++ d <> single_name w) /\
  (repeated cs v -> repeated cs w -> forall d e, is_number d -> is_number e -> bare v ++ d <> bare w ++ e).
