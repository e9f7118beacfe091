(** Specification for C71: the observations of several NCAR-RAF or GASSP files. *)
From Coq Require Import String.
From Verif Require Import Base PyStr QBase AeroModel UngrModel UngrSpec RafModel.
From Coq Require Import List.
Import ListNotations.
Open Scope string_scope. Open Scope list_scope. Open Scope nat_scope. Notation length := List.length.

(** the words of a text *)
Definition no_blank (s : str) : Prop := Forall (fun c => is_blank c = false) s.
Definition all_blank (s : str) : Prop := Forall (fun c => is_blank c = true) s.
Definition at_edge (s : str) : Prop := s = [] \/ exists c r, s = c :: r /\ is_blank c = true.
Inductive words_of : str -> list str -> Prop :=
| no_words s : all_blank s -> words_of s []
| a_word a w r ws : all_blank a -> w <> [] -> no_blank w -> at_edge r -> words_of r ws -> words_of (a ++ w ++ r) (w :: ws).
(** the attribute of a name, capital letters or not (the last one) *)
Definition attribute (f : ncfile) (name : str) : option attr := option_map snd (find (fun kv => str_eqb (lower (fst kv)) (lower name)) (rev (f_attrs f))).
Definition variable (f : ncfile) (name : str) : option nvar := option_map snd (find (fun kv => str_eqb (fst kv) name) (f_vars f)).

(** where a file says its times and positions are *)
Inductive source := In_variable (name : str) | In_attribute (name : str) | Sea_level.
Definition points_to (f : ncfile) (a v : str) : Prop := attribute f a = Some (Txt v) /\ variable f v <> None.
Inductive described (f : ncfile) : str -> source -> source -> source -> Prop :=
| aeroplane t la lo al : points_to f (lit "Time_Coordinate") t -> points_to f (lit "Latitude_Coordinate") la -> points_to f (lit "Longitude_Coordinate") lo ->
    points_to f (lit "Vertical_Coordinate") al -> described f t (In_variable la) (In_variable lo) (In_variable al)
| ship t la lo : points_to f (lit "Time_Coordinate") t -> points_to f (lit "Latitude_Coordinate") la -> points_to f (lit "Longitude_Coordinate") lo ->
    attribute f (lit "Vertical_Coordinate") = None -> described f t (In_variable la) (In_variable lo) Sea_level
| station t : points_to f (lit "Time_Coordinate") t -> attribute f (lit "Latitude_Coordinate") = None -> attribute f (lit "Station_Lat") <> None -> attribute f (lit "Station_Lon") <> None ->
    described f t (In_attribute (lit "Station_Lat")) (In_attribute (lit "Station_Lon")) (if attribute f (lit "Station_Altitude") then In_attribute (lit "Station_Altitude") else Sea_level)
| listed s t la lo al : attribute f (lit "Time_Coordinate") = None -> attribute f (lit "Coordinates") = Some (Txt s) -> words_of s [lo; la; al; t] ->
    (forall n, In n [lo; la; al; t] -> variable f n <> None) -> described f t (In_variable la) (In_variable lo) (In_variable al).
Definition pressure_named (f : ncfile) (p : list str) : Prop :=
  (variable f (lit "PSXC") <> None /\ p = [lit "PSXC"]) \/
  (variable f (lit "PSXC") = None /\ variable f (lit "PRE") <> None /\ p = [lit "PRE"]) \/
  (variable f (lit "PSXC") = None /\ variable f (lit "PRE") = None /\ p = []).

Section Spec.
Variable float_of : str -> option Q.
Variable convert : str -> option attr -> res (Q -> Q).
(** the number an attribute gives: a number, its text, or the first word of its text *)
Inductive reads : attr -> Q -> Prop :=
| a_number q : reads (Num q) q
| a_text s q : float_of s = Some q -> reads (Txt s) q
| a_first_word s w ws q : float_of s = None -> words_of s (w :: ws) -> float_of w = Some q -> reads (Txt s) q.
(** a height may also be unreadable: then it is 0 *)
Inductive reads_height : attr -> Q -> Prop :=
| readable a q : reads a q -> reads_height a q
| unreadable s w ws : float_of s = None -> words_of s (w :: ws) -> float_of w = None -> reads_height (Txt s) 0%Q.
(** a position of point j of a file, from the file itself *)
Definition found (rd : attr -> Q -> Prop) (src : source) (f : ncfile) (j : nat) (o : option Q) : Prop :=
  match src with
  | In_variable n => exists v, variable f n = Some v /\ nth_error (v_data v) j = Some o
  | In_attribute n => exists a q, attribute f n = Some a /\ rd a q /\ o = Some q
  | Sea_level => o = Some 0%Q
  end.
(** its time, with the units of its own file and the time stamp of its own file *)
Definition time_found (t : str) (f : ncfile) (j : nat) (o : option Q) : Prop :=
  exists v g x, variable f t = Some v /\ convert (v_units v) (attribute f (lit "Time_Stamp_Info")) = Ok g /\ nth_error (v_data v) j = Some x /\ o = option_map g x.
Definition own_position (f : ncfile) (t : str) (la lo al : source) (p : list str) (j : nat) (pos : list (option Q)) : Prop :=
  exists time lat lon alt pres, pos = time :: lat :: lon :: alt :: pres /\ time_found t f j time /\ found reads la f j lat /\ found reads lo f j lon /\ found reads_height al f j alt /\
    Forall2 (fun n o => found reads (In_variable n) f j o) p pres.
(** the row of point j of a file: its own position and its own value *)
Definition own_row (t : str) (la lo al : source) (p : list str) (name : str) (fj : ncfile * nat) (r : list (option Q) * option Q) : Prop :=
  own_position (fst fj) t la lo al p (snd fj) (fst r) /\ found reads (In_variable name) (fst fj) (snd fj) (snd r).
(** the same with a bin b of a variable of bins: the value (j, b), the bin of its own file *)
Definition own_bin (t : str) (la lo al : source) (p : list str) (bin name : str) (fjb : ncfile * nat * nat) (r : list (option Q) * option Q) : Prop :=
  let '(f, j, b) := fjb in
  exists pos x v w, fst r = pos ++ [x] /\ own_position f t la lo al p j pos /\ variable f bin = Some w /\ nth_error (v_data w) b = Some x /\
    variable f name = Some v /\ nth_error (v_data v) (j * length (v_data w) + b) = Some (snd r).
End Spec.
(** the points of all files, file by file *)
Definition count_of (f : ncfile) (t : str) : nat := match variable f t with Some v => length (v_data v) | None => 0 end.
Definition all_points_of (files : list ncfile) (t : str) : list (ncfile * nat) := flat_map (fun f => map (fun j => (f, j)) (seq 0 (count_of f t))) files.
Definition all_bins_of (files : list ncfile) (t bin : str) : list (ncfile * nat * nat) :=
  flat_map (fun f => flat_map (fun j => map (fun b => (f, j, b)) (seq 0 (count_of f bin))) (seq 0 (count_of f t))) files.

(** files made as netCDF makes them: as many values as the shape says *)
Definition well_formed (f : ncfile) : Prop := forall n v, variable f n = Some v -> length (v_data v) = fold_right Nat.mul 1 (v_shape v).
(** on the dimensions of the times *)
Definition on_times (f : ncfile) (t n : str) : Prop :=
  forall v w, variable f t = Some v -> variable f n = Some w -> v_dims w = v_dims v /\ v_shape w = v_shape v.
(** the source is not a variable, or one on the dimensions of the times *)
Definition source_on_times (f : ncfile) (t : str) (s : source) : Prop := forall n, s = In_variable n -> on_times f t n.
(** a later file has a time stamp only if the first has *)
Definition stamps_alike (files : list ncfile) : Prop :=
  forall f rest, files = f :: rest -> attribute f (lit "Time_Stamp_Info") = None -> forall g, In g rest -> attribute g (lit "Time_Stamp_Info") = None.
(** the coordinate variable for a dimension: of its name, or the first one whose first dimension it is *)
Definition bin_variable (f : ncfile) (d bin : str) : Prop :=
  (variable f d <> None /\ bin = d) \/
  (variable f d = None /\ exists before v r after, f_vars f = before ++ (bin, v) :: after /\ v_dims v = d :: r /\ forall n w, In (n, w) before -> exists d' r', v_dims w = d' :: r' /\ d' <> d).
(** files that can be read the way the first describes *)
Definition needed (la lo al : source) (p : list str) (name x : str) : Prop := x = name \/ In x p \/ la = In_variable x \/ lo = In_variable x \/ al = In_variable x.
Definition can_be_read (float_of : str -> option Q) (convert : str -> option attr -> res (Q -> Q)) (f : ncfile) (t : str) (la lo al : source) (p : list str) (name : str) (tail : list nat) (g : ncfile) : Prop :=
  well_formed g /\ (exists vt n, variable g t = Some vt /\ v_shape vt = n :: tail /\ exists h, convert (v_units vt) (attribute g (lit "Time_Stamp_Info")) = Ok h) /\
  (forall x, needed la lo al p name x -> variable g x <> None /\ on_times g t x) /\
  (forall a, la = In_attribute a \/ lo = In_attribute a -> exists v q, attribute g a = Some v /\ reads float_of v q) /\
  (forall a, al = In_attribute a -> exists v q, attribute g a = Some v /\ reads_height float_of v q) /\
  (attribute f (lit "Time_Stamp_Info") <> None -> attribute g (lit "Time_Stamp_Info") <> None).
(** the row as its own file describes it *)
Definition own_description (float_of : str -> option Q) (convert : str -> option attr -> res (Q -> Q)) (name : str) (fj : ncfile * nat) (r : list (option Q) * option Q) : Prop :=
  exists t la lo al p, described (fst fj) t la lo al /\ pressure_named (fst fj) p /\ own_row float_of convert t la lo al p name fj r.
(** the coordinates of the result *)
Definition std_names (p : list str) : list (option str) := Some (lit "time") :: Some (lit "latitude") :: Some (lit "longitude") :: Some (lit "altitude") :: map (fun _ => Some (lit "air_pressure")) p.
(** equal as far as the shorter one goes *)
Definition starts_like (a b : list str) : Prop := exists r, a = b ++ r \/ b = a ++ r.
(** time, height, latitude and longitude variables and pressure are all on the dimensions of the times *)
Definition positions_on_times (t : str) (la lo al : source) (p : list str) (g : ncfile) : Prop :=
  source_on_times g t la /\ source_on_times g t lo /\ source_on_times g t al /\ (forall n, In n p -> on_times g t n).
