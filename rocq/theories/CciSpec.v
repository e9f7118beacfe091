(** Specification for C80: the observations of several ESA CCI Level 2 files. *)
From Coq Require Import String.
From Verif Require Import Base PyStr QBase DateModel UngrModel UngrSpec RafModel RafSpec CciModel.
From Coq Require Import List.
Import ListNotations.
Open Scope string_scope. Open Scope list_scope. Open Scope nat_scope. Notation length := List.length.

(** the files say where their observations are in one of two ways; the first one counts if all files have it *)
Definition has_all (names : list str) (f : ncfile) : Prop := forall n, In n names -> variable f n <> None.
Definition short_names : list str := [lit "lon"; lit "lat"; lit "time"].
Definition long_names : list str := [lit "longitude"; lit "latitude"; lit "time"].
Definition names_for (files : list ncfile) (lo la : str) : Prop :=
  (lo = lit "lon" /\ la = lit "lat" /\ Forall (has_all short_names) files) \/
  (lo = lit "longitude" /\ la = lit "latitude" /\ ~ Forall (has_all short_names) files /\ Forall (has_all long_names) files).
(** the time of a file in days since 1600-01-01 00:00: clouds have Julian dates (that of 1600-01-01 00:00 is 2305447.5), aerosols seconds since 1970-01-01 00:00 (135140 days later) *)
Definition days_since_1600 (k : cci) (x : Q) : Q := match k with Cloud => (x - (4610895 # 2))%Q | Aerosol => (135140 + x / 86400)%Q end.
Definition same_moment (k : cci) (x o : option Q) : Prop :=
  match x, o with Some x, Some s => (s == days_since_1600 k x)%Q | None, None => True | _, _ => False end.
(** the number a file has at point j of a variable *)
Definition at_point (f : ncfile) (n : str) (j : nat) (o : option Q) : Prop := exists v, variable f n = Some v /\ nth_error (v_data v) j = Some o.
(** the row of point j of a file: its own longitude, latitude, time and value *)
Definition own_row3 (k : cci) (lo la name : str) (fj : ncfile * nat) (r : list (option Q) * option Q) : Prop :=
  exists x y t s, fst r = [x; y; s] /\ at_point (fst fj) lo (snd fj) x /\ at_point (fst fj) la (snd fj) y /\ at_point (fst fj) (lit "time") (snd fj) t /\ same_moment k t s /\
    at_point (fst fj) name (snd fj) (snd r).
(** the standard name of a coordinate: that of the variable in the first file, if it has a valid one *)
Definition named_in (files : list ncfile) (n : str) : option str := match files with f :: _ => match variable f n with Some v => v_std v | None => None end | [] => None end.
(** files that can be read: all on the dimensions of the times *)
Definition readable_with (tail : list nat) (lo la name : str) (f : ncfile) : Prop :=
  well_formed f /\ variable f name <> None /\ (exists v n, variable f (lit "time") = Some v /\ v_shape v = n :: tail) /\ forall n, In n [lo; la; name] -> on_times f (lit "time") n.

(** moments: the time from a to b in seconds, the Julian date (2000-01-01 12:00 is 2451545) *)
Definition seconds_between (a b : datetime) : Z := ((toordinal b - toordinal a) * 86400 + seconds_of_day b - seconds_of_day a)%Z.
Definition julian_date (t : datetime) : Q := (2451545 + inject_Z (seconds_between (mkDT 2000 1 1 12 0 0) t) / 86400)%Q.
Definition number_for (k : cci) (t : datetime) : Q := match k with Cloud => julian_date t | Aerosol => inject_Z (seconds_between (mkDT 1970 1 1 0 0 0) t) end.
