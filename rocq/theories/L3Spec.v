(** Specification for C81: the time a CCI Level 3 cube covers. *)
From Coq Require Import String.
From Verif Require Import Base PyStr QBase DateModel DateSpec CciModel L3Model.
From Coq Require Import List.
Import ListNotations.
Open Scope string_scope. Open Scope list_scope. Open Scope Z_scope. Notation length := List.length.

(** n digits *)
Definition digits (n : nat) (ds : list nat) : Prop := length ds = n /\ Forall (fun d => (d < 10)%nat) ds.
(** YYYYMMDDThhmmssZ is that moment; with 44 for the day, the last day of the month *)
Inductive stamp : str -> datetime -> Prop :=
| a_day Y M D h m s : digits 4 Y -> Forall (digits 2) [M; D; h; m; s] -> let t := mkDT (number Y) (number M) (number D) (number h) (number m) (number s) in
    valid_datetime t = true -> stamp (text Y ++ text M ++ text D ++ lit "T" ++ text h ++ text m ++ text s ++ lit "Z") t
| month_end Y M h m s t : digits 4 Y -> Forall (digits 2) [M; h; m; s] -> valid_datetime t = true ->
    year t = number Y -> month t = number M -> hour t = number h -> minute t = number m -> second t = number s ->
    (exists n, next_day t = Ok n /\ day n = 1) -> stamp (text Y ++ text M ++ lit "44T" ++ text h ++ text m ++ text s ++ lit "Z") t.
(** the attribute of a name *)
Definition att (c : l3cube) (n : str) : option str := option_map snd (find (fun kv => str_eqb (fst kv) n) (q_attrs c)).
(** the cube covers the time from a to b *)
Definition covers (c : l3cube) (units : datetime -> Q) (a b : datetime) : Prop := exists points, q_time c = Some (points, Some (units a, units b)).
(** the attributes that go: those that differ from file to file, and those that became bounds *)
Definition file_specific (k : cci) : list str :=
  match k with
  | Cloud => [lit "number_of_processed_orbits"; lit "id"; lit "tracking_id"; lit "date_created"]
  | Aerosol => [lit "id"; lit "tracking_id"; lit "date_created"; lit "time_coverage_duration"; lit "history"; lit "inputfilelist"]
  end.
Definition goes (k : cci) (several : bool) (n : str) : Prop := n = lit "time_coverage_start" \/ n = lit "time_coverage_end" \/ (several = true /\ In n (file_specific k)).
(** hours from 1970-01-01 00:00 to t *)
Definition hours_since_1970 (t : datetime) : Q := (inject_Z (toordinal t - 719163) * 24 + inject_Z (seconds_of_day t) / 3600)%Q.
(** a cloud cube has a time, of one point *)
Definition time_there (k : cci) (c : l3cube) : Prop := match k with Cloud => exists p b, q_time c = Some ([p], b) | Aerosol => True end.
