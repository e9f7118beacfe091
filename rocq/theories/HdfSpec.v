(** Specification for C72 and C73: what the values of CloudSat and CALIOP files stand for. *)
From Coq Require Import String.
From Verif Require Import Base PyStr QBase UtilModel UtilSpec ReadModel ReadSpec UngrModel UngrSpec RafModel HdfModel.
From Coq Require Import List.
Import ListNotations.
Open Scope string_scope. Open Scope list_scope. Open Scope nat_scope. Notation length := List.length.

Definition dataset {V} (l : list (str * V)) (name : str) : option V := option_map snd (find (fun kv => str_eqb (fst kv) name) l).
Definition hdf_name (s : str) : Prop := exists r, s = r ++ lit ".hdf".
(** what is read for the stored number x: nothing if it is NaN or not valid, else f x *)
Inductive shows (invalid : fval -> Prop) (f : Q -> Q) : fval -> option Q -> Prop :=
| not_a_number : shows invalid f None None
| not_valid x : invalid x -> shows invalid f x None
| a_value q y : ~ invalid (Some q) -> (y == f q)%Q -> shows invalid f (Some q) (Some y).
Definition same_num (a b : option Q) : Prop := match a, b with Some x, Some y => (x == y)%Q | None, None => True | _, _ => False end.
(** days since 1600-01-01 of a number of seconds since 1993-01-01 *)
Definition day_of (s : Q) : Q := (143541 + s / 86400)%Q.

(** ** CloudSat: science value = (stored value - offset) / factor *)
Definition science (factor offset : option Q) (q : Q) : Q := ((q - match offset with Some o => o | None => 0 end) / match factor with Some f => f | None => 1 end)%Q.
Definition vd_invalid (v : cs_vd) (x : fval) : Prop := given (cv_missing v) (fun m => is_value m x) \/ given (cv_range v) (fun r => outside (fst r) (snd r) x).
Definition sd_invalid (v : cs_sd) (x : fval) : Prop :=
  given (cs_fill v) (fun m => is_value m x) \/ given (cs_missing v) (fun m => given (cs_missop v) (fun op => exists q, x = Some q /\ compares op q m)) \/ given (cs_range v) (fun r => outside (fst r) (snd r) x).
Definition vd_at (f : cs_file) (n : str) (j : nat) (o : option Q) : Prop :=
  exists v x, dataset (h_vd f) n = Some v /\ nth_error (cv_raw v) j = Some x /\ shows (vd_invalid v) (science (cv_factor v) (cv_offset v)) x o.
Definition sd_at (f : cs_file) (n : str) (i : nat) (o : option Q) : Prop :=
  exists v x, dataset (h_sd f) n = Some v /\ nth_error (cs_raw v) i = Some x /\ shows (sd_invalid v) (science (cs_factor v) (cs_offset v)) x o.
(** the time of a profile: the start of its own granule plus its own time, as they are stored *)
Definition time_at (f : cs_file) (j : nat) (o : option Q) : Prop :=
  exists p s x y a b, dataset (h_vd f) (lit "Profile_time") = Some p /\ dataset (h_vd f) (lit "TAI_start") = Some s /\ nth_error (cv_raw p) j = Some x /\ cv_raw s = [y] /\
    shows (fun x => given (cv_missing p) (fun m => is_value m x)) (fun q => q) x a /\ shows (fun x => given (cv_missing s) (fun m => is_value m x)) (fun q => q) y b /\
    same_num o (match a, b with Some a, Some b => Some (day_of (a + b)) | _, _ => None end).
(** files as CloudSat makes them: as many latitudes, longitudes and times, one start; none of them an SD dataset; no factor is 0, missop is not written ">=" *)
Definition profiles (f : cs_file) : nat := match dataset (h_vd f) (lit "Latitude") with Some v => length (cv_raw v) | None => 0 end.
Definition per_profile (f : cs_file) (n : str) : Prop := dataset (h_sd f) n = None /\ exists v, dataset (h_vd f) n = Some v /\ length (cv_raw v) = profiles f.
Definition per_cell (f : cs_file) (m : nat) (n : str) : Prop := exists v, dataset (h_sd f) n = Some v /\ cs_shape v = [profiles f; m] /\ length (cs_raw v) = profiles f * m.
Record granule (f : cs_file) : Prop := {
  g_name : hdf_name (h_name f);
  g_lat : per_profile f (lit "Latitude"); g_lon : per_profile f (lit "Longitude"); g_time : per_profile f (lit "Profile_time");
  g_start : dataset (h_sd f) (lit "TAI_start") = None /\ exists v x, dataset (h_vd f) (lit "TAI_start") = Some v /\ cv_raw v = [x];
  g_vd : forall n v, dataset (h_vd f) n = Some v -> forall q, cv_factor v = Some q -> ~ (q == 0)%Q;
  g_sd : forall n v, dataset (h_sd f) n = Some v -> (forall q, cs_factor v = Some q -> ~ (q == 0)%Q) /\ cs_missop v <> Some (lit ">=") }.
(** all profiles, and all cells, file by file *)
Definition all_profiles (files : list cs_file) : list (cs_file * nat) := flat_map (fun f => map (fun j => (f, j)) (seq 0 (profiles f))) files.
Definition all_cells (m : nat) (files : list cs_file) : list (cs_file * nat * nat) := flat_map (fun fj => map (fun k => (fj, k)) (seq 0 m)) (all_profiles files).
Definition own_profile (name : str) (fj : cs_file * nat) (r : list (option Q) * option Q) : Prop :=
  let (f, j) := fj in exists la lo t, fst r = [la; lo; t] /\ vd_at f (lit "Latitude") j la /\ vd_at f (lit "Longitude") j lo /\ time_at f j t /\ vd_at f name j (snd r).
Definition own_cell (m : nat) (name : str) (fjk : cs_file * nat * nat) (r : list (option Q) * option Q) : Prop :=
  let '(f, j, k) := fjk in exists la lo h t, fst r = [la; lo; h; t] /\ vd_at f (lit "Latitude") j la /\ vd_at f (lit "Longitude") j lo /\ time_at f j t /\
    sd_at f (lit "Height") (j * m + k) h /\ sd_at f name (j * m + k) (snd r).
Definition profile_names : list (option str) := [Some (lit "latitude"); Some (lit "longitude"); Some (lit "time")].
Definition cell_names : list (option str) := [Some (lit "latitude"); Some (lit "longitude"); Some (lit "altitude"); Some (lit "time")].
(** the time with the factor and offset of its variables applied *)
Definition scaled_time_at (f : cs_file) (j : nat) (o : option Q) : Prop :=
  exists a b, vd_at f (lit "Profile_time") j a /\ vd_at f (lit "TAI_start") 0 b /\ same_num o (match a, b with Some a, Some b => Some (day_of (a + b)) | _, _ => None end).
