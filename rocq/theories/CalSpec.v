(** Specification for C73: what the values of CALIOP files stand for. *)
From Coq Require Import String.
From Verif Require Import Base PyStr QBase UtilModel UtilSpec ReadModel ReadSpec UngrModel UngrSpec RafModel HdfModel HdfSpec.
From Coq Require Import List.
Import ListNotations.
Open Scope string_scope. Open Scope list_scope. Open Scope nat_scope. Notation length := List.length.

(** science value = stored value / scale factor + offset *)
Definition cal_science (v : cal_sd) (q : Q) : Q := (q / match ca_scale v with Some s => s | None => 1 end + match ca_offset v with Some o => o | None => 0 end)%Q.
Definition cal_invalid (v : cal_sd) (x : fval) : Prop :=
  (exists m, caliop_fill (ca_fillvalue v) (ca_format v) (ca_fill v) m /\ is_value m x) \/ given (match ca_range v with Some l => pair_of l | None => None end) (fun r => outside (fst r) (snd r) x).
Definition cal_at (f : cal_file) (n : str) (i : nat) (o : option Q) : Prop :=
  exists v x, dataset (h_sd f) n = Some v /\ nth_error (ca_raw v) i = Some x /\ shows (cal_invalid v) (cal_science v) x o.
(** the altitudes are given in km, by the file itself *)
Definition altitude_at (f : cal_file) (k : nat) (o : option Q) : Prop :=
  exists v x, dataset (h_first f) (lit "Lidar_Data_Altitudes") = Some v /\ nth_error (cf_raw v) k = Some x /\ shows (fun x => given (cf_missing v) (fun m => is_value m x)) (fun q => q * 1000)%Q x o.
Definition altitudes (f : cal_file) : nat := match dataset (h_first f) (lit "Lidar_Data_Altitudes") with Some v => length (cf_raw v) | None => 0 end.
(** the number of profiles; a variable of the given shape *)
Definition cal_profiles (f : cal_file) : nat := match dataset (h_sd f) (lit "Latitude") with Some v => match ca_shape v with n :: _ => n | [] => 0 end | None => 0 end.
Definition of_shape (f : cal_file) (n : str) (shape : list nat) : Prop := exists v, dataset (h_sd f) n = Some v /\ ca_shape v = shape /\ length (ca_raw v) = fold_right Nat.mul 1 shape.
(** files as CALIOP makes them: w positions and times for every profile; no scale factor is 0 *)
Record orbit (w : nat) (f : cal_file) : Prop := {
  o_name : hdf_name (h_name f);
  o_lat : of_shape f (lit "Latitude") [cal_profiles f; w]; o_lon : of_shape f (lit "Longitude") [cal_profiles f; w]; o_time : of_shape f (lit "Profile_Time") [cal_profiles f; w];
  o_scale : forall n v, dataset (h_sd f) n = Some v -> forall q, ca_scale v = Some q -> ~ (q == 0)%Q }.
(** level 1 has one position for a profile; level 2 three, of which the second is the middle *)
Definition shot (p : caliop_product) : nat := match p with Caliop_L1 => 0 | _ => 1 end.
Definition has_pressure (p : caliop_product) : bool := match p with Caliop_L2_no_pressure => false | _ => true end.
Definition time_of (f : cal_file) (i : nat) (o : option Q) : Prop := exists a, cal_at f (lit "Profile_Time") i a /\ same_num o (option_map day_of a).
(** variables of level 2 that hold several values for a cell, of which the first is read *)
Definition several (p : caliop_product) (name : str) : Prop :=
  p <> Caliop_L1 /\ In name [lit "Atmospheric_Volume_Description"; lit "CAD_Score"; lit "Extinction_QC_Flag_1064"; lit "Extinction_QC_Flag_532"].
Definition column_variable (p : caliop_product) (name : str) : Prop := p <> Caliop_L1 /\ exists r, name = lit "Column" ++ r.
(** what a row holds; [z]: values per cell; [pres]: with the pressure of the cell *)
Definition cal_cell (p : caliop_product) (w m z : nat) (pres : bool) (name : str) (fjk : cal_file * nat * nat) (r : list (option Q) * option Q) : Prop :=
  let '(f, j, k) := fjk in exists la lo t al pr, fst r = la :: lo :: t :: al :: pr /\
    cal_at f (lit "Latitude") (j * w + shot p) la /\ cal_at f (lit "Longitude") (j * w + shot p) lo /\ time_of f (j * w + shot p) t /\ altitude_at f k al /\
    (if pres then exists x, pr = [x] /\ cal_at f (lit "Pressure") (j * m + k) x else pr = []) /\ cal_at f name ((j * m + k) * z) (snd r).
Definition cal_column (p : caliop_product) (w : nat) (name : str) (fj : cal_file * nat) (r : list (option Q) * option Q) : Prop :=
  let (f, j) := fj in exists la lo t, fst r = [la; lo; t] /\
    cal_at f (lit "Latitude") (j * w + shot p) la /\ cal_at f (lit "Longitude") (j * w + shot p) lo /\ time_of f (j * w + shot p) t /\ cal_at f name j (snd r).
Definition cal_points (files : list cal_file) : list (cal_file * nat) := flat_map (fun f => map (fun j => (f, j)) (seq 0 (cal_profiles f))) files.
Definition cal_cells (m : nat) (files : list cal_file) : list (cal_file * nat * nat) := flat_map (fun fj => map (fun k => (fj, k)) (seq 0 m)) (cal_points files).
Definition cal_names (pres : bool) : list (option str) := [Some (lit "latitude"); Some (lit "longitude"); Some (lit "time"); Some (lit "altitude")] ++ if pres then [Some (lit "air_pressure")] else [].
Definition same_altitudes (f g : cal_file) : Prop := dataset (h_first f) (lit "Lidar_Data_Altitudes") = dataset (h_first g) (lit "Lidar_Data_Altitudes").
(** a variable with z values for a cell; z = 1 without a third dimension *)
Definition cell_variable (p : caliop_product) (f : cal_file) (m z : nat) (name : str) : Prop :=
  (~ several p name /\ z = 1 /\ of_shape f name [cal_profiles f; m]) \/ (several p name /\ z <> 0 /\ of_shape f name [cal_profiles f; m; z]).
