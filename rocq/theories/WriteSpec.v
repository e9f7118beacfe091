(** What saving and reading back should do, C44 and C58. *)
From Verif Require Import Base PyStr QBase UtilModel UtilSpec ReadModel ReadSpec WriteModel.
Open Scope Q_scope. Notation length := List.length.

(** a coordinate is saved under its standard name, else its own name; data under its own name, else the standard name *)
Definition no_name (o : option str) : Prop := o = None \/ o = Some [].
Definition has_name (o : option str) (n : str) : Prop := o = Some n /\ n <> [].
Definition coord_name (v : wvar) (n : str) : Prop := has_name (w_standard_name v) n \/ (no_name (w_standard_name v) /\ has_name (w_name v) n).
Definition data_name (v : wvar) (n : str) : Prop := has_name (w_name v) n \/ (no_name (w_name v) /\ has_name (w_standard_name v) n).
(** the variables to save with their names: first the coordinates, then the data *)
Inductive named : list wvar -> list wvar -> list (wvar * str) -> Prop :=
| n_nil : named [] [] []
| n_coord c cs ds n l : coord_name c n -> named cs ds l -> named (c :: cs) ds ((c, n) :: l)
| n_data d ds n l : data_name d n -> named [] ds l -> named [] (d :: ds) ((d, n) :: l).
Definition scale_of (v : wvar) : Q := num (at_scale (w_attrs v)) 1.
Definition offset_of (v : wvar) : Q := num (at_offset (w_attrs v)) 0.
(** the types of data that can be saved, and those of the file *)
Definition supported : list (str * dtype) :=
  [(lit "int8", DInt true 8); (lit "int16", DInt true 16); (lit "int32", DInt true 32); (lit "int64", DInt true 64);
   (lit "uint8", DInt false 8); (lit "uint16", DInt false 16); (lit "uint32", DInt false 32); (lit "uint64", DInt false 64); (lit "float32", DFloat); (lit "float64", DFloat)].
(** the names by which coordinates are known when the file is read *)
Definition known_axes : list str := [lit "longitude"; lit "latitude"; lit "altitude"; lit "time"; lit "air_pressure"].
Definition known_type (v : wvar) : Prop := In (w_dtype v) (map fst supported).
(** the values of a variable can be stored without loss: floats, or integers without scaling *)
Definition whole (v : wvar) : Prop := scale_of v == 1 /\ offset_of v == 0 /\ forall x, In (Some x) (an_data (w_data v)) -> exists z, x == inject_Z z.
Definition exact (v : wvar) : Prop :=
  array_ok (w_data v) /\ ~ scale_of v == 0 /\ ((w_dtype v = lit "float32" \/ w_dtype v = lit "float64") \/ whole v).
(** a variable of the file has the type of the object and holds its values: missing ones as the fill value, the others after scaling by the file's own attributes *)
Definition holds (s : stored) (v : wvar) : Prop :=
  In (w_dtype v, s_type s) supported /\ length (s_raw s) = length (an_data (w_data v)) /\ s_attrs s = w_attrs v /\
  forall i x m, element (w_data v) i x m -> exists y, nth_error (s_raw s) i = Some y /\ (m = true -> y = Some (s_fill s)) /\
    (m = false -> same_value (option_map (fun q => q * scale_of v + offset_of v) y) x).
(** what was read back is what was saved *)
Definition same_array (a b : varr) : Prop :=
  length (an_data a) = length (an_data b) /\ forall i x m, element a i x m -> exists y, element b i y m /\ (m = false -> same_value y x).
(** the limits of a variable, which apply to raw values *)
Definition invalid_raw (v : wvar) : fval -> Prop :=
  not_valid (at_valid_max (w_attrs v)) (at_valid_min (w_attrs v)) (match at_valid_range (w_attrs v) with Some l => pair_of l | None => None end).
Definition no_limits (v : wvar) : Prop := at_valid_max (w_attrs v) = None /\ at_valid_min (w_attrs v) = None /\ at_valid_range (w_attrs v) = None.
Definition none_missing (v : wvar) : Prop := forall i x m, element (w_data v) i x m -> m = false.
(** the limits are two, of the variable's type, and the values lie within them *)
Definition within (v : wvar) : Prop :=
  (forall t q, In (w_dtype v, t) supported -> at_valid_max (w_attrs v) = Some (Some q) \/ at_valid_min (w_attrs v) = Some (Some q) -> of_type t q) /\
  (forall l, at_valid_range (w_attrs v) = Some l -> length l = 2%nat) /\
  forall x, In (Some x) (an_data (w_data v)) -> ~ invalid_raw v (Some ((x - offset_of v) / scale_of v)).
(** no element is missing, or the fill value is outside the limits *)
Definition marks_missing (default_fill : dtype -> Q) (v : wvar) : Prop :=
  none_missing v \/ forall t, In (w_dtype v, t) supported -> invalid_raw v (Some (match w_missing v with Some m => m | None => default_fill t end)).
(** can be saved without loss and reads back as it was *)
Definition good (default_fill : dtype -> Q) (v : wvar) : Prop := exact v /\ within v /\ marks_missing default_fill v.
(** all have as many elements as the first coordinate *)
Definition same_size (cs ds : list wvar) : Prop := forall c v, hd_error cs = Some c -> In v cs \/ In v ds -> length (an_data (w_data v)) = length (an_data (w_data c)).
