(** What reading a variable should give, C41. *)
From Verif Require Import Base PyStr QBase UtilModel UtilSpec ReadModel.
Open Scope Q_scope.

(** [out] has the elements of [raw], each missing exactly if it was or if it is invalid, and transformed by [f] if not *)
Definition reads (invalid : fval -> Prop) (f : Q -> Q) (raw out : varr) : Prop :=
  length (an_data out) = length (an_data raw) /\
  forall i x m, element raw i x m -> exists y m', element out i y m' /\ (m' = true <-> m = true \/ invalid x) /\ (m' = false -> same_value y (option_map f x)).
Definition is_value (v x : fval) : Prop := exists q r, v = Some q /\ x = Some r /\ q == r.
Definition above (v : Q) (x : fval) : Prop := exists q, x = Some q /\ v < q.
Definition below (v : Q) (x : fval) : Prop := exists q, x = Some q /\ q < v.
(** outside a range, whose limits may be in any order *)
Definition outside (a b : Q) (x : fval) : Prop := exists q, x = Some q /\ ((q < a /\ q < b) \/ (a < q /\ b < q)).
Definition given {A} (o : option A) (P : A -> Prop) : Prop := exists a, o = Some a /\ P a.
Definition num (o : option anum) (d : Q) : Q := match o with Some n => n_val n | None => d end.

(** a number is a value of the type *)
Definition of_type (t : dtype) (q : Q) : Prop :=
  match t with DFloat => True | DInt signed bits => exists z, q == inject_Z z /\ (if signed then - 2 ^ (Zpos bits - 1) <= z < 2 ^ (Zpos bits - 1) else 0 <= z < 2 ^ Zpos bits)%Z end.
(** outside valid_min, valid_max or valid_range *)
Definition not_valid (v_max v_min : option (option Q)) (range : option (Q * Q)) (x : fval) : Prop :=
  given v_max (fun m => given m (fun q => above q x)) \/ given v_min (fun m => given m (fun q => below q x)) \/ given range (fun r => outside (fst r) (snd r) x).
Definition pair_of (l : list Q) : option (Q * Q) := match l with [a; b] => Some (a, b) | _ => None end.
(** CloudSat's comparison operators *)
Definition compares (op : str) (q v : Q) : Prop :=
  (op = lit "<"%string /\ q < v) \/ (op = lit "<="%string /\ q <= v) \/ (op = lit "=="%string /\ q == v) \/ ((op = lit "=>"%string \/ op = lit ">="%string) /\ v <= q) \/ (op = lit ">"%string /\ v < q).
Definition only_one_float (scale offset : option anum) : Prop :=
  (exists s, scale = Some s /\ offset = None /\ n_float s = true /\ ~ n_val s == 1) \/ (exists o, offset = Some o /\ scale = None /\ n_float o = true /\ ~ n_val o == 0).
(** CALIOP's fill value: the attribute fillvalue, else that of the format, else _FillValue *)
Definition caliop_table : list (str * Q) :=
  [(lit "Float_32"%string, -(9999)); (lit "Int_16"%string, -(9999)); (lit "Int_32"%string, -(9999)); (lit "UInt_8"%string, -(127)); (lit "ExtinctionQC Fill Value"%string, 32768);
   (lit "FeatureFinderQC No Features Found"%string, 32767); (lit "FeatureFinderQC Fill Value"%string, 65535)].
Definition caliop_fill (fillvalue : option fval) (format : option str) (fill : option fval) (v : fval) : Prop :=
  fillvalue = Some v \/
  (fillvalue = None /\ exists f q, format = Some f /\ In (f, q) caliop_table /\ v = Some q) \/
  (fillvalue = None /\ (forall f q, format = Some f -> ~ In (f, q) caliop_table) /\ fill = Some v).
