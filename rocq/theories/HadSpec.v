(** Specification for C86: HadGEM files. *)
From Coq Require Import String.
From Verif Require Import Base PyStr QBase NcgModel NcgSpec.
From Coq Require Import List Ascii.
Import ListNotations.
Open Scope string_scope. Open Scope list_scope. Open Scope nat_scope. Notation length := List.length.

(** an attribute of that name *)
Definition has_attribute (c : gcube) (n : string) : Prop := exists v, In (lit n, v) (q_atts c).
(** *** a cube without its dimensions of length one, and without its history *)
(** index i of a shape, without the places of the dimensions of length one *)
Inductive drops_ones : list nat -> list nat -> list nat -> Prop :=
| drops_nil : drops_ones [] [] []
| drops_one s i j : drops_ones s i j -> drops_ones (1 :: s) (0 :: i) j
| keeps n s x i j : n <> 1 -> x < n -> drops_ones s i j -> drops_ones (n :: s) (x :: i) (x :: j).
(** the coordinate of this name is x there: a dimension's or an auxiliary one *)
Definition coordinate_is (c : gcube) (i : list nat) (std long : option str) (units : str) (x : Q) : Prop :=
  (exists d k, nth_error (q_dims c) d = Some (Some k) /\ k_std k = std /\ k_long k = long /\ k_units k = units /\ exists p, nth_error i d = Some p /\ nth_error (k_points k) p = Some x) \/
  (exists a, In a (q_aux c) /\ x_std a = std /\ x_long a = long /\ x_units a = units /\ aux_at a i = Some x).
(** every dimension has its place among the coordinates; auxiliary coordinates have the lengths of their dimensions *)
Definition aux_fits (c : gcube) (a : auxc) : Prop := Forall2 (fun d n => nth_error (q_shape c) d = Some n) (x_dims a) (x_shape a).
Definition well_shaped (c : gcube) : Prop := length (q_dims c) = length (q_shape c) /\ Forall (aux_fits c) (q_aux c).
Definition squeezed (c r : gcube) : Prop :=
  q_var r = q_var c /\ q_std r = q_std c /\ q_long r = q_long c /\ q_units r = q_units c /\
  (forall n, In n (q_shape r) -> n <> 1) /\ well_shaped r /\
  (forall i, cell c i -> exists j, drops_ones (q_shape c) i j /\ cell r j /\ q_at r j = q_at c i /\ forall std long units x, coordinate_is c i std long units x -> coordinate_is r j std long units x) /\
  (forall j, cell r j -> exists i, cell c i /\ drops_ones (q_shape c) i j).
Definition without_history (c r : gcube) : Prop := forall n v, In (n, v) (q_atts r) <-> In (n, v) (q_atts c) /\ n <> lit "history".
Definition stripped (c r : gcube) : Prop := squeezed c r /\ without_history c r.

(** *** the coordinates *)
Definition called (std long var : option str) (s : str) : Prop := nonempty_name std s \/ (no_name std /\ nonempty_name long s) \/ (no_name std /\ no_name long /\ nonempty_name var s).
Definition height_dim (d : dimc) : Prop := called (k_std d) (k_long d) (k_var d) (lit "Hybrid height").
Definition height_aux (a : auxc) : Prop := called (x_std a) (x_long a) (x_var a) (lit "Hybrid height").
Definition t_or_time (std long : option str) : Prop := long = Some (lit "t") \/ std = Some (lit "time").
Section Had.
Variable std_time : str -> Q -> option Q.
Variable unit_to : str -> str -> option (Q -> Q).
(** hybrid heights are in metres, the time is in standard time, whether it is the coordinate time or t; the others are as they were *)
Inductive dim_read : option dimc -> option dimc -> Prop :=
| dim_none : dim_read None None
| dim_height d d' f : height_dim d -> unit_to (k_units d) (lit "m") = Some f -> k_std d' = k_std d -> k_long d' = k_long d -> k_var d' = k_var d -> k_units d' = lit "m" -> k_points d' = map f (k_points d) -> dim_read (Some d) (Some d')
| dim_time d d' : t_or_time (k_std d) (k_long d) -> k_std d' = Some (lit "time") -> k_long d' = k_long d -> k_var d' = k_var d -> k_units d' = lit "days since 1600-01-01 00:00:00" -> Forall2 (fun x y => std_time (k_units d) x = Some y) (k_points d) (k_points d') -> dim_read (Some d) (Some d')
| dim_other d : ~ height_dim d -> ~ t_or_time (k_std d) (k_long d) -> dim_read (Some d) (Some d).
Inductive aux_read : auxc -> auxc -> Prop :=
| aux_height a a' f : height_aux a -> unit_to (x_units a) (lit "m") = Some f -> x_std a' = x_std a -> x_long a' = x_long a -> x_var a' = x_var a -> x_units a' = lit "m" -> (forall i, aux_at a' i = option_map f (aux_at a i)) -> aux_read a a'
| aux_time a a' : t_or_time (x_std a) (x_long a) -> x_std a' = Some (lit "time") -> x_long a' = x_long a -> x_var a' = x_var a -> x_units a' = x_units a -> (forall i, aux_at a' i = aux_at a i) -> aux_read a a'
| aux_other a : ~ height_aux a -> ~ t_or_time (x_std a) (x_long a) -> aux_read a a.
(** at most one hybrid height, at most one time, no coordinate is both; heights and times that can be converted; a time that is no dimension's is of no dimension *)
Inductive coordinate := Dim (d : dimc) | Aux (a : auxc).
Definition coordinates (c : gcube) : list coordinate := flat_map (fun k => match k with Some d => [Dim d] | None => [] end) (q_dims c) ++ map Aux (q_aux c).
Definition height (x : coordinate) : Prop := match x with Dim d => height_dim d | Aux a => height_aux a end.
Definition timely (x : coordinate) : Prop := match x with Dim d => t_or_time (k_std d) (k_long d) | Aux a => t_or_time (x_std a) (x_long a) end.
Definition units_of (x : coordinate) : str := match x with Dim d => k_units d | Aux a => x_units a end.
Definition at_most_one {A} (P : A -> Prop) (l : list A) : Prop := forall pre x mid y post, l = pre ++ x :: mid ++ y :: post -> P x -> P y -> False.
Definition clear (c : gcube) : Prop :=
  at_most_one height (coordinates c) /\ at_most_one timely (coordinates c) /\ (forall x, In x (coordinates c) -> height x -> ~ timely x) /\
  (forall x, In x (coordinates c) -> height x -> exists f, unit_to (units_of x) (lit "m") = Some f) /\
  (forall d, In (Dim d) (coordinates c) -> timely (Dim d) -> forall x, In x (k_points d) -> exists y, std_time (k_units d) x = Some y) /\
  (forall a, In (Aux a) (coordinates c) -> timely (Aux a) -> x_dims a = []).
End Had.
(** no height or pressure of the files has more dimensions after those of the variable *)
Definition no_overhang (together : list gcube -> option gcube) (raw : list gcube) (c : gcube) : Prop := forall n g, In n vertical -> source together raw n g -> ~ overhangs g c.

(** *** names of variables in pp files *)
Definition white_space : list ascii := [" "; "009"; "010"; "011"; "012"; "013"]%char.
Definition writable (s : str) : Prop := s <> [] /\ forall x, In x s -> ~ In x white_space.
Definition underscored (s t : str) : Prop := Forall2 (fun x y => y = if ascii_dec x " " then "_"%char else x) s t.
(** Cube.name() *)
Inductive name_is (c : gcube) : str -> Prop :=
| a_name s : called (q_std c) (q_long c) (q_var c) s -> name_is c s
| no_name_at_all : no_name (q_std c) -> no_name (q_long c) -> no_name (q_var c) -> name_is c (lit "unknown").
Definition renamed (c r : gcube) (v : option str) : Prop := r = mkGcube v (q_std c) (q_long c) (q_units c) (q_shape c) (q_dims c) (q_at c) (q_aux c) (q_atts c).
Inductive pp_cube (several : bool) (c r : gcube) : Prop :=
| as_named s : name_is c s -> writable s -> renamed c r (Some s) -> pp_cube several c r
| with_underscores s t : several = false -> name_is c s -> ~ writable s -> underscored s t -> writable t -> renamed c r (Some t) -> pp_cube several c r
| not_renamed s : name_is c s -> ~ writable s -> (several = true \/ forall t, underscored s t -> ~ writable t) -> r = c -> pp_cube several c r.
