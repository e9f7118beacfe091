(** Specification for C69: gridded data sampled at ungridded positions. *)
From Coq Require Import String.
From Verif Require Import Base PyStr QBase LonSpec UngrModel UngrSpec SubsetSpec InterpModel InterpSpec GUModel.
From Coq Require Import List.
Import ListNotations.
Open Scope string_scope. Open Scope list_scope. Open Scope nat_scope. Notation length := List.length.

(** how the values are found: '' and 'lin' interpolate, 'nn' takes the nearest *)
Definition way (how : str) (m : method) : Prop := ((how = [] \/ how = lit "lin") /\ m = Lin) \/ (how = lit "nn" /\ m = Nn).
(** the answer for a sample (its position; its own value is missing) on the grid as it is given *)
Definition right_answer (m : method) : list dim -> array -> bool -> bool -> list Q * bool -> option Q -> Prop :=
  match m with Lin => linear_answer | Nn => nearest_answer end.
Definition the_longitude (g : gdim) : Prop := gd_std g = Some (lit "longitude").
(** the same meridian as x, on the grid's axis if the axis reaches it *)
Definition placed (d : dim) (x x' : Q) : Prop :=
  same_meridian x x' /\ (within (continued d) x' \/ forall y, same_meridian x y -> ~ within (continued d) y).
(** where sample i is, in the dimensions of the grid *)
Definition located_at (dims : list gdim) (s : udata) (i : nat) (pos : list Q) : Prop :=
  Forall2 (fun g x' => exists c x, In c (u_coords s) /\ c_std c = gd_std g /\ nth i (c_points c) None = Some x /\
             ((the_longitude g /\ placed (gd_dim g) x x') \/ (~ the_longitude g /\ x' = x))) dims pos.
(** the sample's longitudes: -180..180 if one is negative (and stays so within -180..180), otherwise 0..360 *)
Definition convention (s : udata) (low : Q) : Prop :=
  exists c, In c (u_coords s) /\ c_std c = Some (lit "longitude") /\
    ((low = (-(180))%Q /\ exists x y, In (Some x) (c_points c) /\ same_meridian x y /\ (-(180) <= y < 0)%Q /\ exists z, In (Some z) (c_points c) /\ (z < 0)%Q) \/
     (low = 0%Q /\ ((forall x, In (Some x) (c_points c) -> (0 <= x)%Q) \/
                    (forall x y, In (Some x) (c_points c) -> same_meridian x y -> (-(180) <= y < 180)%Q -> (0 <= y)%Q)))).
(** no longitude of the grid between the start of this range and the sample *)
Definition before_first (d : dim) (low x : Q) : Prop :=
  exists x', same_meridian x x' /\ in_range low x' /\ forall p y, In p (d_points d) -> same_meridian p y -> in_range low y -> (x' < y)%Q.
Definition in_the_gap (dims : list gdim) (s : udata) (i : nat) : Prop :=
  exists g c x low, In g dims /\ the_longitude g /\ d_circular (gd_dim g) = true /\ In c (u_coords s) /\ c_std c = Some (lit "longitude") /\
    nth i (c_points c) None = Some x /\ convention s low /\ before_first (gd_dim g) low x.
(** each result is the right answer at the sample's place, but missing in the gap *)
Definition answers (m : method) (mdfms : bool) (s : udata) (g : gdata) (rs : list (option Q)) : Prop :=
  length rs = length (u_values s) /\
  forall i, i < length (u_values s) -> exists pos, located_at (g_dims g) s i pos /\
    (right_answer m (map gd_dim (g_dims g)) (g_values g) mdfms false (pos, is_missing (nth i (u_values s) None)) (nth i rs None)
     \/ (in_the_gap (g_dims g) s i /\ nth i rs None = None)).
(** the sample keeps everything but the turn its longitudes are given in *)
Definition same_but_turns (s s' : udata) : Prop :=
  u_values s' = u_values s /\
  Forall2 (fun c c' => identity_of c' = identity_of c /\ length (c_points c') = length (c_points c) /\
     forall i x, nth_error (c_points c) i = Some (Some x) -> exists x', nth_error (c_points c') i = Some (Some x') /\
       if is_lon (c_std c) then same_meridian x x' else x' = x) (u_coords s) (u_coords s').

(** data that can be placed: every dimension is named by a standard name the sample has for exactly one of its coordinates, in increasing order *)
Definition named_by (s : udata) (g : gdim) : Prop :=
  exists nm c, gd_std g = Some nm /\ nm <> [] /\ nm <> lit "unknown" /\ In c (u_coords s) /\ c_std c = Some nm /\
    forall c', In c' (u_coords s) -> (c_std c' = Some nm \/ c_long c' = nm \/ c_var c' = nm) -> c' = c.
(** no two dimensions of the same standard name *)
Definition distinct_dims (dims : list gdim) : Prop := forall i j a b, nth_error dims i = Some a -> nth_error dims j = Some b -> gd_std a = gd_std b -> i = j.
(** the longitudes of the grid: around the world, some of them within the sample's range as they are given; or all within the sample's range *)
Definition fitting_longitudes (s : udata) (g : gdim) : Prop :=
  the_longitude g -> forall low, convention s low ->
    (d_circular (gd_dim g) = true /\ exists p, In p (d_points (gd_dim g)) /\ in_range low p) \/ (d_circular (gd_dim g) = false /\ Forall (in_range low) (d_points (gd_dim g))).
Definition placeable (s : udata) (g : gdata) : Prop :=
  g_dims g <> [] /\ Forall (named_by s) (g_dims g) /\ distinct_dims (g_dims g) /\ proper_dims (map gd_dim (g_dims g)) /\ Forall (fitting_longitudes s) (g_dims g) /\
  ~ In (Some (lit "longitude")) (g_aux g).
(** the same without the exceptions *)
Definition well_placed (s : udata) (g : gdata) : Prop :=
  g_dims g <> [] /\ Forall (named_by s) (g_dims g) /\ distinct_dims (g_dims g) /\ proper_dims (map gd_dim (g_dims g)) /\ g_aux g = [].
Definition answers_everywhere (m : method) (mdfms : bool) (s : udata) (g : gdata) (rs : list (option Q)) : Prop :=
  length rs = length (u_values s) /\
  forall i, i < length (u_values s) -> exists pos, located_at (g_dims g) s i pos /\
    right_answer m (map gd_dim (g_dims g)) (g_values g) mdfms false (pos, is_missing (nth i (u_values s) None)) (nth i rs None).
(** a dimension the sample says nothing about *)
Definition unknown_to (s : udata) (g : gdim) : Prop := exists nm, gd_std g = Some nm /\ nm <> [] /\ forall c, In c (u_coords s) -> c_std c <> Some nm.
(** no value of the data is missing *)
Definition all_there (dims : list dim) (values : array) : Prop := exists f, field_is dims values f.
(** the hypotheses without the exceptions; the samples do not all get the right answer *)
Definition hyps (s : udata) (gs : list gdata) : Prop := aligned s /\ complete s /\ unique_standard_names (u_coords s) /\ u_values s <> [] /\ forall g, In g gs -> well_placed s g /\ all_there (map gd_dim (g_dims g)) (g_values g).
Definition goes_wrong (s : udata) (gs : list gdata) : Prop := exists rs s' gs', sampled_from (lit "lin") true s gs = Ok (rs, s', gs') /\ ~ Forall2 (answers_everywhere Lin true s) gs rs.
