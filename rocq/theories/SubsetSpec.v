(** Specifications for C30-C33. *)
From Verif Require Import Base PyStr QBase LonModel LonSpec UngrModel UngrSpec SubsetModel.
Open Scope string_scope. Open Scope list_scope. Open Scope Q_scope.

Definition row : Type := (list (option Q) * option Q)%type.
(** data to which subsetting applies: one point of every coordinate per value, at least one coordinate, and every coordinate with its own name and its
    own standard name (at most one without any) *)
Definition own_names (cs : list coord) : Prop :=
  NoDup (map c_name cs) /\ forall i j a b, nth_error cs i = Some a -> nth_error cs j = Some b -> c_std a = c_std b -> c_std a <> Some [] -> i = j.
Definition proper (d : udata) : Prop := aligned d /\ u_coords d <> [] /\ own_names (u_coords d).
(** what a keyword means: position [k] of the coordinate *)
Definition axis_name (letter name : str) : Prop :=
  In (letter, name) [(lit "X", lit "longitude"); (lit "Y", lit "latitude"); (lit "Z", lit "altitude"); (lit "T", lit "time"); (lit "P", lit "air_pressure")].
Inductive addresses (cs : list coord) (n : str) (k : nat) : Prop :=
| addr_name c : nth_error cs k = Some c -> c_name c = n -> addresses cs n k
| addr_axis c s : nth_error cs k = Some c -> (forall x, In x cs -> c_name x <> n /\ c_std x <> Some n) -> axis_name (upper n) s -> c_std c = Some s -> addresses cs n k
| addr_var c : nth_error cs k = Some c -> (forall x, In x cs -> c_name x <> n /\ c_std x <> Some n) -> (forall s, ~ axis_name (upper n) s) ->
    c_var c = n -> (forall j x, nth_error cs j = Some x -> c_var x = n -> j = k) -> addresses cs n k.
Definition is_lon (d : udata) (k : nat) : Prop := exists c, nth_error (u_coords d) k = Some c /\ c_std c = Some (lit "longitude").
Definition is_lat (d : udata) (k : nat) : Prop := exists c, nth_error (u_coords d) k = Some c /\ c_std c = Some (lit "latitude").
(** a limit: the position of a coordinate and its inclusive bounds, None for no bound *)
Definition limit : Type := (nat * (option Q * option Q))%type.
Definition within (l : option Q * option Q) (x : Q) : bool :=
  match fst l with Some a => Qleb a x | None => true end && match snd l with Some b => Qleb x b | None => true end.
Definition qualifies (ls : list limit) (r : row) : bool :=
  forallb (fun l : limit => match nth (fst l) (fst r) None with Some x => within (snd l) x | None => false end) ls.
(** the keywords say these limits *)
Definition says (d : udata) (kws : list kwarg) (ls : list limit) : Prop :=
  Forall2 (fun kw (l : limit) => exists n, kw = Limit n (fst (snd l)) (snd (snd l)) /\ addresses (u_coords d) n (fst l)) kws ls.
(** every bound is given *)
Definition bounded (l : limit) : Prop := fst (snd l) <> None /\ snd (snd l) <> None.
(** the points of the data *)
Definition located_rows (d : udata) : list row := filter located (rows d).
(** the row with its k-th coordinate changed by f *)
Fixpoint at_pos {A} (k : nat) (g : A -> A) (l : list A) : list A := match l, k with [], _ => [] | x :: l, O => g x :: l | x :: l, S k => x :: at_pos k g l end.
Definition change (k : nat) (f : Q -> Q) (r : row) : row := (at_pos k (option_map f) (fst r), snd r).
(** the result holds exactly these rows, and there is none exactly if there are no rows *)
Definition result_rows (d : udata) (rs : list row) (r : option udata) : Prop :=
  match r with
  | Some d' => rs <> [] /\ rows d' = rs /\ aligned d' /\ map identity_of (u_coords d') = map identity_of (u_coords d)
  | None => rs = []
  end.
(** the longitude and latitude of a row, at positions [kx], [ky], are in the shape *)
Definition in_shape (r : region) (kx ky : nat) (x : row) : bool :=
  match nth kx (fst x) None, nth ky (fst x) None with Some lon, Some lat => r_contains r lon lat | _, _ => false end.
(** a shape lies in its bounding box *)
Definition boxed (r : region) : Prop := forall x y, r_contains r x y = true -> r_xmin r <= x <= r_xmax r /\ r_ymin r <= y <= r_ymax r.
(** a longitude given as -180..180 (west), or as 0..360 *)
Definition convention (x : Q) (west : bool) : Prop := if west then (-(180) <= x <= 180)%Q else (0 <= x < 360)%Q.
(** a list of variables on the same coordinates *)
Definition same_coordinates (d0 d : udata) : Prop := u_coords d = u_coords d0 /\ length (u_values d) = length (u_values d0).
Definition limits_only (kws : list kwarg) : Prop := Forall (fun kw => match kw with Limit _ _ _ => True | Shape _ => False end) kws.
(** a cube whose dimensions are the Y and the X axis *)
Definition yx_grid (g : grid) : Prop := g_shape g = [length (g_ys g); length (g_xs g)]%nat /\ match g_mask g with Some m => length m = (length (g_ys g) * length (g_xs g))%nat | None => True end.
(** the cell in row j and column i *)
Definition cell (g : grid) (j i : nat) : nat := (j * length (g_xs g) + i)%nat.
Definition was_missing (g : grid) (p : nat) : bool := match g_mask g with Some m => nth p m false | None => false end.
(** no coordinate value is missing: so is all data an UngriddedData was built with, until a coordinate is changed *)
Definition complete (d : udata) : Prop := forall r, In r (rows d) -> located r = true.
