(** Specification for C101. *)
From Verif Require Import Base PyStr QBase LonModel LonSpec DateModel DateSpec UngrModel UngrSpec SubsetModel SubsetSpec GridIndexModel AggModel DsModel.
Open Scope list_scope. Open Scope Q_scope.

(** What a limit means: bounds that are numbers, None for no bound, or two dates *)
Inductive span := Numbers (a b : option Q) | Dates (a b : datetime).
Definition number_of (v : value) (o : option Q) : Prop := match o with Some x => v = Number x | None => v = Nothing end.
(** an accepted partial date (the last month of the calendar has no end, C11), and its first and last second *)
Definition accepted (p : partial) : Prop :=
  (exists rest, length rest = 5%nat /\ new_partial (p_year p) rest = Ok p) /\
  ~ (p_year p = 9999%Z /\ (nth 0 (p_rest p) None = None \/ (nth 0 (p_rest p) None = Some 12%Z /\ nth 1 (p_rest p) None = None))).
Definition first_second (p : partial) (t : datetime) : Prop :=
  valid_datetime t = true /\ has_components p t /\ forall t', valid_datetime t' = true -> has_components p t' -> not_later t t'.
Definition last_second (p : partial) (t : datetime) : Prop :=
  valid_datetime t = true /\ has_components p t /\ forall t', valid_datetime t' = true -> has_components p t' -> not_later t' t.
(** the ways to write a limit *)
Inductive spells : argument -> span -> Prop :=
| sp_range_numbers va vb a b : number_of va a -> number_of vb b -> spells (Range va vb) (Numbers a b)
| sp_pair_numbers va vb a b : number_of va a -> number_of vb b -> spells (Several [va; vb]) (Numbers a b)
| sp_range_dates a b : spells (Range (Date a) (Date b)) (Dates a b)
| sp_pair_dates a b : spells (Several [Date a; Date b]) (Dates a b)
| sp_period p a b : accepted p -> first_second p a -> last_second p b -> spells (One (Partial p)) (Dates a b)
| sp_listed_period p a b : accepted p -> first_second p a -> last_second p b -> spells (Several [Partial p]) (Dates a b).
(** a point is inside; the name of its coordinate gives the units *)
Definition inside (units : str -> res timeunit) (n : str) (s : span) (x : Q) : Prop :=
  match s with
  | Numbers a b => within (a, b) x = true
  | Dates a b => exists u, units n = Ok u /\ qinstant a <= t_read u x <= qinstant b
  end.
Definition dated_limit : Type := (nat * span)%type.
Definition coord_name (d : udata) (k : nat) : str := match nth_error (u_coords d) k with Some c => c_name c | None => [] end.
Definition meets (units : str -> res timeunit) (d : udata) (ls : list dated_limit) (r : row) : Prop :=
  forall l, In l ls -> exists x, nth (fst l) (fst r) None = Some x /\ inside units (coord_name d (fst l)) (snd l) x.
(** the keywords mean these limits *)
Definition means (d : udata) (kws : list (str * argument)) (ls : list dated_limit) : Prop :=
  Forall2 (fun kw (l : dated_limit) => addresses (u_coords d) (fst kw) (fst l) /\ spells (snd kw) (snd l)) kws ls.
(** every limit of dates is for a coordinate in units of time, and not for the longitude; a longitude limit has both its bounds *)
Definition reasonable (units : str -> res timeunit) (d : udata) (l : dated_limit) : Prop :=
  match snd l with
  | Numbers a b => is_lon d (fst l) -> a <> None /\ b <> None
  | Dates _ _ => ~ is_lon d (fst l) /\ exists u, units (coord_name d (fst l)) = Ok u
  end.
(** some rows, those for which [P] holds, in their order *)
Definition chosen {A} (P : A -> Prop) (all some : list A) : Prop :=
  exists f, (forall x, In x all -> (f x = true <-> P x)) /\ some = filter f all.
(** the two ends of a limit which are neither both numbers (or open) nor both dates *)
Definition plain (v : value) : Prop := v = Nothing \/ exists x, v = Number x.
Definition mixed (a b : value) : Prop := ~ (plain a /\ plain b) /\ ~ ((exists t, a = Date t) /\ exists t, b = Date t).
(** a limit that is none: a single value that is no partial date, or a sequence that is neither a pair nor a single partial date *)
Inductive no_limit : argument -> exn -> Prop :=
| nl_value v : (forall p, v <> Partial p) -> no_limit (One v) TypeError
| nl_sequence l : length l <> 2%nat -> (forall p, l <> [Partial p]) -> no_limit (Several l) ValueError.
(** the same limit for the model with numbers only *)
Inductive same_numbers : (str * argument) -> kwarg -> Prop :=
| sn_range n va vb a b : number_of va a -> number_of vb b -> same_numbers (n, Range va vb) (Limit n a b)
| sn_pair n va vb a b : number_of va a -> number_of vb b -> same_numbers (n, Several [va; vb]) (Limit n a b).
(** limits of dates where the units are those of a time, and limits of numbers where they are not *)
Definition suited (units : str -> res timeunit) (n : str) (s : span) : Prop :=
  match s with Numbers _ _ => forall u, units n <> Ok u | Dates _ _ => exists u, units n = Ok u end.
(** gridded data: the points kept along a dimension *)
Definition along (units : str -> res timeunit) (kws : list (str * argument)) (d : gdim) (kept : list Q) : Prop :=
  chosen (fun x => forall a, In (gd_name d, a) kws -> exists s, spells a s /\ inside units (gd_name d) s x) (gd_points d) kept.
(** there is a dimension of this name for every limit, one limit for every dimension, with bounds of the right kind; every dimension has points *)
Definition gridded_limits (units : str -> res timeunit) (ds : list gdim) (kws : list (str * argument)) : Prop :=
  NoDup (map gd_name ds) /\ NoDup (map fst kws) /\ (forall d, In d ds -> gd_points d <> []) /\
  forall n a, In (n, a) kws -> In n (map gd_name ds) /\ exists s, spells a s /\ suited units n s.
(** the standard time of cis: days since 1600 *)
Definition standard_days (u : timeunit) : Prop :=
  (forall x, t_read u x == 86400 * x + qinstant std_ref) /\ (forall t, t_read u (t_write u t) == qinstant t).
(** the same in hours *)
Definition standard_hours (u : timeunit) : Prop :=
  (forall x, t_read u x == 3600 * x + qinstant std_ref) /\ (forall t, t_read u (t_write u t) == qinstant t).
(** a grid of dates, with a period as its step *)
Inductive spells_grid : grid_argument -> datetime -> datetime -> Q -> Prop :=
| sg_grid a b s : spells_grid (Grid (Date a) (Date b) (Delta s)) a b s
| sg_listed a b s : spells_grid (GSeveral [Date a; Date b; Delta s]) a b s
| sg_period p a b s : accepted p -> first_second p a -> last_second p b -> spells_grid (GSeveral [Partial p; Delta s]) a b s.
