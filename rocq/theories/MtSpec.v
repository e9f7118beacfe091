(** Specification for C94: names, units and times of ungridded data. *)
From Coq Require Import String.
From Verif Require Import Base PyStr QBase RafModel MtModel.
From Coq Require Import List.
Import ListNotations.
Open Scope string_scope. Open Scope list_scope. Open Scope nat_scope. Notation length := List.length.

(** ** names *)
Definition allowed (V : str -> bool) (s : option str) : Prop := s = None \/ exists n, s = Some n /\ V n = true.
(** what a variable's name suggests, whatever the case: the first of these that fits *)
Inductive rule := Begins (p s : str) | Is (p s : str).
Definition rules : list rule :=
  [Begins (lit "lat") (lit "latitude"); Begins (lit "lon") (lit "longitude"); Begins (lit "alt") (lit "altitude"); Is (lit "height") (lit "altitude");
   Begins (lit "pres") (lit "air_pressure"); Is (lit "air_pressure") (lit "air_pressure"); Is (lit "time") (lit "time")].
Definition fits (name : str) (r : rule) : Prop := match r with Begins p _ => exists rest, lower name = p ++ rest | Is p _ => lower name = p end.
Definition says (r : rule) : str := match r with Begins _ s | Is _ s => s end.
Definition suggests (name : str) (s : option str) : Prop :=
  (exists before r after, rules = before ++ r :: after /\ fits name r /\ Forall (fun r => ~ fits name r) before /\ s = Some (says r)) \/ (Forall (fun r => ~ fits name r) rules /\ s = None).
(** iris knows the names that are suggested *)
Definition knows (V : str -> bool) : Prop := forall r, In r rules -> V (says r) = true.
(** the standard name of new metadata *)
Definition named (V : str -> bool) (name std : str) (s : option str) : Prop :=
  (std <> [] /\ V std = true /\ s = Some std) \/ (std = [] /\ name <> [] /\ suggests name s) \/ (std = [] /\ name = [] /\ s = Some []).
Definition same_but_std (a b : meta) : Prop := m_name b = m_name a /\ m_long b = m_long a /\ m_units b = m_units a /\ m_range b = m_range a /\ m_history b = m_history a.

(** ** units *)
Definition occurs (p s : str) : Prop := exists a b, s = a ++ p ++ b.
(** pieces with a text between them *)
Fixpoint glue (sep : str) (ps : list str) : str := match ps with [] => [] | [p] => p | p :: ps => p ++ sep ++ glue sep ps end.
(** the text that cf_units is asked to read *)
Inductive tidied (s : str) : str -> Prop :=
| TidySince pieces t : occurs (lit "since") (lower s) -> pieces <> [] -> lower s = glue (lit "since:") pieces -> Forall (fun p => ~ occurs (lit "since:") p) pieces ->
    t = filter (fun c => if ascii_dec c "," then false else true) (glue (lit "since") pieces) -> tidied s t
| TidyOther t : ~ occurs (lit "since") (lower s) -> Forall2 (fun c d => (c = "#"%char /\ d = "1"%char) \/ (c <> "#"%char /\ d = c)) s t -> tidied s t.
Definition same_unit (a b : unit) : Prop := u_dim a = u_dim b /\ (u_scale a == u_scale b)%Q /\ (u_shift a == u_shift b)%Q.
(** units that are the same; a text is one that stands for a unit, or for itself *)
Definition same_units (U : str -> option unit) (a b : units) : Prop :=
  match a, b with
  | UUnit a, UUnit b => same_unit a b
  | UText s, UText t => s = t
  | UUnit a, UText s | UText s, UUnit a => exists b, U s = Some b /\ same_unit a b
  end.
Definition same_meta (U : str -> option unit) (a b : meta) : Prop := m_name a = m_name b /\ m_std a = m_std b /\ m_long a = m_long b /\ same_units U (m_units a) (m_units b).

(** ** values *)
(** x of a unit, in base units (moments: seconds since 1600-01-01 00:00) *)
Definition amount (u : unit) (x : Q) : Q := (u_shift u + u_scale u * x)%Q.
Definition real (u : unit) : Prop := ~ (u_scale u == 0)%Q.
(** the same amounts, missing ones included *)
Definition same_amounts (u v : unit) : list (option Q) -> list (option Q) -> Prop :=
  Forall2 (fun x y => match x, y with Some x, Some y => (amount v y == amount u x)%Q | None, None => True | _, _ => False end).
Definition same_values : list (option Q) -> list (option Q) -> Prop := Forall2 (fun x y => match x, y with Some x, Some y => (x == y)%Q | None, None => True | _, _ => False end).
(** days since 1600-01-01 00:00 of the given moments *)
Definition days_of (ms days : list (option Q)) : Prop := Forall2 (fun m d => match m, d with Some m, Some d => (86400 * d == m)%Q | None, None => True | _, _ => False end) ms days.
(** the moments a coordinate tells: by its own units; as dates; or by the first word of its units and the time stamp of the file *)
Definition time_unit (u : unit) : Prop := u_dim u = None.
Inductive tells (U : str -> option unit) (l : lazy) (stamp : option str) : list (option Q) -> Prop :=
| ByUnits u v : m_units (l_meta l) = UUnit u -> time_unit u -> l_data l = Nums v -> tells U l stamp (map (option_map (amount u)) v)
| AsDates s v rest : m_units (l_meta l) = UText s -> lower s = lit "datetime" ++ rest -> l_data l = Dates v -> tells U l stamp v
| ByStamp s w ws t u v : m_units (l_meta l) = UText s -> (forall rest, lower s <> lit "datetime" ++ rest) -> stamp = Some t -> words s = w :: ws ->
    U (w ++ lit " since " ++ t) = Some u -> time_unit u -> l_data l = Nums v -> tells U l stamp (map (option_map (amount u)) v).
(** everything but the units, the data and what is kept of them *)
Definition same_names (a b : lazy) : Prop :=
  m_name (l_meta b) = m_name (l_meta a) /\ m_std (l_meta b) = m_std (l_meta a) /\ m_long (l_meta b) = m_long (l_meta a) /\ m_range (l_meta b) = m_range (l_meta a) /\ m_history (l_meta b) = m_history (l_meta a).
(** the ends of some numbers: the least and the greatest that is not missing *)
Definition least (l : list (option Q)) (o : option Q) : Prop := match o with Some x => In (Some x) l /\ forall y, In (Some y) l -> (x <= y)%Q | None => forall y, ~ In (Some y) l end.
Definition greatest (l : list (option Q)) (o : option Q) : Prop := match o with Some x => In (Some x) l /\ forall y, In (Some y) l -> (y <= x)%Q | None => forall y, ~ In (Some y) l end.
(** the unit that is asked for *)
Definition wanted (U : str -> option unit) (new : units) : option unit := match new with UUnit u => Some u | UText s => U s end.
(** units that count as the standard time *)
Definition standard_time (U : str -> option unit) (u : units) : Prop := same_units U u (UUnit (mkUnit None 86400 0)).
(** several entries in the history, each with its time *)
Fixpoint add_all (l : lazy) (es : list (str * str)) : lazy := match es with [] => l | (s, n) :: es => add_all (add_history l s n) es end.
