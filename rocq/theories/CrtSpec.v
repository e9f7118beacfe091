(** Specification for C106: the coordinates that meet some criteria. *)
From Verif Require Import Base PyStr QBase UngrModel CrtModel.
Open Scope list_scope.

(** the same letters, capitals or not *)
Definition same_letters (a b : str) : Prop := upper a = upper b.
(** the name of a coordinate: the first that is not empty of its standard, long and variable names *)
Definition named (c : acoord) (n : str) : Prop :=
  let k := k_coord c in
  (c_std k = Some n /\ n <> []) \/
  ((c_std k = None \/ c_std k = Some []) /\ ((c_long k = n /\ n <> []) \/ (c_long k = [] /\ ((c_var k = n /\ n <> []) \/ (c_var k = [] /\ n = lit "unknown"))))).
(** the coordinate meets every criterion given *)
Definition asked {A} (o : option A) (P : A -> Prop) : Prop := forall a, o = Some a -> P a.
Definition meets (q : query) (c : acoord) : Prop :=
  asked (w_name q) (fun w => match w with Name n => named c n | Like o => c_std (k_coord c) = c_std (k_coord o) /\ c_std (k_coord o) <> Some [] end) /\
  asked (w_std q) (fun s => c_std (k_coord c) = Some s) /\
  asked (w_long q) (fun s => c_long (k_coord c) = s) /\
  asked (w_axis q) (fun s => same_letters (c_axis (k_coord c)) s) /\
  asked (w_var q) (fun s => c_var (k_coord c) = s) /\
  asked (w_attrs q) (fun a => exists l, a = Mapping l /\ forall k v, In (k, v) l -> In (k, v) (k_attrs c)).
(** coordinates as they are made: the axis in capitals, and no attribute twice *)
Definition made (c : acoord) : Prop := (exists a, c_axis (k_coord c) = upper a) /\ NoDup (map fst (k_attrs c)).
Definition no_criteria (q : query) : Prop := q = nothing_asked.
Definition readable (q : query) : Prop := w_attrs q <> Some NoMapping.
(** some of a list, those for which P holds, in their order *)
Definition those {A} (P : A -> Prop) (all some : list A) : Prop := exists f, (forall x, In x all -> (f x = true <-> P x)) /\ some = filter f all.
(** exactly one of the list, at one place, is such that P *)
Definition only {A} (P : A -> Prop) (l : list A) (x : A) : Prop := exists a b, l = a ++ x :: b /\ P x /\ Forall (fun y => ~ P y) a /\ Forall (fun y => ~ P y) b.
Definition none {A} (P : A -> Prop) (l : list A) : Prop := Forall (fun y => ~ P y) l.
Definition several {A} (P : A -> Prop) (l : list A) : Prop := exists a x b y c, l = a ++ x :: b ++ y :: c /\ P x /\ P y.
Definition standard (n : str) (c : acoord) : Prop := c_std (k_coord c) = Some n.
(** asked for a coordinate like another *)
Definition like (c : acoord) : query := mkQuery (Some (Like c)) None None None None None.
