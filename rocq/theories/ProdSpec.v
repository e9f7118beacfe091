(** Which classes should be offered and which one chosen, C42 and C43. *)
From Verif Require Import Base PyStr ProdModel.
From Coq Require Import Sorting.Sorted.
Open Scope string_scope. Open Scope list_scope. Open Scope nat_scope.

(** a proper descendant of a class *)
Inductive descendant (c : pclass) : ctree -> Prop :=
| d_child p subs t : In t subs -> root t = c -> descendant c (Node p subs)
| d_deeper p subs t : In t subs -> descendant c t -> descendant c (Node p subs).
(** a class of some plugin file that names the parent class as its base *)
Definition plugin_class (c : pclass) (dir : option (list (str * list (pclass * bool)))) : Prop :=
  exists files f classes, dir = Some files /\ In (f, classes) files /\ is_plugin_file f = true /\ In (c, true) classes.
Definition marked_abstract (c : pclass) : Prop := exists rest, c_name c = lit "abstract" ++ rest \/ c_name c = lit "Abstract" ++ rest.
(** two classes with the same identity are the same *)
Definition identities (l : list pclass) : Prop := forall a b, In a l -> In b l -> c_id a = c_id b -> a = b.
(** two classes of the parent's family or of the plugin files with the same identity are the same *)
Definition one_identity (dir : option (list (str * list (pclass * bool)))) (parent : ctree) : Prop :=
  forall a b, descendant a parent \/ plugin_class a dir -> descendant b parent \/ plugin_class b dir -> c_id a = c_id b -> a = b.
(** no two neighbours in the list are both marked abstract *)
Definition apart (l : list pclass) : Prop := forall i a b, nth_error l i = Some a -> nth_error l (S i) = Some b -> marked_abstract a -> ~ marked_abstract b.
Definition by_name (l : list pclass) : Prop := StronglySorted (fun a b => str_leb (c_name a) (c_name b) = true) l.

(** the part of a path after the last slash *)
Definition base_of (f b : str) : Prop := ~ In "/"%char b /\ (f = b \/ exists d, f = d ++ "/"%char :: b).
(** a class is right for a file *)
Definition right_for (re_match : str -> str -> bool) (f : str) (c : pclass) : Prop :=
  (exists b p, base_of f b /\ In p (c_signature c) /\ re_match (p ++ lit "$") b = true) /\ c_error c f = false.
