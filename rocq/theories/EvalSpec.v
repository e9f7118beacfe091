(** Specification for C48 and C63. *)
From Coq Require Import String.
From Verif Require Import Base PyStr UngrModel RdrModel EvalModel.
From Coq Require Import QArith List.
Import ListNotations.
Open Scope string_scope. Open Scope list_scope. Open Scope nat_scope. Notation length := List.length.

Definition has_double_underscore (expr : str) : Prop := exists a b, expr = a ++ lit "__" ++ b.
(** built-in functions through which an expression could reach outside: files, imports, attributes, code *)
Definition dangerous : list str := map lit ["open"; "eval"; "exec"; "compile"; "__import__"; "getattr"; "setattr"; "delattr"; "globals"; "locals"; "vars"; "dir"; "input";
  "type"; "object"; "super"; "memoryview"; "print"; "breakpoint"; "exit"; "quit"; "help"; "classmethod"; "staticmethod"; "property"; "id"].
(** the values an expression sees for a data object: its array, in one dimension for ungridded data *)
Definition one_dimension (a : array) : array := mkArr [length (a_vals a)] (a_vals a).
Definition seen (o : dobj) : array := if i_gridded (o_item o) then o_arr o else one_dimension (o_arr o).
(** every name of the namespace: the alias of a data object (of the last one with that alias) *)
Definition names_are_aliases (objs : list dobj) (ns : namespace) : Prop :=
  forall k a, dict_get (ns_locals ns) k = Some a <-> exists l1 o l2, objs = l1 ++ o :: l2 /\ alias_of o = k /\ (forall o', In o' l2 -> alias_of o' <> k) /\ a = seen o.
(** the namespace an expression is evaluated in: of the modules only numpy, no dangerous function, the data under their aliases *)
Definition confined (objs : list dobj) (ns : namespace) : Prop :=
  ns_modules ns = [lit "numpy"] /\ (forall f, In f dangerous -> ~ In f (ns_builtins ns)) /\ names_are_aliases objs ns.
(** an array has as many values as its shape says *)
Definition well_formed (a : array) : Prop := length (a_vals a) = fold_right Nat.mul 1 (a_shape a).
(** coordinates of ungridded data are given in one dimension *)
Definition coords_seen (o : dobj) : list (str * array) := if i_gridded (o_item o) then o_coords o else map (fun nc => (fst nc, one_dimension (snd nc))) (o_coords o).
