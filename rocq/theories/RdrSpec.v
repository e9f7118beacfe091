(** Specification for C62. *)
From Verif Require Import Base PyStr UngrModel UngrSpec FileListModel ParseSpec RdrModel.
From Coq Require Import List.
Import ListNotations.
Open Scope nat_scope.

(** a variable is a pattern if it holds one of the four characters *)
Definition pattern (v : str) : Prop := In "*"%char v \/ In "?"%char v \/ In "]"%char v \/ In "}"%char v.
(** [stands_for r files product v ns]: the request [v] stands for the variables [ns]: itself, or the variables of the files that match it, in their order *)
Definition stands_for (r : reader) (files : list str) (product : option str) (v : str) (ns : list str) : Prop :=
  (~ pattern v /\ ns = [v]) \/
  (pattern v /\ exists all, r_get_vars r files product = Ok all /\ ns = filter (fun n => r_fnmatch r n v) all).
(** the same object, whatever alias and files were set on it *)
Definition same_data (a b : dobj) : Prop := o_var a = o_var b /\ o_item a = o_item b /\ o_coords a = o_coords b /\ o_arr a = o_arr b.
(** [o] is the variable [n] of the files *)
Definition is_variable (r : reader) (files : list str) (product : option str) (n : str) (o : dobj) : Prop :=
  o_files o = files /\ exists raw, r_get_data r files n product = Ok raw /\ same_data o raw.
Definition alias_at (aliases : option (list str)) (r : reader) (files : list str) (product : option str) (i : nat) (n : str) (o : dobj) : Prop :=
  match aliases with
  | Some (a :: als) => nth_error (a :: als) i = Some (alias_of o)
  | _ => forall raw, r_get_data r files n product = Ok raw -> alias_of o = alias_of raw
  end.
(** the object read for a specification of the form "v" or "v=a" *)
Definition spec_object (r : reader) (files : list str) (product : option str) (spec : str) (o : dobj) : Prop :=
  exists v a, names_variable spec v a /\ is_variable r files product v o /\ alias_of o = a.

