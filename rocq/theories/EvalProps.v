(** C48: evaluate refuses unsafe and shape-changing expressions.  C63: where the values of an evaluated variable lie. *)
From Coq Require Import String.
From Verif Require Import Base PyStr UngrModel RdrModel EvalModel EvalSpec EvalProofs.
From Coq Require Import QArith List.
Import ListNotations.
Open Scope string_scope. Open Scope list_scope. Open Scope nat_scope. Notation length := List.length.

(** whatever [eval] would do *)
Theorem C48_double_underscore_refused : forall pyeval objs expr output_var units attributes, has_double_underscore expr -> evaluate pyeval objs expr output_var units attributes = Raises EvaluationError.
Proof. exact evaluate_refuses. Qed.
Print Assumptions C48_double_underscore_refused.
(** The result depends only on what the expression gives where numpy, harmless functions and the data are all there is. *)
Theorem C48_confined : forall pyeval1 pyeval2 objs expr output_var units attributes,
  (forall ns, confined objs ns -> pyeval1 ns expr = pyeval2 ns expr) -> evaluate pyeval1 objs expr output_var units attributes = evaluate pyeval2 objs expr output_var units attributes.
Proof. exact evaluate_confined. Qed.
Print Assumptions C48_confined.
(** An accepted result has the shape of the first variable, holds exactly the values computed, and lies at its coordinates. *)
Theorem C48_accepted : forall pyeval objs expr output_var units attributes m,
  (forall o, In o objs -> well_formed (o_arr o)) -> (forall ns e a, pyeval ns e = Ok (VArray a) -> well_formed a) ->
  evaluate pyeval objs expr output_var units attributes = Ok m ->
  ~ has_double_underscore expr /\
  exists first rest ns a, objs = first :: rest /\ confined objs ns /\ pyeval ns expr = Ok (VArray a) /\
    a_shape a = a_shape (seen first) /\ m_arr m = a /\ m_coords m = coords_seen first /\ m_gridded m = i_gridded (o_item first) /\
    m_name m = match output_var with Some v => v | None => lit "calculated_variable" end /\ m_units m = match units with Some u => u | None => lit "unknown" end.
Proof. exact evaluate_ok. Qed.
Print Assumptions C48_accepted.
(** and when it is accepted or refused *)
Theorem C48_decided : forall pyeval first rest expr output_var units attributes,
  ~ has_double_underscore expr -> (forall o, In o (first :: rest) -> well_formed (o_arr o)) -> a_shape (o_arr first) <> [] ->
  exists ns, confined (first :: rest) ns /\
  (forall a, pyeval ns expr = Ok (VArray a) -> a_shape a = a_shape (seen first) -> exists m, evaluate pyeval (first :: rest) expr output_var units attributes = Ok m) /\
  (forall a, pyeval ns expr = Ok (VArray a) -> a_shape a <> a_shape (seen first) -> evaluate pyeval (first :: rest) expr output_var units attributes = Raises EvaluationError) /\
  (forall e, pyeval ns expr = Raises e -> evaluate pyeval (first :: rest) expr output_var units attributes = Raises (match e with NameError | ValueError => EvaluationError | _ => e end)).
Proof. exact evaluate_complete. Qed.
Print Assumptions C48_decided.
Theorem C48_attributes : forall pyeval objs expr output_var units at_ m, evaluate pyeval objs expr output_var units (Some at_) = Ok m -> NoDup (map fst at_) ->
  forall k v, dict_get (m_attributes m) k = Some v <-> In (k, v) at_.
Proof. exact evaluate_attributes. Qed.
Print Assumptions C48_attributes.

(** ** A small evaluator: names, and sums of two names *)
Definition add_values (u v : list (option Q)) : list (option Q) :=
  map (fun p : option Q * option Q => match p with (Some x, Some y) => Some (x + y)%Q | _ => None end) (combine u v).
Definition tiny (ns : namespace) (expr : str) : res value :=
  match split_on "+" expr with
  | [x] => match dict_get (ns_locals ns) x with Some a => Ok (VArray a) | None => Raises NameError end
  | [x; y] => match dict_get (ns_locals ns) x, dict_get (ns_locals ns) y with
              | Some a, Some b => if list_eq_dec Nat.eq_dec (a_shape a) (a_shape b) then Ok (VArray (mkArr (a_shape a) (add_values (a_vals a) (a_vals b)))) else Raises ValueError
              | _, _ => Raises NameError end
  | _ => Raises TypeError
  end.
Definition row (vs : list Q) : array := mkArr [length vs] (map Some vs).
Definition at_lats (name : str) (alias : option str) (lats vals : list Q) : dobj :=
  mkObj name alias [lit "f"] (mkItem false [[length lats]]) [(lit "latitude", row lats)] (row vals).
Definition obj_a := at_lats (lit "v1") (Some (lit "a")) [10; 20]%Q [1; 2]%Q.
Definition obj_b := at_lats (lit "v2") (Some (lit "b")) [10; 20]%Q [3; 5]%Q.
Definition obj_far := at_lats (lit "v3") (Some (lit "c")) [70; 80]%Q [3; 5]%Q.
Definition obj_three := at_lats (lit "v4") (Some (lit "d")) [1; 2; 3]%Q [3; 5; 7]%Q.
Example C48_example :
  evaluate tiny [obj_a; obj_b] (lit "a+b") None (Some (lit "m")) None = Ok (mkMade (lit "calculated_variable") (lit "m") [] false [(lit "latitude", row [10; 20]%Q)] (row [4; 7]%Q)) /\
  (forall o, In o [obj_a; obj_b; obj_far; obj_three] -> well_formed (o_arr o)) /\
  evaluate tiny [obj_a; obj_b] (lit "a+v1") None None None = Raises EvaluationError /\
  evaluate tiny [obj_a; obj_three] (lit "d") None None None = Raises EvaluationError /\
  evaluate tiny [obj_a; obj_three] (lit "a+d") None None None = Raises EvaluationError /\
  evaluate tiny [obj_a] (lit "a.__class__") None None None = Raises EvaluationError /\
  evaluate tiny [obj_a] (lit "a+a+a") None None None = Raises TypeError /\ has_double_underscore (lit "a.__class__").
Proof.
  repeat split; try (vm_compute; reflexivity).
  - intros o [<-|[<-|[<-|[<-|[]]]]]; reflexivity.
  - exists (lit "a."), (lit "class__"). reflexivity.
Qed.

(** ** C63 *)
(** data at the same coordinates *)
Theorem C63_same_place_partial : forall pyeval objs expr output_var units attributes m,
  (forall o, In o objs -> well_formed (o_arr o)) -> (forall ns e a, pyeval ns e = Ok (VArray a) -> well_formed a) ->
  (forall o o', In o objs -> In o' objs -> coords_seen o = coords_seen o') ->
  evaluate pyeval objs expr output_var units attributes = Ok m -> forall o, In o objs -> coords_seen o = m_coords m.
Proof.
  intros pyeval objs expr ov un at_ m W P S E o Ho. destruct (evaluate_ok _ _ _ _ _ _ _ W P E) as (_ & first & rest & ns & a & -> & _ & _ & _ & _ & C & _).
  rewrite C. apply S; auto. left. reflexivity.
Qed.
Print Assumptions C63_same_place_partial.
(** Data at other coordinates are combined all the same. *)
Theorem C63_other_place_refuted : exists pyeval objs expr m o, (forall o, In o objs -> well_formed (o_arr o)) /\
  evaluate pyeval objs expr None None None = Ok m /\ In o objs /\ coords_seen o <> m_coords m /\ m_arr m = row [4; 7]%Q.
Proof.
  exists tiny, [obj_a; obj_far], (lit "a+c"). eexists. exists obj_far. split; [|split; [vm_compute; reflexivity|split; [right; left; reflexivity|split; [vm_compute; discriminate|reflexivity]]]].
  intros o [<-|[<-|[]]]; reflexivity.
Qed.
Print Assumptions C63_other_place_refuted.
