(** Properties C65 (limits of the subset command), C66 (grid of the aggregate command), C67 (attributes of the eval command). *)
From Coq Require Import String.
From Verif Require Import Base PyStr QBase DateModel ParseSpec ArgsModel ArgsSpec ArgsProofs Args2Proofs Args3Proofs.
From Coq Require Import List.
Import ListNotations.
Open Scope string_scope. Open Scope list_scope. Open Scope nat_scope.

(** A text is accepted exactly if it is cut, at the commas outside brackets, into at least one piece and each piece is a limit; the result is then the
    dictionary of these limits: the last one given for each name. *)
Theorem C65_limits : forall E text,
  match get_subset_limits E text with
  | Ok d => exists pieces pairs, cut_at_commas text pieces /\ pieces <> [] /\ meaning (limit_piece E) pieces pairs /\ dictionary pairs d
  | Raises _ => ~ exists pieces pairs, cut_at_commas text pieces /\ pieces <> [] /\ meaning (limit_piece E) pieces pairs
  end.
Proof. exact get_subset_limits_spec. Qed.
Print Assumptions C65_limits.

(** A piece means one thing only. *)
Theorem C65_one_meaning : forall E seg k v k' v', limit_piece E seg k v -> limit_piece E seg k' v' -> k = k' /\ v = v'.
Proof. exact limit_piece_unique. Qed.
Print Assumptions C65_one_meaning.

(** With different names every limit written is in the result, and nothing else. *)
Theorem C65_nothing_ignored_partial : forall E text d pieces pairs, get_subset_limits E text = Ok d -> cut_at_commas text pieces ->
  meaning (limit_piece E) pieces pairs -> NoDup (map fst pairs) -> forall kv, In kv d <-> In kv pairs.
Proof. exact nothing_ignored. Qed.
Print Assumptions C65_nothing_ignored_partial.

(** numbers: signed integers; no dates *)
Definition example_readers : readers := mkReaders (fun s => match int_of s with Ok z => Some (inject_Z z) | Raises _ => None end) (fun _ => None).
Example C65_example :
  get_subset_limits example_readers (lit "x=[-10,350],Y=[5],t=[2010-05],pressure=[None,100],shape=POLYGON((0 0, 1 1, 1 0))") =
    Ok [(lit "x", Between (Some (VNum (-10))) (Some (VNum 350))); (lit "Y", Between (Some (VNum 5)) None);
        (lit "t", Within (Some (mkPartial 2010 [Some 5%Z; None; None; None; None]))); (lit "pressure", Between None (Some (VNum 100)));
        (lit "shape", ShapeText (lit "POLYGON((0 0, 1 1, 1 0))"))]
  /\ get_subset_limits example_readers (lit "x=[90,-90]") = Raises ParserError /\ get_subset_limits example_readers (lit "x=[1,2],y") = Raises ParserError.
Proof. vm_compute. auto. Qed.

(** A second limit for a dimension replaces the first; a coordinate whose name begins with "shape" cannot be limited; and not every wrong text is reported as
    such: one limit for x, or none for shape, ends with another exception. *)
Theorem C65_refuted : exists E,
  (exists l, get_subset_limits E (lit "y=[1,2],y=[3,4]") = Ok [(lit "y", l)] /\ limit_piece E (lit "y=[3,4]") (lit "y") l /\ ~ limit_piece E (lit "y=[1,2]") (lit "y") l)
  /\ get_subset_limits E (lit "shape_factor=[1,2]") = Ok [(lit "shape", ShapeText (lit "[1,2]"))]
  /\ get_subset_limits E (lit "x=[10]") = Raises TypeError /\ get_subset_limits E (lit "shape") = Raises IndexError.
Proof. exact limits_refuted. Qed.
Print Assumptions C65_refuted.

(** The grid of the aggregate command: accepted exactly if each piece is a grid, or names a dimension without one. *)
Theorem C66_grid : forall E text,
  match get_aggregate_grid E text with
  | Ok d => exists pieces pairs, cut_at_commas text pieces /\ pieces <> [] /\ meaning (grid_piece E) pieces pairs /\ dictionary pairs d
  | Raises _ => ~ exists pieces pairs, cut_at_commas text pieces /\ pieces <> [] /\ meaning (grid_piece E) pieces pairs
  end.
Proof. exact get_aggregate_grid_spec. Qed.
Print Assumptions C66_grid.

Theorem C66_one_meaning : forall E seg k v k' v', grid_piece E seg k v -> grid_piece E seg k' v' -> k = k' /\ v = v'.
Proof. exact grid_piece_unique. Qed.
Print Assumptions C66_one_meaning.

Example C66_example :
  get_aggregate_grid example_readers (lit "x=[0,360,30],t=[None,100,P1DT6H],y") =
    Ok [(lit "x", Some (mkGrid (Some (VNum 0)) (Some (VNum 360)) (DNum 30))); (lit "t", Some (mkGrid None (Some (VNum 100)) (DSeconds 108000))); (lit "y", None)]
  /\ get_aggregate_grid example_readers (lit "x=[90,-90,10]") = Raises ParserError /\ get_aggregate_grid example_readers (lit "x=[0,360]") = Raises ParserError.
Proof. vm_compute. auto. Qed.

(** Texts that are not grids are not refused: without the closing bracket, or with nothing after a comma, the dimension counts as named without a grid;
    what follows the bracket is ignored. *)
Theorem C66_refuted : exists E,
  get_aggregate_grid E (lit "x=[0,360,30") = Ok [(lit "x", None)] /\ get_aggregate_grid E (lit "x=[10,]") = Ok [(lit "x", None)]
  /\ get_aggregate_grid E (lit "x[0,360,30]") = Ok [(lit "x[0,360,30]", None)]
  /\ get_aggregate_grid E (lit "x=[0,360,30]*2") = get_aggregate_grid E (lit "x=[0,360,30]") /\ (exists g, get_aggregate_grid E (lit "x=[0,360,30]") = Ok [(lit "x", Some g)]).
Proof. exact grid_refuted. Qed.
Print Assumptions C66_refuted.

(** Attributes: accepted exactly if the text is key=value pairs separated by commas, keys and values not empty and without '=' or ','. *)
Theorem C67_attributes : forall text,
  match create_attributes_dictionary (Some text) with
  | Ok d => exists pieces pairs d', text = join_on "," pieces /\ meaning attribute_text pieces pairs /\ pieces <> [] /\ d = Some d' /\ dictionary pairs d'
  | Raises e => e = ParserError /\ ~ exists pieces pairs, text = join_on "," pieces /\ pieces <> [] /\ meaning attribute_text pieces pairs
  end.
Proof. exact attributes_spec. Qed.
Print Assumptions C67_attributes.

Example C67_example :
  create_attributes_dictionary (Some (lit "source=model,run=7,source=sat")) = Ok (Some [(lit "source", lit "sat"); (lit "run", lit "7")])
  /\ create_attributes_dictionary (Some (lit "a=b=c")) = Raises ParserError /\ create_attributes_dictionary (Some []) = Raises ParserError /\ create_attributes_dictionary None = Ok None.
Proof. vm_compute. auto. Qed.
