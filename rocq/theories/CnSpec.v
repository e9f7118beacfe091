(** Specification for C97: methods, kernels, limits and names of collocations. *)
From Coq Require Import String.
From Verif Require Import Base PyStr FileListModel ProdModel CnModel.
From Coq Require Import List QArith.
Import ListNotations.
Open Scope string_scope. Open Scope list_scope. Open Scope nat_scope. Notation length := List.length.

Definition ungridded (data : source) : Prop := match data with UData _ _ | UList _ => True | _ => False end.
Definition gridded (data : source) : Prop := match data with GData _ _ | GList _ => True | _ => False end.
(** the methods: the first of each is the default *)
Inductive method := MBin | MBox | MLinear | MNearest.
Definition onto_grid (gridded_data : bool) : list (String.string * method) := if gridded_data then [("", MLinear); ("lin", MLinear); ("nn", MNearest)] else [("", MBin); ("bin", MBin); ("box", MBox)].
Definition onto_points (gridded_data : bool) : list (String.string * method) := if gridded_data then [("", MLinear); ("lin", MLinear); ("nn", MNearest)] else [("", MBox); ("box", MBox)].
Definition methods (s : place) (g : bool) : list (String.string * method) := match s with Grid => onto_grid g | _ => onto_points g end.
Definition offers (s : place) (data : source) (how : str) (m : method) : Prop :=
  exists g h, (if g : bool then gridded data else ungridded data) /\ how = lit h /\ In (h, m) (methods s g).
(** kernels: by default the moments; by its name; or itself *)
Definition known_kernels : list String.string := ["moments"; "mean"; "stddev"; "min"; "max"; "sum"; "nn_horizontal"; "nn_h"; "nn_horizontal_only"; "nn_altitude"; "nn_a"; "nn_pressure"; "nn_p"; "nn_time"; "nn_t"; "gridded_gridded_nn"; "gridded_gridded_li"].
Inductive picks : kernel_arg -> kernel -> Prop :=
| by_default : picks KNone moments
| by_default_empty : picks (KName []) moments
| by_moments : picks (KName (lit "moments")) moments
| by_name n : In n known_kernels -> n <> "moments" -> picks (KName (lit n)) (mkKernel (lit n) (fun d => [d]))
| itself k : picks (KObject k) k.
(** the limits given and not None, each read *)
Definition given {V} (limit : str -> V -> res Q) (kwargs : list (str * option V)) (l : list (str * Q)) : Prop :=
  NoDup (map fst l) /\ forall n q, In (n, q) l <-> exists v, dict_get kwargs n = Some (Some v) /\ limit n v = Ok q.
Definition separations : list str := map lit ["h_sep"; "a_sep"; "p_sep"; "t_sep"].
(** names *)
Definition nothing_asked : asked := mkAsked [] [] [].
Definition instead (a b c : str) : Prop := (a = [] /\ c = b) \/ (a <> [] /\ c = a).
Definition renamed (a : asked) (v : var) (d : details) : Prop :=
  exists n l u, instead (a_name a) (v_name v) n /\ instead (a_long a) (v_long v) l /\ instead (a_units a) (v_units v) u /\ d = (n, l, v_std v, u).
(** the outputs of moments: the mean under the name itself, the standard deviation and the number of points under names made of it *)
Definition mean_of (d o : details) : Prop := o = d.
Definition deviation_of (d o : details) : Prop := let '(n, l, s, u) := d in o = (n ++ lit "_std_dev", lit "Corrected sample standard deviation of " ++ l, None, u).
Definition number_of (d o : details) : Prop := let '(n, l, s, u) := d in o = (n ++ lit "_num_points", lit "Number of points used to calculate the mean of " ++ l, None, []).
(** a result shows these details; its standard name only if it is a valid one; on a grid, its units only if they can be read, otherwise those of the source *)
Definition shows (s : place) (valid readable : str -> bool) (source result : var) (d : details) : Prop :=
  let '(n, l, sn, u) := d in
  v_name result = n /\ v_long result = l /\ v_std result = match sn with Some x => if valid x then Some x else None | None => None end /\
  v_units result = match s with Grid => if readable u then u else v_units source | _ => u end.
(** same names and units *)
Definition same_names (v w : var) : Prop := v_name v = v_name w /\ v_long v = v_long w /\ v_units v = v_units w /\ v_std v = v_std w.
(** one group of results for every variable, in order *)
Definition for_each (P : var -> list var -> Prop) (vs r : list var) : Prop := exists groups, r = concat groups /\ Forall2 P vs groups.
(** the outputs of a kernel argument, from the details of the variable *)
Inductive made_by : kernel_arg -> details -> list details -> Prop :=
| m_moments k d a b c : picks k moments -> mean_of d a -> deviation_of d b -> number_of d c -> made_by k d [a; b; c]
| m_name n d : In n known_kernels -> n <> "moments" -> made_by (KName (lit n)) d [d]
| m_object k d : made_by (KObject k) d (k_details k d).
(** the lines of a history *)
Definition lines_of (sample_files version names files collocator kernel : str) : list str :=
  [lit "Collocated onto sampling from: " ++ sample_files; lit "using CIS version " ++ version; lit "variables: " ++ names; lit "with files: " ++ files; lit "using collocator: " ++ collocator; lit "kernel: " ++ kernel].
(** the names of the data in the history, and their files: lists do not give theirs *)
Definition data_names (show_list : list str -> str) (data : source) (t : str) : Prop := match data with UData d _ | GData d _ => t = v_name d | UList l | GList l => t = show_list (map v_name l) | _ => False end.
Definition data_files (data : source) (t : str) : Prop := match data with UData _ f | GData _ f => t = f | UList _ | GList _ => t = lit "Unknown" | _ => False end.
(** the way a method is carried out: a box checks the limits given; other methods have none *)
Definition by_method {V} (limit : str -> V -> res Q) (m : method) (kwargs : list (str * option V)) (w : way) : Prop :=
  match m with
  | MBin => w = Bin
  | MBox => (forall n, In n (map fst kwargs) -> In n separations) /\ exists l, w = Box l /\ given limit kwargs l
  | MLinear => w = Linear
  | MNearest => w = Nearest
  end.
(** a list of lines with line breaks between them *)
Fixpoint with_breaks (lines : list str) : str := match lines with [] => [] | [x] => x | x :: r => x ++ lit " " ++ ["010"%char] ++ with_breaks r end.
Definition own_details (v : var) : details := (v_name v, v_long v, v_std v, v_units v).
(** the entries before: only gridded data on a grid keep theirs *)
Definition earlier (s : place) (data : source) (v : var) : list str := match s, data with Grid, GData _ _ | Grid, GList _ => v_history v | _, _ => [] end.
