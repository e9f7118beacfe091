(** What results tell about their making: the histories that subset (cis/subsetting/subset.py:35-76, 94-98), aggregation (cis/data_io/ungridded_data.py:1305-1315), collapsing
    (cis/data_io/gridded_data.py:645-650), evaluation (cis/evaluate.py:77-125), arithmetic (cis/maths.py:379-393) and the comparison of two variables
    (cis/cis_main.py:189-222) add, and the texts and cubes of the results of a comparison (cis/stats.py:25-276).  The histories of collocated data are in CnModel. *)
From Coq Require Import Reals.
From Verif Require Import Base PyStr FileListModel StatsModel.
From Coq Require Import List Ascii String.
Import ListNotations.
Open Scope string_scope. Open Scope list_scope. Notation length := List.length.

Definition newline : str := ["010"%char].
(** sep.join(l) *)
Fixpoint join_with (sep : str) (l : list str) : str := match l with [] => [] | [x] => x | x :: l => x ++ sep ++ join_with sep l end.
(** str() of a list of texts and of a set: [repr] is Python's repr of a text; the order of a set is any order *)
Section Texts.
Variable repr : str -> str.
Definition list_text (l : list str) : str := lit "[" ++ join_with (lit ", ") (map repr l) ++ lit "]".
Variable set_order : list str -> list str.
Definition set_text (l : list str) : str := match set_order (nodup str_eq_dec l) with [] => lit "set()" | k => lit "{" ++ join_with (lit ", ") (map repr k) ++ lit "}" end.
(** the values of limits and grids with str() and repr() of them *)
Variable V : Type.
Variables (text vrepr : V -> str).
Variable version : str.

(** A data object: gridded or not, name, alias, the files it was read from (None: the list of the class), history.
    Ungridded data always have a history, which may be empty; gridded data have none (None) until one is added. *)
Record data := mkData { d_gridded : bool; d_name : str; d_alias : option str; d_files : option (list str); d_history : option str }.
(** the list of the class CommonData, which data share that were not given files (common_data.py:10) *)
Variable shared : list str.
Definition files (d : data) : list str := match d_files d with Some l => l | None => shared end.
(** alias, common_data.py:24-37 *)
Definition alias (d : data) : str := match d_alias d with Some a => a | None => d_name d end.
(** add_history, ungridded_data.py:345-355 and gridded_data.py:171-181; [stamp]: the time of the call and a blank *)
Definition more_history (gridded : bool) (old : option str) (stamp new : str) : str :=
  match old with
  | None => stamp ++ new
  | Some [] => if gridded then newline ++ stamp ++ new else stamp ++ new
  | Some h => h ++ newline ++ stamp ++ new
  end.
Definition add_history (stamp new : str) (d : data) : data :=
  mkData (d_gridded d) (d_name d) (d_alias d) (d_files d) (Some (more_history (d_gridded d) (d_history d) stamp new)).
(** a data object or a list of them; var_name and filenames of a list, common_data.py:321-339.  Simplification: the items of a list get the same time *)
Inductive subject := One (d : data) | Several (l : list data).
Definition names_text (s : subject) : str := match s with One d => d_name d | Several l => list_text (map d_name l) end.
Definition files_text (s : subject) : str := list_text (match s with One d => files d | Several l => flat_map files l end).
Definition add_to (stamp new : str) (s : subject) : subject := match s with One d => One (add_history stamp new d) | Several l => Several (map (add_history stamp new) l) end.

(** ** subset, subset.py:30-76.  What a keyword says: the two ends (None: none), or a shape with its bounds (minx, miny, maxx, maxy).
    [coordinate]: the name, the smallest and the largest point of the coordinate that the keyword finds *)
Inductive kwarg := Limit (n : str) (start stop : option V) | Shape (wkt : str) (minx miny maxx maxy : V).
Definition limits := list (str * (V * V)).
Definition fill (v : option V) (d : V) : V := match v with Some v => v | None => d end.
Definition add_limit (coordinate : str -> option (str * (V * V))) (lon lat : str) (k : limits) (kw : kwarg) : res limits :=
  match kw with
  | Shape _ minx miny maxx maxy => Ok (dict_set (dict_set k lon (minx, maxx)) lat (miny, maxy))
  | Limit n a b => match coordinate n with None => Raises CoordinateNotFoundError | Some (c, (lo, hi)) => Ok (dict_set k c (fill a lo, fill b hi)) end
  end.
Definition make_limits (coordinate : str -> option (str * (V * V))) (lon lat : str) (kws : list kwarg) : res limits :=
  fold_left (fun k kw => bind k (fun k => add_limit coordinate lon lat k kw)) kws (Ok []).
(** __str__, 94-98; the shape was taken out by constrain (122, 206) *)
Definition limits_text (l : limits) : str := join_with (lit ", ") (map (fun e : str * (V * V) => fst e ++ lit ": [" ++ text (fst (snd e)) ++ lit ", " ++ text (snd (snd e)) ++ lit "]") l).
(** 66-76; [constrain]: SubsetModel, DsModel; it gets the keywords' shape too *)
Definition shape_of (kws : list kwarg) : option str := fold_left (fun o kw => match kw with Shape w _ _ _ _ => Some w | _ => o end) kws None.
Definition subset_told (coordinate : str -> option (str * (V * V))) (lon lat : str) (constrain : option str -> limits -> res (option subject)) (stamp : str) (kws : list kwarg) : res (option subject) :=
  bind (make_limits coordinate lon lat kws) (fun k => bind (constrain (shape_of kws) k) (fun s => Ok (option_map (add_to stamp (lit "Subsetted using limits: " ++ limits_text k)) s))).

(** ** the other histories *)
(** str() of the dictionary of slices, ungridded_data.py:1303 *)
Definition grid := list (str * (V * V * V)).
Definition grid_text (g : grid) : str :=
  lit "{" ++ join_with (lit ", ") (map (fun e : str * (V * V * V) => repr (fst e) ++ lit ": slice(" ++ vrepr (fst (fst (snd e))) ++ lit ", " ++ vrepr (snd (fst (snd e))) ++ lit ", " ++ vrepr (snd (snd e)) ++ lit ")") g) ++ lit "}".
(** ungridded_data.py:1306-1310; the text of the kernel is that of the object *)
Definition aggregate_history (s : subject) (g : grid) (kernel : str) : str :=
  lit "Aggregated using CIS version " ++ version ++ newline ++ lit " variables: " ++ names_text s ++ newline ++ lit " from files: " ++ files_text s ++
  newline ++ lit " using new grid: " ++ grid_text g ++ newline ++ lit " with kernel: " ++ kernel ++ lit ".".
(** gridded_data.py:643-650: of the results, the name data having been given to them *)
Definition collapse_history (results : subject) (coords : list str) (kernel : str) : str :=
  lit "Collapsed using CIS version " ++ version ++ newline ++ lit " variables: " ++ names_text results ++ newline ++ lit " from files: " ++ files_text results ++
  newline ++ lit " over coordinates: " ++ join_with (lit ", ") coords ++ newline ++ lit " with kernel: " ++ kernel ++ lit ".".
(** evaluate.py:109-125 *)
Definition var_info (d : data) : str :=
  lit "'" ++ d_name d ++ lit "'" ++ (if str_eqb (alias d) (d_name d) then [] else lit " (as '" ++ alias d ++ lit "')") ++ lit " from files " ++ list_text (files d).
(** 96-107 *)
Definition evaluate_history (l : list data) (expr : str) : str :=
  lit "Evaluated using CIS version " ++ version ++ newline ++ lit "Expression evaluated: '" ++ expr ++ lit "'" ++ newline ++ lit "with variables: " ++
  join_with (","%char :: newline) (map var_info l) ++ lit ".".
(** maths.py:392 *)
Definition maths_history (op : str) : str := lit "Performed " ++ op ++ lit " operation".
(** evaluate.py:64-93, as far as it concerns what is told: the result is of the kind of the first of the data and starts a history of its own *)
Definition evaluated (stamp : str) (l : list data) (expr : str) (output : option str) : res data :=
  match l with
  | [] => Raises IndexError
  | d :: _ => Ok (add_history stamp (evaluate_history l expr) (mkData (d_gridded d) (match output with Some o => o | None => lit "calculated_variable" end) None None (if d_gridded d then None else Some [])))
  end.
(** maths.py:379-393, not in place, of ungridded data: a copy *)
Definition calculated (stamp op : str) (d : data) : data := add_history stamp (maths_history op) (mkData (d_gridded d) (d_name d) None None (d_history d)).
(** ungridded_data.py:1305-1317: the gridded results, with the names of the kernel's variables, start a history of their own *)
Definition aggregated (stamp : str) (s : subject) (g : grid) (kernel : str) (outputs : list str) : subject :=
  add_to stamp (aggregate_history s g kernel) (Several (map (fun n => mkData true n None None None) outputs)).
(** gridded_data.py:639-652 of one variable: cubes with the attributes of the one that was collapsed *)
Definition collapsed (stamp : str) (d : data) (coords : list str) (kernel : str) (outputs : list str) : subject :=
  let r := Several (map (fun n => mkData true n None None (d_history d)) outputs) in add_to stamp (collapse_history r coords kernel) r.

(** ** One thing done after the other to one variable, following one of the results *)
Inductive step := Subset (l : limits) | Aggregate (g : grid) (kernel : str) (outputs : list str) (chosen : str) | Collapse (coords : list str) (kernel : str) (outputs : list str) (chosen : str)
  | Maths (op : str) | Evaluate (expr : str) (output : option str).
Definition choose (n : str) (s : subject) : res data :=
  match s with One d => Ok d | Several l => match find (fun d => str_eqb (d_name d) n) l with Some d => Ok d | None => Raises KeyError end end.
Definition perform (d : data) (stamp_step : str * step) : res data :=
  let stamp := fst stamp_step in
  match snd stamp_step with
  | Subset l => Ok (add_history stamp (lit "Subsetted using limits: " ++ limits_text l) (mkData (d_gridded d) (d_name d) None None (d_history d)))
  | Aggregate g k outs c => if d_gridded d then Raises AttributeError else choose c (aggregated stamp (One d) g k outs)
  | Collapse cs k outs c => if d_gridded d then choose c (collapsed stamp d cs k outs) else Raises AttributeError
  | Maths op => if d_gridded d then Raises TypeError else Ok (calculated stamp op d)
  | Evaluate e o => evaluated stamp [d] e o
  end.
Fixpoint perform_all (d : data) (l : list (str * step)) : res data := match l with [] => Ok d | s :: l => bind (perform d s) (fun d => perform_all d l) end.

(** ** the comparison of two variables *)
(** str() of the values; [ns]: the names of the variables *)
Variables (num_text : rv -> str) (count_text : nat -> str).
(** pprint, stats.py:25-276 *)
Definition pprint (s : statistic) : str :=
  match s with
  | PointsCount n => lit "Number of points: " ++ count_text n
  | DatasetMean v k => lit "Mean value of dataset " ++ count_text k ++ lit ": " ++ num_text v
  | DatasetStddev v k => lit "Standard deviation for dataset " ++ count_text k ++ lit ": " ++ num_text v
  | AbsoluteMean v => lit "Mean of absolute difference: " ++ num_text v
  | AbsoluteStddev v => lit "Standard deviation of absolute difference: " ++ num_text v
  | RelativeMean v => lit "Mean of relative difference: " ++ num_text v
  | RelativeStddev v => lit "Standard deviation of relative difference: " ++ num_text v
  | SpearmansRank v => lit "Spearman's rank coefficient: " ++ num_text v
  | LinearRegressionGradient v => lit "Linear regression gradient: " ++ num_text v
  | LinearRegressionIntercept v => lit "Linear regression intercept: " ++ num_text v
  | LinearRegressionRValue v => lit "Linear regression r-value: " ++ num_text v
  | LinearRegressionStderr v => lit "Linear regression standard error: " ++ num_text v
  end.
(** as_cube: the name, the long name, whether the data are a list of one value or the value, and the value *)
Inductive number := Count (n : nat) | Value (v : rv).
Record scube := mkScube { sc_name : str; sc_long : str; sc_listed : bool; sc_value : number; sc_history : option str }.
Definition as_cube (name1 name2 : str) (s : statistic) : scube :=
  let name k := if (k =? 1)%nat then name1 else name2 in
  match s with
  | PointsCount n => mkScube (lit "num_points") (lit "Number of points used in calculations") true (Count n) None
  | DatasetMean v k => mkScube (lit "dataset_mean_" ++ count_text k) (lit "Mean value of " ++ name k) false (Value v) None
  | DatasetStddev v k => mkScube (lit "dataset_stddev_" ++ count_text k) (lit "Corrected sample standard deviation of " ++ name k) false (Value v) None
  | AbsoluteMean v => mkScube (lit "abs_mean") (lit "Mean of the absolute difference (data2 - data1)") true (Value v) None
  | AbsoluteStddev v => mkScube (lit "abs_stddev") (lit "Corrected sample standard deviation of the absolute difference (data2 - data1)") true (Value v) None
  | RelativeMean v => mkScube (lit "rel_mean") (lit "Mean of the relative difference (data2 - data1)/data1") true (Value v) None
  | RelativeStddev v => mkScube (lit "rel_stddev") (lit "Corrected sample standard deviation of the relative difference (data2 - data1)/data1") true (Value v) None
  | SpearmansRank v => mkScube (lit "spearman") (lit "Spearman's rank correlation coefficient") true (Value v) None
  | LinearRegressionGradient v => mkScube (lit "regression_gradient") (lit "Linear regression gradient") false (Value v) None
  | LinearRegressionIntercept v => mkScube (lit "regression_intercept") (lit "Linear regression intercept") false (Value v) None
  | LinearRegressionRValue v => mkScube (lit "regression_r") (lit "Linear regression r-value (Pearson product-moment correlation coefficient)") false (Value v) None
  | LinearRegressionStderr v => mkScube (lit "regression_stderr") (lit "Linear regression standard error of the estimate") false (Value v) None
  end.
(** stats_cmd, cis_main.py:197-222.  A datagroup: its variables and files.  The printed lines, and the cubes that are saved and where *)
Definition stats_header : list str :=
  let header := lit "RESULTS OF STATISTICAL COMPARISON:" in let note := lit "Compared all points which have non-missing values in both variables" in
  let n := Nat.max (length header) (length note) in
  [repeat "="%char n; header; repeat "-"%char n; note; repeat "="%char n].
Definition stats_history (groups : list (list str * list str)) : str :=
  lit "Statistical comparison performed using CIS version " ++ version ++ newline ++ lit " variables: " ++ list_text (flat_map fst groups) ++
  newline ++ lit " from files: " ++ set_text (flat_map snd groups).
Definition tell (stamp new : str) (c : scube) : scube := mkScube (sc_name c) (sc_long c) (sc_listed c) (sc_value c) (Some (more_history true (sc_history c) stamp new)).
Variable rank_coefficient : list (rv * rv) -> rv.
Variable regression : list (rv * rv) -> res (rv * rv * rv * rv).
Record report := mkReport { r_printed : list str; r_saved : option (str * list scube) }.
Definition stats_cmd (stamp : str) (vars : list (str * farr)) (groups : list (list str * list str)) (output : option str) : res report :=
  match vars with
  | [(n1, d1); (n2, d2)] => bind (analyze rank_coefficient regression d1 d2) (fun results =>
      Ok (mkReport (stats_header ++ map pprint results)
        (match output with Some (c :: f) => Some (c :: f, map (tell stamp (stats_history groups)) (map (as_cube n1 n2) results)) | _ => None end)))
  | _ => Raises TypeError
  end.
End Texts.
Arguments Limit {V}. Arguments Shape {V}. Arguments Subset {V}. Arguments Aggregate {V}. Arguments Collapse {V}. Arguments Maths {V}. Arguments Evaluate {V}.
Arguments make_limits {V}. Arguments add_limit {V}. Arguments limits_text {V}. Arguments grid_text repr {V}. Arguments subset_told {V}. Arguments shape_of {V}. Arguments fill {V}.
Arguments aggregate_history repr {V}. Arguments aggregated repr {V}. Arguments perform repr {V}. Arguments perform_all repr {V}.
