(** Specification for C102. *)
From Coq Require Import Reals.
From Verif Require Import Base PyStr FileListModel StatsModel HsModel.
From Coq Require Import List Ascii String.
Import ListNotations.
Open Scope string_scope. Open Scope list_scope. Notation length := List.length.

(** lines of a text, with line breaks between them *)
Definition text_of_lines (l : list str) : str := match l with [] => [] | x :: l => fold_left (fun a b => a ++ ["010"%char] ++ b) l x end.
(** items with a comma and a blank between them *)
Definition comma_separated (l : list str) : str := match l with [] => [] | x :: l => fold_left (fun a b => a ++ lit ", " ++ b) l x end.
(** a list of texts as Python writes it *)
Definition python_list (repr : str -> str) (l : list str) : str := lit "[" ++ comma_separated (map repr l) ++ lit "]".

(** the history [old] of data, gridded or not, with one more entry; a gridded history may be an empty text, to which the entry is added on a line of its own *)
Inductive extended (entry : str) : bool -> option str -> option str -> Prop :=
| ext_none g : extended entry g None (Some entry)
| ext_empty : extended entry false (Some []) (Some entry)
| ext_empty_gridded : extended entry true (Some []) (Some (text_of_lines [[]; entry]))
| ext_more g h : h <> [] -> extended entry g (Some h) (Some (text_of_lines [h; entry])).
Definition items (s : subject) : list data := match s with One d => [d] | Several l => l end.
(** the same data, with one more entry in every history *)
Definition told (entry : str) (s s' : subject) : Prop :=
  Forall2 (fun d d' => d_gridded d' = d_gridded d /\ d_name d' = d_name d /\ d_alias d' = d_alias d /\ d_files d' = d_files d /\ extended entry (d_gridded d) (d_history d) (d_history d')) (items s) (items s') /\
  match s, s' with One _, One _ | Several _, Several _ => True | _, _ => False end.

Section Limits.
Variable V : Type.
(** what a keyword limits: the coordinate it finds, from the end given or the smallest point to the end given or the largest point *)
Inductive limits_of (coordinate : str -> option (str * (V * V))) : kwarg V -> str * (V * V) -> Prop :=
| lo_given n a b c lo hi : coordinate n = Some (c, (lo, hi)) -> limits_of coordinate (Limit n (Some a) (Some b)) (c, (a, b))
| lo_from n a c lo hi : coordinate n = Some (c, (lo, hi)) -> limits_of coordinate (Limit n (Some a) None) (c, (a, hi))
| lo_to n b c lo hi : coordinate n = Some (c, (lo, hi)) -> limits_of coordinate (Limit n None (Some b)) (c, (lo, b))
| lo_open n c lo hi : coordinate n = Some (c, (lo, hi)) -> limits_of coordinate (Limit n None None) (c, (lo, hi)).
Definition limit_words (text : V -> str) (l : str * (V * V)) : str := fst l ++ lit ": [" ++ text (fst (snd l)) ++ lit ", " ++ text (snd (snd l)) ++ lit "]".
Definition subset_words (text : V -> str) (l : list (str * (V * V))) : str := lit "Subsetted using limits: " ++ comma_separated (map (limit_words text) l).
(** names without a colon, values whose texts have no comma and no bracket *)
Definition legible (text : V -> str) (l : str * (V * V)) : Prop :=
  ~ In ":"%char (fst l) /\ ~ In ","%char (text (fst (snd l))) /\ ~ In "]"%char (text (snd (snd l))).
Definition read_back (text : V -> str) (l : str * (V * V)) : str * str * str := (fst l, text (fst (snd l)), text (snd (snd l))).
(** a slice as Python writes it *)
Definition slice_words (repr : str -> str) (vrepr : V -> str) (e : str * (V * V * V)) : str :=
  let '(n, (a, b, s)) := e in repr n ++ lit ": slice(" ++ comma_separated [vrepr a; vrepr b; vrepr s] ++ lit ")".
Definition aggregate_lines (repr : str -> str) (vrepr : V -> str) (version names : str) (files : list str) (g : list (str * (V * V * V))) (kernel : str) : list str :=
  [lit "Aggregated using CIS version " ++ version; lit " variables: " ++ names; lit " from files: " ++ python_list repr files;
   lit " using new grid: {" ++ comma_separated (map (slice_words repr vrepr) g) ++ lit "}"; lit " with kernel: " ++ kernel ++ lit "."].
End Limits.
Arguments limits_of {V}. Arguments limit_words {V}. Arguments subset_words {V}. Arguments legible {V}. Arguments read_back {V}. Arguments aggregate_lines {V}.

Definition collapse_lines (repr : str -> str) (version names : str) (files coords : list str) (kernel : str) : list str :=
  [lit "Collapsed using CIS version " ++ version; lit " variables: " ++ names; lit " from files: " ++ python_list repr files;
   lit " over coordinates: " ++ comma_separated coords; lit " with kernel: " ++ kernel ++ lit "."].
(** how a variable is introduced: with its alias if it was given another name *)
Inductive introduced (repr : str -> str) (files : list str) : data -> str -> Prop :=
| in_renamed d a : d_alias d = Some a -> a <> d_name d -> introduced repr files d (lit "'" ++ d_name d ++ lit "' (as '" ++ a ++ lit "') from files " ++ python_list repr files)
| in_named d : d_alias d = None \/ d_alias d = Some (d_name d) -> introduced repr files d (lit "'" ++ d_name d ++ lit "' from files " ++ python_list repr files).
(** the files of data: those they were read from, or else the list that all other data share *)
Definition files_given (shared : list str) (d : data) (l : list str) : Prop := d_files d = Some l \/ (d_files d = None /\ l = shared).
(** one line for each variable, the lines closed by commas and the last by a full stop *)
Fixpoint closed (l : list str) : list str := match l with [] => [] | [x] => [x ++ lit "."] | x :: l => (x ++ lit ",") :: closed l end.
Definition evaluate_lines (version expr : str) (introductions : list str) : list str :=
  [lit "Evaluated using CIS version " ++ version; lit "Expression evaluated: '" ++ expr ++ lit "'"] ++
  match closed introductions with [] => [] | x :: l => (lit "with variables: " ++ x) :: l end.

(** ** One thing done after the other *)
Section Steps.
Variable V : Type.
(** steps whose results start a history of their own *)
Definition starts_anew (s : step V) : Prop := match s with Aggregate _ _ _ _ | Evaluate _ _ => True | _ => False end.
(** what the entry of a step begins with *)
Definition says (text : V -> str) (version : str) (s : step V) (entry : str) : Prop :=
  match s with
  | Subset l => entry = subset_words text l
  | Maths op => entry = lit "Performed " ++ op ++ lit " operation"
  | Aggregate _ k _ _ => exists middle, entry = lit "Aggregated using CIS version " ++ version ++ middle ++ lit " with kernel: " ++ k ++ lit "."
  | Collapse cs k _ _ => exists middle, entry = lit "Collapsed using CIS version " ++ version ++ middle ++ lit " over coordinates: " ++ comma_separated cs ++ ["010"%char] ++ lit " with kernel: " ++ k ++ lit "."
  | Evaluate e _ => exists after, entry = lit "Evaluated using CIS version " ++ version ++ ["010"%char] ++ lit "Expression evaluated: '" ++ e ++ lit "'" ++ after
  end.
(** the steps from the last one that starts anew *)
Inductive recent : list (str * step V) -> bool -> list (str * step V) -> Prop :=
| re_all l : Forall (fun s => ~ starts_anew (snd s)) l -> recent l true l
| re_from before s l : starts_anew (snd s) -> Forall (fun s => ~ starts_anew (snd s)) l -> recent (before ++ s :: l) false (s :: l).
End Steps.
Arguments starts_anew {V}. Arguments says {V}. Arguments recent {V}.
(** the lines of a history before something is added *)
Definition before (d : data) (l : list str) : Prop :=
  match d_history d with None => l = [] | Some [] => l = (if d_gridded d then [[]] else []) | Some h => l = [h] end.

(** ** The comparison: what is printed before a value, the name of the saved variable, whether it is a list of one value *)
Definition reported : list (string * string * bool) :=
  [("Number of points: ", "num_points", true);
   ("Mean value of dataset 1: ", "dataset_mean_1", false); ("Mean value of dataset 2: ", "dataset_mean_2", false);
   ("Standard deviation for dataset 1: ", "dataset_stddev_1", false); ("Standard deviation for dataset 2: ", "dataset_stddev_2", false);
   ("Mean of absolute difference: ", "abs_mean", true); ("Standard deviation of absolute difference: ", "abs_stddev", true);
   ("Mean of relative difference: ", "rel_mean", true); ("Standard deviation of relative difference: ", "rel_stddev", true);
   ("Spearman's rank coefficient: ", "spearman", true);
   ("Linear regression gradient: ", "regression_gradient", false); ("Linear regression intercept: ", "regression_intercept", false);
   ("Linear regression r-value: ", "regression_r", false); ("Linear regression standard error: ", "regression_stderr", false)]%string.
Definition result_value (s : statistic) : number :=
  match s with
  | PointsCount n => Count n
  | DatasetMean v _ | DatasetStddev v _ | AbsoluteMean v | AbsoluteStddev v | RelativeMean v | RelativeStddev v | SpearmansRank v
  | LinearRegressionGradient v | LinearRegressionIntercept v | LinearRegressionRValue v | LinearRegressionStderr v => Value v
  end.
Definition number_text (num_text : rv -> str) (count_text : nat -> str) (n : number) : str := match n with Count n => count_text n | Value v => num_text v end.
Inductive printed_line (num_text : rv -> str) (count_text : nat -> str) : (string * string * bool) * statistic -> str -> Prop :=
| pl label name listed s : printed_line num_text count_text ((label, name, listed), s) (lit label ++ number_text num_text count_text (result_value s)).
Inductive saved_variable (history : str) : (string * string * bool) * statistic -> scube -> Prop :=
| sv label name listed s c : sc_name c = lit name -> sc_listed c = listed -> sc_value c = result_value s -> sc_history c = Some history -> saved_variable history ((label, name, listed), s) c.
(** the frame around the title: as wide as the longer line *)
Definition frame (l : list str) : Prop :=
  exists title note, l = [repeat "="%char (length note); title; repeat "-"%char (length note); note; repeat "="%char (length note)] /\ (length title <= length note)%nat.
(** long names: the variables compared are named *)
Definition long_names (name1 name2 : str) : list str :=
  [lit "Number of points used in calculations"; lit "Mean value of " ++ name1; lit "Mean value of " ++ name2;
   lit "Corrected sample standard deviation of " ++ name1; lit "Corrected sample standard deviation of " ++ name2;
   lit "Mean of the absolute difference (data2 - data1)"; lit "Corrected sample standard deviation of the absolute difference (data2 - data1)";
   lit "Mean of the relative difference (data2 - data1)/data1"; lit "Corrected sample standard deviation of the relative difference (data2 - data1)/data1";
   lit "Spearman's rank correlation coefficient"; lit "Linear regression gradient"; lit "Linear regression intercept";
   lit "Linear regression r-value (Pearson product-moment correlation coefficient)"; lit "Linear regression standard error of the estimate"].
(** the history of the saved variables: the variables asked for and every file once *)
Definition comparison_lines (repr : str -> str) (version : str) (variables files : list str) : list str :=
  [lit "Statistical comparison performed using CIS version " ++ version; lit " variables: " ++ python_list repr variables;
   lit " from files: " ++ match files with [] => lit "set()" | _ => lit "{" ++ comma_separated (map repr files) ++ lit "}" end].
(** every file once *)
Definition each_once (all once : list str) : Prop := NoDup once /\ forall f, In f once <-> In f all.
