(** C102: what results tell about their making. *)
From Coq Require Import Reals.
From Verif Require Import Base PyStr FileListModel UtilModel StatsModel HsModel HsSpec HsProofs Hs9Proofs.
From Coq Require Import List Ascii String Permutation.
Import ListNotations.
Open Scope string_scope. Open Scope list_scope. Open Scope nat_scope. Notation length := List.length.

(** ** Example: repr puts quotes around a text; limits are texts themselves *)
Definition ex_repr (s : str) : str := lit "'" ++ s ++ lit "'".
Definition ex_text (s : str) : str := s.
Definition ex_coordinate (n : str) : option (str * (str * str)) :=
  if str_eqb n (lit "t") then Some (lit "time", (lit "0.0", lit "9.5")) else if str_eqb n (lit "x") then Some (lit "longitude", (lit "-180.0", lit "179.0")) else None.
Definition ex_data : data := mkData false (lit "AOT") None (Some [lit "a.nc"; lit "b.nc"]) (Some []).
Definition ex_stamp : str := lit "2008-06-12T10:00:00Z ".

(** ** subset *)
(** every item of the result has one more entry in its history: the limits in the order of the keywords, with the ends given or else the ends of the data *)
Theorem C102_subset_partial : forall V (text : V -> str) coordinate lon lat constrain stamp kws l s, Forall2 (limits_of coordinate) kws l -> NoDup (map fst l) -> constrain None l = Ok (Some s) ->
  exists s', subset_told text coordinate lon lat constrain stamp kws = Ok (Some s') /\ told (stamp ++ subset_words text l) s s'.
Proof. exact subset_words_told. Qed.
Print Assumptions C102_subset_partial.
Example C102_subset_example : subset_told ex_text ex_coordinate (lit "lon") (lit "lat") (fun _ _ => Ok (Some (One ex_data))) ex_stamp [Limit (lit "t") (Some (lit "1.0")) None; Limit (lit "x") None (Some (lit "10.0"))]
  = Ok (Some (One (mkData false (lit "AOT") None (Some [lit "a.nc"; lit "b.nc"]) (Some (lit "2008-06-12T10:00:00Z Subsetted using limits: time: [1.0, 9.5], longitude: [-180.0, 10.0]"))))) /\
  Forall2 (limits_of ex_coordinate) [Limit (lit "t") (Some (lit "1.0")) None; Limit (lit "x") None (Some (lit "10.0"))] [(lit "time", (lit "1.0", lit "9.5")); (lit "longitude", (lit "-180.0", lit "10.0"))].
Proof. split; [vm_compute; reflexivity|]. constructor; [eapply lo_from; vm_compute; reflexivity|]. constructor; [eapply lo_to; vm_compute; reflexivity|]. constructor. Qed.
(** nothing is left: no result *)
Theorem C102_subset_none : forall V (text : V -> str) coordinate lon lat constrain stamp kws l, Forall2 (limits_of coordinate) kws l -> NoDup (map fst l) -> constrain None l = Ok None ->
  subset_told text coordinate lon lat constrain stamp kws = Ok None.
Proof. exact subset_none. Qed.
Print Assumptions C102_subset_none.
(** a keyword for which the data have no coordinate: an error, whatever the others say *)
Theorem C102_subset_unknown : forall V (text : V -> str) coordinate lon lat constrain stamp kws n a b, In (Limit n a b) kws -> coordinate n = None ->
  subset_told text coordinate lon lat constrain stamp kws = Raises CoordinateNotFoundError.
Proof. exact subset_unknown. Qed.
Print Assumptions C102_subset_unknown.
Example C102_subset_unknown_example : ex_coordinate (lit "z") = None /\ subset_told ex_text ex_coordinate (lit "lon") (lit "lat") (fun _ _ => Ok (Some (One ex_data))) ex_stamp [Limit (lit "t") None None; Limit (lit "z") None None] = Raises CoordinateNotFoundError.
Proof. split; vm_compute; reflexivity. Qed.
Example C102_subset_none_example : subset_told ex_text ex_coordinate (lit "lon") (lit "lat") (fun _ _ => Ok None) ex_stamp [Limit (lit "t") None None] = Ok None.
Proof. reflexivity. Qed.
(** the limits can be read back from the history *)
Theorem C102_limits_legible : forall V (text : V -> str) l l', Forall (legible text) l -> Forall (legible text) l' -> subset_words text l = subset_words text l' -> map (read_back text) l = map (read_back text) l'.
Proof. exact subset_words_unique. Qed.
Print Assumptions C102_limits_legible.
Example C102_limits_legible_example : legible ex_text (lit "time", (lit "2008-01-01 00:00:00", lit "2008-12-31 23:59:59")).
Proof. unfold legible, ex_text. cbn [fst snd]. repeat split; intros H; vm_compute in H; intuition discriminate. Qed.
(** of a shape, only its box is told: subsets of different shapes may have the same history *)
Theorem C102_shape_refuted : forall V (text : V -> str) coordinate lon lat constrain stamp w minx miny maxx maxy s, lon <> lat -> constrain (Some w) [(lon, (minx, maxx)); (lat, (miny, maxy))] = Ok (Some s) ->
  exists s', subset_told text coordinate lon lat constrain stamp [Shape w minx miny maxx maxy] = Ok (Some s') /\ told (stamp ++ subset_words text [(lon, (minx, maxx)); (lat, (miny, maxy))]) s s'.
Proof. exact shape_told. Qed.
Print Assumptions C102_shape_refuted.
Example C102_shape_example : subset_told ex_text ex_coordinate (lit "lon") (lit "lat") (fun w _ => match w with Some _ => Ok (Some (Several [ex_data])) | None => Ok None end) ex_stamp
    [Shape (lit "POLYGON ((0 0, 1 0, 0 1, 0 0))") (lit "0.0") (lit "0.0") (lit "1.0") (lit "1.0")]
  = Ok (Some (Several [mkData false (lit "AOT") None (Some [lit "a.nc"; lit "b.nc"]) (Some (lit "2008-06-12T10:00:00Z Subsetted using limits: lon: [0.0, 1.0], lat: [0.0, 1.0]"))])).
Proof. vm_compute. reflexivity. Qed.

(** ** aggregation, collapsing, evaluation, arithmetic *)
Theorem C102_aggregate : forall repr V (vrepr : V -> str) version shared stamp s g k outs names fs,
  (exists d, s = One d /\ names = d_name d /\ files_given shared d fs) \/ (exists ds fss, s = Several ds /\ names = python_list repr (map d_name ds) /\ Forall2 (files_given shared) ds fss /\ fs = List.concat fss) ->
  exists l, aggregated repr vrepr version shared stamp s g k outs = Several l /\ map d_name l = outs /\ Forall (fun d => d_history d = Some (stamp ++ text_of_lines (aggregate_lines repr vrepr version names fs g k))) l.
Proof. intros repr V vrepr. exact (aggregated_told repr V vrepr). Qed.
Print Assumptions C102_aggregate.
Example C102_aggregate_example : aggregated ex_repr ex_text (lit "1.7.3") [] ex_stamp (One ex_data) [(lit "time", (lit "0", lit "9", lit "1"))] (lit "mean") [lit "AOT"] =
  Several [mkData true (lit "AOT") None None (Some (text_of_lines [lit "2008-06-12T10:00:00Z Aggregated using CIS version 1.7.3"; lit " variables: AOT"; lit " from files: ['a.nc', 'b.nc']"; lit " using new grid: {'time': slice(0, 9, 1)}"; lit " with kernel: mean."]))].
Proof. vm_compute. reflexivity. Qed.
(** what collapsed data tell of are the results: neither the variable that was collapsed nor its files *)
Theorem C102_collapse : forall repr version shared stamp d cs k outs, exists l, collapsed repr version shared stamp d cs k outs = Several l /\ map d_name l = outs /\
  Forall (fun r => d_gridded r = true /\ extended (stamp ++ text_of_lines (collapse_lines repr version (python_list repr outs) (List.concat (map (fun _ => shared) outs)) cs k)) true (d_history d) (d_history r)) l.
Proof. exact collapsed_told. Qed.
Print Assumptions C102_collapse.
Theorem C102_collapse_refuted : forall repr version shared stamp d d' cs k outs, d_history d = d_history d' -> collapsed repr version shared stamp d cs k outs = collapsed repr version shared stamp d' cs k outs.
Proof. exact collapse_blind. Qed.
Print Assumptions C102_collapse_refuted.
Example C102_collapse_example : collapsed ex_repr (lit "1.7.3") [] ex_stamp (mkData true (lit "T") None (Some [lit "m.nc"]) (Some (lit "made"))) [lit "time"] (lit "K") [lit "T"; lit "T_num_points"] =
  let h := Some (text_of_lines [lit "made"; lit "2008-06-12T10:00:00Z Collapsed using CIS version 1.7.3"; lit " variables: ['T', 'T_num_points']"; lit " from files: []"; lit " over coordinates: time"; lit " with kernel: K."]) in
  Several [mkData true (lit "T") None None h; mkData true (lit "T_num_points") None None h].
Proof. vm_compute. reflexivity. Qed.
Theorem C102_evaluate : forall repr version shared stamp l e o, l <> [] -> exists r ins, evaluated repr version shared stamp l e o = Ok r /\ Forall2 (fun d i => exists fs, files_given shared d fs /\ introduced repr fs d i) l ins /\
  d_name r = match o with Some n => n | None => lit "calculated_variable" end /\ d_history r = Some (stamp ++ text_of_lines (evaluate_lines version e ins)).
Proof. exact evaluated_told. Qed.
Print Assumptions C102_evaluate.
Example C102_evaluate_example : evaluated ex_repr (lit "1.7.3") [] ex_stamp [ex_data; mkData false (lit "CDNC") (Some (lit "n")) (Some [lit "c.nc"]) (Some (lit "old"))] (lit "AOT * n") (Some (lit "product")) =
  Ok (mkData false (lit "product") None None (Some (text_of_lines [lit "2008-06-12T10:00:00Z Evaluated using CIS version 1.7.3"; lit "Expression evaluated: 'AOT * n'"; lit "with variables: 'AOT' from files ['a.nc', 'b.nc'],"; lit "'CDNC' (as 'n') from files ['c.nc']."]))).
Proof. vm_compute. reflexivity. Qed.
Theorem C102_arithmetic : forall stamp op d, extended (stamp ++ lit "Performed " ++ op ++ lit " operation") (d_gridded d) (d_history d) (d_history (calculated stamp op d)) /\ d_name (calculated stamp op d) = d_name d.
Proof. exact calculated_told. Qed.
Print Assumptions C102_arithmetic.
Example C102_arithmetic_example : d_history (calculated ex_stamp (lit "exp") (mkData false (lit "AOT") None None (Some (lit "old")))) = Some (text_of_lines [lit "old"; lit "2008-06-12T10:00:00Z Performed exp operation"]).
Proof. vm_compute. reflexivity. Qed.

(** ** One thing done after the other: after any sequence of steps the history is what it was, if no step started anew, and one entry for every step since, in their order *)
Theorem C102_steps : forall repr V (vrepr text : V -> str) version shared l d d', perform_all repr text vrepr version shared d l = Ok d' -> l <> [] ->
  exists whole r old es, recent l whole r /\ (if whole then before d old else old = []) /\ Forall2 (fun s e => exists t, says text version (snd s) t /\ e = fst s ++ t) r es /\ d_history d' = Some (text_of_lines (old ++ es)).
Proof.
  intros repr V vrepr text version shared l d d' H Hl. destruct (recent_exists repr V version l) as (whole & r & HR). exists whole, r.
  destruct (chain repr V vrepr text version shared l d d' whole r H Hl HR) as (old & es & H1 & H2 & H3). exists old, es. auto.
Qed.
Print Assumptions C102_steps.
Definition ex_steps : list (str * step str) := [(lit "1 ", Maths (lit "exp")); (lit "2 ", Aggregate [(lit "time", (lit "0", lit "9", lit "1"))] (lit "mean") [lit "AOT"] (lit "AOT")); (lit "3 ", Subset [(lit "time", (lit "1", lit "2"))])].
Example C102_steps_example : exists d, perform_all ex_repr ex_text ex_text (lit "1.7.3") [] ex_data ex_steps = Ok d /\
  d_history d = Some (text_of_lines [lit "2 Aggregated using CIS version 1.7.3"; lit " variables: AOT"; lit " from files: []"; lit " using new grid: {'time': slice(0, 9, 1)}"; lit " with kernel: mean."; lit "3 Subsetted using limits: time: [1, 2]"]).
Proof. eexists. split; vm_compute; reflexivity. Qed.
(** the files are told by the first step only: no result knows the files that its data were read from *)
Theorem C102_files_refuted : forall repr V (vrepr text : V -> str) version shared d s d', perform repr text vrepr version shared d s = Ok d' -> d_files d' = None.
Proof. intros repr V vrepr text. exact (files_lost repr V vrepr text). Qed.
Print Assumptions C102_files_refuted.
Example C102_files_example : bind (perform ex_repr ex_text ex_text (lit "1.7.3") [] ex_data (ex_stamp, Maths (lit "exp"))) (fun d => Ok (d_files d)) = Ok None.
Proof. reflexivity. Qed.

(** ** the comparison of two variables *)
(** all results are printed, each on its line below the frame, and saved under distinct names with a history that names the variables and every file once *)
Theorem C102_comparison : forall repr set_order version num_text count_text rank regr n1 d1 n2 d2 groups output stamp rs, count_text 1 = lit "1" -> count_text 2 = lit "2" -> (forall k, Permutation (set_order k) k) ->
  analyze rank regr d1 d2 = Ok rs -> length rs = length reported /\
  exists r head lines once, stats_cmd repr set_order version num_text count_text rank regr stamp [(n1, d1); (n2, d2)] groups output = Ok r /\ frame head /\ r_printed r = head ++ lines /\ Forall2 (printed_line num_text count_text) (combine reported rs) lines /\
    each_once (flat_map snd groups) once /\
    match output with
    | None | Some [] => r_saved r = None
    | Some f => exists cubes, r_saved r = Some (f, cubes) /\ NoDup (map sc_name cubes) /\ map sc_long cubes = long_names n1 n2 /\
        Forall2 (saved_variable (stamp ++ text_of_lines (comparison_lines repr version (flat_map fst groups) once))) (combine reported rs) cubes
    end.
Proof. exact comparison. Qed.
Print Assumptions C102_comparison.
Example C102_comparison_example : exists rs, analyze (fun _ => Some 0%R) (fun _ => Ok (None, None, None, None)) (Plain [Some 1%R; Some 2%R]) (Plain [Some 3%R; Some 5%R]) = Ok rs.
Proof. eexists. reflexivity. Qed.
Theorem C102_comparison_fails : forall repr set_order version num_text count_text rank regr n1 d1 n2 d2 groups output stamp x, analyze rank regr d1 d2 = Raises x ->
  stats_cmd repr set_order version num_text count_text rank regr stamp [(n1, d1); (n2, d2)] groups output = Raises x.
Proof. exact comparison_fails. Qed.
Print Assumptions C102_comparison_fails.
Example C102_comparison_fails_example : analyze (fun _ => Some 0%R) (fun _ => Ok (None, None, None, None)) (Plain [Some 1%R; Some 2%R]) (Plain [Some 3%R; Some 5%R; Some 7%R]) = Raises ValueError.
Proof. reflexivity. Qed.
Theorem C102_two_variables : forall repr set_order version num_text count_text rank regr vars groups output stamp, length vars <> 2 -> stats_cmd repr set_order version num_text count_text rank regr stamp vars groups output = Raises TypeError.
Proof. exact two_needed. Qed.
Print Assumptions C102_two_variables.
Example C102_two_variables_example : stats_cmd ex_repr (fun l => l) (lit "1.7.3") (fun _ => lit "1.5") (fun _ => lit "2") (fun _ => Some 0%R) (fun _ => Ok (None, None, None, None)) ex_stamp [(lit "AOT", Plain [Some 1%R])] [] None = Raises TypeError.
Proof. reflexivity. Qed.
