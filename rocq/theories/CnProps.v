(** C97: methods, kernels, limits, names and history of collocated data. *)
From Coq Require Import String.
From Verif Require Import Base PyStr FileListModel ProdModel CnModel CnSpec CnProofs.
From Coq Require Import List QArith.
Import ListNotations.
Open Scope string_scope. Open Scope list_scope. Open Scope nat_scope.

(** kernels *)
Theorem C97_kernels a k : choose_kernel a = Ok k <-> picks a k.
Proof. exact (choose_iff a k). Qed.
Print Assumptions C97_kernels.
Theorem C97_kernels_unknown a e : choose_kernel a = Raises e -> e = ValueError.
Proof. exact (choose_error a e). Qed.
Print Assumptions C97_kernels_unknown.

Section Props.
Context {V : Type}.
Variable limit : str -> V -> res Q.
Variable valid readable : str -> bool.
Variable show_list : list str -> str.
Variable version : str.
Variable texts : way -> option kernel -> str * str.
Notation run := (sampled_from limit valid readable show_list version texts).
Notation onto := (collocated_onto limit valid readable show_list version texts).
(** the method and the kernel of a collocation are those its text and its argument name; its limits those given *)
Theorem C97_ungridded s data how k kwargs wk : ungridded data -> plan limit s data how k kwargs = Ok wk ->
  exists m w kk, wk = (w, Some kk) /\ offers s data how m /\ by_method limit m kwargs w /\ picks k kk.
Proof. exact (methods_u limit s data how k kwargs wk). Qed.
Theorem C97_ungridded_complete s data how k kwargs m kk : ungridded data -> offers s data how m -> picks k kk ->
  (m = MBox -> (forall n, In n (map fst kwargs) -> In n separations) /\ forall n v, dict_get kwargs n = Some (Some v) -> exists q, limit n v = Ok q) ->
  exists w, plan limit s data how k kwargs = Ok (w, Some kk).
Proof. exact (methods_u_complete limit s data how k kwargs m kk). Qed.
Theorem C97_gridded s data how k kwargs wk : gridded data -> plan limit s data how k kwargs = Ok wk ->
  exists m w, wk = (w, None) /\ offers s data how m /\ by_method limit m kwargs w /\ (s = Grid -> k = KNone).
Proof. exact (methods_g limit s data how k kwargs wk). Qed.
Theorem C97_gridded_complete s data how k kwargs m : gridded data -> offers s data how m -> (s = Grid -> k = KNone) -> exists w, plan limit s data how k kwargs = Ok (w, None) /\ by_method limit m kwargs w.
Proof. exact (methods_g_complete limit s data how k kwargs m). Qed.
(** what cannot be done is a ValueError *)
Theorem C97_refused s data how k kwargs : (forall m, ~ offers s data how m) -> plan limit s data how k kwargs = Raises ValueError.
Proof.
  intros N. destruct data eqn:E; rewrite <- E in *;
  solve [apply (not_offered_u limit); [rewrite E; exact I|exact N] | apply (not_offered_g limit); [rewrite E; exact I|exact N] | apply (other_sources limit); rewrite E; exact (fun x => x)].
Qed.
Theorem C97_limit_unknown kwargs n : In n (map fst kwargs) -> ~ In n separations -> sep_constraint limit kwargs = Raises TypeError.
Proof. exact (sep_unknown limit kwargs n). Qed.
Theorem C97_kernel_refused data how k kwargs : gridded data -> k <> KNone -> plan limit Grid data how k kwargs = Raises ValueError.
Proof. exact (kernel_refused limit data how k kwargs). Qed.
(** a kernel for gridded data at points and limits for other methods than box, right or wrong, are not read *)
Theorem C97_kernel_unread s data how k k' kwargs : gridded data -> s <> Grid -> plan limit s data how k kwargs = plan limit s data how k' kwargs.
Proof. exact (kernel_unread limit s data how k k' kwargs). Qed.
Theorem C97_limits_unread s data how k kwargs kwargs' m : (gridded data \/ ungridded data) -> offers s data how m -> m <> MBox -> plan limit s data how k kwargs = plan limit s data how k kwargs'.
Proof. exact (limits_unread limit s data how k kwargs kwargs' m). Qed.
(** names: for every variable, in order, the outputs of the kernel *)
Theorem C97_names_grid files data how k mdfms a kwargs r : ungridded data -> run Grid files data how k mdfms a kwargs = Ok r ->
  for_each (fun v g => exists d ds, renamed a v d /\ made_by k d ds /\ Forall2 (shows Grid valid readable v) g ds) (variables data) r.
Proof. exact (names_grid_u limit valid readable show_list version texts files data how k mdfms a kwargs r). Qed.
Theorem C97_names_points_partial s files data how k mdfms a kwargs r : s <> Grid -> ungridded data -> run s files data how k mdfms a kwargs = Ok r ->
  for_each (fun v g => exists ds, made_by k (own_details v) ds /\ Forall2 (shows s valid readable v) g ds) (variables data) r.
Proof. exact (names_points_u limit valid readable show_list version texts s files data how k mdfms a kwargs r). Qed.
Theorem C97_names_from_grid s files data how k mdfms a kwargs r : s <> Grid -> gridded data -> run s files data how k mdfms a kwargs = Ok r ->
  for_each (fun v g => exists d, renamed a v d /\ Forall2 (shows s valid readable v) g [d]) (variables data) r.
Proof. exact (names_points_g limit valid readable show_list version texts s files data how k mdfms a kwargs r). Qed.
Theorem C97_names_regrid_partial files data how k mdfms a kwargs r : gridded data -> run Grid files data how k mdfms a kwargs = Ok r -> Forall2 same_names (variables data) r.
Proof. exact (names_grid_g limit valid readable show_list version texts files data how k mdfms a kwargs r). Qed.
Theorem C97_complete s files data how k mdfms a kwargs w kk : plan limit s data how k kwargs = Ok (w, kk) -> (gridded data -> s = Grid -> variables data <> []) -> (gridded data -> s = Positions -> mdfms = false) ->
  exists r, run s files data how k mdfms a kwargs = Ok r.
Proof. exact (complete limit valid readable show_list version texts s files data how k mdfms a kwargs w kk). Qed.
(** history: one entry of six lines is added *)
Theorem C97_history_partial s files data how k mdfms a kwargs r : run s files data how k mdfms a kwargs = Ok r ->
  exists w kk, plan limit s data how k kwargs = Ok (w, kk) /\ exists names from, data_names show_list data names /\ data_files data from /\
  for_each (fun v g => Forall (fun x => v_history x = earlier s data v ++ [with_breaks (lines_of files version names from (fst (texts w kk)) (snd (texts w kk)))]) g) (variables data) r.
Proof. exact (added limit valid readable show_list version texts s files data how k mdfms a kwargs r). Qed.
(** a.collocated_onto(b) is b.sampled_from(a) *)
Theorem C97_onto data s files how k b a kwargs : (ungridded data \/ gridded data) -> onto data s files how k (Some b) a kwargs = run s files data how k b a kwargs.
Proof. exact (onto_same limit valid readable show_list version texts data s files how k b a kwargs). Qed.
Theorem C97_onto_default_partial data s files how k a kwargs : ungridded data \/ (gridded data /\ s <> Positions) -> onto data s files how k None a kwargs = run s files data how k (default_mdfms s) a kwargs.
Proof. exact (onto_default limit valid readable show_list version texts data s files how k a kwargs). Qed.
(** not for gridded data and UngriddedCoordinates, which have no values to be missing: the one always fails where the other works *)
Theorem C97_onto_default_fails data files how k a kwargs v vs r : gridded data -> variables data = v :: vs -> run Positions files data how k (default_mdfms Positions) a kwargs = Ok r ->
  onto data Positions files how k None a kwargs = Raises CoordinateNotFoundError.
Proof. intros G E. exact (onto_positions limit valid readable show_list version texts data files how k a kwargs v vs G E r). Qed.
Theorem C97_onto_coordinates f s files how k mdfms a kwargs : onto (Coordinates f) s files how k mdfms a kwargs = Raises NotImplementedError.
Proof. reflexivity. Qed.
End Props.
Print Assumptions C97_ungridded.
Print Assumptions C97_ungridded_complete.
Print Assumptions C97_gridded.
Print Assumptions C97_gridded_complete.
Print Assumptions C97_refused.
Print Assumptions C97_limit_unknown.
Print Assumptions C97_kernel_refused.
Print Assumptions C97_kernel_unread.
Print Assumptions C97_limits_unread.
Print Assumptions C97_names_grid.
Print Assumptions C97_names_points_partial.
Print Assumptions C97_names_from_grid.
Print Assumptions C97_names_regrid_partial.
Print Assumptions C97_complete.
Print Assumptions C97_history_partial.
Print Assumptions C97_onto.
Print Assumptions C97_onto_default_partial.
Print Assumptions C97_onto_default_fails.
Print Assumptions C97_onto_coordinates.

Definition rain : var := mkV (lit "rain") (lit "Total rain") (Some (lit "rainfall_rate")) (lit "mm") [lit "before"].
Definition ex_limit (n : str) (v : str) : res Q := match v with [] => Raises ValueError | _ => Ok 5%Q end.
Definition ex_valid (s : str) : bool := str_eqb s (lit "rainfall_rate").
Definition ex_texts (w : way) (k : option kernel) : str * str := (lit "C", lit "K").
Definition ex_run s := sampled_from ex_limit ex_valid (fun _ => true) (fun _ => lit "names") (lit "1.7.9") ex_texts s (lit "f.nc").
Definition new_name := mkAsked (lit "R") [] (lit "cm").
(** a name asked for is only that of the results from ungridded data on a grid and from gridded data at points *)
Theorem C97_asked_refuted : ~ (forall s data how k mdfms a kwargs (r : list var), a_name a <> [] -> ex_run s data how k mdfms a kwargs = Ok r -> exists v, In v r /\ v_name v = a_name a).
Proof.
  intros H. destruct (H Points (UData rain (lit "g")) [] KNone true new_name [] _ ltac:(discriminate) eq_refl) as (v & I & E). cbn in I. repeat (destruct I as [<-|I]; [discriminate|]). destruct I.
Qed.
Print Assumptions C97_asked_refuted.
Theorem C97_asked_regrid_refuted : exists a r, a_name a <> [] /\ ex_run Grid (GData rain (lit "g")) [] KNone true a [] = Ok r /\ forall v, In v r -> v_name v <> a_name a.
Proof. exists new_name. eexists. split; [discriminate|]. split; [reflexivity|]. intros v [<-|[]]. discriminate. Qed.
Print Assumptions C97_asked_regrid_refuted.
(** and all variables of a list get the same name *)
Theorem C97_asked_list_refuted : exists a r, ex_run Grid (UList [rain; mkV (lit "snow") (lit "Snow") None (lit "mm") []]) [] (KName (lit "max")) true a [] = Ok r /\ map v_name r = [lit "R"; lit "R"].
Proof. exists new_name. eexists. split; reflexivity. Qed.
Print Assumptions C97_asked_list_refuted.
(** a wrong kernel is not refused for gridded data at points, nor are limits that no method reads *)
Theorem C97_unread_refuted : exists r, ex_run Points (GData rain (lit "g")) (lit "nn") (KName (lit "wrong")) true nothing_asked [(lit "h_sap", Some (lit "5"))] = Ok r.
Proof. eexists. reflexivity. Qed.
Print Assumptions C97_unread_refuted.
(** the history of ungridded data is not kept *)
Theorem C97_history_refuted : exists r, ex_run Points (UData rain (lit "g")) [] KNone true nothing_asked [] = Ok r /\ forall v, In v r -> ~ In (lit "before") (v_history v).
Proof. eexists. split; [reflexivity|]. intros v I. cbn in I. repeat (destruct I as [<-|I]; [intros [X|[]]; discriminate|]). destruct I. Qed.
Print Assumptions C97_history_refuted.
Theorem C97_onto_default_refuted : exists r, ex_run Positions (GData rain (lit "g")) [] KNone (default_mdfms Positions) nothing_asked [] = Ok r /\
  collocated_onto ex_limit ex_valid (fun _ => true) (fun _ => lit "names") (lit "1.7.9") ex_texts (GData rain (lit "g")) Positions (lit "f.nc") [] KNone None nothing_asked [] = Raises CoordinateNotFoundError.
Proof. eexists. split; reflexivity. Qed.
Print Assumptions C97_onto_default_refuted.

Example C97_moments : exists r, ex_run Points (UData rain (lit "g")) (lit "box") KNone true nothing_asked [(lit "h_sep", Some (lit "5km")); (lit "t_sep", None)] = Ok r /\
  map v_name r = [lit "rain"; lit "rain_std_dev"; lit "rain_num_points"] /\ map v_std r = [Some (lit "rainfall_rate"); None; None].
Proof. eexists. split; [vm_compute; reflexivity|]. split; reflexivity. Qed.
Example C97_box : plan ex_limit Points (UData rain (lit "g")) (lit "box") KNone [(lit "h_sep", Some (lit "5km")); (lit "t_sep", None)] = Ok (Box [(lit "h_sep", 5%Q)], Some moments).
Proof. vm_compute. reflexivity. Qed.
Example C97_given : given ex_limit [(lit "h_sep", Some (lit "5km")); (lit "t_sep", None)] [(lit "h_sep", 5%Q)].
Proof. apply (sep_sound ex_limit). reflexivity. Qed.
Example C97_regrid : exists r, ex_run Grid (GData rain (lit "g")) (lit "nn") KNone true nothing_asked [] = Ok r /\ map (fun v => length (v_history v)) r = [2].
Proof. eexists. split; reflexivity. Qed.
Example C97_renamed : exists r, ex_run Grid (UData rain (lit "g")) (lit "bin") (KName (lit "nn_t")) true new_name [] = Ok r /\ map (fun v => (v_name v, v_long v, v_units v)) r = [(lit "R", lit "Total rain", lit "cm")].
Proof. eexists. split; reflexivity. Qed.
Example C97_no_bin : plan ex_limit Points (UData rain (lit "g")) (lit "bin") KNone [] = Raises ValueError /\ forall m, ~ offers Points (UData rain (lit "g")) (lit "bin") m.
Proof. split; [reflexivity|]. intros m (g & h & D & E & I). destruct g; [exact D|]. cbn in I. destruct I as [[= <- _]|[[= <- _]|[]]]; discriminate. Qed.
