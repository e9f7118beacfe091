(** C93: gridded data and lists of gridded data. *)
From Coq Require Import String Ascii.
From Verif Require Import Base PyStr FileListModel UngrModel GlModel GlSpec GlProofs Gl2Proofs Gl3Proofs.

(** A temperature and a pressure on the same grid: plain cubes, as iris reads them; the class attribute holds no file names *)
Definition ex_t : cube := mkCube false [] [] [] (lit "t") [(lit "time", [2]); (lit "latitude", [3])] 2 [1; 2; 3; 4; 5; 6]%Z 0.
Definition ex_p : cube := mkCube false [] [] [] (lit "p") [(lit "time", [2]); (lit "latitude", [3])] 2 [6; 5; 4; 3; 2; 1]%Z 0.
Definition ex_heap : heap := mkHeap [ex_t; ex_p] [[]; [lit "a.nc"; lit "b.nc"]; [lit "x.nc"]].
Definition back (c : cube) : cube := mkCube (k_gridded c) (k_local c) (k_attrs c) (k_slots c) (k_var c) (k_coords c) (k_ndim c) (rev (k_data c)) (k_files c).

Theorem C93_construct : forall h os h' l, extend h [] os = (h', Ok l) -> (forall a, In (OCube a) os -> a < List.length (h_cubes h)) ->
  os = map OCube l /\ (forall a, In a l -> as_gridded (get h a) (get h' a)) /\ (forall a, ~ In a l -> get h' a = get h a) /\
  List.length (h_cubes h') = List.length (h_cubes h) /\ h_lists h' = h_lists h.
Proof. exact construct_ok. Qed.
Print Assumptions C93_construct.
Theorem C93_construct_total : forall h l shapes, (forall a, In a l -> shaped shapes (get h a)) -> exists h', extend h [] (map OCube l) = (h', Ok l).
Proof. exact construct_total. Qed.
Print Assumptions C93_construct_total.
Theorem C93_wrong_kind : forall h l os o os', os = map OCube l -> o = OUngridded \/ o = OOther ->
  match snd (extend h [] os) with Ok _ => snd (extend h [] (os ++ o :: os')) = Raises TypeError | Raises e => snd (extend h [] (os ++ o :: os')) = Raises e end.
Proof. exact construct_wrong_kind. Qed.
Print Assumptions C93_wrong_kind.
Example C93_construct_example : exists h', extend ex_heap [] [OCube 0; OCube 1] = (h', Ok [0; 1]) /\ k_gridded (get h' 1) = true /\ k_data (get h' 1) = k_data ex_p.
Proof. eexists. repeat split. Qed.

(** aggregated_by, interpolate, regrid *)
Theorem C93_each : forall op h l h' out, live h l -> map_op op h l [] = (h', Ok out) ->
  one_result_of op h h' l out /\ kept h h' /\ (forall b, In b out -> List.length (h_cubes h) <= b) /\ NoDup out.
Proof. exact map_ok. Qed.
Print Assumptions C93_each.
Theorem C93_each_total : forall op h l shapes, live h l -> (forall a, In a l -> exists c, op (get h a) = Ok c /\ shaped shapes c) ->
  exists h' out, map_op op h l [] = (h', Ok out).
Proof. exact map_total. Qed.
Print Assumptions C93_each_total.
Example C93_each_example : exists h', map_op (fun c => Ok (back c)) ex_heap [0; 1] [] = (h', Ok [2; 3]) /\ k_data (get h' 2) = [6; 5; 4; 3; 2; 1]%Z /\ k_data (get h' 0) = [1; 2; 3; 4; 5; 6]%Z.
Proof. eexists. repeat split. Qed.
(** collapsed *)
Theorem C93_collapsed : forall op h l h' out, live h l -> flat_op op h l [] = (h', Ok out) ->
  results_of op h h' l out /\ kept h h' /\ (forall b, In b out -> List.length (h_cubes h) <= b) /\ NoDup out.
Proof. exact flat_ok. Qed.
Print Assumptions C93_collapsed.
Theorem C93_collapsed_total : forall op h l shapes, live h l -> (forall a, In a l -> exists cs, op (get h a) = Ok cs /\ forall c, In c cs -> shaped shapes c) ->
  exists h' out, flat_op op h l [] = (h', Ok out).
Proof. exact flat_total0. Qed.
Print Assumptions C93_collapsed_total.
(** extract, intersection *)
Theorem C93_extract_partial : forall op h l h' out, live h l -> filter_op op h l [] = (h', Ok (Some out)) ->
  Forall2 (fun a b => exists c, op (get h a) = Ok (Some c) /\ as_gridded c (get h' b)) l out /\ kept h h'.
Proof. exact filter_some. Qed.
Print Assumptions C93_extract_partial.
Theorem C93_extract_total : forall op h l shapes, live h l -> (forall a, In a l -> exists c, op (get h a) = Ok (Some c) /\ shaped shapes c) ->
  exists h' out, filter_op op h l [] = (h', Ok (Some out)).
Proof. exact filter_total. Qed.
Print Assumptions C93_extract_total.
Theorem C93_extract_none : forall op h l h', live h l -> filter_op op h l [] = (h', Ok None) ->
  exists i a, nth_error l i = Some a /\ op (get h a) = Ok None /\ forall j b, j < i -> nth_error l j = Some b -> exists c, op (get h b) = Ok (Some c).
Proof. exact filter_none. Qed.
Print Assumptions C93_extract_none.
Theorem C93_extract_is_none : forall op h l shapes i a, live h l -> nth_error l i = Some a -> op (get h a) = Ok None ->
  (forall j b, j < i -> nth_error l j = Some b -> exists c, op (get h b) = Ok (Some c) /\ shaped shapes c) -> exists h', filter_op op h l [] = (h', Ok None).
Proof. exact filter_is_none. Qed.
Print Assumptions C93_extract_is_none.
(** "None if all data excluded" is not what happens: one item without data is enough *)
Theorem C93_extract_refuted : exists op h l h' a c, live h l /\ In a l /\ op (get h a) = Ok (Some c) /\ k_data c <> [] /\ filter_op op h l [] = (h', Ok None).
Proof.
  exists (fun c => Ok (if str_eqb (k_var c) (lit "t") then Some c else None)), ex_heap, [0; 1]. eexists _, 0, ex_t. repeat split.
  - intros a [<-|[<-|[]]]; cbn; lia.
  - now left.
  - discriminate.
Qed.
Print Assumptions C93_extract_refuted.

(** transpose, add_aux_coord, remove_coord, add_dim_coord, add_history, set_longitude_range *)
Theorem C93_all_changed_partial : forall op h l h', live h l -> NoDup l -> in_place op h l = (h', Ok tt) ->
  (forall a, In a l -> op (get h a) = Ok (get h' a)) /\ (forall a, ~ In a l -> get h' a = get h a) /\ h_lists h' = h_lists h.
Proof. exact in_place_ok. Qed.
Print Assumptions C93_all_changed_partial.
Theorem C93_all_changed_total : forall op h l, NoDup l -> (forall a, In a l -> exists c, op (get h a) = Ok c) -> exists h', in_place op h l = (h', Ok tt).
Proof. exact in_place_total. Qed.
Print Assumptions C93_all_changed_total.
Theorem C93_half_changed : forall op h l h' e, live h l -> NoDup l -> in_place op h l = (h', Raises e) ->
  exists done a rest, l = done ++ a :: rest /\ op (get h a) = Raises e /\ (forall b, In b done -> op (get h b) = Ok (get h' b)) /\ (forall b, ~ In b done -> get h' b = get h b).
Proof. exact in_place_fails. Qed.
Print Assumptions C93_half_changed.
(** an error leaves the items before it changed; an object that is twice in the list is changed twice *)
Theorem C93_changed_refuted :
  (exists op h l h' e a, live h l /\ NoDup l /\ in_place op h l = (h', Raises e) /\ In a l /\ get h' a <> get h a) /\
  (exists op h l h' a c, live h l /\ In a l /\ op (get h a) = Ok c /\ in_place op h l = (h', Ok tt) /\ get h' a <> c).
Proof.
  split.
  - exists (fun c => if str_eqb (k_var c) (lit "t") then Ok (back c) else Raises ValueError), ex_heap, [0; 1]. eexists _, ValueError, 0.
    repeat split; [intros a [<-|[<-|[]]]; cbn; lia| |now left|discriminate]. repeat constructor; cbn; intuition discriminate.
  - exists (fun c => Ok (back c)), ex_heap, [0; 0]. eexists _, 0, (back ex_t). repeat split; [intros a [<-|[<-|[]]]; cbn; lia|now left|discriminate].
Qed.
Print Assumptions C93_changed_refuted.

(** ** File names *)
Theorem C93_files_read_partial : forall h l r fs, live h l -> nth_error (h_lists h) r = Some fs ->
  (forall a, In a l -> files_of (read_filenames h l r) a fs) /\ list_filenames (read_filenames h l r) l = concat (repeat fs (List.length l)).
Proof. exact read_files. Qed.
Print Assumptions C93_files_read_partial.
Theorem C93_files_set_partial : forall h l r names, NoDup (map (fun a => k_files (get h a)) l) -> nth_error (h_lists h) r = Some names ->
  (forall a, In a l -> k_files (get h a) <> r) ->
  (forall a fs, In a l -> files_of h a fs -> files_of (set_filenames h l r) a (fs ++ names)) /\
  (forall f, ~ In f (map (fun a => k_files (get h a)) l) -> nth_error (h_lists (set_filenames h l r)) f = nth_error (h_lists h) f) /\
  h_cubes (set_filenames h l r) = h_cubes h.
Proof. exact set_files. Qed.
Print Assumptions C93_files_set_partial.
(** two variables read from a.nc and b.nc: each file is named twice; a name added to the list is added twice to every item, and to the caller's own list of files;
    objects that were not read from files share one list, so that naming the file of one names it for all *)
Theorem C93_files_refuted : let h := read_filenames ex_heap [0; 1] 1 in
  list_filenames h [0; 1] = [lit "a.nc"; lit "b.nc"; lit "a.nc"; lit "b.nc"] /\
  files_of (set_filenames h [0; 1] 2) 0 [lit "a.nc"; lit "b.nc"; lit "x.nc"; lit "x.nc"] /\ nth_error (h_lists (set_filenames h [0; 1] 2)) 1 <> nth_error (h_lists ex_heap) 1 /\
  filenames_of (set_filenames ex_heap [0] 2) 1 = [lit "x.nc"].
Proof. repeat split. discriminate. Qed.
Print Assumptions C93_files_refuted.
Example C93_files_example : let h := own_filenames (own_filenames ex_heap 0 1) 1 0 in
  NoDup (map (fun a => k_files (get h a)) [0; 1]) /\ filenames_of (set_filenames h [0; 1] 2) 0 = [lit "a.nc"; lit "b.nc"; lit "x.nc"].
Proof. split; [|reflexivity]. repeat constructor; cbn; intuition discriminate. Qed.

(** ** Attributes *)
Theorem C93_attributes : forall fb ac attributes c, NoDup (map fst attributes) -> let c' := add_attributes fb ac attributes c in
  (forall k v, In (k, v) attributes -> fb k = false -> dict_get (k_attrs c') k = Some v) /\
  (forall k v, In (k, v) attributes -> fb k = true -> ac k v = true -> dict_get (k_slots c') k = Some v /\ dict_get (k_attrs c') k = dict_get (k_attrs c) k) /\
  (forall k v, In (k, v) attributes -> fb k = true -> ac k v = false -> dict_get (k_slots c') k = dict_get (k_slots c) k /\ dict_get (k_attrs c') k = dict_get (k_attrs c) k) /\
  (forall k, ~ In k (map fst attributes) -> dict_get (k_attrs c') k = dict_get (k_attrs c) k /\ dict_get (k_slots c') k = dict_get (k_slots c) k) /\
  (forall k, In k (k_local c') <-> In k (k_local c) \/ In k (map fst attributes)).
Proof. exact attributes_added. Qed.
Print Assumptions C93_attributes.
Theorem C93_attribute_removed_partial : forall k c, let c' := remove_attribute k c in
  dict_get (k_attrs c') k = None /\ (forall x, x <> k -> dict_get (k_attrs c') x = dict_get (k_attrs c) x /\ (In x (k_local c') <-> In x (k_local c))) /\
  k_slots c' = k_slots c /\ (count_occ str_eq_dec (k_local c) k <= 1 -> ~ In k (k_local c')).
Proof. exact attribute_removed. Qed.
Print Assumptions C93_attribute_removed_partial.
(** units are not removed by removing the attribute of that name; an attribute set twice and removed is still listed as the variable's *)
Theorem C93_attribute_removed_refuted : exists fb ac, forall c,
  dict_get (k_slots (remove_attribute (lit "units") (add_attributes fb ac [(lit "units", lit "K")] c))) (lit "units") = Some (lit "K") /\
  In (lit "comment") (k_local (remove_attribute (lit "comment") (add_attributes fb ac [(lit "comment", lit "b")] (add_attributes fb ac [(lit "comment", lit "a")] (with_attrs c [] [] []))))).
Proof.
  exists (fun k => str_eqb k (lit "units")), (fun _ _ => true). intros c. split; [|now left].
  destruct (attributes_added (fun k => str_eqb k (lit "units")) (fun _ _ => true) [(lit "units", lit "K")] c) as (_ & H & _); [repeat constructor; cbn; tauto|].
  apply (H (lit "units") (lit "K")); auto. now left.
Qed.
Print Assumptions C93_attribute_removed_refuted.
Example C93_attributes_example : let c := add_attributes (fun k => str_eqb k (lit "units")) (fun _ _ => true) [(lit "units", lit "K"); (lit "comment", lit "a")] ex_t in
  k_attrs c = [(lit "comment", lit "a")] /\ k_slots c = [(lit "units", lit "K")] /\ k_local c = [lit "units"; lit "comment"].
Proof. repeat split. Qed.

(** ** Saving *)
Theorem C93_saved_on_variable_partial : forall c k v, dict_get (k_attrs c) k = Some v -> (written_globally (save_data c) [c] k = true <-> ~ In k (k_local c)).
Proof. exact saved_on_variable. Qed.
Print Assumptions C93_saved_on_variable_partial.
Theorem C93_unlimited_time : forall c, ((exists s, In (lit "time", s) (k_coords c)) -> sv_unlimited (save_data c) = [lit "time"]) /\
  ((forall s, ~ In (lit "time", s) (k_coords c)) -> sv_unlimited (save_data c) = []).
Proof. exact unlimited_time. Qed.
Print Assumptions C93_unlimited_time.
(** saved in a list, the same variable attributes become attributes of the file *)
Theorem C93_saved_list_refuted : let c := add_attributes (fun _ => false) (fun _ _ => true) [(lit "comment", lit "a")] (wrap_cube ex_t) in let h := mkHeap [c] [] in
  exists s, save_list h [0] = Ok s /\ In (lit "comment") (k_local c) /\ written_globally (save_data c) [c] (lit "comment") = false /\ written_globally s [c] (lit "comment") = true /\
  save_list h [] = Raises IndexError.
Proof. eexists. repeat split. now left. Qed.
Print Assumptions C93_saved_list_refuted.

(** ** Construction and history *)
Theorem C93_init : forall std_ok unit_ok std units, exists m, gridded_init std_ok unit_ok (mkKw std units true) = Ok m /\
  (forall s, m_std m = Some s <-> std = Some (Some s) /\ std_ok s = true) /\ (forall u, m_units m = Some u <-> units = Some (Some u) /\ unit_ok u = true).
Proof. exact init_ok. Qed.
Print Assumptions C93_init.
Theorem C93_init_error_partial : forall std_ok unit_ok std u, gridded_init std_ok unit_ok (mkKw std (Some u) false) = Raises ValueError.
Proof. exact init_bad_rest. Qed.
Print Assumptions C93_init_error_partial.
(** without units, what is wrong is hidden by a KeyError *)
Theorem C93_init_error_refuted : forall std_ok unit_ok std, gridded_init std_ok unit_ok (mkKw std None false) = Raises KeyError.
Proof. exact init_bad_rest_no_units. Qed.
Print Assumptions C93_init_error_refuted.
Theorem C93_make_new_partial : forall std_ok unit_ok stamp std units t, exists m attrs, make_new std_ok unit_ok stamp std units (Some t) true = Ok (m, attrs) /\
  (forall s, m_std m = Some s <-> std = Some s /\ std_ok s = true) /\ (forall u, m_units m = Some u <-> units = Some u /\ unit_ok u = true) /\
  history attrs = Ok (stamp ++ t).
Proof. exact make_new_ok. Qed.
Print Assumptions C93_make_new_partial.
(** the default history, None, is never accepted *)
Theorem C93_make_new_refuted : forall std_ok unit_ok stamp std units, make_new std_ok unit_ok stamp std units None true = Raises TypeError.
Proof. exact make_new_default. Qed.
Print Assumptions C93_make_new_refuted.
Theorem C93_history : forall es attrs, es <> [] -> dict_get attrs (lit "history") = None ->
  exists attrs', record_all es attrs = Ok attrs' /\ history attrs' = Ok (join_on "010"%char (map entry es)) /\ (forall k, k <> lit "history" -> dict_get attrs' k = dict_get attrs k).
Proof. exact history_kept. Qed.
Print Assumptions C93_history.
Example C93_history_example : exists a, record_all [(lit "10:00 ", lit "read"); (lit "11:00 ", lit "subset")] [] = Ok a /\
  history a = Ok (lit "10:00 read" ++ "010"%char :: lit "11:00 subset").
Proof. eexists. split; reflexivity. Qed.

(** ** Collapse kernels *)
Theorem C93_kernels : forall name subs, In (name, subs) known_kernels -> exists k, choose_kernel (AStr (lit name)) = Ok k /\ sub_kernels k = map lit subs.
Proof. exact kernels_known. Qed.
Print Assumptions C93_kernels.
Theorem C93_kernel_default : forall a, a = ANone \/ a = AStr [] -> exists k, choose_kernel a = Ok k /\ sub_kernels k = map lit ["mean"; "standard_deviation"; "count"]%string.
Proof. exact kernel_default. Qed.
Print Assumptions C93_kernel_default.
Theorem C93_kernel_unknown : forall s, s <> [] -> (forall name, In name (map fst known_kernels) -> s <> lit name) -> choose_kernel (AStr s) = Raises KeyError.
Proof. exact kernel_unknown. Qed.
Print Assumptions C93_kernel_unknown.
Theorem C93_moments_named : forall vars k, choose_kernel ANone = Ok k -> collapsed_names k vars = flat_map moments_of vars.
Proof. exact moments_named. Qed.
Print Assumptions C93_moments_named.
Theorem C93_moments_distinct_partial : forall vars, NoDup vars -> (forall v w, In v vars -> In w vars -> v <> w ++ lit "_std_dev" /\ v <> w ++ lit "_num_points") ->
  NoDup (flat_map moments_of vars).
Proof. exact moments_distinct. Qed.
Print Assumptions C93_moments_distinct_partial.
Theorem C93_moments_distinct_refuted : exists vars k, NoDup vars /\ choose_kernel ANone = Ok k /\ ~ NoDup (collapsed_names k vars).
Proof.
  exists [lit "rain"; lit "rain_std_dev"]. eexists. split; [|split; [reflexivity|]].
  - repeat constructor; cbn [In]; intuition discriminate.
  - intros H. apply (proj1 (NoDup_nth_error _)) with (i := 1) (j := 3) in H; [discriminate|cbn; lia|reflexivity].
Qed.
Print Assumptions C93_moments_distinct_refuted.

Theorem C93_first : forall A (ask : cube -> res A) h l, (l = [] -> of_first ask h l = Raises IndexError) /\
  (forall r, l <> [] -> (forall a, In a l -> ask (get h a) = r) -> of_first ask h l = r).
Proof. intros A ask h [|a l]; split; intros; cbn; auto; try discriminate; try congruence. apply H0. now left. Qed.
Print Assumptions C93_first.
Theorem C93_default_plot : forall c, (k_ndim c = 1 -> default_plot c = Ok (lit "line")) /\ (k_ndim c = 2 -> default_plot c = Ok (lit "heatmap")) /\
  (k_ndim c <> 1 -> k_ndim c <> 2 -> default_plot c = Raises ValueError).
Proof. intros c. unfold default_plot. destruct (k_ndim c) as [|[|[|n]]]; repeat split; intros; congruence. Qed.
Print Assumptions C93_default_plot.
