(** C22 (kernel), C23, C24, C25, C26: separation constraints, kernels, collocation onto ungridded samples. *)
From Verif Require Import Base QBase LonModel LonSpec KDModel HavModel HavSpec HavProofs ColModel ColSpec ColProofs Col2Proofs Col3Proofs.
From Coq Require Import Reals Qreals Lra.
Open Scope R_scope.

(** ** C22: the nn_horizontal kernel.  Right when both data frames have latitude and longitude as their first two columns. *)
Theorem C22_kernel_nearest_partial : forall scols dcols restS restD point data, scols = LAT :: LON :: restS -> dcols = LAT :: LON :: restD -> data <> [] ->
  exists d, k_nn_horizontal scols dcols point data = Ok [p_val d] /\ first_best (fun d => surface_distance d point) data d.
Proof. exact nn_horizontal_kernel. Qed.
Print Assumptions C22_kernel_nearest_partial.
Theorem C22_kernel_empty : forall scols dcols point, k_nn_horizontal scols dcols point [] = Raises ValueError.
Proof. intros. apply nn_empty. Qed.
Print Assumptions C22_kernel_empty.
(** When the columns come in the order longitude, latitude (as for the AERONET product) the kernel answers the value of a point that is further away. *)
Theorem C22_kernel_column_order_refuted : exists scols dcols point near far,
  k_nn_horizontal scols dcols point [near; far] = Ok [p_val far] /\ p_val near <> p_val far /\ surface_distance near point < surface_distance far point /\
  (In LAT scols /\ In LON scols) /\ (In LAT dcols /\ In LON dcols).
Proof.
  exists [LON; LAT], [LON; LAT], (sp 60 0 None), (sp 60 60 (Some 1)), (sp 10 0 (Some 2)). destruct column_order as (d1 & d2 & A & B & C & D).
  repeat split; simpl; auto; [intros E; injection E; lra|]. rewrite <- B, <- C. exact D.
Qed.
Print Assumptions C22_kernel_column_order_refuted.

(** ** C23: separation constraints *)
(** the simple constraint keeps exactly the points strictly within every given limit, in order *)
Theorem C23_simple : forall h_sep a_sep p_sep t_sep ref data, positive_pressure ref -> Forall positive_pressure data ->
  kept (fun d => (forall h, h_sep = Some h -> surface_distance d ref < Q2R h) /\ meets_limits a_sep p_sep t_sep ref d) data (sep_constrain_points h_sep a_sep p_sep t_sep ref data).
Proof. exact sep_constrain_spec. Qed.
Print Assumptions C23_simple.
Definition row_at (alt pres time : Q) : prow := mkRow 0 0 alt pres time (Some 1).
Example C23_simple_example : sep_constrain_points None (Some 100%Q) (Some 2%Q) (Some 1%Q) (row_at 0 100 0) [row_at 0 199 0; row_at 0 200 0; row_at 99 51 (1 # 2); row_at (-100) 100 0] = [row_at 0 199 0; row_at 99 51 (1 # 2)].
Proof. reflexivity. Qed.
(** the constraint with a tree, when no distance is given: every sample with exactly the data points within every limit (in order, unless a
    pressure limit is given) *)
Theorem C23_tree_no_distance : forall a_sep p_sep t_sep mdfms dcols scols data points, columns_for a_sep p_sep t_sep dcols -> columns_for a_sep p_sep t_sep scols ->
  Forall positive_pressure data -> Forall positive_pressure points ->
  exists it, kd_get_iterator None a_sep p_sep t_sep mdfms dcols scols data points = Ok it /\
    Forall2 (fun ip e => fst e = ip /\ exists l, kept (meets_limits a_sep p_sep t_sep (snd ip)) data l /\ Permutation l (snd e) /\ (p_sep = None -> snd e = l)) (visited mdfms points) it.
Proof. exact iterator_no_distance. Qed.
Print Assumptions C23_tree_no_distance.
Example C23_tree_example : kd_get_iterator None None (Some 2%Q) (Some 1%Q) false [LAT; LON; PRES; TIME] [LAT; LON; PRES; TIME] [row_at 0 199 0; row_at 0 99 0; row_at 0 50 0; row_at 0 100 1] [row_at 0 100 0]
  = Ok [(0%nat, row_at 0 100 0, [row_at 0 99 0; row_at 0 199 0])].
Proof. reflexivity. Qed.
(** the two constraints select the same points *)
Theorem C23_agree : forall a_sep p_sep t_sep mdfms dcols scols data points, columns_for a_sep p_sep t_sep dcols -> columns_for a_sep p_sep t_sep scols ->
  Forall positive_pressure data -> Forall positive_pressure points ->
  exists it, kd_get_iterator None a_sep p_sep t_sep mdfms dcols scols data points = Ok it /\
    Forall2 (fun ip e => fst e = ip /\ Permutation (sep_constrain_points None a_sep p_sep t_sep (snd ip) data) (snd e)) (visited mdfms points) it.
Proof.
  intros a p t m dc sc data points HD HS PD PP. destruct (iterator_no_distance a p t m dc sc data points HD HS PD PP) as (it & E & F). exists it. split; auto.
  assert (V : forall ip, In ip (visited m points) -> positive_pressure (snd ip)).
  { intros [i q] H. apply visited_in in H. destruct H as [H _]. apply nth_error_In in H. rewrite Forall_forall in PP. apply PP; auto. }
  clear E. induction F as [|x y l n (A & l' & K & P & _) F IH]; constructor; [|apply IH; intros; apply V; right; auto]. split; auto.
  rewrite (kept_unique _ _ _ _ (sep_constrain_both a p t (snd x) data (V x (or_introl eq_refl)) PD) K). auto.
Qed.
Print Assumptions C23_agree.
(** with a distance: exactly the points within it and within the other limits, for points on the equator within 90 degrees of longitude
    (elsewhere as exact as C20 allows) *)
Theorem C23_tree_equator_partial : forall h a_sep p_sep t_sep mdfms dcols scols data points oa ob, columns_for a_sep p_sep t_sep dcols -> columns_for a_sep p_sep t_sep scols ->
  Forall positive_pressure data -> Forall positive_pressure points -> data <> [] -> points <> [] ->
  Forall (on_equator oa ob) data -> Forall (on_equator oa ob) points -> (ob - oa <= 90)%Q -> (0 < h)%Q -> Q2R h <= PI * 6378 ->
  exists it, kd_get_iterator (Some h) a_sep p_sep t_sep mdfms dcols scols data points = Ok it /\
    Forall2 (fun ip e => fst e = ip /\ exists l, kept (fun d => surface_distance d (snd ip) <= Q2R h /\ meets_limits a_sep p_sep t_sep (snd ip) d) data l /\ Permutation l (snd e)) (visited mdfms points) it.
Proof. exact iterator_equator. Qed.
Print Assumptions C23_tree_equator_partial.
Example C23_equator_hypotheses : Forall (on_equator 0 90) [sp 0 1 (Some 1); sp 0 45 None] /\ Forall positive_pressure [sp 0 1 (Some 1); sp 0 45 None] /\ (0 < 100)%Q /\ Q2R 100 <= PI * 6378.
Proof.
  repeat split; repeat constructor; try (unfold Qle; simpl; lia). unfold Q2R; simpl. pose proof PI2_3_2. lra.
Qed.
(** anywhere: every sample gets some of the data rows, none more often than it occurs, all within the other limits *)
Theorem C23_tree_anywhere_partial : forall h a_sep p_sep t_sep mdfms dcols scols data points, columns_for a_sep p_sep t_sep dcols -> columns_for a_sep p_sep t_sep scols ->
  Forall positive_pressure data -> Forall positive_pressure points -> data <> [] -> points <> [] -> ~ (h == 0)%Q ->
  exists it, kd_get_iterator (Some h) a_sep p_sep t_sep mdfms dcols scols data points = Ok it /\
    Forall2 (fun ip e => fst e = ip /\ Forall (meets_limits a_sep p_sep t_sep (snd ip)) (snd e) /\ exists other, Permutation data (snd e ++ other)) (visited mdfms points) it.
Proof. exact iterator_anywhere. Qed.
Print Assumptions C23_tree_anywhere_partial.
(** a distance limit of zero is no limit for the tree constraint, and excludes everything for the simple one *)
Theorem C23_zero_distance_refuted : exists data points d p, 0 < surface_distance d p /\
  kd_get_iterator (Some 0%Q) None None None false [LAT; LON] [LAT; LON] data points = Ok [(0%nat, p, [d])] /\ sep_constrain_points (Some 0%Q) None None None p data = [].
Proof.
  exists [sp 0 90 (Some 1)], [sp 0 0 None], (sp 0 90 (Some 1)), (sp 0 0 None). split; [|exact zero_distance]. unfold surface_distance. cbn [sp p_lat p_lon]. rewrite <- haversine_great_circle, hav_sym.
  replace (Q2R 0) with 0 by (unfold Q2R; simpl; lra). replace (Q2R 90) with 90 by (unfold Q2R; simpl; lra). rewrite hav_equator by lra. pose proof PI_RGT_0. lra.
Qed.
Print Assumptions C23_zero_distance_refuted.

(** ** C24: the kernels are statistics of the values, in whatever order they come *)
Theorem C24_order_independent : forall k p p' d d', In k statistics_kernels -> Permutation d d' -> k p d = k p' d'.
Proof. exact kernels_perm. Qed.
Print Assumptions C24_order_independent.
Theorem C24_values : forall point data values, Forall2 (fun p v => p_val p = Some v) data values -> values <> [] ->
  (exists m, k_mean point data = Ok [Some m] /\ is_mean values m) /\
  (exists m, k_min point data = Ok [Some m] /\ is_min values m) /\
  (exists m, k_max point data = Ok [Some m] /\ is_max values m) /\
  k_sum point data = Ok [Some (total values)] /\
  (exists s, k_stddev point data = Ok [s] /\ (length values = 1%nat -> s = None) /\ ((2 <= length values)%nat -> exists x, s = Some x /\ is_stddev values x)) /\
  (exists m s, k_moments point data = Ok [Some m; s; Some (INR (length values))] /\ is_mean values m /\ k_stddev point data = Ok [s]).
Proof.
  intros point data values F N. unfold k_mean, k_min, k_max, k_sum, k_stddev, k_moments. rewrite !(data_only_ok _ point data values F N).
  split; [eexists; split; [reflexivity|apply np_mean_spec; auto]|]. split; [eexists; split; [reflexivity|apply np_min_spec; auto]|]. split; [eexists; split; [reflexivity|apply np_max_spec; auto]|].
  split; [rewrite np_sum_total; reflexivity|]. split.
  - eexists. split; [reflexivity|]. split; [intros L; unfold np_std; rewrite L; reflexivity|apply np_std_spec].
  - eexists _, _. split; [reflexivity|]. split; [apply np_mean_spec; auto|reflexivity].
Qed.
Print Assumptions C24_values.
Theorem C24_mean_between : forall point data values m lo hi, Forall2 (fun p v => p_val p = Some v) data values -> values <> [] ->
  k_mean point data = Ok [Some m] -> k_min point data = Ok [Some lo] -> k_max point data = Ok [Some hi] -> lo <= m <= hi.
Proof.
  intros point data values m lo hi F N. unfold k_mean, k_min, k_max. rewrite !(data_only_ok _ point data values F N). intros A B C. injection A as <-. injection B as <-. injection C as <-.
  apply (mean_between values); auto using np_mean_spec, np_min_spec, np_max_spec.
Qed.
Print Assumptions C24_mean_between.
Theorem C24_no_points : forall k point, In k statistics_kernels -> k point [] = Raises ValueError.
Proof. intros k point H. simpl in H. destruct H as [<-|[<-|[<-|[<-|[<-|[<-|[]]]]]]]; reflexivity. Qed.
Print Assumptions C24_no_points.
Example C24_example : k_mean (sp 0 0 None) [sp 0 0 (Some 1); sp 0 0 (Some 3)] = Ok [Some 2] /\ k_stddev (sp 0 0 None) [sp 0 0 (Some 1)] = Ok [None].
Proof. split; [|reflexivity]. unfold k_mean, data_only. simpl. unfold np_mean, np_sum, np_size. simpl. repeat f_equal. lra. Qed.

(** ** C25: alignment of the output with the samples *)
(** Every output variable has the samples' coordinates (longitudes possibly moved by whole turns) and one value per sample: what the kernel makes of
    the points the constraint gives for that sample out of the data that have a value; missing when the kernel has nothing to work on, or when the
    sample itself is missing and that was asked for. *)
Theorem C25_alignment : forall h_sep a_sep p_sep t_sep mdfms scols dcols k size points data,
  columns_for a_sep p_sep t_sep dcols -> columns_for a_sep p_sep t_sep scols -> kernel_ok k size -> points <> [] -> dropna data <> [] ->
  exists outs points' data' it, collocate_one h_sep a_sep p_sep t_sep mdfms scols dcols k size points data = Ok (outs, points') /\
    Forall2 same_place points points' /\ Forall2 same_place (dropna data) data' /\
    kd_get_iterator h_sep a_sep p_sep t_sep mdfms dcols scols data' points' = Ok it /\
    length outs = size /\ Forall (fun o => out_coords o = points' /\ length (out_values o) = length points) outs /\
    forall i p, nth_error points' i = Some p -> forall j o, nth_error outs j = Some o ->
      if mdfms && is_missing p then nth_error (out_values o) i = Some None
      else exists sel, In (i, p, sel) it /\ nth_error (out_values o) i = Some (outcome (k p sel) j).
Proof. exact collocate_one_spec. Qed.
Print Assumptions C25_alignment.
Theorem C25_data_with_values : forall data, kept (fun d => p_val d <> None) data (dropna data).
Proof. exact dropna_kept. Qed.
Print Assumptions C25_data_with_values.
(** from start to end, for the mean and no distance limit: the mean of the values of the data points within every limit of the sample *)
Theorem C25_mean : forall a_sep p_sep t_sep mdfms scols dcols points data with_value,
  columns_for a_sep p_sep t_sep dcols -> columns_for a_sep p_sep t_sep scols -> points <> [] -> Forall positive_pressure points -> Forall positive_pressure data ->
  kept (fun d => p_val d <> None) data with_value -> with_value <> [] ->
  exists out points', collocate_one None a_sep p_sep t_sep mdfms scols dcols k_mean 1 points data = Ok ([out], points') /\
    out_coords out = points' /\ Forall2 same_place points points' /\ length (out_values out) = length points /\
    forall i p, nth_error points i = Some p -> exists near values, kept (meets_limits a_sep p_sep t_sep p) with_value near /\ Forall2 (fun d v => p_val d = Some v) near values /\
      ((values = [] \/ (mdfms = true /\ p_val p = None)) -> nth_error (out_values out) i = Some None) /\
      (values <> [] -> (mdfms = false \/ p_val p <> None) -> exists m, nth_error (out_values out) i = Some (Some m) /\ is_mean values m).
Proof. exact collocate_mean_spec. Qed.
Print Assumptions C25_mean.
(** several variables: each as if collocated on its own onto the same samples *)
Theorem C25_several : forall h_sep a_sep p_sep t_sep mdfms scols k size vars points outs,
  collocate_list h_sep a_sep p_sep t_sep mdfms scols k size points vars = Ok outs ->
  exists parts, outs = concat parts /\ Forall2 (fun (var : columns * list prow) part => exists points1 points2, Forall2 same_place points points1 /\
    collocate_one h_sep a_sep p_sep t_sep mdfms scols (fst var) k size points1 (snd var) = Ok (part, points2)) vars parts.
Proof. exact collocate_list_spec. Qed.
Print Assumptions C25_several.
(** Data without any value: an error, instead of output that is missing everywhere *)
Theorem C25_all_missing_refuted : forall h_sep a_sep p_sep t_sep mdfms scols dcols k size points data, points <> [] -> (forall d, In d data -> p_val d = None) ->
  collocate_one h_sep a_sep p_sep t_sep mdfms scols dcols k size points data = Raises ValueError.
Proof.
  intros. apply no_data_raises; auto. destruct (dropna data) as [|x l] eqn:E; auto. assert (I : In x (dropna data)) by (rewrite E; left; auto). unfold dropna in I. apply filter_In in I.
  destruct I as [I1 I2]. rewrite (H0 x I1) in * || (unfold is_missing in I2; rewrite (H0 x I1) in I2). discriminate.
Qed.
Print Assumptions C25_all_missing_refuted.
Theorem C25_kernels_qualify : kernel_ok k_mean 1 /\ kernel_ok k_stddev 1 /\ kernel_ok k_min 1 /\ kernel_ok k_max 1 /\ kernel_ok k_sum 1 /\ kernel_ok k_moments 3 /\ kernel_ok k_nn_time 1 /\ kernel_ok k_nn_altitude 1 /\ kernel_ok k_nn_pressure 1 /\
  forall s d, kernel_ok (k_nn_horizontal s d) 1.
Proof. exact statistics_ok. Qed.
Print Assumptions C25_kernels_qualify.
Definition at_time (t : Q) (v : option R) : prow := mkRow 0 10 0 1 t v.
Example C25_example : exists points', collocate_one None None None (Some 1%Q) false [LAT; LON; TIME] [LAT; LON; TIME] k_nn_time 1
    [at_time 0 None; at_time 5 None; at_time 10 None] [at_time 4 (Some 7); at_time (9 # 2) (Some 8); at_time 10 None; at_time (1 # 2) (Some 9)]
  = Ok ([mkOut [Some 9; Some 8; None] points'], points').
Proof. eexists. match goal with |- ?x = _ => destruct x eqn:E end; vm_compute in E; [injection E as <-|discriminate]. vm_compute. reflexivity. Qed.

(** ** C26: nearest in time, altitude or pressure: the first of the data points whose separation is least *)
Theorem C26_time : forall point data, data <> [] -> exists d, k_nn_time point data = Ok [p_val d] /\ first_best (fun d => Q2R (Qabs.Qabs (p_time d - p_time point))) data d.
Proof. exact nn_time_spec. Qed.
Print Assumptions C26_time.
Theorem C26_altitude : forall point data, data <> [] -> exists d, k_nn_altitude point data = Ok [p_val d] /\ first_best (fun d => Q2R (Qabs.Qabs (p_alt d - p_alt point))) data d.
Proof. exact nn_altitude_spec. Qed.
Print Assumptions C26_altitude.
Theorem C26_pressure : forall point data, data <> [] -> positive_pressure point -> Forall positive_pressure data ->
  exists d, k_nn_pressure point data = Ok [p_val d] /\ first_best (fun d => Q2R (pressure_ratio (p_pres d) (p_pres point))) data d.
Proof. exact nn_pressure_spec. Qed.
Print Assumptions C26_pressure.
Theorem C26_no_points : forall point, k_nn_time point [] = Raises ValueError /\ k_nn_altitude point [] = Raises ValueError /\ k_nn_pressure point [] = Raises ValueError.
Proof. intros. repeat split; reflexivity. Qed.
Print Assumptions C26_no_points.
Example C26_example : k_nn_time (at_time 5 None) [at_time 3 (Some 1); at_time 6 (Some 2); at_time 4 (Some 3)] = Ok [Some 2] /\ k_nn_pressure (row_at 0 100 0) [mkRow 0 0 0 190 0 (Some 1); mkRow 0 0 0 60 0 (Some 2)] = Ok [Some 2].
Proof. split; reflexivity. Qed.
