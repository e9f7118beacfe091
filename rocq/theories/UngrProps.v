(** C38, C40, C46, C47: ungridded data, coordinate lists, data lists, point views. *)
From Verif Require Import Base PyStr QBase IndexModel IndexSpec UngrModel UngrSpec UngrProofs GViewModel GViewSpec GViewProofs.
Open Scope nat_scope.

(** ** C38 *)
(** The rows (coordinates, value) left are exactly the ones without a missing coordinate, in order; every coordinate keeps its identity. *)
Theorem C38_removed_in_step : forall d, aligned d ->
  exists d', post_process d = Ok d' /\ aligned d' /\ rows d' = filter located (rows d) /\ map identity_of (u_coords d') = map identity_of (u_coords d).
Proof. exact post_process_spec. Qed.
Print Assumptions C38_removed_in_step.
Theorem C38_second_pass_changes_nothing : forall d d', aligned d -> post_process d = Ok d' -> post_process d' = Ok d'.
Proof. exact post_process_twice. Qed.
Print Assumptions C38_second_pass_changes_nothing.
(** UngriddedCoordinates: the same for coordinates without data *)
Theorem C38_coordinates : forall cs c0, In c0 cs -> Forall (fun c => length (c_points c) = length (c_points c0)) cs ->
  exists cs', post_process_coords cs = Ok cs' /\
    let d := mkU cs [] (repeat None (length (c_points c0))) in let d' := mkU cs' [] (repeat None (length (filter located (rows d)))) in
    aligned d' /\ rows d' = filter located (rows d) /\ map identity_of cs' = map identity_of cs.
Proof. exact coordinates_only. Qed.
Print Assumptions C38_coordinates.
Definition ex_coord (name : str) (p : list (option Q)) : coord := mkCoord (Some name) [] name [] [length p] p.
Definition ex_data : udata := mkU [ex_coord (lit "latitude") [Some 1%Q; None; Some 3%Q; Some 4%Q]; ex_coord (lit "longitude") [Some 10%Q; Some 20%Q; None; Some 40%Q]] [4] [None; Some 200%Q; Some 300%Q; Some 400%Q].
Example C38_example : aligned ex_data /\ exists d', post_process ex_data = Ok d' /\ rows d' = [([Some 1%Q; Some 10%Q], None); ([Some 4%Q; Some 40%Q], Some 400%Q)] /\ u_shape d' = [2].
Proof. split; [repeat constructor|]. eexists. split; [vm_compute; reflexivity|]. split; reflexivity. Qed.

(** ** C47 *)
Theorem C47_unique : forall cs l, append_all [] cs = Ok l -> unique_standard_names l /\ l = cs.
Proof. intros cs l H. destruct (append_all_unique cs [] l unique_nil H) as [A B]. split; auto. Qed.
Print Assumptions C47_unique.
Theorem C47_append_keeps : forall l c, unique_standard_names l -> match coords_append l c with
  | Ok l' => l' = l ++ [c] /\ unique_standard_names l'
  | Raises e => e = DuplicateCoordinateError /\ exists x, In x l /\ c_std x = c_std c /\ c_std c <> Some [] end.
Proof.
  intros l c HU. destruct (coords_append l c) as [l'|e] eqn:E; [|apply append_rejected; auto]. split; [|eapply append_unique; eauto]. unfold coords_append in E. destruct (existsb _ l); [discriminate|]. injection E as <-. reflexivity.
Qed.
Print Assumptions C47_append_keeps.
(** lookup by a standard name in a list with unique standard names: finds the coordinate that has it; an error if there is none and the list does not
    have exactly one coordinate *)
Theorem C47_lookup_partial : forall l n, unique_standard_names l -> n <> [] ->
  (forall c, In c l -> has_std n c -> get_coord l (by_std n) = Ok c) /\
  (length l <> 1 -> (forall c, In c l -> ~ has_std n c) -> get_coord l (by_std n) = Raises CoordinateNotFoundError).
Proof. intros l n HU Hn. split; [intros; apply lookup_found; auto|]. intros. apply lookup_absent; auto. Qed.
Print Assumptions C47_lookup_partial.
(** With a single coordinate, whatever it is, it is found under every standard name. *)
Theorem C47_single_coordinate_refuted : forall c n, get_coord [c] (by_std n) = Ok c.
Proof. intros c n. unfold get_coord, get_coords. cbn [filter]. destruct (matches (by_std n) c); reflexivity. Qed.
Print Assumptions C47_single_coordinate_refuted.
(** Two coordinates without any standard name (None: Metadata.guess_standard_name did not recognise the variable name) count as duplicates, although
    all their names differ: the second is refused, and data with two such coordinates cannot be copied (hence not subset). *)
Theorem C47_unnamed_refused_refuted : exists a b, c_var a <> c_var b /\ c_std a = None /\ c_std b = None /\ coords_append [a] b = Raises DuplicateCoordinateError /\
  forall v, length v = length (c_points a) -> length v = length (c_points b) -> copy (mkU [a; b] [length v] v) = Raises DuplicateCoordinateError.
Proof.
  exists (mkCoord None [] (lit "channel") [] [1] [Some 1%Q]), (mkCoord None [] (lit "wavelength") [] [1] [Some 2%Q]). split; [discriminate|]. split; [reflexivity|]. split; [reflexivity|]. split; [reflexivity|].
  intros [|x [|y v]] L1 L2; try discriminate. reflexivity.
Qed.
Print Assumptions C47_unnamed_refused_refuted.
Example C47_example : unique_standard_names (u_coords ex_data) /\ coords_append (u_coords ex_data) (ex_coord (lit "longitude") []) = Raises DuplicateCoordinateError /\
  get_coord (u_coords ex_data) (by_std (lit "longitude")) = Ok (ex_coord (lit "longitude") [Some 10%Q; Some 20%Q; None; Some 40%Q]).
Proof.
  split; [|split; vm_compute; reflexivity]. apply (fun H => proj1 (C47_unique (u_coords ex_data) _ H)). vm_compute. reflexivity.
Qed.

(** ** C46 *)
(** same kind, same number of coordinates; shapes agree on their common dimensions *)
Theorem C46_compatible_partial : forall gridded xs, match fst (list_extend gridded [] xs) with
  | [] => True | first :: rest => i_gridded first = gridded /\ Forall (loosely_compatible gridded first) rest /\ Forall (fun x => same_ranks first x -> compatible gridded first x) rest end.
Proof.
  intros gridded xs. destruct (list_extend_loose gridded xs [] I) as [H _]. destruct (fst (list_extend gridded [] xs)) as [|first rest]; auto. destruct H as [A B]. split; auto. split; auto.
  eapply Forall_impl; [|exact A]. intros x Hx. apply loose_strict. exact Hx.
Qed.
Print Assumptions C46_compatible_partial.
(** what is in the list is a prefix of what was given; all of it without an error *)
Theorem C46_prefix : forall gridded xs, exists k, fst (list_extend gridded [] xs) = firstn k xs /\ (snd (list_extend gridded [] xs) = None -> fst (list_extend gridded [] xs) = xs).
Proof. intros gridded xs. destruct (list_extend_loose gridded xs [] I) as [_ (k & K1 & K2)]. exists k. split; auto. intros N. rewrite K1, (K2 N), firstn_all. reflexivity. Qed.
Print Assumptions C46_prefix.
(** nothing compatible is refused *)
Theorem C46_accepts : forall gridded l first x, fst (list_extend gridded [] (first :: l)) = first :: l -> compatible gridded first x -> list_append gridded (first :: l) x = Ok ((first :: l) ++ [x]).
Proof.
  intros gridded l first x H [G S]. destruct (list_extend_loose gridded (first :: l) [] I) as [HL _]. rewrite H in HL. destruct (list_append_spec gridded (first :: l) x HL) as [_ A]. apply A; auto. rewrite S. clear. induction (i_shapes first); constructor; auto. exists []. left. rewrite app_nil_r. reflexivity.
Qed.
Print Assumptions C46_accepts.
(** A coordinate of another rank is accepted. *)
Theorem C46_rank_refuted : exists a b, list_extend false [] [a; b] = ([a; b], None) /\ i_shapes a <> i_shapes b.
Proof. exists (mkItem false [[5]; [5]]), (mkItem false [[5; 3]; [5; 7]]). split; [reflexivity|discriminate]. Qed.
Print Assumptions C46_rank_refuted.
Example C46_example : list_extend false [] [mkItem false [[5]; [5]]; mkItem false [[5]; [5]]; mkItem false [[5]; [6]]; mkItem false [[5]; [5]]] = ([mkItem false [[5]; [5]]; mkItem false [[5]; [5]]], Some ValueError)
  /\ list_extend false [] [mkItem true []] = ([], Some TypeError).
Proof. split; reflexivity. Qed.

(** ** C40 *)
(** data with a latitude and at least one more coordinate *)
Theorem C40_points_partial : forall d lat, aligned d -> unique_standard_names (u_coords d) -> length (u_coords d) <> 1 -> In lat (u_coords d) -> has_std (lit "latitude") lat ->
  exists d' w, post_process d = Ok d' /\ all_points d = Ok w /\ view_length w = Ok (length (u_values d')) /\
    (forall i, i < length (u_values d') -> exists p, view_get w (Z.of_nat i) = Ok p /\ point_of d' i p) /\
    (forall i, (i < 0 \/ Z.of_nat (length (u_values d')) <= i)%Z -> view_get w i = Raises IndexError) /\
    (exists ps, enumerate_non_masked w = Ok ps /\ map fst ps = filter (fun i => negb (is_missing (nth i (u_values d') None))) (seq 0 (length (u_values d'))) /\ Forall (fun ip => point_of d' (fst ip) (snd ip)) ps) /\
    (exists ps, enumerate_all w = Ok ps /\ map fst ps = seq 0 (length (u_values d')) /\ Forall (fun ip => point_of d' (fst ip) (snd ip)) ps).
Proof. exact all_points_spec. Qed.
Print Assumptions C40_points_partial.
Example C40_example : aligned ex_data /\ unique_standard_names (u_coords ex_data) /\ exists w, all_points ex_data = Ok w /\
  enumerate_non_masked w = Ok [(1, mkHP (Some 4%Q) (Some 40%Q) None None None [Some 400%Q])].
Proof. split; [repeat constructor|]. split; [apply C47_example|]. eexists. split; [vm_compute; reflexivity|]. vm_compute. reflexivity. Qed.
(** Data whose only coordinate is the time: every field of its points holds the time. *)
Theorem C40_single_coordinate_refuted : exists d w p, aligned d /\ (forall c, In c (u_coords d) -> ~ has_std (lit "latitude") c) /\ all_points d = Ok w /\ view_get w 0 = Ok p /\ hp_lat p = Some 7%Q /\ hp_time p = Some 7%Q.
Proof.
  exists (mkU [ex_coord (lit "time") [Some 7%Q]] [1] [Some 1%Q]). eexists. eexists. split; [repeat constructor|]. split; [intros c [<-|[]] H; discriminate|]. split; [vm_compute; reflexivity|]. split; [vm_compute; reflexivity|]. split; reflexivity.
Qed.
Print Assumptions C40_single_coordinate_refuted.
(** hyper_point: the air pressure is in the time field and the time in the air pressure field *)
Theorem C40_hyper_point_swapped_refuted : forall d i, aligned d -> unique_standard_names (u_coords d) -> (forall n, In n standard_names -> exists c, In c (u_coords d) /\ has_std n c) ->
  exists d', post_process d = Ok d' /\ (i < length (u_values d') -> exists p, hyper_point d (Z.of_nat i) = Ok p /\
    standard_value d' (lit "latitude") i (hp_lat p) /\ standard_value d' (lit "longitude") i (hp_lon p) /\ standard_value d' (lit "altitude") i (hp_alt p) /\
    standard_value d' (lit "air_pressure") i (hp_time p) /\ standard_value d' (lit "time") i (hp_pres p) /\ hp_val p = [nth i (u_values d') None]).
Proof. exact hyper_point_spec. Qed.
Print Assumptions C40_hyper_point_swapped_refuted.
Definition ex_five : udata := mkU [ex_coord (lit "latitude") [Some 1%Q]; ex_coord (lit "longitude") [Some 2%Q]; ex_coord (lit "altitude") [Some 3%Q]; ex_coord (lit "air_pressure") [Some 4%Q]; ex_coord (lit "time") [Some 5%Q]] [1] [Some 6%Q].
Example C40_hyper_point_example : aligned ex_five /\ unique_standard_names (u_coords ex_five) /\ hyper_point ex_five 0 = Ok (mkHP (Some 1%Q) (Some 2%Q) (Some 3%Q) (Some 5%Q) (Some 4%Q) [Some 6%Q]).
Proof. split; [repeat constructor|]. split; [apply (fun H => proj1 (C47_unique (u_coords ex_five) _ H)); vm_compute; reflexivity|]. vm_compute. reflexivity. Qed.
(** gridded data all of whose dimensions are standard coordinates *)
Theorem C40_gridded_points_partial : forall g, standard_grid g ->
  (forall idx, valid_index (g_shape g) idx -> exists p, g_get_flat g (flat_pos (g_shape g) idx) = Ok p /\ g_get g idx = Ok p /\ grid_point g idx p) /\
  (exists ps, g_iter_all g = Ok ps /\ Forall2 (grid_point g) (index_iterator (g_shape g)) ps) /\
  (exists ps, g_iter_non_masked g = Ok ps /\ Forall2 (grid_point g) (filter (fun idx => negb (is_missing (g_data g idx))) (index_iterator (g_shape g))) ps) /\
  (exists ps, g_enumerate_non_masked g = Ok ps /\
     Forall2 (fun idx ip => fst ip = flat_pos (g_shape g) idx /\ grid_point g idx (snd ip)) (filter (fun idx => negb (is_missing (g_data g idx))) (index_iterator (g_shape g))) ps).
Proof. exact gridded_points. Qed.
Print Assumptions C40_gridded_points_partial.
Definition ex_grid : gview := mkG [2; 3] [Some (1, [10%Q; 20%Q]); Some (0, [1%Q; 2%Q; 3%Q])] (fun idx => match idx with [1; 1] => Some 5%Q | [0; 2] => Some 7%Q | _ => None end).
Example C40_gridded_example : standard_grid ex_grid /\ g_enumerate_non_masked ex_grid = Ok [(2, mkHP (Some 3%Q) (Some 10%Q) None None None [Some 7%Q]); (4, mkHP (Some 2%Q) (Some 20%Q) None None None [Some 5%Q])].
Proof.
  split; [|vm_compute; reflexivity]. split; [repeat constructor; do 2 eexists; (split; [reflexivity|split; [lia|reflexivity]])|].
  intros [|[|d]] [|[|e]] k p q H1 H2; simpl in *; try congruence; try (destruct d; discriminate); try (destruct e; discriminate).
Qed.
(** A dimension that is not one of the five standard coordinates: no point can be read. *)
Theorem C40_other_dimension_refuted : forall g idx, length (g_coords g) = length (g_shape g) -> In None (g_coords g) -> length idx = length (g_shape g) -> exists e, g_get g idx = Raises e.
Proof. exact nonstandard_dimension. Qed.
Print Assumptions C40_other_dimension_refuted.
Example C40_other_dimension_example : g_get (mkG [2; 2] [Some (0, [1%Q; 2%Q]); None] (fun _ => Some 1%Q)) [0; 1] = Raises TypeError.
Proof. reflexivity. Qed.
(** Default iteration when a dimension has a single point: the wrong coordinates, or none. *)
Theorem C40_iteration_single_point_refuted : exists g ps, standard_grid g /\ g_shape g = [2; 1] /\ g_iter g = Ok ps /\ ~ Forall2 (grid_point g) (index_iterator (g_shape g)) ps.
Proof.
  exists (mkG [2; 1] [Some (0, [1%Q; 2%Q]); Some (1, [50%Q])] (fun _ => Some 1%Q)). eexists. split.
  - split; [repeat constructor; do 2 eexists; (split; [reflexivity|split; [lia|reflexivity]])|]. intros [|[|d]] [|[|e]] k p q H1 H2; simpl in *; try congruence; try (destruct d; discriminate); try (destruct e; discriminate).
  - split; [reflexivity|]. split; [vm_compute; reflexivity|]. intros H. inversion H as [|idx p ? ? HP _ E1 E2]; subst. destruct HP as (A & _ & _). specialize (A 1 1 [50%Q] eq_refl). discriminate.
Qed.
Print Assumptions C40_iteration_single_point_refuted.
