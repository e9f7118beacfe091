(** C27, C28, C29, C57: collocation of gridded data onto ungridded samples by interpolation. *)
From Verif Require Import Base QBase InterpModel InterpSpec InterpProofs Interp2Proofs Interp3Proofs.
From Coq Require Import Qabs Lqa.
Open Scope Q_scope.

(** ** C27 *)
(** every sample gets its own answer, in order: multilinear interpolation over a cell that holds it *)
Theorem C27_linear : forall dims values missing_for_missing extrapolate samples, proper_dims dims -> positions_in dims samples ->
  exists results, interpolate Lin dims values missing_for_missing extrapolate samples = Ok results /\ Forall2 (linear_answer dims values missing_for_missing extrapolate) samples results.
Proof. exact linear_answers. Qed.
Print Assumptions C27_linear.
(** data without missing values are reproduced at every grid point *)
Theorem C27_node : forall dims values f missing_for_missing extrapolate samples, proper_dims dims -> positions_in dims samples -> field_is dims values f ->
  exists results, interpolate Lin dims values missing_for_missing extrapolate samples = Ok results /\
    Forall2 (fun s r => ~ skipped missing_for_missing s -> inside (map continued dims) (fst s) -> forall k, node_at (map continued dims) k (fst s) -> exists q, r = Some q /\ q == f (wrapped dims k)) samples results.
Proof.
  intros dims values f m ex samples HP HS HF. destruct (linear_answers dims values m ex samples HP HS) as (rs & E & F). exists rs. split; auto.
  clear E HS. induction F as [|s r samples rs H F IH]; constructor; auto. intros H1 H2 k HK. eapply linear_node; eauto.
Qed.
Print Assumptions C27_node.
(** no overshoot: between the smallest and the largest value of the data (of the cell: C27_linear and C27_cell_bounds) *)
Theorem C27_bounded : forall dims values f missing_for_missing extrapolate samples lo hi, proper_dims dims -> positions_in dims samples -> field_is dims values f ->
  (forall e, on_grid (map d_points dims) e -> lo <= f e <= hi) ->
  exists results, interpolate Lin dims values missing_for_missing extrapolate samples = Ok results /\
    Forall2 (fun s r => ~ skipped missing_for_missing s -> inside (map continued dims) (fst s) -> exists q, r = Some q /\ lo <= q <= hi) samples results.
Proof.
  intros dims values f m ex samples lo hi HP HS HF HB. destruct (linear_answers dims values m ex samples HP HS) as (rs & E & F). exists rs. split; auto.
  clear E HS. induction F as [|s r samples rs H F IH]; constructor; auto. intros H1 H2. eapply linear_bounded; eauto.
Qed.
Print Assumptions C27_bounded.
Theorem C27_cell_bounds : forall axes cell x v lo hi, cell_of axes cell x -> Forall good_axis axes -> (forall e, corner cell e -> lo <= v e <= hi) -> lo <= multilinear axes cell x v <= hi.
Proof. exact multilinear_bounds. Qed.
Print Assumptions C27_cell_bounds.
(** fields that are affine in each coordinate are reproduced exactly, also outside the grid when extrapolating *)
Theorem C27_affine : forall dims values f missing_for_missing extrapolate samples, proper_dims dims -> Forall (fun d => d_circular d = false) dims -> positions_in dims samples ->
  multi_affine (length dims) f -> field_is dims values (fun e => f (coordinates (map d_points dims) e)) ->
  exists results, interpolate Lin dims values missing_for_missing extrapolate samples = Ok results /\
    Forall2 (fun s r => ~ skipped missing_for_missing s -> (extrapolate = true \/ inside (map d_points dims) (fst s)) -> exists q, r = Some q /\ q == f (fst s)) samples results.
Proof. exact linear_affine_field. Qed.
Print Assumptions C27_affine.
(** A sample exactly at a grid point whose value is present gets a missing value when the value below it is missing. *)
Theorem C27_masked_neighbour_refuted : exists dims values samples, proper_dims dims /\ positions_in dims samples /\
  Forall2 (fun s k => node_at (map continued dims) k (fst s) /\ values k <> None) samples [[1%nat]] /\ interpolate Lin dims values false false samples = Ok [None].
Proof.
  exists [mkDim [0; 1; 2] false], (fun e => match e with [S k] => Some (inject_Z (Z.of_nat k)) | _ => None end), [([1], false)].
  split; [constructor; [|constructor]; repeat split; simpl; try lia; repeat constructor|]. split; [repeat constructor|]. split; [|vm_compute; reflexivity].
  repeat constructor; simpl; try lia; try discriminate.
Qed.
Print Assumptions C27_masked_neighbour_refuted.
(** A dimension of one point: a sample at that very point gets a missing value. *)
Theorem C27_single_point_axis_refuted : exists dims values samples, positions_in dims samples /\ Forall2 (fun s k => node_at (map continued dims) k (fst s) /\ values k <> None) samples [[0%nat; 0%nat]] /\
  interpolate Lin dims values false false samples = Ok [None].
Proof.
  exists [mkDim [5] false; mkDim [0; 1] false], (fun _ => Some 1), [([5; 0], false)]. split; [repeat constructor|]. split; [|vm_compute; reflexivity].
  constructor; [|constructor]. split; [split; [|reflexivity]|discriminate]. constructor; [split; [simpl; lia|reflexivity]|]. constructor; [split; [simpl; lia|reflexivity]|constructor].
Qed.
Print Assumptions C27_single_point_axis_refuted.
(** a latitude and a circular longitude: two samples, one between the last longitude and the first, one missing *)
Definition lat_lon : list dim := [mkDim [0; 10] false; mkDim [0; 90; 180; 270] true].
Definition example_field : array := fun e => match e with [i; j] => Some (inject_Z (Z.of_nat (100 * i + j))) | _ => None end.
Example C27_example : proper_dims lat_lon /\ positions_in lat_lon [([5; 315], false); ([1; 1], true)] /\ inside (map continued lat_lon) [5; 315] /\
  exists q, interpolate Lin lat_lon example_field true false [([5; 315], false); ([1; 1], true)] = Ok [Some q; None] /\ q == 103 # 2.
Proof.
  split. { constructor; [|constructor; [|constructor]]; (split; [|split]); simpl; try lia; repeat constructor. }
  split; [repeat constructor|]. split. { constructor; [split; simpl; lra|]. constructor; [split; simpl; lra|constructor]. }
  destruct (interpolate Lin lat_lon example_field true false [([5; 315], false); ([1; 1], true)]) eqn:E; vm_compute in E; [injection E as <-|discriminate]. eexists. split; reflexivity.
Qed.
Example C27_affine_example : multi_affine 2 (fun x => match x with [a; b] => 3 + 2 * a + a * b | _ => 0 end).
Proof.
  apply affine_more with (g := fun x => match x with [b] => 3 | _ => 0 end) (h := fun x => match x with [b] => 2 + b | _ => 0 end).
  - apply affine_more with (g := fun _ => 3) (h := fun _ => 0); [apply (affine_const _ 3); reflexivity|apply (affine_const _ 0); reflexivity|]. intros t [|? ?] L; [|discriminate]. lra.
  - apply affine_more with (g := fun _ => 2) (h := fun _ => 1); [apply (affine_const _ 2); reflexivity|apply (affine_const _ 1); reflexivity|]. intros t [|? ?] L; [|discriminate]. lra.
  - intros t [|b [|? ?]] L; try discriminate. ring.
Qed.

(** ** C28 *)
Theorem C28_nearest : forall dims values missing_for_missing extrapolate samples, Forall (fun d => increasing (d_points d) /\ d_points d <> [] /\ increasing (continued d)) dims -> positions_in dims samples ->
  exists results, interpolate Nn dims values missing_for_missing extrapolate samples = Ok results /\ Forall2 (nearest_answer dims values missing_for_missing extrapolate) samples results.
Proof. exact nearest_answers. Qed.
Print Assumptions C28_nearest.
Example C28_example : interpolate Nn lat_lon example_field false false [([5; 316], false); ([7; 100], false); ([-1; 0], false)] = Ok [Some 0; Some 101; None].
Proof. vm_compute. reflexivity. Qed.

(** ** C29 *)
(** right when dimension 1 of the data is the decreasing one *)
Theorem C29_second_dimension_partial : forall m d0 d1 rest values missing_for_missing extrapolate samples, let dims := d0 :: d1 :: rest in
  Forall (fun d => increasing (d_points d)) dims -> Forall good_axis (map continued dims) -> d_circular d1 = false -> positions_in dims samples ->
  interpolate m (d0 :: mkDim (rev (d_points d1)) false :: rest) (flipped (length (d_points d1)) values) missing_for_missing extrapolate samples = interpolate m dims values missing_for_missing extrapolate samples.
Proof. exact decreasing_second. Qed.
Print Assumptions C29_second_dimension_partial.
Example C29_example : let dims := [mkDim [0; 10] false; mkDim [0; 1; 5] false] in Forall (fun d => increasing (d_points d)) dims /\ Forall good_axis (map continued dims) /\
  exists q, interpolate Lin [mkDim [0; 10] false; mkDim [5; 1; 0] false] (flipped 3 example_field) false false [([5; 2], false)] = Ok [Some q] /\ q == 50 + (5 # 4).
Proof.
  intros dims. split; [repeat constructor|]. split; [repeat constructor; simpl; lia|]. unfold dims.
  destruct (interpolate Lin [mkDim [0; 10] false; mkDim [5; 1; 0] false] (flipped 3 example_field) false false [([5; 2], false)]) eqn:E; vm_compute in E; [injection E as <-|discriminate]. eexists. split; reflexivity.
Qed.
(** Dimension 0 decreasing: the values are looked up in the wrong place. *)
Theorem C29_first_dimension_refuted : exists a0 a1 (v : nat -> nat -> Q) x y z, increasing a0 /\ increasing a1 /\ inside [a0; a1] x /\
  interpolate Lin [mkDim a0 false; mkDim a1 false] (fun e => match e with [i; j] => Some (v i j) | _ => None end) false false [(x, false)] = Ok [Some y] /\
  interpolate Lin [mkDim (rev a0) false; mkDim a1 false] (fun e => match e with [i; j] => Some (v (length a0 - 1 - i)%nat j) | _ => None end) false false [(x, false)] = Ok [Some z] /\
  ~ y == z.
Proof.
  exists [0; 1], [0; 1], (fun i j => inject_Z (Z.of_nat i)), [1; 0]. eexists. eexists. split; [repeat constructor|]. split; [repeat constructor|].
  split; [constructor; [split; simpl; lra|]; constructor; [split; simpl; lra|constructor]|]. split; [vm_compute; reflexivity|]. split; [vm_compute; reflexivity|]. intros H. apply Qeq_bool_iff in H. vm_compute in H. discriminate.
Qed.
Print Assumptions C29_first_dimension_refuted.
(** One-dimensional data with a decreasing coordinate: an error, always. *)
Theorem C29_one_dimension_refuted : forall m a values missing_for_missing extrapolate samples c, good_axis a -> ascending (grid_points (mkDim (rev a) c)) = true ->
  interpolate m [mkDim (rev a) c] values missing_for_missing extrapolate samples = Raises IndexError.
Proof. intros m a values mm ex samples c [H1 H2] HA. unfold interpolate. cbn [map forallb]. rewrite HA. cbn [andb negb]. unfold account_for_inverted. cbn [existsb]. rewrite rev_decreasing by auto. reflexivity. Qed.
Print Assumptions C29_one_dimension_refuted.
Example C29_one_dimension_example : good_axis [0; 1; 5] /\ ascending (grid_points (mkDim (rev [0; 1; 5]) false)) = true /\ ascending (grid_points (mkDim (rev [0; 90; 180]) true)) = true.
Proof. split; [split; [repeat constructor|simpl; lia]|]. split; reflexivity. Qed.
(** A circular longitude stored in decreasing order: the extended values no longer belong to the extended points. *)
Theorem C29_circular_refuted : exists a0 a1 (v : nat -> nat -> Q) x y z, proper_dims [mkDim a0 false; mkDim a1 true] /\ node_at [a0; a1] [0%nat; 1%nat] x /\
  interpolate Lin [mkDim a0 false; mkDim a1 true] (fun e => match e with [i; j] => Some (v i j) | _ => None end) false false [(x, false)] = Ok [Some y] /\
  interpolate Lin [mkDim a0 false; mkDim (rev a1) true] (fun e => match e with [i; j] => Some (v i (length a1 - 1 - j)%nat) | _ => None end) false false [(x, false)] = Ok [Some z] /\
  ~ y == z.
Proof.
  exists [0; 1], [0; 90; 180; 270], (fun i j => inject_Z (Z.of_nat j)), [0; 90]. eexists. eexists.
  split. { constructor; [|constructor; [|constructor]]; (split; [|split]); simpl; try lia; repeat constructor. }
  split. { split; [|reflexivity]. constructor; [split; [simpl; lia|reflexivity]|]. constructor; [split; [simpl; lia|reflexivity]|constructor]. }
  split; [vm_compute; reflexivity|]. split; [vm_compute; reflexivity|]. intros H. apply Qeq_bool_iff in H. vm_compute in H. discriminate.
Qed.
Print Assumptions C29_circular_refuted.

(** ** C57: hybrid vertical coordinates *)
(** right when the hybrid coordinate varies along every horizontal dimension of the data *)
Theorem C57_columns_partial : forall axes hybrid h levels values v extrapolate points, Forall good_axis axes -> Forall (fun xz : list Q * Q => length (fst xz) = length axes) points ->
  (forall e k, on_grid axes e -> (k < levels)%nat -> hybrid (e ++ [k]) = Some (h e k)) ->
  (forall e k, on_grid axes e -> (k < levels)%nat -> values (e ++ [k]) = Some (v (e ++ [k]))) ->
  exists results, hybrid_grid Lin axes hybrid (seq 0 (length axes)) levels values extrapolate points = Ok results /\ Forall2 (hybrid_answer axes h levels v extrapolate) points results.
Proof. exact hybrid_answers. Qed.
Print Assumptions C57_columns_partial.
(** latitude 0, 10; altitude of level k: 100 k over the first, 200 k over the second; the field is the altitude.  At latitude 5 and altitude 225: 225. *)
Definition example_altitude (e : list nat) (k : nat) : Q := match e with [i] => inject_Z (Z.of_nat (100 * S i * k)) | _ => 0 end.
Definition example_hybrid : array := fun e => match e with [i; k] => Some (example_altitude [i] k) | _ => None end.
Example C57_example : good_axis [0; 10] /\ (forall e k, on_grid [[0; 10]] e -> (k < 3)%nat -> example_hybrid (e ++ [k]) = Some (example_altitude e k)) /\
  exists q, hybrid_grid Lin [[0; 10]] example_hybrid (seq 0 1) 3 example_hybrid false [([5], 225); ([5], 301)] = Ok [Some q; None] /\ q == 225.
Proof.
  split; [split; [repeat constructor|simpl; lia]|]. split. { intros e k H _. inversion H as [|? i ? e' Hi He]; subst. inversion He; subst. reflexivity. }
  destruct (hybrid_grid Lin [[0; 10]] example_hybrid (seq 0 1) 3 example_hybrid false [([5], 225); ([5], 301)]) eqn:E; vm_compute in E; [injection E as <-|discriminate]. eexists. split; reflexivity.
Qed.
(** A hybrid coordinate that does not vary along dimension 0 (here: time).  The distances along the wrong dimensions are used: the data hold the altitude
    itself, the sample lies at a grid point of time and latitude, and the answer is another altitude. *)
Theorem C57_dims_refuted : exists times lats (h : nat -> nat -> Q) levels t lat z q, good_axis times /\ good_axis lats /\ node_at [times; lats] [0%nat; 1%nat] [t; lat] /\
  h 1%nat 0%nat <= z <= h 1%nat (pred levels) /\
  hybrid_grid Lin [times; lats] (fun e => match e with [j; k] => Some (h j k) | _ => None end) [1%nat] levels (fun e => match e with [i; j; k] => Some (h j k) | _ => None end) false [([t; lat], z)] = Ok [Some q] /\
  ~ q == z.
Proof.
  exists [0; 1], [0; 1], (fun j k => inject_Z (Z.of_nat (10 * j + 100 * k))), 2%nat, 0, 1, 60. eexists. split; [split; [repeat constructor|simpl; lia]|]. split; [split; [repeat constructor|simpl; lia]|].
  split. { split; [|reflexivity]. constructor; [split; [simpl; lia|reflexivity]|]. constructor; [split; [simpl; lia|reflexivity]|constructor]. }
  split; [split; simpl; vm_compute; discriminate|]. split; [vm_compute; reflexivity|]. intros H. apply Qeq_bool_iff in H. vm_compute in H. discriminate.
Qed.
Print Assumptions C57_dims_refuted.
(** A vertical coordinate that decreases with the level (as air pressure usually does): every sample inside is reported missing. *)
Theorem C57_decreasing_refuted : exists lats (h : nat -> nat -> Q) levels values lat z, good_axis lats /\ inside [lats] [lat] /\ (forall i, h i (pred levels) <= z <= h i 0%nat) /\
  (forall e, values e <> None) /\ hybrid_grid Lin [lats] (fun e => match e with [j; k] => Some (h j k) | _ => None end) [0%nat] levels values false [([lat], z)] = Ok [None].
Proof.
  exists [0; 1], (fun _ k => match k with 0%nat => 1000 | 1%nat => 500 | _ => 100 end), 3%nat, (fun _ => Some 1), (1 # 2), 700. split; [split; [repeat constructor|simpl; lia]|].
  split; [constructor; [split; simpl; lra|constructor]|]. split; [intros i; simpl; lra|]. split; [discriminate|]. vm_compute. reflexivity.
Qed.
Print Assumptions C57_decreasing_refuted.
