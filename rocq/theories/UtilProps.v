(** Properties C50 (histogram bins), C54 (array comparison), C55 (masks). *)
From Verif Require Import Base QBase UtilModel UtilSpec UtilProofs.
Open Scope Q_scope.

(** ** C50.  [fuel] bounds the steps of the loop: any amount above the number of edges gives the result. *)
(** When the step divides the range: n+1 equally spaced edges from the minimum, every value of the range in a bin.
    Missing from C50: steps that do not divide the range, and zero limits (refuted below). *)
Theorem C50_dividing_step_covers_partial : forall data umin umax step lo hi n fuel,
  q_or umin (list_min data) = Ok lo -> q_or umax (list_max data) = Ok hi ->
  float_min <= step -> (0 < n)%nat -> hi - lo == step * inject_Z (Z.of_nat n) -> (S n < fuel)%nat ->
  exists edges, histogram_bin_edges fuel data umin umax (Some step) = Ok edges
    /\ length edges = S n /\ equally_spaced lo step edges
    /\ forall v, lo <= v <= hi -> in_some_bin edges v.
Proof. exact edges_user_dividing. Qed.
Print Assumptions C50_dividing_step_covers_partial.

(** Without a step: eleven edges, ten equal bins covering the range. *)
Theorem C50_default_step_covers : forall data umin umax lo hi fuel,
  q_or umin (list_min data) = Ok lo -> q_or umax (list_max data) = Ok hi ->
  float_min <= (hi - lo) / 10 -> (11 < fuel)%nat ->
  exists edges, histogram_bin_edges fuel data umin umax None = Ok edges
    /\ length edges = 11%nat /\ equally_spaced lo ((hi - lo) / 10) edges
    /\ forall v, lo <= v <= hi -> in_some_bin edges v.
Proof. exact edges_default. Qed.
Print Assumptions C50_default_step_covers.

(** Finding: whenever the step leaves a remainder of at least 1e-7, all edges lie below the maximum and the maximum
    is in no bin. *)
Theorem C50_remainder_uncovered_refuted : forall data umin umax step lo hi,
  q_or umin (list_min data) = Ok lo -> q_or umax (list_max data) = Ok hi ->
  float_min <= step -> 1 # 10000000 <= dec_mod (hi - lo) step ->
  exists edges k, (forall fuel, (k < fuel)%nat -> histogram_bin_edges fuel data umin umax (Some step) = Ok edges)
    /\ Forall (fun e => e < hi) edges /\ ~ in_some_bin edges hi.
Proof. exact edges_remainder. Qed.
Print Assumptions C50_remainder_uncovered_refuted.

Example C50_example :
  q_or None (list_min [3; 0; 10; 7]) = Ok 0 /\ q_or (Some 10) (list_max [3; 0; 10; 7]) = Ok 10
  /\ histogram_bin_edges 20 [3; 0; 10; 7] None (Some 10) (Some 5) = Ok [0; 0 + 5; 0 + 5 + 5]
  /\ Qltb (1 # 10000000) (dec_mod (10 - 0) 3) = true
  /\ histogram_bin_edges 20 [3; 0; 10; 7] None (Some 10) (Some 3) = Ok [0; 0 + 3; 0 + 3 + 3; 0 + 3 + 3 + 3].
Proof. Transparent float_min. repeat split; vm_compute; reflexivity. Qed.

(** Finding: a requested limit of zero is ignored. *)
Theorem C50_zero_minimum_refuted : forall data umax step fuel,
  histogram_bin_edges fuel data (Some 0) umax step = histogram_bin_edges fuel data None umax step.
Proof. reflexivity. Qed.
Print Assumptions C50_zero_minimum_refuted.
Example C50_zero_minimum_example :
  match histogram_bin_edges 30 [3; 10; 7] (Some 0) None None with Ok (e :: _) => e == 3 | _ => False end.
Proof. vm_compute. reflexivity. Qed.

(** ** C54 *)
(** What the comparison decides: equal shapes and every element of the FIRST array NaN or equal to the second's. *)
Theorem C54_comparison_decides : forall a b,
  arr_ok a -> arr_ok b -> (0 < length (arr_elems a))%nat -> (0 < length (arr_elems b))%nat ->
  exists r, array_equal_including_nan a b = Ok r /\
  (r = true <-> arr_shape a = arr_shape b /\
     forall i x y, nth_error (arr_elems a) i = Some x -> nth_error (arr_elems b) i = Some y -> x = None \/ same_value x y).
Proof. exact array_equal_spec. Qed.
Print Assumptions C54_comparison_decides.
(** So the property holds when the first array has no NaN ... *)
Theorem C54_nan_free_partial : forall a b,
  arr_ok a -> arr_ok b -> (0 < length (arr_elems a))%nat -> (0 < length (arr_elems b))%nat ->
  (forall x, In x (arr_elems a) -> x <> None) ->
  exists r, array_equal_including_nan a b = Ok r /\
  (r = true <-> arr_shape a = arr_shape b /\ Forall2 same_value (arr_elems a) (arr_elems b)).
Proof. exact array_equal_nan_free. Qed.
Print Assumptions C54_nan_free_partial.
(** ... and fails otherwise: [NaN] "equals" [1], and not the other way round. *)
Theorem C54_symmetry_refuted : exists a b, arr_ok a /\ arr_ok b
  /\ array_equal_including_nan a b = Ok true /\ array_equal_including_nan b a = Ok false
  /\ ~ Forall2 same_value (arr_elems a) (arr_elems b).
Proof.
  exists (mkArr [1%nat] [None]), (mkArr [1%nat] [Some 1]). repeat split. intros H. inversion H. auto.
Qed.
Print Assumptions C54_symmetry_refuted.
Example C54_example :
  arr_ok (mkArr [2; 1]%nat [Some 1; Some 2])
  /\ array_equal_including_nan (mkArr [2; 1]%nat [Some 1; None]) (mkArr [2; 1]%nat [Some (2 # 2); None]) = Ok true
  /\ array_equal_including_nan (mkArr [2; 1]%nat [Some 1; Some 2]) (mkArr [1; 2]%nat [Some 1; Some 2]) = Ok false.
Proof. repeat split. Qed.

(** ** C55 *)
(** Adding a mask: the same elements, missing exactly where they were or where the mask says so. *)
Theorem C55_apply_mask_is_union : forall (A : Type) (a : anarray A) m i x b,
  array_ok a -> length m = length (an_data a) ->
  (element (apply_mask_to_numpy_array a (Some m)) i x b
   <-> exists b1 b2, element a i x b1 /\ nth_error m i = Some b2 /\ b = b1 || b2).
Proof. exact (@apply_mask_elements). Qed.
Print Assumptions C55_apply_mask_is_union.
Theorem C55_no_mask_no_change : forall (A : Type) (a : anarray A), apply_mask_to_numpy_array a None = a.
Proof. reflexivity. Qed.
Print Assumptions C55_no_mask_no_change.
(** Two arrays get the same mask, the union of both; values unchanged. *)
Theorem C55_two_arrays_share_the_union : forall (A B : Type) (a : anarray A) (b : anarray B),
  array_ok a -> array_ok b -> length (an_data a) = length (an_data b) ->
  let r := apply_intersection_mask_to_two_arrays a b in
  getmaskarray (fst r) = getmaskarray (snd r) /\
  (forall i x m, element (fst r) i x m <-> exists m1 m2, element a i x m1 /\ nth_error (getmaskarray b) i = Some m2 /\ m = m1 || m2) /\
  (forall i y m, element (snd r) i y m <-> exists m1 m2, element b i y m2 /\ nth_error (getmaskarray a) i = Some m1 /\ m = m1 || m2).
Proof. exact (@intersection_mask_elements). Qed.
Print Assumptions C55_two_arrays_share_the_union.
(** Missing values: additionally masked exactly where equal to one of the given values. *)
Theorem C55_missing_values_masked : forall (A : Type) (eqb : A -> A -> bool) (missing : list (option A)) (a : anarray A) i x b,
  array_ok a ->
  (element (create_masked_array_for_missing_values eqb a missing) i x b
   <-> exists b0, element a i x b0 /\ b = b0 || existsb (fun mv => match mv with Some v => eqb v x | None => false end) missing).
Proof. exact (@missing_values_elements). Qed.
Print Assumptions C55_missing_values_masked.
(** Concatenation keeps every element with its own missing flag, in order. *)
Theorem C55_concatenate_keeps_masks : forall (A : Type) (arrays : list (anarray A)) r,
  Forall array_ok arrays -> concatenate arrays = Ok r -> content r = concat (map content arrays).
Proof. exact (@concatenate_content). Qed.
Print Assumptions C55_concatenate_keeps_masks.
(** Duplicating a line along a new axis: element (i, j) is element j (or i) of the line, with its missing flag. *)
Theorem C55_expand_duplicates : forall (A : Type) (a : anarray A) len i j c,
  ((exists row, nth_error (expand_1d_to_2d_array a len true) i = Some row /\ nth_error row j = Some c)
     <-> (i < len)%nat /\ nth_error (content a) j = Some c)
  /\ ((exists row, nth_error (expand_1d_to_2d_array a len false) i = Some row /\ nth_error row j = Some c)
     <-> nth_error (content a) i = Some c /\ (j < len)%nat).
Proof. exact (@expand_spec). Qed.
Print Assumptions C55_expand_duplicates.

Definition ex_a : anarray nat := Masked [5; 6; 7]%nat (Some [true; false; false]).
Example C55_example :
  array_ok ex_a
  /\ apply_mask_to_numpy_array ex_a (Some [false; false; true]) = Masked [5; 6; 7]%nat (Some [true; false; true])
  /\ apply_intersection_mask_to_two_arrays ex_a (Plain [1; 2; 3]%nat)
     = (Masked [5; 6; 7]%nat (Some [true; false; false]), Masked [1; 2; 3]%nat (Some [true; false; false]))
  /\ create_masked_array_for_missing_values Nat.eqb ex_a [Some 7%nat; None] = Masked [5; 6; 7]%nat (Some [true; false; true])
  /\ concatenate [Plain [1; 2]%nat; ex_a] = Ok (Masked [1; 2; 5; 6; 7]%nat (Some [false; false; true; false; false])).
Proof. repeat split. Qed.
