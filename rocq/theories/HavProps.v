(** C20, C21, C22: great-circle distances and the haversine tree. *)
From Verif Require Import Base QBase KDModel KDSpec HavModel HavSpec HavProofs Hav3Proofs Hav4Proofs Hav5Proofs.
From Coq Require Import Reals Lra Qreals.
Open Scope R_scope.

(** C20 asks that, for every sample, the points returned within a separation are exactly the data points at most that far away.
    It holds on the equator, within 90 degrees of longitude; elsewhere partly, or not at all. *)

(** what holds for all inputs: one list per sample, of valid indices, without repetition *)
Theorem C20_shape : forall data sample r, rows_of_length 2 data -> rows_of_length 2 sample -> data <> [] -> sample <> [] ->
  exists res, find_points_within_distance_sample data sample r = Ok res /\ length res = length sample /\
    forall i, (i < length sample)%nat -> NoDup (nth i res []) /\ forall j, In j (nth i res []) -> (j < length data)%nat.
Proof.
  intros data sample r H1 H2 H3 H4. destruct (find_points_shape data sample r H1 H2 H3 H4) as (res & E & L & S). exists res. split; auto. split; auto.
  intros i Hi. destruct (S i Hi) as (N & A & _). split; auto. intros j Hj. apply (A j Hj).
Qed.
Print Assumptions C20_shape.

(** all positions in one hemisphere and within 90 degrees of longitude: nothing too far is returned *)
Theorem C20_sound_partial : forall data sample r la lb oa ob, rows_of_length 2 data -> rows_of_length 2 sample -> data <> [] -> sample <> [] ->
  Forall (in_box la lb oa ob) data -> Forall (in_box la lb oa ob) sample ->
  ((0 <= la /\ lb <= 90) \/ (-90 <= la /\ lb <= 0))%Q -> (ob - oa <= 90)%Q ->
  exists res, find_points_within_distance_sample data sample r = Ok res /\ length res = length sample /\
    forall i j, (i < length sample)%nat -> In j (nth i res []) -> row_distance (nth j data []) (nth i sample []) <= r.
Proof.
  intros data sample r la lb oa ob H1 H2 H3 H4 H5 H6 H7 H8. destruct (find_points_sound data sample r H1 H2 H3 H4 la lb oa ob H5 H6 H7 H8) as (res & E & L & S).
  exists res. split; auto. split; auto. intros i j Hi Hj. destruct (S i Hi) as (_ & A & _). apply (A j Hj).
Qed.
Print Assumptions C20_sound_partial.

(** no latitude beyond +-phi and no wrapping of longitudes: every point whose straight-line distance is at most
    cos(phi) times that of the separation is returned *)
Theorem C20_complete_partial : forall data sample r la lb oa ob phi, rows_of_length 2 data -> rows_of_length 2 sample -> data <> [] -> sample <> [] ->
  Forall (in_box la lb oa ob) data -> Forall (in_box la lb oa ob) sample ->
  0 <= phi < 90 -> - phi <= Q2R la /\ Q2R lb <= phi -> (ob - oa <= 180)%Q -> 0 <= r <= PI * 6378 ->
  exists res, find_points_within_distance_sample data sample r = Ok res /\ length res = length sample /\
    forall i j, (i < length sample)%nat -> (j < length data)%nat ->
      row_chord (nth j data []) (nth i sample []) <= cos (radians phi) * chord_of_arc r -> In j (nth i res []).
Proof.
  intros data sample r la lb oa ob phi H1 H2 H3 H4 H5 H6 H7 H8 H9 H10. destruct (find_points_complete data sample r H1 H2 H3 H4 la lb oa ob H5 H6 phi H7 H8 H9 H10) as (res & E & L & S).
  exists res. split; auto. split; auto. intros i j Hi Hj. destruct (S i Hi) as (_ & _ & A). apply (A j Hj).
Qed.
Print Assumptions C20_complete_partial.

(** positions on the equator, within 90 degrees of longitude: exactly the points within the separation *)
Theorem C20_equator_exact_partial : forall data sample r oa ob, rows_of_length 2 data -> rows_of_length 2 sample -> data <> [] -> sample <> [] ->
  Forall (in_box 0 0 oa ob) data -> Forall (in_box 0 0 oa ob) sample -> (ob - oa <= 90)%Q -> 0 <= r <= PI * 6378 ->
  exists res, find_points_within_distance_sample data sample r = Ok res /\ length res = length sample /\
    forall i, (i < length sample)%nat -> exact_list (fun j => (j < length data)%nat /\ row_distance (nth j data []) (nth i sample []) <= r) (nth i res []).
Proof. exact find_points_equator. Qed.
Print Assumptions C20_equator_exact_partial.
Example C20_example : Forall (in_box 0 0 10 20) [[0; 10]; [0; 15]; [0; 20]]%Q /\ (20 - 10 <= 90)%Q /\ Forall (in_box 10 20 (-30) 40) [[10; -30]; [20; 40]]%Q.
Proof. repeat constructor; discriminate. Qed.

(** and it fails in general.  A point at 60N 60E is at most 6378 km from 60N 0E, but a separation of 6378 km does not find it. *)
Theorem C20_misses_close_point_refuted : exists data sample r, rows_of_length 2 data /\ rows_of_length 2 sample /\
  row_distance (nth 0 data []) (nth 0 sample []) <= r /\ find_points_within_distance_sample data sample r = Ok [[]] /\ length data = 1%nat.
Proof. exists [P60_60], [P60_0], 6378. destruct missed. repeat split; auto; repeat constructor. Qed.
Print Assumptions C20_misses_close_point_refuted.
(** A point at 45N 90E is 120 degrees from 45S 0E, but a separation of 100 degrees includes it. *)
Theorem C20_includes_far_point_refuted : exists data sample r, rows_of_length 2 data /\ rows_of_length 2 sample /\
  r < row_distance (nth 0 data []) (nth 0 sample []) /\ find_points_within_distance_sample data sample r = Ok [[0%nat]].
Proof.
  exists [P45_90], [Pm45_0], (100 * PI / 180 * 6378). destruct wrongly_included as [A B]. repeat split; auto; try solve [repeat constructor].
  cbn [nth]. rewrite A. pose proof PI_RGT_0. lra.
Qed.
Print Assumptions C20_includes_far_point_refuted.

(** C21: the haversine formula gives the great-circle distance *)
Theorem C21_is_great_circle : forall lat1 lon1 lat2 lon2, haversine lat1 lon1 lat2 lon2 = great_circle lat1 lon1 lat2 lon2.
Proof. exact haversine_great_circle. Qed.
Print Assumptions C21_is_great_circle.
Theorem C21_symmetric : forall a b c d, haversine a b c d = haversine c d a b.
Proof. exact hav_sym. Qed.
Print Assumptions C21_symmetric.
(** never negative, at most half the circumference *)
Theorem C21_bounds : forall a b c d, 0 <= haversine a b c d <= PI * 6378.
Proof. exact hav_bounds. Qed.
Print Assumptions C21_bounds.
(** zero exactly between coordinates of the same place on the sphere *)
Theorem C21_zero : forall a b c d, haversine a b c d = 0 <-> unit_vector a b = unit_vector c d.
Proof. exact hav_zero. Qed.
Print Assumptions C21_zero.
Theorem C21_triangle : forall a b c d e f, haversine a b e f <= haversine a b c d + haversine c d e f.
Proof. exact hav_triangle. Qed.
Print Assumptions C21_triangle.
(** a longitude can be given in any range *)
Theorem C21_periodic : forall a b c d, haversine a b c (d + 360) = haversine a b c d.
Proof. exact hav_periodic. Qed.
Print Assumptions C21_periodic.
Example C21_example : haversine 0 0 0 90 = 90 * PI / 180 * 6378 /\ haversine 0 0 0 350 = 10 * PI / 180 * 6378.
Proof.
  split; [apply hav_equator; lra|]. replace 350 with (-10 + 360) by lra. rewrite hav_periodic, hav_sym. apply (hav_equator2 (-10) 0 10); lra.
Qed.

(** C22, for the kernel itself: see ColProps.v *)
(** the tree shortcut: right for at most 10 data points, whatever queue is used *)
Theorem C22_tree_nearest_partial : forall pop data sample, hpop_contract pop -> rows_of_length 2 data -> data <> [] -> (length data <= 10)%nat ->
  exists res, find_nearest_point pop data sample = Ok res /\ Forall2 (first_nearest data) sample res.
Proof. exact nearest_small. Qed.
Print Assumptions C22_tree_nearest_partial.
Example C22_queue_exists : hpop_contract hpop_min.
Proof. exact hpop_min_contract. Qed.
(** wrong with 12: it answers a point 10 degrees away when another is 1 degree away, across the date line *)
Theorem C22_tree_nearest_refuted : forall pop, hpop_contract pop -> exists data x i k, rows_of_length 2 data /\ (i < length data)%nat /\ (k < length data)%nat /\
  find_nearest_point pop data [x] = Ok [i] /\ row_distance (nth k data []) x < row_distance (nth i data []) x.
Proof.
  intros pop HP. destruct (nearest_tree_wrong pop HP) as (A & B & C). exists nn_data, nn_sample, 0%nat, 11%nat.
  repeat split; auto; try solve [repeat constructor]; try (cbn; lia). rewrite B, C. pose proof PI_RGT_0. lra.
Qed.
Print Assumptions C22_tree_nearest_refuted.
