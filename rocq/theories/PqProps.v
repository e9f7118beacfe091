(** C105: arrays of points asked of a tree, and matrices of distances. *)
From Verif Require Import Base QBase KDModel KDSpec KD4Proofs PqModel PqSpec Pq2Proofs Pq3Proofs.
From Coq Require Import List Lia.
Import ListNotations.
Open Scope nat_scope.

(** the k nearest of one point: k distances and numbers, the hits and then infinite distances; two numbers, and no arrays, when k is one *)
Theorem C105_one_point : forall pop data m leafsize kd p, heap_pop_contract pop -> 0 < m -> rows_of_length m data -> KDTree data leafsize = Ok kd -> p <> PN 0 ->
  forall x k, length x = m -> 1 <= k -> exists hits dd ii, nearest_ones p data x k hits /\ answers k (length data) hits dd ii /\
    query_array pop kd 0 p None (alone m x) (Some (Z.of_nat k)) = Ok (Numbers (if k =? 1 then [] else [k]) dd ii).
Proof. exact single_nearest. Qed.
Print Assumptions C105_one_point.
(** an array of points of any shape: that shape, with one more dimension of k when k is more than one, and in each place the k nearest of the point that is there *)
Theorem C105_array : forall pop data m leafsize kd p, heap_pop_contract pop -> 0 < m -> rows_of_length m data -> KDTree data leafsize = Ok kd -> p <> PN 0 ->
  forall x k, well_shaped m x -> p_shape x <> [] -> 1 <= k -> exists dd ii,
    query_array pop kd 0 p None x (Some (Z.of_nat k)) = Ok (Numbers (p_shape x ++ (if k =? 1 then [] else [k])) dd ii) /\ length dd = length (p_cells x) * k /\ length ii = length (p_cells x) * k /\
    forall c y, nth_error (p_cells x) c = Some y -> exists hits, nearest_ones p data y k hits /\ answers k (length data) hits (part k c dd) (part k c ii).
Proof. exact array_nearest. Qed.
Print Assumptions C105_array.
Example C105_array_example : well_shaped 2 (mkPoints [2; 3] 2 [[0; 0]; [1; 0]; [2; 0]; [0; 1]; [1; 1]; [2; 1]]%Q) /\ well_shaped 1 (mkPoints [4; 0] 1 []) /\
  part 2 1 [10; 11; 20; 21; 30; 31] = [20; 21].
Proof. repeat split; repeat constructor. Qed.
(** also with an error and a bound each place holds the answer for its point alone *)
Theorem C105_each_alone : forall pop data m leafsize kd eps p bound, heap_pop_contract pop -> 0 < m -> rows_of_length m data -> KDTree data leafsize = Ok kd -> (0 <= eps)%Q -> p <> PN 0 -> bound_ok bound ->
  forall x k, well_shaped m x -> p_shape x <> [] -> 1 <= k -> exists dd ii,
    query_array pop kd eps p bound x (Some (Z.of_nat k)) = Ok (Numbers (p_shape x ++ (if k =? 1 then [] else [k])) dd ii) /\ length dd = length (p_cells x) * k /\ length ii = length (p_cells x) * k /\
    forall c y, nth_error (p_cells x) c = Some y -> query_array pop kd eps p bound (alone m y) (Some (Z.of_nat k)) = Ok (Numbers (if k =? 1 then [] else [k]) (part k c dd) (part k c ii)).
Proof. exact array_k. Qed.
Print Assumptions C105_each_alone.
(** all the points, nearest first, when no number is wanted; for an array, a list in each place *)
Theorem C105_all_points : forall pop data m leafsize kd p, heap_pop_contract pop -> 0 < m -> rows_of_length m data -> KDTree data leafsize = Ok kd -> p <> PN 0 ->
  forall x, length x = m -> exists dd ii, query_array pop kd 0 p None (alone m x) None = Ok (Lists [] [dd] [ii]) /\ length dd = length ii /\ nearest_ones p data x (length data) (combine dd ii).
Proof. exact single_all_points. Qed.
Print Assumptions C105_all_points.
Theorem C105_all_points_array : forall pop data m leafsize kd eps p bound, heap_pop_contract pop -> 0 < m -> rows_of_length m data -> KDTree data leafsize = Ok kd -> (0 <= eps)%Q -> p <> PN 0 -> bound_ok bound ->
  forall x, well_shaped m x -> p_shape x <> [] -> exists dd ii, query_array pop kd eps p bound x None = Ok (Lists (p_shape x) dd ii) /\ length dd = length (p_cells x) /\ length ii = length (p_cells x) /\
    forall c y, nth_error (p_cells x) c = Some y -> query_array pop kd eps p bound (alone m y) None = Ok (Lists [] [nth c dd []] [nth c ii []]).
Proof. exact array_all. Qed.
Print Assumptions C105_all_points_array.
(** what is refused: points of another length, a norm of order less than one, and, for an array, fewer than one neighbour *)
Theorem C105_width : forall pop data m leafsize kd eps p bound x k, 0 < m -> rows_of_length m data -> KDTree data leafsize = Ok kd -> p_width x <> m -> query_array pop kd eps p bound x k = Raises ValueError.
Proof. exact width_refused. Qed.
Print Assumptions C105_width.
Theorem C105_norm : forall pop kd eps bound x k, query_array pop kd eps (PN 0) bound x k = Raises ValueError.
Proof. exact norm_refused. Qed.
Print Assumptions C105_norm.
Theorem C105_fewer_partial : forall pop data m leafsize kd eps p bound, 0 < m -> rows_of_length m data -> KDTree data leafsize = Ok kd -> p <> PN 0 ->
  forall k, (k < 1)%Z -> (forall x, p_width x = m -> p_shape x <> [] -> query_array pop kd eps p bound x (Some k) = Raises ValueError) /\
    (forall x, (k < 0)%Z -> length x = m -> query_array pop kd eps p bound (alone m x) (Some k) = Raises ValueError).
Proof. exact (fun pop data m ls kd eps p bound M R K PP k L => conj (fun x W NS => array_refused pop data m ls kd eps p bound M R K PP x k W NS L) (fun x L0 X => single_negative pop data m ls kd eps p bound M R K PP x k X L0)). Qed.
Print Assumptions C105_fewer_partial.
(** one point without a neighbour wanted: not that error, since the search is made before the check *)
Theorem C105_none_wanted_refuted : forall pop data m leafsize kd p, heap_pop_contract pop -> 0 < m -> rows_of_length m data -> KDTree data leafsize = Ok kd -> p <> PN 0 ->
  forall x, length x = m -> query_array pop kd 0 p None (alone m x) (Some 0%Z) = Raises IndexError.
Proof. exact single_zero. Qed.
Print Assumptions C105_none_wanted_refuted.
(** the points within a distance of each of an array of points: a list in each place, exactly those of the point that is there *)
Theorem C105_near : forall data m leafsize kd x r p, 0 < m -> rows_of_length m data -> KDTree data leafsize = Ok kd -> well_shaped m x -> p_shape x <> [] ->
  exists lists, query_ball_array kd x r p 0 = Ok (NearAll (p_shape x) lists) /\ Forall2 (fun y l => exact_list (fun i => i < length data /\ close p (nth i data []) y r) l) (p_cells x) lists.
Proof. exact near_exact. Qed.
Print Assumptions C105_near.
Theorem C105_near_each_alone : forall data m leafsize kd, 0 < m -> rows_of_length m data -> KDTree data leafsize = Ok kd -> forall r eps p x, well_shaped m x -> p_shape x <> [] ->
  exists lists, query_ball_array kd x r p eps = Ok (NearAll (p_shape x) lists) /\ Forall2 (fun y l => query_ball_array kd (alone m y) r p eps = Ok (NearOne l)) (p_cells x) lists.
Proof. exact near_each. Qed.
Print Assumptions C105_near_each_alone.
Theorem C105_near_width : forall data m leafsize kd, 0 < m -> rows_of_length m data -> KDTree data leafsize = Ok kd -> forall r eps p x, p_width x <> m -> query_ball_array kd x r p eps = Raises ValueError.
Proof. exact near_refused. Qed.
Print Assumptions C105_near_width.
(** the matrix of distances: the distance of every pair, however it is computed and whatever was in memory before *)
Theorem C105_matrix : forall x y p threshold junk, p <> PN 0 -> Forall (fun v => length v = m_columns x) (m_rows x) -> Forall (fun v => length v = m_columns y) (m_rows y) -> m_columns x = m_columns y ->
  length junk = length (m_rows x) -> Forall (fun line => length line = length (m_rows y)) junk ->
  exists M, distance_matrix x y p threshold junk = Ok M /\ entries (fun i j => distance_power p (nth i (m_rows x) []) (nth j (m_rows y) [])) (length (m_rows x)) (length (m_rows y)) M.
Proof. exact matrix_entries. Qed.
Print Assumptions C105_matrix.
Theorem C105_matrix_width : forall x y p threshold junk, m_columns x <> m_columns y -> distance_matrix x y p threshold junk = Raises ValueError.
Proof. exact matrix_refused. Qed.
Print Assumptions C105_matrix_width.
Example C105_matrix_example : let x := mkMatrix [[0; 0]; [0; 1]]%Q 2 in distance_matrix x x (PN 1) 0 [[7; 7]; [7; 7]]%Q = Ok [[0; 1]; [1; 0]]%Q /\ distance_matrix x x (PN 1) 8 [] = Ok [[0; 1]; [1; 0]]%Q.
Proof. split; vm_compute; reflexivity. Qed.
