(** C104: masked points of the haversine kd-tree are left out, and the others keep their numbers. *)
From Verif Require Import Base QBase KDModel KDSpec HavModel HavSpec BallModel BallSpec MskModel MskSpec Msk3Proofs.
From Coq Require Import List Reals Permutation Lia.
Import ListNotations.
Open Scope nat_scope.

(** the leaves hold the numbers of the points that are not masked, each once, on the right side of every split *)
Theorem C104_partition : forall mask data m leafsize, 0 < m -> rows_of_length m data -> length mask = length data -> unmasked mask data <> [] -> (1 <= leafsize)%Z ->
  exists kd, HaversineTree data leafsize (Some mask) = Ok kd /\ Permutation (concat (leaf_lists (kd_tree kd))) (unmasked mask (seq 0 (length data))) /\
    splits_ok data m (kd_tree kd) /\ Forall (fun l => length l <= Z.to_nat leafsize \/ share_a_coordinate data m l) (leaf_lists (kd_tree kd)).
Proof. exact masked_partition. Qed.
Print Assumptions C104_partition.
(** the points within a distance: exactly the numbers of those that are not masked and within it; the conditions on latitudes and longitudes are on them only *)
Theorem C104_within_partial : forall mask data x r, rows_of_length 2 data -> length mask = length data -> unmasked mask data <> [] ->
  Forall is_latitude (unmasked mask data) -> is_latitude x -> one_turn (unmasked mask data) -> not_far_east (unmasked mask data) x ->
  exists kd, HaversineTree data 10 (Some mask) = Ok kd /\ exact_list (fun i => shown mask i /\ (row_distance (nth i data []) x <= r)%R) (within_distance kd x r).
Proof. exact masked_within. Qed.
Print Assumptions C104_within_partial.
(** a masked row may be anywhere, and hold anything *)
Example C104_within_example : let mask := [false; true; false] in let data := [[0; 10]; [1000; 5000]; [0; 20]]%Q in
  rows_of_length 2 data /\ length mask = length data /\ unmasked mask data = [[0; 10]; [0; 20]]%Q /\ Forall is_latitude (unmasked mask data) /\ one_turn (unmasked mask data) /\ not_far_east (unmasked mask data) [0; 15]%Q.
Proof.
  cbv zeta. split; [repeat constructor|]. split; [reflexivity|]. split; [reflexivity|]. cbn [unmasked]. split; [repeat constructor; discriminate|].
  split; [intros a b [<-|[<-|[]]] [<-|[<-|[]]]; discriminate|intros a [<-|[<-|[]]]; discriminate].
Qed.
(** pairs of points within a distance (in degrees, by any norm): exactly those of points that are not masked *)
Theorem C104_pairs : forall mask data m leafsize kd r p, 0 < m -> rows_of_length m data -> length mask = length data -> unmasked mask data <> [] -> HaversineTree data leafsize (Some mask) = Ok kd ->
  forall a b, In (a, b) (query_pairs kd r p 0) <-> a < b /\ shown mask a /\ shown mask b /\ close p (nth a data []) (nth b data []) r.
Proof. exact masked_pairs. Qed.
Print Assumptions C104_pairs.
(** every other query answers what it answers for the points left, by their numbers among all the points: masked samples have no neighbours, masked points are nobody's, and none is counted *)
Theorem C104_answers : forall m1 m2 d1 d2 ls1 ls2, rows_of_length 2 d1 -> rows_of_length 2 d2 -> length m1 = length d1 -> length m2 = length d2 ->
  unmasked m1 d1 <> [] -> unmasked m2 d2 <> [] -> (1 <= ls1)%Z -> (1 <= ls2)%Z ->
  exists k1 k2 k1' k2', HaversineTree d1 ls1 (Some m1) = Ok k1 /\ HaversineTree d2 ls2 (Some m2) = Ok k2 /\ KDTree (unmasked m1 d1) ls1 = Ok k1' /\ KDTree (unmasked m2 d2) ls2 = Ok k2' /\
    (forall x r, within_distance k1 x r = map (number m1) (within_distance k1' x r)) /\
    (forall r, length (hquery_ball_tree k1 k2 r) = length d1 /\ (forall i, ~ shown m1 i -> nth i (hquery_ball_tree k1 k2 r) [] = []) /\
       (forall j, j < length (unmasked m1 d1) -> nth (number m1 j) (hquery_ball_tree k1 k2 r) [] = map (number m2) (nth j (hquery_ball_tree k1' k2' r) []))) /\
    (forall r p eps, query_pairs k1 r p eps = map (numbers m1) (query_pairs k1' r p eps)) /\
    (forall rs p, count_neighbors k1 k2 rs p = count_neighbors k1' k2' rs p) /\
    (forall r p, sparse_distance_matrix k1 k2 r p = map (fun e => ((number m1 (fst (fst e)), number m2 (snd (fst e))), snd e)) (sparse_distance_matrix k1' k2' r p)).
Proof. exact masked_answers. Qed.
Print Assumptions C104_answers.
Example C104_numbers_example : let m := [true; false; true; false; false] in map (number m) [0; 1; 2] = [1; 3; 4] /\ unmasked m [10; 20; 30; 40; 50] = [20; 40; 50] /\ shown m 3 /\ ~ shown m 2 /\ ~ shown m 5.
Proof. cbv zeta. repeat split; try reflexivity; unfold shown; cbn; discriminate. Qed.
(** the nearest point is never a masked one *)
Theorem C104_nearest : forall mask data m leafsize kd pop x, 0 < m -> rows_of_length m data -> length mask = length data -> unmasked mask data <> [] ->
  HaversineTree data leafsize (Some mask) = Ok kd -> hpop_contract pop -> exists i, hquery pop kd x = Ok i /\ (i = length data \/ shown mask i).
Proof. exact masked_nearest. Qed.
Print Assumptions C104_nearest.
(** when every point is masked there is a tree, which answers that there is nothing *)
Theorem C104_none_left : forall mask data leafsize, length mask = length data -> data <> [] -> unmasked mask data = [] -> (1 <= leafsize)%Z ->
  exists kd, HaversineTree data leafsize (Some mask) = Ok kd /\ (forall x r, within_distance kd x r = []) /\ (forall pop x, hpop_contract pop -> hquery pop kd x = Ok (length data)) /\
    (forall other r, hquery_ball_tree kd other r = repeat [] (length data)) /\ (forall r p eps, query_pairs kd r p eps = []).
Proof. exact none_left. Qed.
Print Assumptions C104_none_left.
(** no points at all, or leaves of less than one, are refused, and so is a mask of a wrong length *)
Theorem C104_rejects : forall data leafsize mask, (leafsize < 1)%Z \/ data = [] -> HaversineTree data leafsize mask = Raises ValueError.
Proof. exact tree_rejects. Qed.
Print Assumptions C104_rejects.
Theorem C104_wrong_mask : forall data leafsize m, (1 <= leafsize)%Z -> data <> [] -> length m <> length data -> length m <> 1 -> HaversineTree data leafsize (Some m) = Raises MaskError.
Proof. exact wrong_mask. Qed.
Print Assumptions C104_wrong_mask.
(** one value for all the points, and no mask *)
Theorem C104_one_value : forall data leafsize b, HaversineTree data leafsize (Some [b]) = HaversineTree data leafsize (Some (repeat b (length data))).
Proof. exact one_mask. Qed.
Print Assumptions C104_one_value.
(** data without a mask, whatever holds them, give the tree of all the points; the index of masked data leaves out theirs *)
Theorem C104_index_unmasked : forall points, create_index points NoValues = KDTree points 10 /\ create_index points Plain = KDTree points 10.
Proof. exact (fun points => conj (no_mask points 10) (nothing_masked points 10)). Qed.
Print Assumptions C104_index_unmasked.
Theorem C104_index_masked_partial : forall mask points x r, rows_of_length 2 points -> length mask = length points -> unmasked mask points <> [] ->
  Forall is_latitude (unmasked mask points) -> is_latitude x -> one_turn (unmasked mask points) -> not_far_east (unmasked mask points) x ->
  exists kd, create_index points (Masked mask) = Ok kd /\ exact_list (fun i => shown mask i /\ (row_distance (nth i points []) x <= r)%R) (within_distance kd x r).
Proof. exact masked_within. Qed.
Print Assumptions C104_index_masked_partial.
