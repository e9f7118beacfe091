(** C99: places near a position: distances to rectangles of latitude and longitude, the rows within a distance, and the constraint that remembers them. *)
From Verif Require Import Base QBase KDModel KDSpec HavModel HavSpec ColModel ColSpec BallModel BallSpec Ball2Proofs Ball3Proofs Ball4Proofs.
From Coq Require Import List Reals Lra Qreals Permutation.
Import ListNotations.
Open Scope R_scope.

(** the distance to a rectangle of latitudes and longitudes is the great-circle distance to its nearest place, if the position is not more than a turn west of its eastern side *)
Theorem C99_nearest_partial : forall la lb oa ob lat lon : Q, on_globe (Q2R la) (Q2R lb) (Q2R oa) (Q2R ob) -> -90 <= Q2R lat <= 90 -> Q2R ob - 360 <= Q2R lon ->
  nearest_at (Q2R la) (Q2R lb) (Q2R oa) (Q2R ob) (Q2R lat) (Q2R lon) (min_distance [(la, lb); (oa, ob)] [lat; lon]).
Proof. exact (fun la lb oa ob lat lon => min_nearest [(la, lb); (oa, ob)] [lat; lon]). Qed.
Print Assumptions C99_nearest_partial.
(** and the greatest distance is that of its furthest place *)
Theorem C99_furthest_partial : forall la lb oa ob lat lon : Q, on_globe (Q2R la) (Q2R lb) (Q2R oa) (Q2R ob) -> -90 <= Q2R lat <= 90 -> Q2R ob - 360 <= Q2R lon ->
  furthest_at (Q2R la) (Q2R lb) (Q2R oa) (Q2R ob) (Q2R lat) (Q2R lon) (max_distance [(la, lb); (oa, ob)] [lat; lon]).
Proof. exact (fun la lb oa ob lat lon => max_furthest [(la, lb); (oa, ob)] [lat; lon]). Qed.
Print Assumptions C99_furthest_partial.
Example C99_rectangle_example : on_globe (Q2R 0) (Q2R 10) (Q2R (-20)) (Q2R 30) /\ -90 <= Q2R 90 <= 90 /\ Q2R 30 - 360 <= Q2R 170.
Proof. unfold on_globe, Q2R. simpl. lra. Qed.

(** the search in a tree gives the number of every row within the distance, each once *)
Theorem C99_within_partial : forall data kd x r, rows_of_length 2 data -> KDTree data 10 = Ok kd -> Forall is_latitude data -> is_latitude x -> one_turn data -> not_far_east data x ->
  exact_list (fun i => (i < length data)%nat /\ row_distance (nth i data []) x <= r) (within_distance kd x r).
Proof. exact within_exact. Qed.
Print Assumptions C99_within_partial.
(** without the condition on the longitudes it does not: data at longitudes 300 to 350, none of them within 100 km of longitude -30, which is that of the second *)
Theorem C99_longitudes_refuted : exists data kd x, KDTree data 10 = Ok kd /\ Forall is_latitude data /\ is_latitude x /\ one_turn data /\ row_distance (nth 1 data []) x = 0 /\ within_distance kd x 100 = [].
Proof. destruct west_missed as (kd & H). exists west, kd, [0%Q; (-30)%Q]. exact H. Qed.
Print Assumptions C99_longitudes_refuted.

(** a constraint that has indexed the data gives, for one sample after another (some of them at the same place), exactly the rows that it should; a distance of zero or none is no limit *)
Theorem C99_constraint_partial : forall h_sep a_sep p_sep t_sep dcols scols data samples, columns_for a_sep p_sep t_sep dcols -> columns_for a_sep p_sep t_sep scols ->
  Forall positive_pressure data -> Forall positive_pressure samples -> Forall has_latitude data -> Forall has_latitude samples -> longitudes_near data samples -> data <> [] ->
  exists outs, bind (index_data new_constraint data) (fun c => constrain_all h_sep a_sep p_sep t_sep dcols scols c samples data) = Ok outs /\ one_for_each (should_keep h_sep a_sep p_sep t_sep) data samples outs.
Proof. exact constraint_exact. Qed.
Print Assumptions C99_constraint_partial.
Example C99_constraint_example : let data := [at_lon 10; at_lon 20] in let samples := [at_lon 11; at_lon 11; at_lon (-180)] in
  columns_for None None None [LAT; LON] /\ Forall positive_pressure data /\ Forall positive_pressure samples /\ Forall has_latitude data /\ Forall has_latitude samples /\ longitudes_near data samples /\ data <> [].
Proof.
  cbv zeta. split; [split; [congruence|split; congruence]|]. split; [repeat constructor|]. split; [repeat constructor|]. split; [repeat constructor; discriminate|]. split; [repeat constructor; discriminate|]. split; [|discriminate].
  split; intros a b A B; repeat (destruct A as [<-|A]; [repeat (destruct B as [<-|B]; [discriminate|]); destruct B|]); destruct A.
Qed.
(** before any data are indexed the distance is not looked at *)
Theorem C99_not_indexed : forall h_sep a_sep p_sep t_sep dcols scols data samples, columns_for a_sep p_sep t_sep dcols -> columns_for a_sep p_sep t_sep scols ->
  Forall positive_pressure data -> Forall positive_pressure samples ->
  exists outs, constrain_all h_sep a_sep p_sep t_sep dcols scols new_constraint samples data = Ok outs /\ one_for_each (meets_limits a_sep p_sep t_sep) data samples outs.
Proof. exact (fun h a p t dc sc data samples HD HS HP HQ => unlimited_all a p t dc sc data HD HS HP h new_constraint samples HQ (or_introl eq_refl)). Qed.
Print Assumptions C99_not_indexed.
(** when other data are indexed the places asked about before keep their answers: a row at longitude 90 is given as within 100 km of longitude 0 *)
Theorem C99_reindexed_refuted : exists first second sample c1 c2 c3 c4, index_data new_constraint [first] = Ok c1 /\ constrain_points (Some 100%Q) None None None [] [] c1 sample [first] = Ok (c2, [first]) /\
  index_data c2 [second] = Ok c3 /\ constrain_points (Some 100%Q) None None None [] [] c3 sample [second] = Ok (c4, [second]) /\ Q2R 100 < surface_distance second sample.
Proof. exact (ex_intro _ (at_lon 0) (ex_intro _ (at_lon 90) (ex_intro _ (at_lon 0) stale_cache))). Qed.
Print Assumptions C99_reindexed_refuted.
(** fewer data than were indexed, and one near the sample is not among them: an IndexError *)
Theorem C99_fewer : forall h a_sep p_sep t_sep dcols scols first data ref i d, ~ (h == 0)%Q -> Forall has_latitude first -> has_latitude ref -> longitudes_near first [ref] ->
  nth_error first i = Some d -> (length data <= i)%nat -> surface_distance d ref <= Q2R h ->
  bind (index_data new_constraint first) (fun c => constrain_points (Some h) a_sep p_sep t_sep dcols scols c ref data) = Raises IndexError.
Proof. exact fewer_rows. Qed.
Print Assumptions C99_fewer.
Example C99_fewer_example : let first := [at_lon 0; at_lon 5] in let d := at_lon 5 in ~ (100 == 0)%Q /\ Forall has_latitude first /\ has_latitude d /\ longitudes_near first [d] /\
  nth_error first 1 = Some d /\ (length [at_lon 0] <= 1)%nat.
Proof.
  cbv zeta. split; [discriminate|]. split; [repeat constructor; discriminate|]. split; [split; discriminate|]. split; [|split; [reflexivity|cbn; auto]].
  split; intros a b A B; repeat (destruct A as [<-|A]; [repeat (destruct B as [<-|B]; [discriminate|]); destruct B|]); destruct A.
Qed.
