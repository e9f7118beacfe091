From Verif Require Import Base QBase KDModel KDSpec KDProofs KD2Proofs KD4Proofs HavModel HavSpec HavProofs Hav2Proofs ColModel ColSpec ColProofs Col3Proofs BallModel BallSpec BallProofs Ball2Proofs Ball3Proofs.
From Coq Require Import List Reals Lra Psatz Qreals Permutation.
Import ListNotations.
Open Scope R_scope.

Lemma q2r z : Q2R (inject_Z z) = IZR z.
Proof. unfold Q2R, inject_Z. cbn [Qnum Qden]. rewrite Rinv_1. ring. Qed.
(** *** longitudes of a point before those of the data *)
Definition west : list (list Q) := [[0%Q; 300%Q]; [0%Q; 330%Q]; [0%Q; 350%Q]].
Lemma west_min : min_distance [(0%Q, 0%Q); (300%Q, 350%Q)] [0%Q; (-30)%Q] = 20 * PI / 180 * 6378.
Proof.
  pose proof PI_RGT_0 as P0. unfold min_distance, rmin, rmax, r2. cbn [nth fst snd]. change 0%Q with (inject_Z 0). change 300%Q with (inject_Z 300). change 350%Q with (inject_Z 350). change (-30)%Q with (inject_Z (-30)). rewrite !q2r.
  unfold to_rectangle.
  rewrite (fmod_small (rad (-30) - ((rad 300 + rad 350) / 2 - PI)) (2 * PI)); [|unfold rad; lra..].
  replace (rad (-30) - ((rad 300 + rad 350) / 2 - PI) + ((rad 300 + rad 350) / 2 - PI)) with (rad (-30)) by ring.
  replace (Rleb (rad 300) (rad (-30))) with false. 2: { symmetry. destruct (Rleb _ _) eqn:E; auto. apply Rleb_spec in E. unfold rad in E. lra. } cbn [andb].
  replace (Rltb ((rad 300 + rad 350) / 2 - rad (-30)) PI) with false. 2: { symmetry. destruct (Rltb _ _) eqn:E; auto. apply Rltb_spec in E. unfold rad in E. lra. } rewrite andb_false_r. cbn [orb].
  replace (Rltb ((rad 300 + rad 350) / 2) (rad (-30))) with false. 2: { symmetry. destruct (Rltb _ _) eqn:E; auto. apply Rltb_spec in E. unfold rad in E. lra. } cbn [andb].
  unfold to_side. replace (Rltb (rad (-30) - rad 350) 0) with true. 2: { symmetry. apply Rltb_spec. unfold rad. lra. }
  replace (Rltb (PI / 2) _) with false. 2: { symmetry. destruct (Rltb _ _) eqn:E; auto. apply Rltb_spec in E. unfold rad in E. lra. }
  assert (Z : forall c, Rmin (Rmax c (rad 0)) (rad 0) = rad 0). { intros c. apply Rmin_right. apply Rmax_r. } rewrite Z.
  rewrite <- great_radians, <- haversine_great_circle. replace 350 with (-10 + 360) by lra. rewrite hav_periodic. apply (hav_equator2 (-30) (-10) 20); lra.
Qed.
Lemma pi_gt3' : 3 < PI.
Proof. pose proof (PI2_3_2). lra. Qed.
Theorem west_missed : exists kd, KDTree west 10 = Ok kd /\ Forall is_latitude west /\ is_latitude [0%Q; (-30)%Q] /\ one_turn west /\ row_distance (nth 1 west []) [0%Q; (-30)%Q] = 0 /\ within_distance kd [0%Q; (-30)%Q] 100 = [].
Proof.
  exists (mkKD west [0%Q; 350%Q] [0%Q; 300%Q] (Leaf [0;1;2]%nat)). split; [vm_compute; reflexivity|]. split; [repeat constructor; discriminate|]. split; [split; discriminate|].
  split. { intros a b A B. unfold west in *. repeat (destruct A as [<-|A]; [repeat (destruct B as [<-|B]; [discriminate|]); destruct B|]). destruct A. }
  split.
  - unfold row_distance, latitude, longitude, west. cbn [nth]. change 0%Q with (inject_Z 0). change 330%Q with (inject_Z 330). change (-30)%Q with (inject_Z (-30)). rewrite !q2r. rewrite <- haversine_great_circle. replace 330 with (-30 + 360) by lra.
    rewrite hav_sym, hav_periodic, (hav_equator2 (-30) (-30) 0) by lra. lra.
  - unfold within_distance. cbn [kd_data kd_tree kd_maxes kd_mins]. change (mk_rect [0%Q; 350%Q] [0%Q; 300%Q]) with [(0%Q, 0%Q); (300%Q, 350%Q)]. cbn [hball_point]. rewrite west_min.
    replace (Rgtb _ _) with true; auto. symmetry. apply Rgtb_spec. pose proof pi_gt3'. lra.
Qed.

(** *** the cache after another set of data has been indexed *)
Definition at_lon (lon : Q) : prow := mkRow 0 lon 0 1 0 (Some 1).
Lemma one_index (P : nat -> Prop) l : P 0%nat -> exact_list (fun i => (i < 1)%nat /\ P i) l -> l = [0%nat].
Proof.
  intros P0 [N X]. destruct l as [|a [|b l]].
  - exfalso. apply (proj2 (X 0%nat)). split; auto.
  - assert (A : In a [a]) by (left; auto). apply X in A. f_equal. lia.
  - exfalso. assert (A : In a (a :: b :: l)) by (left; auto). assert (B : In b (a :: b :: l)) by (right; left; auto). apply X in A, B. inversion N as [|? ? NI _]. apply NI. left. lia.
Qed.
Lemma east_far : surface_distance (at_lon 90) (at_lon 0) = 90 * PI / 180 * 6378.
Proof. unfold surface_distance, at_lon. cbn [p_lat p_lon]. change 0%Q with (inject_Z 0). change 90%Q with (inject_Z 90). rewrite !q2r, <- haversine_great_circle, hav_sym. apply hav_equator. lra. Qed.
Theorem stale_cache : exists c1 c2 c3 c4, index_data new_constraint [at_lon 0] = Ok c1 /\ constrain_points (Some 100%Q) None None None [] [] c1 (at_lon 0) [at_lon 0] = Ok (c2, [at_lon 0]) /\
  index_data c2 [at_lon 90] = Ok c3 /\ constrain_points (Some 100%Q) None None None [] [] c3 (at_lon 0) [at_lon 90] = Ok (c4, [at_lon 90]) /\ Q2R 100 < surface_distance (at_lon 90) (at_lon 0).
Proof.
  set (kd := mkKD [[0%Q; 0%Q]] [0%Q; 0%Q] [0%Q; 0%Q] (Leaf [0]%nat)). set (kd2 := mkKD [[0%Q; 90%Q]] [0%Q; 90%Q] [0%Q; 90%Q] (Leaf [0]%nat)).
  assert (K1 : KDTree (map position [at_lon 0]) 10 = Ok kd) by (vm_compute; reflexivity). assert (K2 : KDTree (map position [at_lon 90]) 10 = Ok kd2) by (vm_compute; reflexivity).
  assert (W : within_distance kd (position (at_lon 0)) (Q2R 100) = [0%nat]).
  { apply (one_index (fun i => row_distance (nth i (map position [at_lon 0]) []) (position (at_lon 0)) <= Q2R 100)).
    - cbn [map nth]. unfold row_distance, latitude, longitude, position, at_lon. cbn [p_lat p_lon nth]. change 0%Q with (inject_Z 0). change 100%Q with (inject_Z 100). rewrite !q2r, <- haversine_great_circle, hav_equator by lra. lra.
    - apply (within_exact (map position [at_lon 0]) kd); auto; [repeat constructor|repeat constructor; discriminate|split; discriminate|..].
      + intros a b [<-|[]] [<-|[]]. discriminate.
      + intros a [<-|[]]. discriminate. }
  exists (mkCon (Some kd) []), (mkCon (Some kd) [((0%Q, 0%Q), [0%nat])]), (mkCon (Some kd2) [((0%Q, 0%Q), [0%nat])]), (mkCon (Some kd2) [((0%Q, 0%Q), [0%nat])]).
  split; [unfold index_data; rewrite K1; reflexivity|]. split.
  - unfold constrain_points. cbn [c_index]. change (Qeqb 100 0) with false. cbv iota. unfold cached. cbn [c_cache find option_map]. rewrite W. reflexivity.
  - split; [unfold index_data; rewrite K2; reflexivity|]. split; [reflexivity|]. rewrite east_far. change 100%Q with (inject_Z 100). rewrite q2r. pose proof pi_gt3'. lra.
Qed.
