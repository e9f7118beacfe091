From Verif Require Import Base QBase KDModel KDSpec KDProofs KD2Proofs KD4Proofs HavModel HavSpec HavProofs Hav2Proofs Hav3Proofs Hav4Proofs.
From Coq Require Import Reals Lra Psatz Qreals.
Open Scope R_scope.

Lemma arc_chord a b c d r : 0 <= r <= PI * 6378 -> great_circle a b c d <= r -> chord_km a b c d <= chord_of_arc r.
Proof.
  intros Hr H. rewrite <- haversine_great_circle, hav_dot in H. rewrite chord_dot. set (D := dotp a b c d) in *. pose proof (dotp_range a b c d) as RD. fold D in RD.
  unfold chord_of_arc. set (h := r / (2 * 6378)) in *. pose proof PI_RGT_0 as PI0. assert (Hh : 0 <= h <= PI / 2).
  { unfold h. split; [apply Rmult_le_pos; [lra|]; apply Rlt_le, Rinv_0_lt_compat; lra|]. apply (Rmult_le_reg_r (2 * 6378)); [lra|]. unfold Rdiv. rewrite Rmult_assoc, Rinv_l by lra. lra. }
  assert (Sh : 0 <= sin h) by (apply sin_ge_0; lra).
  replace r with (6378 * (2 * h)) in H by (unfold h; field). assert (A : acos D <= 2 * h) by lra.
  assert (C : cos (2 * h) <= D). { rewrite <- (cos_acos D) by lra. pose proof (acos_bound D). apply cos_decr_1; lra. }
  rewrite cos_2a_sin in C. assert (S : sqrt (2 - 2 * D) <= 2 * sin h).
  { apply Rsqr_incr_0_var; [|lra]. rewrite Rsqr_sqrt by lra. unfold Rsqr. lra. }
  lra.
Qed.

Theorem find_points_equator data sample r oa ob : rows_of_length 2 data -> rows_of_length 2 sample -> data <> [] -> sample <> [] ->
  Forall (in_box 0 0 oa ob) data -> Forall (in_box 0 0 oa ob) sample -> (ob - oa <= 90)%Q -> 0 <= r <= PI * 6378 ->
  exists res, find_points_within_distance_sample data sample r = Ok res /\ length res = length sample /\
    forall i, (i < length sample)%nat -> exact_list (fun j => (j < length data)%nat /\ row_distance (nth j data []) (nth i sample []) <= r) (nth i res []).
Proof.
  intros HD HS ND NS BD BS HO Hr.
  destruct (find_points_sound data sample r HD HS ND NS 0 0 oa ob BD BS) as (res & E & L & S); [left; split; lra|auto|].
  destruct (find_points_complete data sample r HD HS ND NS 0 0 oa ob BD BS 0) as (res' & E' & L' & S'); [lra|replace (Q2R 0) with 0 by (unfold Q2R; simpl; lra); lra|lra|auto|].
  rewrite E in E'. injection E' as <-. exists res. split; auto. split; auto. intros i Hi. destruct (S i Hi) as (N1 & N2 & _). destruct (S' i Hi) as (_ & _ & N3).
  split; auto. intros j. split; [apply N2|]. intros [Hj Hd]. apply N3; auto. unfold radians. replace (0 * PI / 180) with 0 by lra. rewrite cos_0, Rmult_1_l. apply arc_chord; auto.
Qed.

(** ** Failures *)
Lemma single_query p q r : find_points_within_distance_sample [q] [p] r =
  Ok [if Rgtb (hmin_distance_rectangle (mk_rect p p) (mk_rect q q)) r then [] else if Rltb (hmax_distance_rectangle (mk_rect p p) (mk_rect q q)) r then [0%nat]
      else if Rleb (hdist (r2 q) (r2 p)) r then [0%nat] else []].
Proof.
  unfold find_points_within_distance_sample, KDTree. change (10 <? 1)%Z with false. cbv iota. cbn [maxes_of mins_of bind fold_left length]. cbn [build]. change (length (seq 0 1) <=? Z.to_nat 10)%nat with true. cbv iota. cbn [bind].
  unfold hquery_ball_tree. cbn [kd_tree kd_data kd_maxes kd_mins length seq map]. rewrite htraverse_eq.
  destruct (Rgtb _ r); [reflexivity|]. destruct (Rltb _ r); [reflexivity|]. cbn [flat_map filter map row nth app]. change (row [q] 0) with q. change (row [p] 0) with p. destruct (Rleb _ r); reflexivity.
Qed.
Definition P60_0 : list Q := [60; 0]%Q.
Definition P60_60 : list Q := [60; 60]%Q.
Definition Pm45_0 : list Q := [-45; 0]%Q.
Definition P45_90 : list Q := [45; 90]%Q.
Lemma rad60 : 60 * PI / 180 = PI / 3. Proof. field. Qed.
Lemma pi_gt3 : 3 < PI. Proof. pose proof PI2_3_2. lra. Qed.
Theorem missed : row_distance P60_60 P60_0 <= 6378 /\ find_points_within_distance_sample [P60_60] [P60_0] 6378 = Ok [[]].
Proof.
  split.
  - unfold row_distance. rewrite <- haversine_great_circle, hav_dot. unfold P60_60, P60_0, latitude, longitude. cbn [nth].
    rewrite dotp_diff. replace (Q2R 60) with 60 by (unfold Q2R; simpl; lra). replace (Q2R 0) with 0 by (unfold Q2R; simpl; lra). unfold radians.
    replace ((60 - 60) * PI / 180) with 0 by field. replace ((0 - 60) * PI / 180) with (- (PI / 3)) by field. rewrite rad60, cos_0, cos_neg, cos_PI3.
    assert (A : acos (1 - 1 / 2 * (1 / 2) * (1 - 1 / 2)) <= PI / 4).
    { rewrite <- (acos_cos (PI / 4)) by (pose proof PI_RGT_0; lra). apply acos_anti; [pose proof (COS_bound (PI / 4)); lra| |lra].
      rewrite cos_PI4. assert (S : 8 / 7 <= sqrt 2). { rewrite <- (sqrt_Rsqr (8 / 7)) by lra. apply sqrt_le_1_alt. unfold Rsqr. lra. }
      assert (sqrt 2 <> 0) by lra. apply (Rmult_le_reg_r (sqrt 2)); [lra|]. unfold Rdiv at 1. rewrite Rmult_assoc, Rinv_l by auto. lra. }
    pose proof PI_4. lra.
  - rewrite single_query. assert (E : Rgtb (hmin_distance_rectangle (mk_rect P60_0 P60_0) (mk_rect P60_60 P60_60)) 6378 = true); [|rewrite E; reflexivity].
    apply Rgtb_spec. unfold hmin_distance_rectangle, rmin, rmax, mk_rect, zipw, P60_0, P60_60. cbn [combine map fst snd nth].
    assert (M0 : Qmin 60 60 = 60%Q) by reflexivity. assert (M1 : Qmax 60 60 = 60%Q) by reflexivity. assert (M2 : Qmin 0 0 = 0%Q) by reflexivity. assert (M3 : Qmax 0 0 = 0%Q) by reflexivity.
    rewrite M0, M1, M2, M3. replace (Q2R 60) with 60 by (unfold Q2R; simpl; lra). replace (Q2R 0) with 0 by (unfold Q2R; simpl; lra).
    unfold hmax0. replace (60 - 60) with 0 by ring. rewrite (Rmax_left 0 0) by lra. rewrite (Rmax_left 0 0) by lra. rewrite (Rmax_right (0 - 60)) by lra. rewrite Rmax_right by lra.
    rewrite hav_equator by lra. pose proof pi_gt3. lra.
Qed.
Theorem wrongly_included : row_distance P45_90 Pm45_0 = 120 * PI / 180 * 6378 /\ find_points_within_distance_sample [P45_90] [Pm45_0] (100 * PI / 180 * 6378) = Ok [[0%nat]].
Proof.
  assert (Q1 : Q2R 45 = 45) by (unfold Q2R; simpl; lra). assert (Q2 : Q2R (-45) = -45) by (unfold Q2R; simpl; lra). assert (Q3 : Q2R 90 = 90) by (unfold Q2R; simpl; lra). assert (Q4 : Q2R 0 = 0) by (unfold Q2R; simpl; lra).
  pose proof PI_RGT_0 as PI0. split.
  - unfold row_distance. rewrite <- haversine_great_circle, hav_dot. unfold P45_90, Pm45_0, latitude, longitude. cbn [nth].
    rewrite dotp_diff, Q1, Q2, Q3, Q4. unfold radians. replace ((-45 - 45) * PI / 180) with (- (PI / 2)) by field. replace ((0 - 90) * PI / 180) with (- (PI / 2)) by field.
    replace (45 * PI / 180) with (PI / 4) by field. replace (-45 * PI / 180) with (- (PI / 4)) by field. rewrite !cos_neg, cos_PI2, cos_PI4.
    assert (H : 1 / sqrt 2 * (1 / sqrt 2) = 1 / 2). { assert (S : sqrt 2 * sqrt 2 = 2) by (apply sqrt_sqrt; lra). assert (sqrt 2 <> 0) by (pose proof (sqrt_lt_R0 2 ltac:(lra)); lra).
      replace (1 / sqrt 2 * (1 / sqrt 2)) with (1 / (sqrt 2 * sqrt 2)) by (field; auto). rewrite S. reflexivity. }
    rewrite H. replace (0 - 1 / 2 * (1 - 0)) with (cos (2 * (PI / 3))) by (rewrite cos_2PI3; lra). rewrite acos_cos by lra. field.
  - rewrite single_query.
    assert (HM : hmin_distance_rectangle (mk_rect Pm45_0 Pm45_0) (mk_rect P45_90 P45_90) = PI / 2 * 6378 /\ hmax_distance_rectangle (mk_rect Pm45_0 Pm45_0) (mk_rect P45_90 P45_90) = PI / 2 * 6378).
    { unfold hmin_distance_rectangle, hmax_distance_rectangle, rmin, rmax, mk_rect, zipw, P45_90, Pm45_0. cbn [combine map fst snd nth].
      assert (M0 : Qmin 45 45 = 45%Q) by reflexivity. assert (M1 : Qmax 45 45 = 45%Q) by reflexivity. assert (M2 : Qmin 0 0 = 0%Q) by reflexivity. assert (M3 : Qmax 0 0 = 0%Q) by reflexivity.
      assert (M4 : Qmin 90 90 = 90%Q) by reflexivity. assert (M5 : Qmax 90 90 = 90%Q) by reflexivity. assert (M6 : Qmin (-45) (-45) = (-45)%Q) by reflexivity. assert (M7 : Qmax (-45) (-45) = (-45)%Q) by reflexivity.
      rewrite M0, M1, M2, M3, M4, M5, M6, M7, Q1, Q2, Q3, Q4. unfold hmax0.
      replace (Rmax (-45 - 45) (45 - -45)) with 90 by (rewrite Rmax_right; lra). replace (Rmax (0 - 90) (90 - 0)) with 90 by (rewrite Rmax_right; lra). rewrite !(Rmax_right 0 90) by lra.
      rewrite hav_dot, dotp_0. unfold radians. replace (90 * PI / 180) with (PI / 2) by field. rewrite cos_PI2, Rmult_0_l, acos_0. split; lra. }
    destruct HM as [-> ->]. assert (E1 : Rgtb (PI / 2 * 6378) (100 * PI / 180 * 6378) = false) by (apply Rgtb_false; lra).
    assert (E2 : Rltb (PI / 2 * 6378) (100 * PI / 180 * 6378) = true) by (apply Rltb_spec; lra). rewrite E1, E2. reflexivity.
Qed.

(** ** The nearest point from the tree *)
Lemma small_tree data : rows_of_length 2 data -> data <> [] -> (length data <= 10)%nat -> exists kd, KDTree data 10 = Ok kd /\ kd_data kd = data /\ kd_tree kd = Leaf (seq 0 (length data)).
Proof.
  intros HR HN HL. destruct data as [|x rows]; [congruence|]. unfold KDTree. change (10 <? 1)%Z with false. cbv iota. cbn [maxes_of mins_of bind].
  cbn [build]. rewrite seq_length. change (Z.to_nat 10) with 10%nat. destruct (Nat.leb_spec (length (x :: rows)) 10); [|lia]. cbn [bind]. eexists. split; [reflexivity|]. split; reflexivity.
Qed.
Lemma hleaf_first data x : forall idx best, exists r, fold_left (hleaf_step data x) idx best = r /\
  (forall d i, best = Some (d, i) -> exists d' i', r = Some (d', i') /\ d' <= d) /\
  ((r = best /\ Forall (fun i => exists d b, best = Some (d, b) /\ d <= hdist (r2 (row data i)) (r2 x)) idx) \/
   exists l1 i l2, idx = l1 ++ i :: l2 /\ r = Some (hdist (r2 (row data i)) (r2 x), i) /\
     Forall (fun k => hdist (r2 (row data i)) (r2 x) <= hdist (r2 (row data k)) (r2 x)) idx /\ Forall (fun k => hdist (r2 (row data i)) (r2 x) < hdist (r2 (row data k)) (r2 x)) l1 /\
     forall d b, best = Some (d, b) -> hdist (r2 (row data i)) (r2 x) < d).
Proof.
  induction idx as [|i idx IH]; intros best; cbn [fold_left].
  - exists best. split; auto. split; [intros d i ->; exists d, i; split; [auto|lra]|]. left. auto.
  - unfold hleaf_step at 2. set (h := fun k => hdist (r2 (row data k)) (r2 x)) in *. change (hdist (r2 (row data i)) (r2 x)) with (h i). cbv zeta.
    destruct (below (h i) (best_bound best)) eqn:E.
    + destruct (IH (Some (h i, i))) as (r & E1 & E2 & E3). exists r. split; auto.
      assert (LT : forall d b, best = Some (d, b) -> h i < d) by (intros d b ->; cbn in E; apply Rltb_spec in E; auto).
      split. { intros d b Eb. destruct (E2 _ _ eq_refl) as (d' & i' & -> & L). exists d', i'. split; auto. specialize (LT _ _ Eb). lra. }
      right. destruct E3 as [[-> F]|(l1 & k & l2 & -> & -> & F1 & F2 & F3)].
      * exists [], i, idx. split; [reflexivity|]. split; auto. split; [constructor; [apply Rle_refl|]; eapply Forall_impl; [|exact F]; intros k (d & b & Eb & L); injection Eb as <- <-; exact L|]. split; [constructor|auto].
      * exists (i :: l1), k, l2. split; [reflexivity|]. split; auto. specialize (F3 _ _ eq_refl). split; [constructor; [apply Rlt_le; exact F3|exact F1]|]. split; [constructor; auto|].
        intros d b Eb. specialize (LT _ _ Eb). change (h k < h i) in F3. change (h k < d). lra.
    + destruct best as [[d b]|]; [|discriminate]. cbn in E. apply Rltb_false in E. destruct (IH (Some (d, b))) as (r & E1 & E2 & E3). exists r. split; auto. split; auto.
      destruct E3 as [[-> F]|(l1 & k & l2 & -> & -> & F1 & F2 & F3)].
      * left. split; auto. constructor; auto. exists d, b. auto.
      * right. exists (i :: l1), k, l2. specialize (F3 _ _ eq_refl). split; [reflexivity|]. split; auto. change (h k < d) in F3. split; [constructor; [change (h k <= h i); lra|exact F1]|]. split; [constructor; [change (h k < h i); lra|exact F2]|].
        intros d' b' Eb. injection Eb as <- <-. auto.
Qed.
Lemma pop_single pop e : hpop_contract pop -> pop [e] = Some (e, []).
Proof.
  intros [_ C]. destruct (C [e] ltac:(discriminate)) as (e' & q' & E & P & _). rewrite E. apply Permutation_length_1_inv in P. congruence.
Qed.
Theorem nearest_small pop data sample : hpop_contract pop -> rows_of_length 2 data -> data <> [] -> (length data <= 10)%nat ->
  exists res, find_nearest_point pop data sample = Ok res /\ Forall2 (first_nearest data) sample res.
Proof.
  intros HC HR HN HL. destruct (small_tree data HR HN HL) as (kd & E & KD & KT). unfold find_nearest_point. rewrite E. cbn [bind].
  induction sample as [|x sample IH]; [exists []; auto|]. destruct IH as (res & IH & F).
  assert (Q : exists i, hquery pop kd x = Ok i /\ first_nearest data x i).
  { unfold hquery. rewrite KT, KD. cbn [nodes]. cbn [hquery_loop]. rewrite (pop_single pop _ HC). cbn [he_node].
    destruct (hleaf_first data x (seq 0 (length data)) None) as (r & E1 & _ & E3). rewrite E1.
    destruct E3 as [[-> F0]|(l1 & i & l2 & EI & -> & F1 & F2 & _)].
    { exfalso. destruct data as [|y d]; [congruence|]. cbn [length seq] in F0. inversion F0 as [|a b (d' & b' & Eb & _) _]. discriminate. }
    assert (PN : pop [] = None) by apply HC.
    exists i. split.
    - rewrite PN. reflexivity.
    - assert (LI : i = length l1 /\ (i < length data)%nat).
      { assert (nth (length l1) (seq 0 (length data)) 0%nat = i) by (rewrite EI, app_nth2, Nat.sub_diag by lia; reflexivity).
        assert (LL : (length l1 < length data)%nat) by (rewrite <- (seq_length (length data) 0), EI, app_length; simpl; lia). rewrite seq_nth in H by auto. simpl in H. lia. }
      destruct LI as [LI LB]. split; auto. rewrite Forall_forall in F1, F2. split.
      + intros k Hk. rewrite <- !hdist_row. apply F1. apply in_seq. lia.
      + intros k Hk. rewrite <- !hdist_row. apply F2. assert (nth k (seq 0 (length data)) 0%nat = k) by (rewrite seq_nth by lia; reflexivity).
        rewrite <- H, EI, app_nth1 by lia. apply nth_In. lia. }
  destruct Q as (i & E1 & F1). exists (i :: res). rewrite E1. cbn [bind]. rewrite IH. cbn [bind]. auto.
Qed.

(** the queue exists: take out the first smallest entry *)
Fixpoint hpop_min (q : list hentry) : option (hentry * list hentry) :=
  match q with
  | [] => None
  | e :: q => match hpop_min q with None => Some (e, []) | Some (e', q') => if Rleb (he_min e) (he_min e') then Some (e, q) else Some (e', e :: q') end
  end.
Lemma hpop_min_contract : hpop_contract hpop_min.
Proof.
  split; auto. induction q as [|e q IH]; intros HN; [congruence|]. cbn [hpop_min]. destruct q as [|e2 q].
  - exists e, []. cbn. split; auto.
  - destruct (IH ltac:(discriminate)) as (e' & q' & E & P & F). rewrite E. destruct (Rleb (he_min e) (he_min e')) eqn:EL.
    + apply Rleb_spec in EL. exists e, (e2 :: q). split; auto. split; auto. eapply Permutation_Forall; [apply Permutation_sym; exact P|]. constructor; auto. eapply Forall_impl; [|exact F]. intros a Ha. cbn beta in Ha. lra.
    + exists e', (e :: q'). split; auto. split; [eapply Permutation_trans; [apply perm_skip; exact P|apply perm_swap]|]. constructor; auto.
      destruct (Rle_dec (he_min e) (he_min e')) as [H|H]; [apply Rleb_spec in H; congruence|lra].
Qed.

Definition nn_data : list (list Q) := [0; -170]%Q :: repeat [0; 100]%Q 10 ++ [[0; 179]%Q].
Definition nn_sample : list Q := [0; -180]%Q.
Definition nn_tree : node := Inner 1 (9 # 2) (Leaf [0%nat]) (Inner 1 100 (Leaf [1; 2; 3; 4; 5; 6; 7; 8; 9; 10]%nat) (Leaf [11%nat])).
Lemma nn_built : exists kd s1 s2, KDTree nn_data 10 = Ok kd /\ kd_data kd = nn_data /\ kd_maxes kd = [0; 179]%Q /\ kd_mins kd = [0; -170]%Q /\
  kd_tree kd = Inner 1 s1 (Leaf [0%nat]) (Inner 1 s2 (Leaf [1; 2; 3; 4; 5; 6; 7; 8; 9; 10]%nat) (Leaf [11%nat])) /\ (s1 == 9 # 2)%Q /\ (s2 == 100)%Q.
Proof. destruct (KDTree nn_data 10) as [kd|] eqn:E; vm_compute in E; [|discriminate]. injection E as <-. eexists _, _, _. split; [reflexivity|]. repeat split. Qed.
Lemma pop_two pop e1 e2 : hpop_contract pop -> he_min e2 < he_min e1 -> pop [e1; e2] = Some (e2, [e1]).
Proof.
  intros [_ C] HL. destruct (C [e1; e2] ltac:(discriminate)) as (e & q & E & P & F). rewrite E.
  destruct (Permutation_length_2_inv P) as [X|X]; injection X as -> ->; auto. inversion F; subst. lra.
Qed.
Theorem nearest_tree_wrong pop : hpop_contract pop -> find_nearest_point pop nn_data [nn_sample] = Ok [0%nat] /\
  row_distance (nth 0 nn_data []) nn_sample = 10 * PI / 180 * 6378 /\ row_distance (nth 11 nn_data []) nn_sample = 1 * PI / 180 * 6378.
Proof.
  intros HC. assert (Q0 : Q2R 0 = 0) by (unfold Q2R; simpl; lra). assert (Q1 : Q2R (-170) = -170) by (unfold Q2R; simpl; lra). assert (Q2 : Q2R (-180) = -180) by (unfold Q2R; simpl; lra). assert (Q3 : Q2R 179 = 179) by (unfold Q2R; simpl; lra).
  assert (D0 : row_distance (nth 0 nn_data []) nn_sample = 10 * PI / 180 * 6378).
  { unfold row_distance, nn_data, nn_sample, latitude, longitude. cbn [nth repeat app]. rewrite <- haversine_great_circle, Q0, Q1, Q2. rewrite hav_sym. apply (hav_equator2 (-180) (-170) 10); lra. }
  split; [|split; [exact D0|]].
  2: { unfold row_distance, nn_data, nn_sample, latitude, longitude. cbn [nth repeat app]. rewrite <- haversine_great_circle, Q0, Q2, Q3. rewrite <- hav_periodic. apply (hav_equator2 179 _ 1); lra. }
  destruct nn_built as (kd & s1 & s2 & E & KD & KM & Km & KT & S1 & S2). unfold find_nearest_point. rewrite E. cbn [bind].
  enough (H : hquery pop kd nn_sample = Ok 0%nat) by (rewrite H; reflexivity).
  unfold hquery. rewrite KT, KD. cbn [nodes Nat.add]. set (side := hside kd nn_sample).
  assert (SD : nth 1 side 0 = 100 /\ fold_right Rplus 0 side = 100).
  { unfold side, hside. rewrite KM, Km. unfold nn_sample. cbn [nth fold_right]. rewrite Q0, Q1, Q2, Q3.
    replace (-180 * PI / 180) with (- PI) by field. rewrite cos_neg, cos_PI. replace (Rmax (-180 - 179) (-170 - -180)) with 10 by (rewrite Rmax_right; lra). rewrite (Rmax_right 0 10) by lra.
    replace (0 - 0) with 0 by ring. rewrite (Rmax_left 0 0) by lra. rewrite (Rmax_left 0 0) by lra. split; ring. }
  destruct SD as [SD1 SD2]. rewrite SD2. cbn [hquery_loop]. rewrite (pop_single pop _ HC). cbn [he_node best_bound option_map above].
  assert (LT : forall s, (s == 9 # 2 \/ s == 100)%Q -> Qltb (nth 1 nn_sample 0%Q) s = true) by (intros s [Es|Es]; apply Qltb_lt; unfold nn_sample; cbn [nth]; rewrite Es; reflexivity).
  rewrite (LT s1 (or_introl S1)). cbv iota. cbn [above he_min he_side]. rewrite SD1.
  assert (SDV : Q2R (s1 - nth 1 nn_sample 0%Q) ^ 2 = 34040.25).
  { unfold nn_sample. cbn [nth]. rewrite Q2R_minus, Q2. rewrite (Qeq_eqR _ _ S1). replace (Q2R (9 # 2)) with 4.5 by (unfold Q2R; simpl; lra). lra. }
  rewrite SDV. rewrite pop_two; [|auto|cbn [he_min]; lra]. cbn [he_node he_min]. cbn [fold_left]. unfold hleaf_step at 1. cbn [best_bound option_map below].
  rewrite (pop_single pop _ HC). cbn [he_node he_min best_bound option_map fst above].
  assert (AB : Rgtb (100 - 100 + 34040.25) (hdist (r2 (row nn_data 0)) (r2 nn_sample)) = true).
  { apply Rgtb_spec. rewrite hdist_row. unfold row. rewrite D0. pose proof PI_4. lra. }
  change (hleaf_step nn_data nn_sample None 0) with (Some (hdist (r2 (row nn_data 0)) (r2 nn_sample), 0%nat)). cbn [best_bound option_map fst above]. rewrite AB. reflexivity.
Qed.
