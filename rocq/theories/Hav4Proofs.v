From Verif Require Import Base QBase KDModel KDSpec KDProofs KD2Proofs KD4Proofs HavModel HavSpec HavProofs Hav2Proofs Hav3Proofs.
From Coq Require Import Reals Lra Psatz Qreals.
Open Scope R_scope.

Lemma hdist_row a b : hdist (r2 a) (r2 b) = row_distance a b.
Proof. apply haversine_great_circle. Qed.
Lemma min_gap l1 u1 l2 u2 x y : l1 <= x <= u1 -> l2 <= y <= u2 -> 0 <= hmax0 (l1 - u2) (l2 - u1) <= Rabs (y - x).
Proof.
  intros. unfold hmax0. split; [apply Rmax_l|]. pose proof (Rabs_pos (y - x)). pose proof (Rle_abs (y - x)). pose proof (Rle_abs (- (y - x))) as A. rewrite Rabs_Ropp in A.
  apply Rmax_lub; auto. apply Rmax_lub; lra.
Qed.
Lemma max_gap l1 u1 l2 u2 x y : l1 <= x <= u1 -> l2 <= y <= u2 -> Rabs (y - x) <= Rmax (u1 - l2) (u2 - l1).
Proof.
  intros. unfold Rabs. destruct (Rcase_abs (y - x)); [eapply Rle_trans; [|apply Rmax_l]; lra|eapply Rle_trans; [|apply Rmax_r]; lra].
Qed.
Lemma in_rect2 (r : rect) (y : list Q) d : in_rect r y -> (d < length r)%nat -> rmin r d <= Q2R (nth d y 0%Q) <= rmax r d.
Proof. intros H Hd. destruct (forall2_nth_in r y d H Hd) as [A B]. unfold rmin, rmax. split; apply Qle_Rle; auto. Qed.
Lemma forall2_len {A B} (P : A -> B -> Prop) l m : Forall2 P l m -> length l = length m.
Proof. induction 1; simpl; congruence. Qed.
Lemma sub_rect2 (B r : rect) d : sub_rect B r -> (d < length B)%nat -> rmin B d <= rmin r d <= rmax B d /\ rmin B d <= rmax r d <= rmax B d.
Proof.
  intros H Hd. assert (E : (fst (nth d B (0, 0)) <= fst (nth d r (0, 0)) <= snd (nth d B (0, 0)) /\ fst (nth d B (0, 0)) <= snd (nth d r (0, 0)) <= snd (nth d B (0, 0)))%Q).
  { clear -H Hd. revert d Hd. induction H as [|b c B r Hb H IH]; intros d Hd; [simpl in Hd; lia|]. destruct d; simpl; auto. apply IH. simpl in Hd. lia. }
  destruct E as [[E1 E2] [E3 E4]]. apply Qle_Rle in E1, E2, E3, E4. unfold rmin, rmax. lra.
Qed.

Section Query.
Variables (data sample : list (list Q)) (r : R).
Lemma find_points_eq kd ks : KDTree data 10 = Ok kd -> KDTree sample 10 = Ok ks -> kd_data kd = data -> kd_data ks = sample ->
  find_points_within_distance_sample data sample r = Ok (rows_of (length sample)
    (htraverse (fun r1 r2 => Rgtb (hmin_distance_rectangle r1 r2) r) (fun r1 r2 => Rltb (hmax_distance_rectangle r1 r2) r)
       (fun i j => Rleb (hdist (r2 (row data j)) (r2 (row sample i))) r) (kd_tree ks) (mk_rect (kd_maxes ks) (kd_mins ks)) (kd_tree kd) (mk_rect (kd_maxes kd) (kd_mins kd)))).
Proof. intros E1 E2 D1 D2. unfold find_points_within_distance_sample. rewrite E1. cbn [bind]. rewrite E2. cbn [bind]. unfold hquery_ball_tree. rewrite D1, D2. reflexivity. Qed.

Definition per_sample (lo hi : nat -> nat -> Prop) (res : list (list nat)) : Prop :=
  length res = length sample /\ forall i, (i < length sample)%nat -> let l := nth i res [] in
    NoDup l /\ (forall j, In j l -> (j < length data)%nat /\ hi i j) /\ (forall j, (j < length data)%nat -> lo i j -> In j l).

Hypothesis HD : rows_of_length 2 data.
Hypothesis HS : rows_of_length 2 sample.
Hypothesis ND : data <> [].
Hypothesis NS : sample <> [].
Lemma build_ok l : rows_of_length 2 l -> l <> [] -> exists k, KDTree l 10 = Ok k.
Proof. intros H N. destruct (kdtree_spec l 2 10 ltac:(lia) N H ltac:(lia)) as (k & E & _). eauto. Qed.

Theorem find_points_shape : exists res, find_points_within_distance_sample data sample r = Ok res /\ per_sample (fun _ _ => False) (fun _ _ => True) res.
Proof.
  destruct (build_ok data HD ND) as [kd Ed]. destruct (build_ok sample HS NS) as [ks Es].
  destruct (built_ok data 2 10 kd ltac:(lia) HD Ed) as (_ & _ & KD & _ & _ & _ & _ & NDd & INd).
  destruct (built_ok sample 2 10 ks ltac:(lia) HS Es) as (_ & _ & KS & _ & _ & _ & _ & NDs & INs).
  rewrite (find_points_eq kd ks); auto. eexists. split; [reflexivity|]. unfold per_sample. eapply rows_of_spec; [|exact INs|exact INd].
  apply (htraverse_spec _ _ _ (fun _ _ => False) (fun _ _ => True) (fun _ _ => True) (fun _ _ => True)); auto; intros; contradiction.
Qed.

(** a box containing everything *)
Variables (la lb oa ob : Q).
Hypothesis BD : Forall (in_box la lb oa ob) data.
Hypothesis BS : Forall (in_box la lb oa ob) sample.
Let B : rect := [(la, lb); (oa, ob)].
Lemma box_rect l : Forall (in_box la lb oa ob) l -> Forall (in_rect B) l.
Proof.
  intros H. eapply Forall_impl; [|exact H]. intros row (L & H1 & H2). destruct row as [|x [|y [|z row]]]; simpl in L; try lia. cbn in H1, H2.
  unfold B. repeat constructor; cbn [fst snd]; tauto.
Qed.
Lemma box_nth (l : list (list Q)) i : Forall (in_box la lb oa ob) l -> (i < length l)%nat -> in_box la lb oa ob (nth i l []).
Proof. intros H Hi. rewrite Forall_forall in H. apply H. apply nth_In. auto. Qed.
Lemma box_R rw : in_box la lb oa ob rw -> Q2R la <= latitude rw <= Q2R lb /\ Q2R oa <= longitude rw <= Q2R ob.
Proof. intros (_ & [A1 A2] & [A3 A4]). apply Qle_Rle in A1, A2, A3, A4. unfold latitude, longitude. lra. Qed.

Theorem find_points_box (lo hi : nat -> nat -> Prop) :
  (forall i j, (i < length sample)%nat -> (j < length data)%nat -> lo i j -> row_distance (nth j data []) (nth i sample []) <= r) ->
  (forall i j, row_distance (nth j data []) (nth i sample []) <= r -> hi i j) ->
  (forall i j a b, (i < length sample)%nat -> (j < length data)%nat -> 0 <= a <= Rabs (latitude (nth j data []) - latitude (nth i sample [])) ->
     0 <= b <= Rabs (longitude (nth j data []) - longitude (nth i sample [])) -> r < haversine 0 0 a b -> ~ lo i j) ->
  (forall i j a b, (i < length sample)%nat -> (j < length data)%nat -> Rabs (latitude (nth j data []) - latitude (nth i sample [])) <= a <= Q2R lb - Q2R la ->
     Rabs (longitude (nth j data []) - longitude (nth i sample [])) <= b <= Q2R ob - Q2R oa -> haversine 0 0 a b < r -> hi i j) ->
  exists res, find_points_within_distance_sample data sample r = Ok res /\ per_sample lo hi res.
Proof.
  intros HL HH HP HB. destruct (build_ok data HD ND) as [kd Ed]. destruct (build_ok sample HS NS) as [ks Es].
  destruct (root_hok data kd B HD Ed eq_refl (box_rect _ BD)) as (OKd & KD & NDd & INd).
  destruct (root_hok sample ks B HS Es eq_refl (box_rect _ BS)) as (OKs & KS & NDs & INs).
  rewrite (find_points_eq kd ks); auto. eexists. split; [reflexivity|].
  set (lo' := fun i j => (i < length sample)%nat /\ (j < length data)%nat /\ lo i j).
  assert (X : per_sample lo' hi (rows_of (length sample)
    (htraverse (fun r1 r2 => Rgtb (hmin_distance_rectangle r1 r2) r) (fun r1 r2 => Rltb (hmax_distance_rectangle r1 r2) r)
       (fun i j => Rleb (hdist (r2 (row data j)) (r2 (row sample i))) r) (kd_tree ks) (mk_rect (kd_maxes ks) (kd_mins ks)) (kd_tree kd) (mk_rect (kd_maxes kd) (kd_mins kd))))).
  2: { destruct X as [X1 X2]. split; auto. intros i Hi. destruct (X2 i Hi) as (Y1 & Y2 & Y3). split; auto. split; auto. intros j Hj Hl. apply Y3; auto. split; auto. }
  unfold per_sample. eapply rows_of_spec; [|exact INs|exact INd].
  apply (htraverse_spec _ _ _ lo' hi
    (fun t r => hok sample B t r /\ forall i, In i (leaves t) -> (i < length sample)%nat) (fun t r => hok data B t r /\ forall i, In i (leaves t) -> (i < length data)%nat)); auto.
  - intros d s l g rc [O I]. destruct (hok_split sample B d s l g rc eq_refl O). split; split; auto; intros i Hi; apply I; simpl; apply in_or_app; auto.
  - intros d s l g rc [O I]. destruct (hok_split data B d s l g rc eq_refl O). split; split; auto; intros i Hi; apply I; simpl; apply in_or_app; auto.
  - intros t1 r1 t2 r2 [(_ & _ & C1 & S1 & _) I1] [(_ & _ & C2 & S2 & _) I2] E i j Hi Hj (_ & _ & L). apply Rgtb_spec in E.
    specialize (C1 i Hi). specialize (C2 j Hj). assert (L1 : length r1 = 2%nat) by (rewrite <- (forall2_len _ _ _ S1); reflexivity). assert (L2 : length r2 = 2%nat) by (rewrite <- (forall2_len _ _ _ S2); reflexivity).
    revert L. eapply HP; [auto|auto| | |unfold hmin_distance_rectangle in E; apply Rgt_lt; exact E].
    + apply (min_gap _ _ _ _ (latitude (nth i sample [])) (latitude (nth j data []))); apply (in_rect2 _ _ 0); auto; lia.
    + apply (min_gap _ _ _ _ (longitude (nth i sample [])) (longitude (nth j data []))); apply (in_rect2 _ _ 1); auto; lia.
  - intros t1 r1 t2 r2 [(_ & _ & C1 & S1 & _) I1] [(_ & _ & C2 & S2 & _) I2] E i j Hi Hj. apply Rltb_spec in E.
    specialize (C1 i Hi). specialize (C2 j Hj). assert (L1 : length r1 = 2%nat) by (rewrite <- (forall2_len _ _ _ S1); reflexivity). assert (L2 : length r2 = 2%nat) by (rewrite <- (forall2_len _ _ _ S2); reflexivity).
    eapply HB; [auto|auto| | |unfold hmax_distance_rectangle in E; exact E].
    + split; [apply (max_gap _ _ _ _ (latitude (nth i sample [])) (latitude (nth j data []))); apply (in_rect2 _ _ 0); auto; lia|].
      destruct (sub_rect2 B r1 0 S1 ltac:(simpl; lia)) as [A1 A2]. destruct (sub_rect2 B r2 0 S2 ltac:(simpl; lia)) as [A3 A4]. change (rmin B 0) with (Q2R la) in *. change (rmax B 0) with (Q2R lb) in *. apply Rmax_lub; lra.
    + split; [apply (max_gap _ _ _ _ (longitude (nth i sample [])) (longitude (nth j data []))); apply (in_rect2 _ _ 1); auto; lia|].
      destruct (sub_rect2 B r1 1 S1 ltac:(simpl; lia)) as [A1 A2]. destruct (sub_rect2 B r2 1 S2 ltac:(simpl; lia)) as [A3 A4]. change (rmin B 1) with (Q2R oa) in *. change (rmax B 1) with (Q2R ob) in *. apply Rmax_lub; lra.
  - intros i j (Hi & Hj & L). apply Rleb_spec. rewrite hdist_row. apply HL; auto.
  - intros i j E. apply Rleb_spec in E. rewrite hdist_row in E. apply HH. auto.
  - split; auto. intros i Hi. apply INs. auto.
  - split; auto. intros i Hi. apply INd. auto.
Qed.

(** one hemisphere and at most 90 degrees of longitude: nothing too far is returned *)
Theorem find_points_sound : ((0 <= la /\ lb <= 90) \/ (-90 <= la /\ lb <= 0))%Q -> (ob - oa <= 90)%Q ->
  exists res, find_points_within_distance_sample data sample r = Ok res /\ per_sample (fun _ _ => False) (fun i j => row_distance (nth j data []) (nth i sample []) <= r) res.
Proof.
  intros Hlat Hlon. apply find_points_box; auto; [intros; contradiction|].
  intros i j a b Hi Hj HA HB HR. unfold row_distance. rewrite <- haversine_great_circle. rewrite hav_sym. apply Rlt_le. eapply Rle_lt_trans; [|exact HR].
  destruct (box_R _ (box_nth data j BD Hj)) as [D1 D2]. destruct (box_R _ (box_nth sample i BS Hi)) as [S1 S2].
  apply Qle_Rle in Hlon. rewrite Q2R_minus in Hlon. replace (Q2R 90) with 90 in Hlon by (unfold Q2R; simpl; lra).
  assert (HL : (0 <= Q2R la /\ Q2R lb <= 90) \/ (-90 <= Q2R la /\ Q2R lb <= 0)).
  { destruct Hlat as [[X Y]|[X Y]]; apply Qle_Rle in X, Y; [left|right]; unfold Q2R in X, Y |- *; simpl in X, Y |- *; split; lra. }
  apply bulk_sound; [unfold same_hemisphere; destruct HL; [left|right]; lra|split; [lra|destruct HL; lra]|lra].
Qed.

(** away from the poles and without wrapping: everything within a smaller chord is returned *)
Theorem find_points_complete phi : 0 <= phi < 90 -> (- phi <= Q2R la /\ Q2R lb <= phi) -> (ob - oa <= 180)%Q -> 0 <= r <= PI * 6378 ->
  exists res, find_points_within_distance_sample data sample r = Ok res /\
    per_sample (fun i j => row_chord (nth j data []) (nth i sample []) <= cos (radians phi) * chord_of_arc r) (fun _ _ => True) res.
Proof.
  intros HP [Hla Hlb] Hlon Hr.
  assert (CP : 0 < cos (radians phi)) by (pose proof PI_RGT_0; unfold radians; apply cos_gt_0; nra).
  assert (KEY : forall i j a b, (i < length sample)%nat -> (j < length data)%nat -> 0 <= a <= Rabs (latitude (nth j data []) - latitude (nth i sample [])) ->
     0 <= b <= Rabs (longitude (nth j data []) - longitude (nth i sample [])) -> row_chord (nth j data []) (nth i sample []) <= cos (radians phi) * chord_of_arc r -> haversine 0 0 a b <= r).
  { intros i j a b Hi Hj Ha Hb HC. destruct (box_R _ (box_nth data j BD Hj)) as [D1 D2]. destruct (box_R _ (box_nth sample i BS Hi)) as [S1 S2].
    apply Qle_Rle in Hlon. rewrite Q2R_minus in Hlon. replace (Q2R 180) with 180 in Hlon by (unfold Q2R; simpl; lra).
    assert (AB : forall x y l u, l <= x <= u -> l <= y <= u -> Rabs (x - y) <= u - l) by (intros; apply Rabs_le; lra).
    rewrite Rabs_minus_sym in Ha, Hb.
    apply (prune_complete (latitude (nth j data [])) (longitude (nth j data [])) (latitude (nth i sample [])) (longitude (nth i sample [])) a b phi r); auto; try lra.
    - apply Rabs_le. lra.
    - apply Rabs_le. lra.
    - eapply Rle_trans; [apply (AB _ _ _ _ S1 D1)|]. lra.
    - eapply Rle_trans; [apply (AB _ _ _ _ S2 D2)|]. lra. }
  apply find_points_box; auto.
  - intros i j Hi Hj HC. pose proof (KEY i j 0 0 Hi Hj) as _.
    (* the chord bound itself bounds the distance *)
    unfold row_distance. rewrite <- haversine_great_circle, hav_dot. unfold row_chord in HC. rewrite chord_dot in HC.
    set (D := dotp _ _ _ _) in *. pose proof (dotp_range (latitude (nth j data [])) (longitude (nth j data [])) (latitude (nth i sample [])) (longitude (nth i sample []))) as RD. fold D in RD.
    unfold chord_of_arc in HC. set (h := r / (2 * 6378)) in *. pose proof PI_RGT_0 as PI0. assert (Hh : 0 <= h <= PI / 2).
    { unfold h. split; [apply Rmult_le_pos; [lra|]; apply Rlt_le, Rinv_0_lt_compat; lra|]. apply (Rmult_le_reg_r (2 * 6378)); [lra|]. unfold Rdiv. rewrite Rmult_assoc, Rinv_l by lra. lra. }
    assert (Sh : 0 <= sin h) by (apply sin_ge_0; lra). pose proof (COS_bound (radians phi)) as CB.
    assert (S : sqrt (2 - 2 * D) <= 2 * sin h) by nra. pose proof (sqrt_pos (2 - 2 * D)). pose proof (sqrt_sqrt (2 - 2 * D) ltac:(lra)) as SS.
    assert (sqrt (2 - 2 * D) * sqrt (2 - 2 * D) <= (2 * sin h) * (2 * sin h)) by (apply Rmult_le_compat; auto).
    assert (G : cos (2 * h) = 1 - 2 * sin h * sin h) by (rewrite cos_2a_sin; ring).
    assert (acos D <= 2 * h). { rewrite <- (acos_cos (2 * h)) by lra. apply acos_anti; try lra. apply COS_bound. }
    replace r with (6378 * (2 * h)) by (unfold h; field). apply Rmult_le_compat_l; lra.
  - intros i j a b Hi Hj Ha Hb HR HC. pose proof (KEY i j a b Hi Hj Ha Hb HC). lra.
Qed.
End Query.
