From Verif Require Import Base QBase KDModel KDSpec KDProofs KD2Proofs KD4Proofs HavModel HavSpec HavProofs Hav2Proofs.
From Coq Require Import Reals Lra Psatz Qreals.
Open Scope R_scope.

(** ** Collecting the pairs per sample *)
Definition rows_of (n : nat) (ps : list (nat * nat)) : list (list nat) := map (fun i => map snd (filter (fun ij : nat * nat => (fst ij =? i)%nat) ps)) (seq 0 n).
Lemma rows_of_spec lo hi A B ps n m : prod_spec lo hi A B ps -> (forall i, In i A <-> (i < n)%nat) -> (forall j, In j B <-> (j < m)%nat) ->
  length (rows_of n ps) = n /\ forall i, (i < n)%nat -> let l := nth i (rows_of n ps) [] in
    NoDup l /\ (forall j, In j l -> (j < m)%nat /\ hi i j) /\ (forall j, (j < m)%nat -> lo i j -> In j l).
Proof.
  intros [PS PC PN] IN1 IN2. unfold rows_of. split; [rewrite map_length, seq_length; auto|]. intros i Hi.
  set (g := fun i : nat => map snd (filter (fun ij : nat * nat => (fst ij =? i)%nat) ps)).
  replace (nth i (map g (seq 0 n)) []) with (g i).
  2: { rewrite (nth_indep _ [] (g 0%nat)) by (rewrite map_length, seq_length; auto). rewrite map_nth, seq_nth by auto. reflexivity. }
  assert (GI : forall j, In j (g i) <-> In (i, j) ps).
  { intros j. unfold g. rewrite in_map_iff. split.
    - intros ([a b] & <- & H). apply filter_In in H. destruct H as [H E]. cbn [fst] in E. apply Nat.eqb_eq in E. subst a. exact H.
    - intros H. exists (i, j). split; auto. apply filter_In. split; auto. cbn. apply Nat.eqb_refl. }
  split; [|split].
  - unfold g. clear -PN. induction PN as [|[a b] l NI ND IH]; cbn [filter map]; [constructor|]. cbn [fst]. destruct (a =? i)%nat eqn:E; auto. cbn [map snd]. constructor; auto.
    apply Nat.eqb_eq in E. subst a. intros H. apply in_map_iff in H. destruct H as ([a' b'] & E & H). apply filter_In in H. destruct H as [H E']. cbn [fst snd] in *. apply Nat.eqb_eq in E'. subst. auto.
  - intros j Hj. apply GI in Hj. destruct (PS _ _ Hj) as (I1 & I2 & X). apply IN2 in I2. auto.
  - intros j Hj X. apply GI. apply PC; [apply IN1; auto|apply IN2; auto|auto].
Qed.

(** ** The distances between cells *)
Definition dotp (lat1 lon1 lat2 lon2 : R) : R := dot3 (unit_vector lat1 lon1) (unit_vector lat2 lon2).
Lemma dotp_range a b c d : -1 <= dotp a b c d <= 1.
Proof. apply dot_range; apply unit_norm. Qed.
Lemma hav_dot a b c d : haversine a b c d = 6378 * acos (dotp a b c d).
Proof. apply haversine_great_circle. Qed.
Lemma dotp_0 a b : dotp 0 0 a b = cos (radians a) * cos (radians b).
Proof. unfold dotp, unit_vector, dot3, radians. replace (0 * PI / 180) with 0 by lra. rewrite cos_0, sin_0. ring. Qed.
Lemma dotp_diff a b c d : dotp a b c d = cos (radians (c - a)) - cos (radians a) * cos (radians c) * (1 - cos (radians (d - b))).
Proof.
  unfold dotp, unit_vector, dot3, radians. replace ((c - a) * PI / 180) with (c * PI / 180 - a * PI / 180) by field. replace ((d - b) * PI / 180) with (d * PI / 180 - b * PI / 180) by field.
  rewrite !cos_minus. ring.
Qed.
Lemma acos_anti x y : -1 <= x -> x <= y -> y <= 1 -> acos y <= acos x.
Proof.
  intros Hx H Hy. destruct (Rle_dec (acos y) (acos x)) as [?|N]; auto. exfalso. apply Rnot_le_lt in N.
  pose proof (acos_bound x). pose proof (acos_bound y). assert (cos (acos y) < cos (acos x)) by (apply cos_decreasing_1; lra).
  rewrite !cos_acos in H2 by lra. lra.
Qed.
Lemma cos_rad_abs x : cos (radians x) = cos (radians (Rabs x)).
Proof. unfold Rabs. destruct (Rcase_abs x); auto. unfold radians. replace (- x * PI / 180) with (- (x * PI / 180)) by field. rewrite cos_neg. auto. Qed.
Lemma cos_rad_anti x y : 0 <= x -> x <= y -> y <= 180 -> cos (radians y) <= cos (radians x).
Proof. intros. pose proof PI_RGT_0. unfold radians. apply cos_decr_1; nra. Qed.
Lemma cos_rad_pos x : -90 <= x <= 90 -> 0 <= cos (radians x).
Proof. intros. pose proof PI_RGT_0. unfold radians. apply cos_ge_0; nra. Qed.
Lemma cos_rad_range x : -1 <= cos (radians x) <= 1.
Proof. apply COS_bound. Qed.
Lemma sin_rad_sign x : 0 <= x <= 180 -> 0 <= sin (radians x).
Proof. intros. pose proof PI_RGT_0. unfold radians. apply sin_ge_0; nra. Qed.

(** in one hemisphere, and over at most 90 degrees of longitude, the distance between two places is at most the distance
    from (0, 0) to (A, B) when A and B bound their differences of latitude and longitude *)
Definition same_hemisphere (x y : R) : Prop := (0 <= x <= 90 /\ 0 <= y <= 90) \/ (-90 <= x <= 0 /\ -90 <= y <= 0).
Lemma bulk_sound lat1 lon1 lat2 lon2 A B : same_hemisphere lat1 lat2 -> Rabs (lat2 - lat1) <= A <= 90 -> Rabs (lon2 - lon1) <= B <= 90 ->
  haversine lat1 lon1 lat2 lon2 <= haversine 0 0 A B.
Proof.
  intros HS HA HB. rewrite !hav_dot. apply Rmult_le_compat_l; [lra|]. apply acos_anti; try apply dotp_range. rewrite dotp_0, dotp_diff.
  rewrite (cos_rad_abs (lat2 - lat1)), (cos_rad_abs (lon2 - lon1)).
  pose proof (Rabs_pos (lat2 - lat1)). pose proof (Rabs_pos (lon2 - lon1)).
  assert (CA : 0 <= cos (radians A)) by (apply cos_rad_pos; lra). assert (CB : 0 <= cos (radians B)) by (apply cos_rad_pos; lra).
  assert (C1 : cos (radians A) <= cos (radians (Rabs (lat2 - lat1)))) by (apply cos_rad_anti; lra).
  assert (C2 : cos (radians B) <= cos (radians (Rabs (lon2 - lon1)))) by (apply cos_rad_anti; lra).
  assert (C3 : 0 <= cos (radians lat1)) by (apply cos_rad_pos; destruct HS; lra). assert (C4 : 0 <= cos (radians lat2)) by (apply cos_rad_pos; destruct HS; lra).
  assert (P : cos (radians lat1) * cos (radians lat2) <= cos (radians (Rabs (lat2 - lat1)))).
  { rewrite <- cos_rad_abs. unfold radians. replace ((lat2 - lat1) * PI / 180) with (lat2 * PI / 180 - lat1 * PI / 180) by field. rewrite cos_minus. fold (radians lat1) (radians lat2).
    enough (0 <= sin (radians lat2) * sin (radians lat1)) by lra. destruct HS as [[S1 S2]|[S1 S2]].
    - apply Rmult_le_pos; apply sin_rad_sign; lra.
    - replace (sin (radians lat2) * sin (radians lat1)) with ((- sin (radians lat2)) * (- sin (radians lat1))) by ring. rewrite <- !sin_neg.
      replace (- radians lat2) with (radians (- lat2)) by (unfold radians; field). replace (- radians lat1) with (radians (- lat1)) by (unfold radians; field). apply Rmult_le_pos; apply sin_rad_sign; lra. }
  pose proof (cos_rad_range (Rabs (lon2 - lon1))). set (u := cos (radians (Rabs (lat2 - lat1)))) in *. set (v := cos (radians (Rabs (lon2 - lon1)))) in *.
  set (p := cos (radians lat1) * cos (radians lat2)) in *.
  assert (p * (1 - v) <= u * (1 - v)) by (apply Rmult_le_compat_r; lra).
  assert (cos (radians A) * cos (radians B) <= u * v) by (apply Rmult_le_compat; auto). lra.
Qed.

(** the distance from (0, 0) to (a, b) against the chord between two places whose differences are at least a and b *)
Lemma chord_dot a b c d : chord_km a b c d = 6378 * sqrt (2 - 2 * dotp a b c d).
Proof.
  unfold chord_km, dotp. pose proof (unit_norm a b) as N1. pose proof (unit_norm c d) as N2.
  destruct (unit_vector a b) as [[x y] z], (unit_vector c d) as [[x' y'] z']. unfold norm2, dot3 in *. f_equal. f_equal. nra.
Qed.
Lemma prune_complete lat1 lon1 lat2 lon2 a b phi r : 0 <= phi <= 90 -> Rabs lat1 <= phi -> Rabs lat2 <= phi ->
  0 <= a <= Rabs (lat2 - lat1) -> Rabs (lat2 - lat1) <= 180 -> 0 <= b <= Rabs (lon2 - lon1) -> Rabs (lon2 - lon1) <= 180 ->
  0 <= r <= PI * 6378 -> 0 < cos (radians phi) ->
  chord_km lat1 lon1 lat2 lon2 <= cos (radians phi) * chord_of_arc r -> haversine 0 0 a b <= r.
Proof.
  intros HP H1 H2 Ha Ha' Hb Hb' Hr Hcp HC. rewrite hav_dot, dotp_0. rewrite chord_dot in HC. unfold chord_of_arc in HC.
  set (D := dotp lat1 lon1 lat2 lon2) in *. pose proof (dotp_range lat1 lon1 lat2 lon2) as RD. fold D in RD. set (k := cos (radians phi)) in *.
  set (h := r / (2 * 6378)) in *. pose proof PI_RGT_0 as PI0. assert (Hh : 0 <= h <= PI / 2).
  { unfold h. split; [apply Rmult_le_pos; [lra|]; apply Rlt_le, Rinv_0_lt_compat; lra|]. apply (Rmult_le_reg_r (2 * 6378)); [lra|]. unfold Rdiv. rewrite Rmult_assoc, Rinv_l by lra. lra. }
  assert (Sh : 0 <= sin h) by (apply sin_ge_0; lra).
  assert (KD : (1 - D) / 2 <= k * k * (sin h * sin h)).
  { assert (S : sqrt (2 - 2 * D) <= 2 * k * sin h) by nra. assert (0 <= 2 - 2 * D) by lra. pose proof (sqrt_pos (2 - 2 * D)) as SP. pose proof (sqrt_sqrt (2 - 2 * D) H) as SS.
    assert (sqrt (2 - 2 * D) * sqrt (2 - 2 * D) <= (2 * k * sin h) * (2 * k * sin h)) by (apply Rmult_le_compat; auto). lra. }
  assert (E : k * k * ((1 - cos (radians a) * cos (radians b)) / 2) <= (1 - D) / 2).
  { unfold D. rewrite dotp_diff, (cos_rad_abs (lat2 - lat1)), (cos_rad_abs (lon2 - lon1)).
    assert (A1 : cos (radians (Rabs (lat2 - lat1))) <= cos (radians a)) by (apply cos_rad_anti; lra).
    assert (B1 : cos (radians (Rabs (lon2 - lon1))) <= cos (radians b)) by (apply cos_rad_anti; lra).
    assert (P1 : k <= cos (radians lat1)) by (rewrite (cos_rad_abs lat1); pose proof (Rabs_pos lat1); apply cos_rad_anti; lra).
    assert (P2 : k <= cos (radians lat2)) by (rewrite (cos_rad_abs lat2); pose proof (Rabs_pos lat2); apply cos_rad_anti; lra).
    assert (K1 : k * k <= 1) by (pose proof (cos_rad_range phi) as K; fold k in K; nra).
    pose proof (cos_rad_range a) as Ra. pose proof (cos_rad_range b) as Rb. pose proof (cos_rad_range (Rabs (lon2 - lon1))) as Rl.
    set (ca := cos (radians a)) in *. set (cb := cos (radians b)) in *. set (u := cos (radians (Rabs (lat2 - lat1)))) in *. set (v := cos (radians (Rabs (lon2 - lon1)))) in *.
    assert (KK : k * k <= cos (radians lat1) * cos (radians lat2)) by (apply Rmult_le_compat; lra).
    set (p := cos (radians lat1) * cos (radians lat2)) in *.
    assert (k * k * (1 - cb) <= p * (1 - v)) by (apply Rmult_le_compat; try lra; apply Rmult_le_pos; lra).
    assert (k * k * (1 - ca) <= 1 - ca) by nra.
    assert (k * k * (ca * (1 - cb)) <= k * k * (1 - cb)) by (apply Rmult_le_compat_l; [apply Rmult_le_pos; lra|]; nra).
    replace (1 - ca * cb) with ((1 - ca) + ca * (1 - cb)) by ring. lra. }
  assert (F : (1 - cos (radians a) * cos (radians b)) / 2 <= sin h * sin h).
  { apply (Rmult_le_reg_l (k * k)); [apply Rmult_lt_0_compat; auto|lra]. }
  assert (G : cos (2 * h) = 1 - 2 * sin h * sin h) by (rewrite cos_2a_sin; ring).
  assert (L : cos (2 * h) <= cos (radians a) * cos (radians b)) by lra.
  assert (acos (cos (radians a) * cos (radians b)) <= 2 * h).
  { rewrite <- (acos_cos (2 * h)) by lra. apply acos_anti; auto; [apply COS_bound|]. rewrite <- dotp_0. apply dotp_range. }
  replace r with (6378 * (2 * h)) by (unfold h; field). apply Rmult_le_compat_l; lra.
Qed.
