From Verif Require Import Base QBase KDModel KDSpec KDProofs KD2Proofs KD4Proofs HavModel HavSpec.
From Coq Require Import Reals Lra Psatz Qreals.
Open Scope R_scope.

Definition norm2 (u : R * R * R) : R := dot3 u u.
Lemma cos2_sin2 x : cos x * cos x + sin x * sin x = 1.
Proof. pose proof (sin2_cos2 x) as H. unfold Rsqr in H. lra. Qed.
Lemma unit_norm lat lon : norm2 (unit_vector lat lon) = 1.
Proof.
  unfold norm2, unit_vector, dot3. pose proof (cos2_sin2 (radians lat)). pose proof (cos2_sin2 (radians lon)).
  set (a := cos (radians lat)) in *. set (b := sin (radians lat)) in *. set (c := cos (radians lon)) in *. set (d := sin (radians lon)) in *.
  replace (a * c * (a * c) + a * d * (a * d) + b * b) with (a * a * (c * c + d * d) + b * b) by ring. rewrite H0. lra.
Qed.
Lemma sq_nonneg x : 0 <= x * x.
Proof. apply Rle_0_sqr. Qed.
Lemma cauchy u v : dot3 u v * dot3 u v <= norm2 u * norm2 v.
Proof.
  destruct u as [[a b] c], v as [[x y] z]. unfold norm2, dot3.
  pose proof (sq_nonneg (a * y - b * x)). pose proof (sq_nonneg (a * z - c * x)). pose proof (sq_nonneg (b * z - c * y)).
  assert (E : (a * a + b * b + c * c) * (x * x + y * y + z * z) - (a * x + b * y + c * z) * (a * x + b * y + c * z) =
    (a * y - b * x) * (a * y - b * x) + (a * z - c * x) * (a * z - c * x) + (b * z - c * y) * (b * z - c * y)) by ring. lra.
Qed.
Lemma dot_range u v : norm2 u = 1 -> norm2 v = 1 -> -1 <= dot3 u v <= 1.
Proof. intros Hu Hv. pose proof (cauchy u v) as H. rewrite Hu, Hv in H. split; nra. Qed.
Lemma dot_sym u v : dot3 u v = dot3 v u.
Proof. destruct u as [[a b] c], v as [[x y] z]. unfold dot3. ring. Qed.

Lemma half_sin2 x : sin (x / 2) ^ 2 = (1 - cos x) / 2.
Proof. replace (cos x) with (cos (2 * (x / 2))) by (f_equal; lra). rewrite cos_2a_sin. simpl. lra. Qed.

Lemma chord lat1 lon1 lat2 lon2 :
  sin ((rad lat2 - rad lat1) / 2) ^ 2 + cos (rad lat1) * cos (rad lat2) * sin ((rad lon2 - rad lon1) / 2) ^ 2
  = (1 - dot3 (unit_vector lat1 lon1) (unit_vector lat2 lon2)) / 2.
Proof.
  rewrite !half_sin2, !cos_minus. unfold unit_vector, dot3, radians, rad.
  set (p1 := lat1 * PI / 180). set (p2 := lat2 * PI / 180). set (l1 := lon1 * PI / 180). set (l2 := lon2 * PI / 180). field.
Qed.
Lemma acos_half_asin d : -1 <= d <= 1 -> 2 * asin (sqrt ((1 - d) / 2)) = acos d.
Proof.
  intros H. pose proof (acos_bound d) as B. pose proof PI_RGT_0 as P.
  assert (E : sqrt ((1 - d) / 2) = sin (acos d / 2)).
  { rewrite <- (sqrt_pow2 (sin (acos d / 2))).
    - f_equal. rewrite half_sin2, cos_acos by lra. reflexivity.
    - apply sin_ge_0; lra. }
  rewrite E, asin_sin by lra. lra.
Qed.
Theorem haversine_great_circle lat1 lon1 lat2 lon2 : haversine lat1 lon1 lat2 lon2 = great_circle lat1 lon1 lat2 lon2.
Proof.
  unfold haversine, great_circle, central_angle, RADIUS. rewrite chord, acos_half_asin; [lra|]. apply dot_range; apply unit_norm.
Qed.

Lemma hav_sym a b c d : haversine a b c d = haversine c d a b.
Proof. rewrite !haversine_great_circle. unfold great_circle, central_angle. rewrite dot_sym. reflexivity. Qed.
Lemma hav_bounds a b c d : 0 <= haversine a b c d <= PI * 6378.
Proof. rewrite haversine_great_circle. unfold great_circle, central_angle. pose proof (acos_bound (dot3 (unit_vector a b) (unit_vector c d))). lra. Qed.
Lemma hav_same a b : haversine a b a b = 0.
Proof.
  rewrite haversine_great_circle. unfold great_circle, central_angle. change (dot3 (unit_vector a b) (unit_vector a b)) with (norm2 (unit_vector a b)).
  rewrite unit_norm, acos_1. lra.
Qed.
Lemma unit_periodic lat lon : unit_vector lat (lon + 360) = unit_vector lat lon.
Proof.
  unfold unit_vector, radians. replace ((lon + 360) * PI / 180) with (lon * PI / 180 + 2 * PI) by field.
  rewrite cos_plus, sin_plus, cos_2PI, sin_2PI. f_equal. f_equal; ring.
Qed.
Lemma hav_periodic a b c d : haversine a b c (d + 360) = haversine a b c d.
Proof. rewrite !haversine_great_circle. unfold great_circle. rewrite unit_periodic. reflexivity. Qed.
Lemma hav_zero a b c d : haversine a b c d = 0 <-> unit_vector a b = unit_vector c d.
Proof.
  rewrite haversine_great_circle. unfold great_circle, central_angle. pose proof (unit_norm a b) as N1. pose proof (unit_norm c d) as N2.
  set (u := unit_vector a b) in *. set (v := unit_vector c d) in *. split.
  - intros H. assert (A : acos (dot3 u v) = 0) by lra. pose proof (dot_range u v N1 N2) as B. assert (D : dot3 u v = 1) by (rewrite <- (cos_acos (dot3 u v) B), A; apply cos_0).
    destruct u as [[x y] z], v as [[x' y'] z']. unfold norm2, dot3 in *.
    assert (E : (x - x') * (x - x') + (y - y') * (y - y') + (z - z') * (z - z') = 0) by lra.
    pose proof (sq_nonneg (x - x')). pose proof (sq_nonneg (y - y')). pose proof (sq_nonneg (z - z')).
    assert (x - x' = 0) by (apply Rsqr_0_uniq; unfold Rsqr; lra). assert (y - y' = 0) by (apply Rsqr_0_uniq; unfold Rsqr; lra). assert (z - z' = 0) by (apply Rsqr_0_uniq; unfold Rsqr; lra).
    repeat f_equal; lra.
  - intros <-. change (dot3 u u) with (norm2 u). rewrite N1, acos_1. lra.
Qed.

(** ** The triangle inequality *)
Definition sub_proj (u v : R * R * R) (k : R) : R * R * R :=   (* u - k v *)
  let '(a, b, c) := u in let '(x, y, z) := v in (a - k * x, b - k * y, c - k * z).
Lemma gram u v w : norm2 u = 1 -> norm2 v = 1 -> norm2 w = 1 ->
  (dot3 u w - dot3 u v * dot3 v w) ^ 2 <= (1 - dot3 u v ^ 2) * (1 - dot3 v w ^ 2).
Proof.
  intros Hu Hv Hw. pose proof (cauchy (sub_proj u v (dot3 u v)) (sub_proj w v (dot3 v w))) as C.
  assert (N : forall u k, norm2 u = 1 -> k = dot3 u v -> norm2 (sub_proj u v k) = 1 - k ^ 2).
  { clear -Hv. intros [[a b] c] k Hu ->. destruct v as [[x y] z]. unfold norm2, dot3, sub_proj in *.
    set (k := a * x + b * y + c * z). replace ((a - k * x) * (a - k * x) + (b - k * y) * (b - k * y) + (c - k * z) * (c - k * z))
      with ((a * a + b * b + c * c) - 2 * k * (a * x + b * y + c * z) + k * k * (x * x + y * y + z * z)) by ring. rewrite Hu, Hv. fold k. ring. }
  rewrite (N u _ Hu eq_refl) in C. rewrite (N w (dot3 v w) Hw (dot_sym v w)) in C.
  assert (D : dot3 (sub_proj u v (dot3 u v)) (sub_proj w v (dot3 v w)) = dot3 u w - dot3 u v * dot3 v w).
  { clear -Hv. destruct u as [[a b] c], v as [[x y] z], w as [[p q] r]. unfold norm2, dot3, sub_proj in *.
    set (k := a * x + b * y + c * z). set (l := x * p + y * q + z * r).
    replace ((a - k * x) * (p - l * x) + (b - k * y) * (q - l * y) + (c - k * z) * (r - l * z))
      with ((a * p + b * q + c * r) - l * (a * x + b * y + c * z) - k * (x * p + y * q + z * r) + k * l * (x * x + y * y + z * z)) by ring.
    rewrite Hv. fold k l. ring. }
  rewrite D in C. replace ((dot3 u w - dot3 u v * dot3 v w) ^ 2) with ((dot3 u w - dot3 u v * dot3 v w) * (dot3 u w - dot3 u v * dot3 v w)) by ring. exact C.
Qed.
Lemma angle_triangle u v w : norm2 u = 1 -> norm2 v = 1 -> norm2 w = 1 -> central_angle u w <= central_angle u v + central_angle v w.
Proof.
  intros Hu Hv Hw. unfold central_angle. pose proof (dot_range u v Hu Hv) as B1. pose proof (dot_range v w Hv Hw) as B2. pose proof (dot_range u w Hu Hw) as B3.
  pose proof (acos_bound (dot3 u v)) as A1. pose proof (acos_bound (dot3 v w)) as A2. pose proof (acos_bound (dot3 u w)) as A3.
  destruct (Rle_dec PI (acos (dot3 u v) + acos (dot3 v w))) as [?|N]; [lra|]. apply Rnot_le_lt in N.
  destruct (Rle_dec (acos (dot3 u w)) (acos (dot3 u v) + acos (dot3 v w))) as [?|C]; auto. exfalso. apply Rnot_le_lt in C.
  assert (L : cos (acos (dot3 u w)) < cos (acos (dot3 u v) + acos (dot3 v w))) by (apply cos_decreasing_1; lra).
  rewrite cos_plus, !cos_acos in L by auto. pose proof (gram u v w Hu Hv Hw) as G.
  assert (S1 : 0 <= sin (acos (dot3 u v))) by (apply sin_ge_0; lra). assert (S2 : 0 <= sin (acos (dot3 v w))) by (apply sin_ge_0; lra).
  pose proof (cos2_sin2 (acos (dot3 u v))) as T1. pose proof (cos2_sin2 (acos (dot3 v w))) as T2. rewrite cos_acos in T1, T2 by auto.
  set (p := dot3 u v) in *. set (q := dot3 v w) in *. set (s := dot3 u w) in *. set (a := sin (acos p)) in *. set (b := sin (acos q)) in *.
  replace (1 - p ^ 2) with (a ^ 2) in G by (simpl; lra). replace (1 - q ^ 2) with (b ^ 2) in G by (simpl; lra).
  assert (0 <= a * b) by (apply Rmult_le_pos; auto). nra.
Qed.
Lemma hav_triangle a b c d e f : haversine a b e f <= haversine a b c d + haversine c d e f.
Proof.
  rewrite !haversine_great_circle. unfold great_circle.
  pose proof (angle_triangle (unit_vector a b) (unit_vector c d) (unit_vector e f) (unit_norm _ _) (unit_norm _ _) (unit_norm _ _)). lra.
Qed.

(** ** nn_horizontal *)
Lemma Rgtb_spec a b : Rgtb a b = true <-> a > b.
Proof. unfold Rgtb. destruct (Rgt_dec a b); split; auto; discriminate. Qed.
Lemma Rgtb_false a b : Rgtb a b = false <-> a <= b.
Proof. unfold Rgtb. destruct (Rgt_dec a b); split; intros H; auto; try discriminate; lra. Qed.
Lemma Rltb_spec a b : Rltb a b = true <-> a < b.
Proof. unfold Rltb. destruct (Rlt_dec a b); split; auto; discriminate. Qed.
Lemma Rltb_false a b : Rltb a b = false <-> b <= a.
Proof. unfold Rltb. destruct (Rlt_dec a b); split; intros H; auto; try discriminate; lra. Qed.
Lemma Rleb_spec a b : Rleb a b = true <-> a <= b.
Proof. unfold Rleb. destruct (Rle_dec a b); split; auto; discriminate. Qed.

(** the usual first-minimum loop *)
Lemma first_min_spec {A} (m : A -> R) l : forall x0, let r := fold_left (fun b d => if Rgtb (m b) (m d) then d else b) l x0 in
  m r <= m x0 /\ Forall (fun y => m r <= m y) l /\
  ((r = x0 /\ Forall (fun y => m r <= m y) l) \/ exists l1 l2, l = l1 ++ r :: l2 /\ m r < m x0 /\ Forall (fun y => m r < m y) l1).
Proof.
  induction l as [|a l IH]; intros x0; cbn [fold_left].
  - cbv zeta. split; [lra|]. split; [constructor|]. left. auto.
  - cbv zeta in *. set (y := if Rgtb (m x0) (m a) then a else x0). destruct (IH y) as (H1 & H2 & H3). set (r := fold_left _ l y) in *. clearbody r.
    destruct (Rgtb (m x0) (m a)) eqn:E; subst y.
    + apply Rgtb_spec in E. split; [lra|]. split; [constructor; auto|]. right. destruct H3 as [[E2 _]|(l1 & l2 & E2 & L & F)].
      * subst r. exists [], l. split; [reflexivity|]. split; [lra|constructor].
      * exists (a :: l1), l2. split; [rewrite E2; reflexivity|]. split; [lra|]. constructor; auto.
    + apply Rgtb_false in E. split; [lra|]. split; [constructor; [lra|auto]|]. destruct H3 as [[E' F]|(l1 & l2 & E' & L & F)].
      * left. subst r. split; auto.
      * right. exists (a :: l1), l2. rewrite E'. split; [reflexivity|]. split; auto. constructor; auto. lra.
Qed.
Theorem nn_horizontal_spec V (point : list R) (data : list (list R * V)) : data <> [] ->
  let dist (d : list R * V) := hdist (first_columns point) (first_columns (fst d)) in
  exists l1 d l2, data = l1 ++ d :: l2 /\ nn_horizontal point data = Ok (snd d) /\ Forall (fun e => dist d <= dist e) data /\ Forall (fun e => dist d < dist e) l1.
Proof.
  intros HN dist. destruct data as [|d0 rest]; [congruence|]. unfold nn_horizontal. fold dist.
  destruct (first_min_spec dist rest d0) as (H1 & H2 & H3). set (r := fold_left _ rest d0) in *. clearbody r.
  destruct H3 as [[E _]|(l1 & l2 & E & L & F)].
  - exists [], d0, rest. subst r. split; [reflexivity|]. split; [reflexivity|]. split; [constructor; [lra|auto]|constructor].
  - exists (d0 :: l1), r, l2. split; [rewrite E; reflexivity|]. split; [reflexivity|]. split; [constructor; auto|]. constructor; [lra|auto].
Qed.

(** ** Equatorial distances, for the witnesses *)
Lemma hav_equator d : 0 <= d <= 180 -> haversine 0 0 0 d = d * PI / 180 * 6378.
Proof.
  intros H. rewrite haversine_great_circle. unfold great_circle, central_angle, unit_vector, dot3, radians.
  replace (0 * PI / 180) with 0 by lra. rewrite cos_0, sin_0. pose proof PI_RGT_0.
  replace (1 * 1 * (1 * cos (d * PI / 180)) + 1 * 0 * (1 * sin (d * PI / 180)) + 0 * 0) with (cos (d * PI / 180)) by ring.
  rewrite acos_cos by (split; nra). lra.
Qed.
Lemma unit_shift lat1 lon1 lat2 lon2 s : dot3 (unit_vector lat1 (lon1 + s)) (unit_vector lat2 (lon2 + s)) = dot3 (unit_vector lat1 lon1) (unit_vector lat2 lon2).
Proof.
  pose proof (chord lat1 (lon1 + s) lat2 (lon2 + s)) as A. pose proof (chord lat1 lon1 lat2 lon2) as B.
  replace (rad (lon2 + s) - rad (lon1 + s)) with (rad lon2 - rad lon1) in A by (unfold rad; field). lra.
Qed.
Lemma hav_rotate lat1 lon1 lat2 lon2 s : haversine lat1 (lon1 + s) lat2 (lon2 + s) = haversine lat1 lon1 lat2 lon2.
Proof. rewrite !haversine_great_circle. unfold great_circle, central_angle. rewrite unit_shift. reflexivity. Qed.
Lemma hav_equator2 a b d : b = a + d -> 0 <= d <= 180 -> haversine 0 a 0 b = d * PI / 180 * 6378.
Proof. intros -> H. replace a with (0 + a) at 1 by lra. replace (a + d) with (d + a) by lra. rewrite hav_rotate. apply hav_equator; auto. Qed.

Lemma hav_meridian a b l : Rabs (b - a) <= 180 -> haversine a l b l = Rabs (b - a) * PI / 180 * 6378.
Proof.
  intros H. rewrite haversine_great_circle. unfold great_circle, central_angle. pose proof (chord a l b l) as C. replace (rad l - rad l) with 0 in C by ring. replace (0 / 2) with 0 in C by lra. rewrite sin_0 in C.
  rewrite half_sin2 in C. replace (0 ^ 2) with 0 in C by ring. rewrite Rmult_0_r in C. assert (D : dot3 (unit_vector a l) (unit_vector b l) = cos (rad b - rad a)) by lra. rewrite D.
  assert (E : cos (rad b - rad a) = cos (Rabs (b - a) * PI / 180)).
  { unfold rad. replace (b * PI / 180 - a * PI / 180) with ((b - a) * PI / 180) by field. unfold Rabs. destruct (Rcase_abs (b - a)); auto. rewrite <- cos_neg. f_equal. field. }
  pose proof PI_RGT_0. pose proof (Rabs_pos (b - a)). rewrite E, acos_cos by (split; nra). field.
Qed.
