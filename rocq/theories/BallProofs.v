From Verif Require Import Base QBase KDModel KDSpec KDProofs KD2Proofs KD4Proofs HavModel HavSpec HavProofs Hav2Proofs ColModel BallModel.
From Coq Require Import List Reals Lra Psatz Qreals.
Import ListNotations.
Open Scope R_scope.

Definition cosang (a b c d : R) : R := sin a * sin c + cos a * cos c * cos (d - b).
Lemma rad_deg x : rad (x * 180 / PI) = x.
Proof. unfold rad. field. apply PI_neq0. Qed.
Lemma cosang_dot a b c d : cosang (rad a) (rad b) (rad c) (rad d) = dot3 (unit_vector a b) (unit_vector c d).
Proof. unfold cosang, dot3, unit_vector, radians, rad. rewrite cos_minus. ring. Qed.
Lemma cosang_range a b c d : -1 <= cosang a b c d <= 1.
Proof. rewrite <- (rad_deg a), <- (rad_deg b), <- (rad_deg c), <- (rad_deg d), cosang_dot. apply dot_range; apply unit_norm. Qed.
Lemma hav_acos a b c d : hav_radians a b c d = RADIUS * acos (cosang a b c d).
Proof.
  pose proof (haversine_great_circle (a * 180 / PI) (b * 180 / PI) (c * 180 / PI) (d * 180 / PI)) as H. unfold great_circle, central_angle in H. rewrite <- cosang_dot in H. unfold haversine in H. rewrite !rad_deg in H. exact H.
Qed.
Lemma acos_le x y : -1 <= x <= 1 -> -1 <= y <= 1 -> y <= x -> acos x <= acos y.
Proof.
  intros X Y H. pose proof (acos_bound x). pose proof (acos_bound y). apply Rnot_lt_le. intros L. assert (cos (acos x) < cos (acos y)) by (apply cos_decreasing_1; lra). rewrite !cos_acos in H2 by lra. lra.
Qed.
Lemma hav_le a b c d a' b' c' d' : cosang a' b' c' d' <= cosang a b c d -> hav_radians a b c d <= hav_radians a' b' c' d'.
Proof. intros H. rewrite !hav_acos. apply Rmult_le_compat_l; [unfold RADIUS; lra|]. apply acos_le; auto using cosang_range. Qed.

(** *** cosines *)
Lemma cos_mono x y : 0 <= x -> x <= y -> y <= PI -> cos y <= cos x.
Proof. intros. destruct (Req_dec x y) as [->|]; [lra|]. left. apply cos_decreasing_1; lra. Qed.
Lemma cos_gap t d : 0 <= d -> d <= t -> t <= 2 * PI - d -> cos t <= cos d.
Proof.
  intros D T U. destruct (Rle_dec t PI).
  - apply cos_mono; lra.
  - replace (cos t) with (cos (2 * PI - t)); [apply cos_mono; lra|]. replace (2 * PI - t) with (- t + 2 * INR 1 * PI) by (simpl; lra). rewrite cos_period, cos_neg. reflexivity.
Qed.
Lemma cos_shift x k : cos (x + 2 * IZR k * PI) = cos x.
Proof.
  destruct k as [|p|p].
  - f_equal. lra.
  - rewrite <- (positive_nat_Z p), <- INR_IZR_INZ. apply cos_period.
  - replace (IZR (Z.neg p)) with (- INR (Pos.to_nat p)).
    + rewrite <- (cos_period (x + 2 * - INR (Pos.to_nat p) * PI) (Pos.to_nat p)). f_equal. lra.
    + change (Z.neg p) with (- Z.pos p)%Z. rewrite opp_IZR, <- (positive_nat_Z p), <- INR_IZR_INZ. reflexivity.
Qed.
Lemma sin_shift x k : sin (x + 2 * IZR k * PI) = sin x.
Proof.
  destruct k as [|p|p].
  - f_equal. lra.
  - rewrite <- (positive_nat_Z p), <- INR_IZR_INZ. apply sin_period.
  - replace (IZR (Z.neg p)) with (- INR (Pos.to_nat p)).
    + rewrite <- (sin_period (x + 2 * - INR (Pos.to_nat p) * PI) (Pos.to_nat p)). f_equal. lra.
    + change (Z.neg p) with (- Z.pos p)%Z. rewrite opp_IZR, <- (positive_nat_Z p), <- INR_IZR_INZ. reflexivity.
Qed.
Lemma cosang_shift a b c d k : cosang a (b + 2 * IZR k * PI) c d = cosang a b c d.
Proof. unfold cosang. do 2 f_equal. replace (d - (b + 2 * IZR k * PI)) with (d - b + 2 * IZR (- k) * PI) by (rewrite opp_IZR; lra). apply cos_shift. Qed.

(** *** fmod *)
Lemma int_part_bounds z : IZR (Int_part z) <= z < IZR (Int_part z) + 1.
Proof. destruct (base_Int_part z) as [A B]. lra. Qed.
Lemma fmod_shift x y : exists k, fmod x y = x + y * IZR k.
Proof. unfold fmod, truncate. destruct (Rle_dec 0 (x / y)); [exists (- Int_part (x / y))%Z|exists (Int_part (- (x / y)))%Z]; rewrite ?opp_IZR; ring. Qed.
Lemma fmod_pos x y : 0 < y -> 0 <= x -> 0 <= fmod x y < y.
Proof.
  intros Y X. unfold fmod, truncate. destruct (Rle_dec 0 (x / y)) as [P|N].
  - pose proof (int_part_bounds (x / y)) as [A B]. assert (E : x = y * (x / y)) by (field; lra). set (q := x / y) in *. set (n := IZR (Int_part q)) in *. nra.
  - exfalso. apply N. apply Rmult_le_pos; auto. left. apply Rinv_0_lt_compat. auto.
Qed.
Lemma fmod_small x y : 0 < y -> - y < x -> x < 0 -> fmod x y = x.
Proof.
  intros Y A B. unfold fmod, truncate. assert (E : x = y * (x / y)) by (field; lra). destruct (Rle_dec 0 (x / y)) as [P|N]; [nra|].
  pose proof (int_part_bounds (- (x / y))) as [C D]. set (q := x / y) in *. assert (Q1 : -1 < q) by nra. assert (Q2 : q < 0) by lra.
  assert (Z0 : Int_part (- q) = 0%Z). { assert (L : IZR (Int_part (- q)) < 1) by lra. assert (G : -1 < IZR (Int_part (- q))) by lra. apply lt_IZR in L. change (-1) with (IZR (-1)) in G. apply lt_IZR in G. lia. }
  rewrite Z0. lra.
Qed.

(** *** along a line of longitude *)
Lemma on_meridian a k w p : 0 <= k -> w * w = sin a * sin a + k * k -> 0 < w -> sin a * sin p + k * cos p = w * cos (p - asin (sin a / w)).
Proof.
  intros K W P. rewrite cos_minus. assert (B : -1 <= sin a / w <= 1).
  { assert (sin a = w * (sin a / w)) by (field; lra). set (q := sin a / w) in *. assert (SQ : q * q <= 1). { assert (w * w * (q * q) <= w * w) by nra. apply Rmult_le_reg_l with (w * w); nra. } split; nra. }
  rewrite sin_asin by exact B. rewrite cos_asin by exact B. replace (sqrt (1 - (sin a / w)²)) with (k / w).
  - field. lra.
  - symmetry. assert (E : 1 - (sin a / w)² = (k / w) * (k / w)). { unfold Rsqr. replace (1 - sin a / w * (sin a / w)) with ((w * w - sin a * sin a) / (w * w)) by (field; lra). replace (w * w - sin a * sin a) with (k * k) by lra. field. lra. }
    rewrite E. apply sqrt_square. apply Rmult_le_pos; auto. left. apply Rinv_0_lt_compat. auto.
Qed.
Lemma clip_best a b x p : -(PI/2) <= a -> a <= b -> b <= PI/2 -> -(PI/2) <= x <= PI/2 -> a <= p <= b -> cos (p - x) <= cos (Rmin (Rmax x a) b - x).
Proof.
  intros A AB B X P. set (c := Rmin (Rmax x a) b). assert (C : (c = x /\ a <= x <= b) \/ (c = a /\ x < a) \/ (c = b /\ b < x)).
  { unfold c. destruct (Rlt_dec x a) as [L|L]; [right; left; rewrite Rmax_right, Rmin_left by lra; lra|]. rewrite Rmax_left by lra.
    destruct (Rlt_dec b x) as [L'|L']; [right; right; rewrite Rmin_right by lra; lra|left; rewrite Rmin_left by lra; lra]. }
  destruct C as [[-> _]|[[-> L]|[-> L]]].
  - replace (x - x) with 0 by ring. rewrite cos_0. apply COS_bound.
  - apply cos_mono; lra.
  - rewrite <- (cos_neg (p - x)), <- (cos_neg (b - x)). apply cos_mono; lra.
Qed.
Lemma crossing_best a b lat lon lon0 e p k : lon0 = lon + 2 * IZR k * PI -> -(PI/2) <= lat <= PI/2 -> 0 <= cos (e - lon0) -> -(PI/2) <= a -> a <= b -> b <= PI/2 -> a <= p <= b ->
  cosang lat lon0 p e <= cosang lat lon0 (Rmin (Rmax (crossing lat lon e) a) b) e.
Proof.
  intros E L C A AB B P. unfold cosang. set (c := Rmin _ b). set (k0 := cos lat * cos (e - lon0)). assert (CL : 0 <= cos lat) by (apply cos_ge_0; lra). assert (K : 0 <= k0) by (apply Rmult_le_pos; auto).
  assert (F : forall p, sin lat * sin p + cos lat * cos p * cos (e - lon0) = sin lat * sin p + k0 * cos p) by (intros; unfold k0; ring). rewrite !F.
  assert (W2 : 1 - cos lat ^ 2 * sin (lon - e) ^ 2 = sin lat * sin lat + k0 * k0).
  { unfold k0. assert (S2 : sin (lon - e) ^ 2 = 1 - cos (e - lon0) * cos (e - lon0)).
    { replace (cos (e - lon0)) with (cos (lon - e)). { pose proof (cos2_sin2 (lon - e)). simpl. lra. }
      rewrite <- (cos_neg (e - lon0)), E, <- (cos_shift (lon - e) k). f_equal. lra. }
    rewrite S2. pose proof (cos2_sin2 lat). simpl. nra. }
  unfold c, crossing. rewrite W2. set (w := sqrt (sin lat * sin lat + k0 * k0)).
  assert (NN : 0 <= sin lat * sin lat + k0 * k0) by nra. assert (WW : w * w = sin lat * sin lat + k0 * k0) by (apply sqrt_def; auto). assert (W0 : 0 <= w) by apply sqrt_pos.
  destruct (Req_EM_T w 0) as [Z|Z].
  - rewrite Z in WW. assert (sin lat = 0) by nra. assert (k0 = 0) by nra. rewrite H, H0. lra.
  - assert (0 < w) by lra. rewrite !(on_meridian lat k0 w) by auto. apply Rmult_le_compat_l; [lra|]. apply clip_best; auto. pose proof (asin_bound (sin lat / w)). lra.
Qed.
(** the nearer end of a line of longitude a quarter of the Earth or more away *)
Lemma end_best a b lat lon0 e p : -(PI/2) <= lat <= PI/2 -> cos (e - lon0) <= 0 -> -(PI/2) <= a -> a <= b -> b <= PI/2 -> a <= p <= b -> cosang lat lon0 p e <= cosang lat lon0 (nearer_end a b e lat lon0) e.
Proof.
  intros L C A AB B P. assert (CL : 0 <= cos lat) by (apply cos_ge_0; lra). set (k := cos lat * cos (e - lon0)). assert (K : k <= 0) by (unfold k; nra).
  set (m := (a + b) / 2). set (g := fun x => sin lat * cos x - k * sin x).
  assert (D : forall x y, cosang lat lon0 y e - cosang lat lon0 x e = 2 * sin ((y - x) / 2) * g ((y + x) / 2)).
  { intros x y. unfold cosang, g. set (u := (y + x) / 2). set (v := (y - x) / 2). replace y with (u + v) by (unfold u, v; lra). replace x with (u - v) by (unfold u, v; lra).
    unfold k. generalize (cos (e - lon0)). intros z. rewrite sin_plus, sin_minus, cos_plus, cos_minus. ring. }
  assert (CM : 0 <= cos m) by (apply cos_ge_0; unfold m; lra).
  destruct (Req_dec a b) as [EQ|NE].
  { assert (p = a) by lra. subst p. unfold nearer_end. destruct (tan_less _ _ _); [lra|rewrite EQ; lra]. }
  assert (CM' : 0 < cos m) by (apply cos_gt_0; unfold m; lra).
  assert (G : forall x y, cos x * g y - cos y * g x = - k * sin (y - x)).
  { intros x y. unfold g. rewrite sin_minus. ring. }
  assert (T : (nearer_end a b e lat lon0 = a /\ g m <= 0) \/ (nearer_end a b e lat lon0 = b /\ 0 <= g m)).
  { unfold nearer_end, tan_less. fold m. replace (cos (lon0 - e)) with (cos (e - lon0)) by (rewrite <- cos_neg; f_equal; lra). destruct (Req_EM_T (cos lat) 0) as [Z|Z].
    - assert (k = 0) by (unfold k; rewrite Z; ring). unfold g. rewrite H. destruct (Rltb (sin lat) 0) eqn:S; [apply Rltb_spec in S; left|apply Rltb_false in S; right]; split; auto; nra.
    - destruct (Req_EM_T (cos m) 0) as [Y|Y]; [lra|]. assert (0 < cos lat) by lra.
      assert (TG : tan lat - tan m * cos (e - lon0) = g m / (cos lat * cos m)). { unfold g, k, tan. field. lra. }
      assert (0 < cos lat * cos m) by nra. assert (I : 0 < / (cos lat * cos m)) by (apply Rinv_0_lt_compat; auto). unfold Rdiv in TG.
      destruct (Rltb (tan lat) _) eqn:S; [apply Rltb_spec in S; left|apply Rltb_false in S; right]; split; auto; nra. }
  destruct T as [[-> GM]|[-> GM]].
  - (* the lower end *)
    pose proof (D a p) as E. assert (S0 : 0 <= sin ((p - a) / 2)) by (apply sin_ge_0; lra). assert (GG : g ((p + a) / 2) <= 0).
    { pose proof (G ((p + a) / 2) m) as H. assert (0 <= sin (m - (p + a) / 2)) by (apply sin_ge_0; unfold m; lra). assert (0 <= cos ((p + a) / 2)) by (apply cos_ge_0; lra). nra. }
    nra.
  - pose proof (D p b) as E. assert (S0 : 0 <= sin ((b - p) / 2)) by (apply sin_ge_0; lra). assert (GG : 0 <= g ((b + p) / 2)).
    { pose proof (G m ((b + p) / 2)) as H. assert (0 <= sin ((b + p) / 2 - m)) by (apply sin_ge_0; unfold m; lra). assert (0 <= cos ((b + p) / 2)) by (apply cos_ge_0; lra). nra. }
    nra.
Qed.
Lemma nearer_end_in a b e lat lon0 : a <= b -> a <= nearer_end a b e lat lon0 <= b.
Proof. intros. unfold nearer_end. destruct (tan_less _ _ _); lra. Qed.
Lemma clip_in a b x : a <= b -> a <= Rmin (Rmax x a) b <= b.
Proof. intros. unfold Rmax, Rmin. destruct (Rle_dec x a), (Rle_dec _ b); lra. Qed.

Definition in_range (la lb oa ob p q : R) : Prop := la <= p <= lb /\ oa <= q <= ob.
Lemma shifted lon start : exists k, fmod (lon - start) (2 * PI) + start = lon + 2 * IZR k * PI.
Proof. destruct (fmod_shift (lon - start) (2 * PI)) as (k & E). exists k. rewrite E. ring. Qed.
Lemma hav_shift lat lon lon0 c d k : lon0 = lon + 2 * IZR k * PI -> hav_radians lat lon0 c d = hav_radians lat lon c d.
Proof. intros ->. rewrite !hav_acos, cosang_shift. reflexivity. Qed.
Lemma reachable oa ob lon : oa <= ob -> ob <= oa + 2 * PI -> ob - 2 * PI <= lon -> let start := (oa + ob) / 2 - PI in let lon0 := fmod (lon - start) (2 * PI) + start in
  (start <= lon0 < start + 2 * PI) \/ (ob - 2 * PI <= lon0 /\ lon0 < start).
Proof.
  intros A B C start lon0. pose proof PI_RGT_0 as P. destruct (Rle_dec 0 (lon - start)).
  - left. pose proof (fmod_pos (lon - start) (2 * PI) ltac:(lra) r). unfold lon0. lra.
  - right. unfold lon0. rewrite fmod_small by (unfold start in *; lra). lra.
Qed.
Lemma to_side_spec la lb lat lon lon0 e diff k : lon0 = lon + 2 * IZR k * PI -> -(PI/2) <= lat <= PI/2 -> -(PI/2) <= la -> la <= lb -> lb <= PI/2 ->
  let d := if Rltb diff 0 then diff + 2 * PI else diff in 0 <= d <= PI -> cos (e - lon0) = cos d ->
  exists c, la <= c <= lb /\ to_side la lb lat lon lon0 e diff = hav_radians lat lon0 c e /\ forall p, la <= p <= lb -> cosang lat lon0 p e <= cosang lat lon0 c e.
Proof.
  intros E L A AB B d D C. unfold to_side. fold d. destruct (Rltb (PI / 2) d) eqn:T; [apply Rltb_spec in T|apply Rltb_false in T].
  - exists (nearer_end la lb e lat lon0). split; [apply nearer_end_in; auto|]. split; [reflexivity|]. intros p P. apply end_best; auto. rewrite C. apply cos_le_0; lra.
  - exists (Rmin (Rmax (crossing lat lon e) la) lb). split; [apply clip_in; auto|]. split; [reflexivity|]. intros p P. eapply crossing_best; eauto. rewrite C. apply cos_ge_0; lra.
Qed.
Lemma to_rectangle_spec la lb oa ob lat lon : -(PI/2) <= la -> la <= lb -> lb <= PI/2 -> oa <= ob -> ob <= oa + 2 * PI -> -(PI/2) <= lat <= PI/2 -> ob - 2 * PI <= lon ->
  exists c d, in_range la lb oa ob c d /\ to_rectangle la lb oa ob lat lon = hav_radians lat lon c d /\ forall p q, in_range la lb oa ob p q -> cosang lat lon p q <= cosang lat lon c d.
Proof.
  intros A AB B O W L S. pose proof PI_RGT_0 as PI0. pose proof (reachable oa ob lon O W S) as RR. cbv zeta in RR. destruct (shifted lon ((oa + ob) / 2 - PI)) as (k & E).
  unfold to_rectangle. set (lon0 := fmod _ _ + _) in *. set (mid := (oa + ob) / 2) in *.
  assert (KK : forall p q, cosang lat lon p q = cosang lat lon0 p q) by (intros; rewrite E, cosang_shift; reflexivity).
  assert (HH : forall c d, hav_radians lat lon0 c d = hav_radians lat lon c d) by (intros; eapply hav_shift; eauto).
  destruct (Rleb oa lon0 && Rleb lon0 ob) eqn:I.
  - apply andb_prop in I. destruct I as [I1 I2]. apply Rleb_spec in I1. apply Rleb_spec in I2.
    assert (UP : forall p q, in_range la lb oa ob p q -> cosang lat lon0 p q <= cos (p - lat)).
    { intros p q [P _]. unfold cosang. rewrite (cos_minus p lat). pose proof (COS_bound (q - lon0)) as [_ C1]. assert (0 <= cos lat) by (apply cos_ge_0; lra). assert (0 <= cos p) by (apply cos_ge_0; lra). assert (M : 0 <= cos lat * cos p) by (apply Rmult_le_pos; auto). pose proof (Rmult_le_compat_l _ _ _ M C1). lra. }
    assert (AT : forall p, cosang lat lon0 p lon0 = cos (p - lat)). { intros p. unfold cosang. rewrite (cos_minus p lat). replace (lon0 - lon0) with 0 by ring. rewrite cos_0. ring. }
    destruct (Rltb lat la) eqn:I3; [apply Rltb_spec in I3|apply Rltb_false in I3; destruct (Rltb lb lat) eqn:I4; [apply Rltb_spec in I4|apply Rltb_false in I4]].
    + exists la, lon0. split; [unfold in_range; lra|]. split; [apply HH|]. intros p q H. rewrite !KK, AT. eapply Rle_trans; [apply UP; exact H|]. destruct H. apply cos_mono; lra.
    + exists lb, lon0. split; [unfold in_range; lra|]. split; [apply HH|]. intros p q H. rewrite !KK, AT. eapply Rle_trans; [apply UP; exact H|]. destruct H. rewrite <- (cos_neg (p - lat)), <- (cos_neg (lb - lat)). apply cos_mono; lra.
    + exists lat, lon0. split; [unfold in_range; lra|]. rewrite <- HH. split.
      * rewrite hav_acos, AT. replace (lat - lat) with 0 by ring. rewrite cos_0, acos_1. lra.
      * intros p q H. rewrite !KK, AT. eapply Rle_trans; [apply UP; exact H|]. replace (lat - lat) with 0 by ring. rewrite cos_0. apply COS_bound.
  - assert (OUT : lon0 < oa \/ ob < lon0). { destruct (Rleb oa lon0) eqn:I1; [|left; destruct (Rlt_dec lon0 oa); auto; exfalso; assert (Rleb oa lon0 = true) by (apply Rleb_spec; lra); congruence].
      right. cbn [andb] in I. destruct (Rlt_dec ob lon0); auto. exfalso. assert (Rleb lon0 ob = true) by (apply Rleb_spec; lra). congruence. }
    assert (FAR : forall e c p q, in_range la lb oa ob p q -> (forall p, la <= p <= lb -> cosang lat lon0 p e <= cosang lat lon0 c e) -> cos (q - lon0) <= cos (e - lon0) -> cosang lat lon p q <= cosang lat lon c e).
    { intros e c p q [P _] BEST LE. rewrite !KK. eapply Rle_trans; [|apply BEST; exact P]. unfold cosang. assert (0 <= cos lat) by (apply cos_ge_0; lra). assert (0 <= cos p) by (apply cos_ge_0; lra). assert (M : 0 <= cos lat * cos p) by (apply Rmult_le_pos; auto). pose proof (Rmult_le_compat_l _ _ _ M LE). lra. }
    destruct ((Rltb lon0 mid && Rltb (mid - lon0) PI) || (Rltb mid lon0 && Rltb PI (lon0 - mid))) eqn:I2.
    + (* the western side *)
      assert (X : lon0 < mid /\ mid - lon0 < PI). { apply orb_prop in I2. destruct I2 as [I2|I2]; apply andb_prop in I2; destruct I2 as [I2 I3]; apply Rltb_spec in I2; apply Rltb_spec in I3; lra. }
      assert (lon0 < oa) by (unfold mid in *; lra).
      destruct (to_side_spec la lb lat lon lon0 oa (oa - lon0) k) as (c & C & T & BEST); auto.
      { rewrite (proj2 (Rltb_false (oa - lon0) 0)) by lra. unfold mid in *. lra. }
      { rewrite (proj2 (Rltb_false (oa - lon0) 0)) by lra. reflexivity. }
      exists c, oa. split; [unfold in_range; lra|]. split; [rewrite T; apply HH|]. intros p q H1. apply FAR; auto. destruct H1. apply cos_gap; unfold mid in *; lra.
    + (* the eastern side *)
      assert (X : ob < lon0 \/ (lon0 <= mid - PI /\ lon0 < oa)).
      { destruct (Rlt_dec ob lon0); auto. right. assert (lon0 < oa) by lra. split; auto. destruct (Rle_dec lon0 (mid - PI)); auto. exfalso. apply orb_false_elim in I2. destruct I2 as [I2 _].
        assert (Rltb lon0 mid = true) by (apply Rltb_spec; unfold mid; lra). assert (Rltb (mid - lon0) PI = true) by (apply Rltb_spec; lra). rewrite H0, H1 in I2. discriminate. }
      destruct X as [X|[X Y]].
      * destruct (to_side_spec la lb lat lon lon0 ob (lon0 - ob) k) as (c & C & T & BEST); auto.
        { rewrite (proj2 (Rltb_false (lon0 - ob) 0)) by lra. unfold mid in *. lra. }
        { rewrite (proj2 (Rltb_false (lon0 - ob) 0)) by lra. rewrite <- cos_neg. f_equal. lra. }
        exists c, ob. split; [unfold in_range; lra|]. split; [rewrite T; apply HH|]. intros p q H1. apply FAR; auto. destruct H1. rewrite <- (cos_neg (q - lon0)), <- (cos_neg (ob - lon0)). apply cos_gap; unfold mid in *; lra.
      * assert (NEG : Rltb (lon0 - ob) 0 = true) by (apply Rltb_spec; lra).
        destruct (to_side_spec la lb lat lon lon0 ob (lon0 - ob) k) as (c & C & T & BEST); auto.
        { rewrite NEG. unfold mid in *. lra. }
        { rewrite NEG. rewrite <- (cos_neg (ob - lon0)), <- (cos_shift (- (ob - lon0)) 1). f_equal. lra. }
        exists c, ob. split; [unfold in_range; lra|]. split; [rewrite T; apply HH|]. intros p q H1. apply FAR; auto. destruct H1.
        rewrite <- (cos_neg (q - lon0)), <- (cos_neg (ob - lon0)), <- (cos_shift (- (q - lon0)) 1), <- (cos_shift (- (ob - lon0)) 1). apply cos_gap; unfold mid in *; lra.
Qed.
(** the opposite point *)
Lemma cosang_opposite a b c d : cosang (- a) (b + PI) c d = - cosang a b c d.
Proof. unfold cosang. rewrite sin_neg, cos_neg. replace (d - (b + PI)) with (d - b - PI) by ring. replace (cos (d - b - PI)) with (- cos (d - b)); [ring|]. rewrite (cos_minus (d - b) PI), sin_PI, cos_PI. ring. Qed.
Lemma hav_opposite a b c d : hav_radians (- a) (b + PI) c d = PI * RADIUS - hav_radians a b c d.
Proof. rewrite !hav_acos, cosang_opposite, acos_opp. ring. Qed.
