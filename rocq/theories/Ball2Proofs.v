From Verif Require Import Base QBase KDModel KDSpec KDProofs KD2Proofs KD4Proofs HavModel HavSpec HavProofs Hav2Proofs ColModel ColSpec ColProofs Col3Proofs BallModel BallSpec BallProofs.
From Coq Require Import List Reals Lra Psatz Qreals.
Import ListNotations.
Open Scope R_scope.

Lemma great_radians lat lon p q : great_circle lat lon p q = hav_radians (rad lat) (rad lon) (rad p) (rad q).
Proof. rewrite <- haversine_great_circle. reflexivity. Qed.
Lemma rad_le x y : x <= y <-> rad x <= rad y.
Proof. unfold rad. pose proof PI_RGT_0. split; intros; [nra|]. apply Rmult_le_reg_r with (PI / 180); nra. Qed.
Lemma rad_turn x : rad (x + 360) = rad x + 2 * PI.
Proof. unfold rad. field. Qed.
Lemma rad_90 : rad 90 = PI / 2.
Proof. unfold rad. field. Qed.
Lemma rad_m90 : rad (-90) = - (PI / 2).
Proof. unfold rad. field. Qed.
Lemma globe_rad la lb oa ob : on_globe la lb oa ob -> - (PI / 2) <= rad la /\ rad la <= rad lb /\ rad lb <= PI / 2 /\ rad oa <= rad ob /\ rad ob <= rad oa + 2 * PI.
Proof. intros (A & B & C & D & E). rewrite rad_le in A, B, C, D, E. rewrite rad_turn in E. rewrite rad_90 in C. rewrite rad_m90 in A. auto. Qed.
Lemma lat_rad x : -90 <= x <= 90 -> - (PI / 2) <= rad x <= PI / 2.
Proof. intros [A B]. rewrite rad_le in A, B. rewrite rad_90 in B. rewrite rad_m90 in A. auto. Qed.
Lemma rad_deg x : rad (x * 180 / PI) = x.
Proof. unfold rad. field. apply PI_neq0. Qed.
Lemma back_in la lb oa ob p q : in_range (rad la) (rad lb) (rad oa) (rad ob) p q -> of_rectangle la lb oa ob (p * 180 / PI) (q * 180 / PI).
Proof. intros [[A1 A2] [B1 B2]]. unfold of_rectangle. repeat split; apply rad_le; rewrite rad_deg; assumption. Qed.
Lemma there_in la lb oa ob p q : of_rectangle la lb oa ob p q -> in_range (rad la) (rad lb) (rad oa) (rad ob) (rad p) (rad q).
Proof. intros [A B]. unfold in_range. rewrite <- !rad_le. auto. Qed.

Section Rectangle.
Variables (r : rect) (x : list Q).
Hypothesis G : on_globe (rmin r 0) (rmax r 0) (rmin r 1) (rmax r 1).
Hypothesis L : -90 <= latitude x <= 90.
Hypothesis E : rmax r 1 - 360 <= longitude x.
Theorem min_nearest : nearest_at (rmin r 0) (rmax r 0) (rmin r 1) (rmax r 1) (latitude x) (longitude x) (min_distance r x).
Proof.
  destruct (globe_rad _ _ _ _ G) as (A & B & C & D & F). pose proof (lat_rad _ L) as L'. assert (E' : rad (rmax r 1) - 2 * PI <= rad (longitude x)).
  { assert (rmax r 1 <= longitude x + 360) by lra. rewrite rad_le, rad_turn in H. lra. }
  destruct (to_rectangle_spec _ _ _ _ (rad (latitude x)) (rad (longitude x)) A B C D F L' E') as (c & d & I & T & BEST).
  assert (M : min_distance r x = hav_radians (rad (latitude x)) (rad (longitude x)) c d) by (rewrite <- T; reflexivity). rewrite M. split.
  - intros p q O. rewrite great_radians. apply hav_le. apply BEST. apply there_in. exact O.
  - exists (c * 180 / PI), (d * 180 / PI). split; [apply back_in; exact I|]. rewrite great_radians, !rad_deg. reflexivity.
Qed.
Theorem max_furthest : furthest_at (rmin r 0) (rmax r 0) (rmin r 1) (rmax r 1) (latitude x) (longitude x) (max_distance r x).
Proof.
  pose proof PI_RGT_0 as PI0. destruct (globe_rad _ _ _ _ G) as (A & B & C & D & F). pose proof (lat_rad _ L) as L'. assert (E' : rad (rmax r 1) - 2 * PI <= rad (longitude x) + PI).
  { assert (rmax r 1 <= longitude x + 360) by lra. rewrite rad_le, rad_turn in H. lra. }
  destruct (to_rectangle_spec _ _ _ _ (- rad (latitude x)) (rad (longitude x) + PI) A B C D F ltac:(lra) E') as (c & d & I & T & BEST).
  assert (M : max_distance r x = PI * RADIUS - hav_radians (- rad (latitude x)) (rad (longitude x) + PI) c d) by (rewrite <- T; reflexivity). rewrite M. split.
  - intros p q O. apply there_in in O. apply BEST in O. apply hav_le in O. rewrite great_radians. rewrite !hav_opposite in O. rewrite hav_opposite. lra.
  - exists (c * 180 / PI), (d * 180 / PI). split; [apply back_in; exact I|]. rewrite great_radians, !rad_deg, hav_opposite. lra.
Qed.
End Rectangle.

(** *** the tree *)
Lemma rect_nth (B : rect) (c : rect) d : sub_rect B c -> (d < length B)%nat -> rmin B d <= rmin c d <= rmax B d /\ rmin B d <= rmax c d <= rmax B d.
Proof.
  intros S. unfold rmin, rmax. revert d. induction S as [|b e B c H S IH]; intros d Hd; [simpl in Hd; lia|]. destruct d as [|d]; [|apply (IH d); simpl in Hd; lia].
  cbn [nth]. destruct H as [[H1 H2] [H3 H4]]. split; split; apply Qle_Rle; assumption.
Qed.
Lemma row_in (rc : rect) y d : in_rect rc y -> (d < length rc)%nat -> rmin rc d <= Q2R (nth d y 0%Q) <= rmax rc d.
Proof. intros H Hd. destruct (forall2_nth_in rc y d H Hd). unfold rmin, rmax. split; apply Qle_Rle; assumption. Qed.
Lemma sub_length B c : sub_rect B c -> length c = length B.
Proof. induction 1; simpl; congruence. Qed.
Section Tree.
Variables (data : list (list Q)) (B : rect) (x : list Q) (r : R).
Hypothesis LB : length B = 2%nat.
Hypothesis GB : on_globe (rmin B 0) (rmax B 0) (rmin B 1) (rmax B 1).
Hypothesis LX : -90 <= latitude x <= 90.
Hypothesis EX : rmax B 1 - 360 <= longitude x.
Lemma dist_row i : hdist (r2 (row data i)) (r2 x) = row_distance (nth i data []) x.
Proof. unfold hdist, row_distance, row, r2. cbn [fst snd]. rewrite haversine_great_circle. reflexivity. Qed.
Lemma row_dist_sym a b : row_distance a b = row_distance b a.
Proof. unfold row_distance. rewrite <- !haversine_great_circle. apply hav_sym. Qed.
Lemma cell_bounds t rc i : hok data B t rc -> In i (leaves t) -> min_distance rc x <= row_distance (nth i data []) x <= max_distance rc x.
Proof.
  intros (_ & _ & C & SR & _) I. specialize (C i I). pose proof (sub_length _ _ SR) as LR. rewrite LB in LR.
  destruct (rect_nth B rc 0 SR ltac:(lia)) as [A1 A2]. destruct (rect_nth B rc 1 SR ltac:(lia)) as [A3 A4]. pose proof (row_in rc _ 0 C ltac:(lia)) as R0. pose proof (row_in rc _ 1 C ltac:(lia)) as R1.
  assert (GR : on_globe (rmin rc 0) (rmax rc 0) (rmin rc 1) (rmax rc 1)). { destruct GB as (G1 & G2 & G3 & G4 & G5). unfold on_globe. repeat split; lra. }
  assert (IR : of_rectangle (rmin rc 0) (rmax rc 0) (rmin rc 1) (rmax rc 1) (latitude (nth i data [])) (longitude (nth i data []))) by (split; assumption).
  rewrite row_dist_sym. split; [apply (min_nearest rc x GR LX ltac:(lra))|apply (max_furthest rc x GR LX ltac:(lra))]; exact IR.
Qed.
Lemma hball_spec : forall t rc, hok data B t rc -> NoDup (leaves t) -> NoDup (hball_point data x r t rc) /\ forall i, In i (hball_point data x r t rc) <-> In i (leaves t) /\ row_distance (nth i data []) x <= r.
Proof.
  induction t as [idx|d s l IHl g IHg]; intros rc H N; cbn [hball_point].
  - destruct (Rgtb (min_distance rc x) r) eqn:P.
    { apply Rgtb_spec in P. split; [constructor|]. intros i. split; [intros []|]. intros [I D]. pose proof (cell_bounds _ _ i H I). lra. }
    destruct (Rltb (max_distance rc x) r) eqn:Q.
    { apply Rltb_spec in Q. split; auto. intros i. split; [|tauto]. intros I. split; auto. pose proof (cell_bounds _ _ i H I). lra. }
    split; [apply NoDup_filter; exact N|]. intros i. rewrite filter_In, dist_row, Rleb_spec. reflexivity.
  - destruct (Rgtb (min_distance rc x) r) eqn:P.
    { apply Rgtb_spec in P. split; [constructor|]. intros i. split; [intros []|]. intros [I D]. pose proof (cell_bounds _ _ i H I). lra. }
    destruct (Rltb (max_distance rc x) r) eqn:Q.
    { apply Rltb_spec in Q. split; auto. intros i. split; [|tauto]. intros I. split; auto. pose proof (cell_bounds _ _ i H I). lra. }
    destruct (hok_split data B d s l g rc LB H) as [Hl Hg]. destruct (rect_split rc d s) as [rl rg]. cbn [fst snd] in *. cbn [leaves] in N. destruct (nodup_app_inv _ _ N) as (Nl & Ng & DJ).
    destruct (IHl rl Hl Nl) as [D1 S1]. destruct (IHg rg Hg Ng) as [D2 S2]. split.
    + apply nodup_app; auto. intros i I J. apply S1 in I. apply S2 in J. apply (DJ i); tauto.
    + intros i. rewrite in_app_iff, S1, S2. cbn [leaves]. rewrite in_app_iff. tauto.
Qed.
End Tree.
Lemma extreme (f : list Q -> Q) (l : list (list Q)) : l <> [] -> exists a b, In a l /\ In b l /\ forall y, In y l -> (f a <= f y /\ f y <= f b)%Q.
Proof.
  induction l as [|y l IH]; [congruence|]. intros _. destruct l as [|z l].
  - exists y, y. split; [left; auto|]. split; [left; auto|]. intros w [<-|[]]. split; apply Qle_refl.
  - destruct IH as (a & b & A & B & H); [discriminate|]. destruct (H a A) as [_ AB].
    exists (if Qlt_le_dec (f y) (f a) then y else a), (if Qlt_le_dec (f b) (f y) then y else b). split; [destruct (Qlt_le_dec (f y) (f a)); [left; auto|right; auto]|]. split; [destruct (Qlt_le_dec (f b) (f y)); [left; auto|right; auto]|].
    intros w [<-|W]; [|specialize (H w W)]; destruct (Qlt_le_dec (f y) (f a)), (Qlt_le_dec (f b) (f y)); split; Lqa.lra.
Qed.
Theorem within_exact data kd x r : rows_of_length 2 data -> KDTree data 10 = Ok kd -> Forall is_latitude data -> is_latitude x -> one_turn data -> not_far_east data x ->
  exact_list (fun i => (i < length data)%nat /\ row_distance (nth i data []) x <= r) (within_distance kd x r).
Proof.
  intros HR HK HL LX OT NF. assert (NE : data <> []) by (intros ->; discriminate HK).
  destruct (extreme (fun y => nth 1 y 0%Q) data NE) as (a & b & A & B & X). set (BX := [((-90)%Q, 90%Q); (nth 1 a 0%Q, nth 1 b 0%Q)]).
  assert (IB : Forall (in_rect BX) data).
  { rewrite Forall_forall in *. intros y Y. specialize (HL y Y). specialize (X y Y). unfold rows_of_length in HR. rewrite Forall_forall in HR. specialize (HR y Y). destruct y as [|u [|v [|]]]; try discriminate HR. unfold in_rect, BX. constructor; [exact HL|]. constructor; [exact X|constructor]. }
  destruct (root_hok data kd BX HR HK eq_refl IB) as (H & KD & N & IN).
  assert (Q90 : forall q : Q, (-90 <= q <= 90)%Q -> -90 <= Q2R q <= 90). { intros q [Q1 Q2]. apply Qle_Rle in Q1. apply Qle_Rle in Q2. unfold Q2R at 1 in Q1. unfold Q2R at 2 in Q2. simpl in Q1, Q2. lra. }
  assert (G : on_globe (rmin BX 0) (rmax BX 0) (rmin BX 1) (rmax BX 1)).
  { unfold on_globe, rmin, rmax, BX. cbn [nth fst snd]. specialize (OT b a B A). apply Qle_Rle in OT. rewrite Q2R_minus in OT. replace (Q2R 360) with 360 in OT by (unfold Q2R; simpl; lra). destruct (X a A) as [_ AB]. apply Qle_Rle in AB.
    replace (Q2R (-90)) with (-90) by (unfold Q2R; simpl; lra). replace (Q2R 90) with 90 by (unfold Q2R; simpl; lra). repeat split; lra. }
  assert (EX : rmax BX 1 - 360 <= longitude x).
  { unfold rmax, BX, longitude. cbn [nth snd]. specialize (NF b B). apply Qle_Rle in NF. rewrite Q2R_minus in NF. replace (Q2R 360) with 360 in NF by (unfold Q2R; simpl; lra). lra. }
  destruct (hball_spec data BX x r eq_refl G (Q90 _ LX) EX (kd_tree kd) _ H N) as [D S]. unfold within_distance. rewrite KD. split; auto. intros i. rewrite S, IN. reflexivity.
Qed.
