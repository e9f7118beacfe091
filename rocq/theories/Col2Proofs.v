(** Kernels (C22 kernel, C24, C26). *)
From Verif Require Import Base QBase LonModel LonSpec KDModel HavModel HavSpec HavProofs ColModel ColSpec ColProofs.
From Coq Require Import Reals Qreals Lra.
Open Scope R_scope.

(** ** Statistics *)
Lemma np_sum_total l : np_sum l = total l.
Proof. unfold np_sum, total. apply fold_symmetric; intros; ring. Qed.
Lemma total_perm l l' : Permutation l l' -> total l = total l'.
Proof. induction 1; unfold total in *; simpl in *; lra. Qed.
Lemma total_app l l' : total (l ++ l') = total l + total l'.
Proof. induction l; unfold total in *; simpl in *; lra. Qed.
Lemma inr_pos {A} (l : list A) : l <> [] -> 0 < INR (length l).
Proof. intros H. apply lt_0_INR. destruct l; [congruence|simpl; lia]. Qed.
Lemma np_mean_spec l : l <> [] -> is_mean l (np_mean l).
Proof. intros H. unfold is_mean, np_mean, np_size. rewrite np_sum_total. pose proof (inr_pos l H). field. lra. Qed.
Lemma mean_unique l m m' : l <> [] -> is_mean l m -> is_mean l m' -> m = m'.
Proof. unfold is_mean. intros H A B. pose proof (inr_pos l H). apply (Rmult_eq_reg_l (INR (length l))); lra. Qed.
Lemma min_fold l : forall x, let r := fold_left Rmin l x in (r = x \/ In r l) /\ r <= x /\ forall y, In y l -> r <= y.
Proof.
  induction l as [|a l IH]; intros x; simpl; [split; [auto|split; [lra|tauto]]|].
  destruct (IH (Rmin x a)) as (A & B & C). pose proof (Rmin_l x a). pose proof (Rmin_r x a). split; [|split].
  - destruct A as [A|A]; [|auto]. rewrite A. unfold Rmin. destruct (Rle_dec x a); auto.
  - lra.
  - intros y [<-|Hy]; [lra|apply C; auto].
Qed.
Lemma max_fold l : forall x, let r := fold_left Rmax l x in (r = x \/ In r l) /\ x <= r /\ forall y, In y l -> y <= r.
Proof.
  induction l as [|a l IH]; intros x; simpl; [split; [auto|split; [lra|tauto]]|].
  destruct (IH (Rmax x a)) as (A & B & C). pose proof (Rmax_l x a). pose proof (Rmax_r x a). split; [|split].
  - destruct A as [A|A]; [|auto]. rewrite A. unfold Rmax. destruct (Rle_dec x a); auto.
  - lra.
  - intros y [<-|Hy]; [lra|apply C; auto].
Qed.
Lemma np_min_spec l : l <> [] -> is_min l (np_min l).
Proof. destruct l as [|x l]; [congruence|]. intros _. unfold np_min, is_min. destruct (min_fold l x) as (A & B & C). split; [simpl; destruct A; auto|]. intros y [<-|Hy]; auto. Qed.
Lemma np_max_spec l : l <> [] -> is_max l (np_max l).
Proof. destruct l as [|x l]; [congruence|]. intros _. unfold np_max, is_max. destruct (max_fold l x) as (A & B & C). split; [simpl; destruct A; auto|]. intros y [<-|Hy]; auto. Qed.
Lemma min_unique l m m' : is_min l m -> is_min l m' -> m = m'.
Proof. intros [A B] [C D]. pose proof (B _ C). pose proof (D _ A). lra. Qed.
Lemma max_unique l m m' : is_max l m -> is_max l m' -> m = m'.
Proof. intros [A B] [C D]. pose proof (B _ C). pose proof (D _ A). lra. Qed.
Lemma total_nonneg l : Forall (fun x => 0 <= x) l -> 0 <= total l.
Proof. induction 1; unfold total in *; simpl; lra. Qed.
Lemma squares_nonneg m l : 0 <= total (map (fun x => (x - m) ^ 2) l).
Proof. apply total_nonneg. rewrite Forall_map, Forall_forall. intros x _. apply pow2_ge_0. Qed.
Lemma np_std_spec l : (2 <= length l)%nat -> exists s, np_std l = Some s /\ is_stddev l s.
Proof.
  intros H. unfold np_std. destruct (Nat.leb_spec (length l) 1); [lia|]. eexists. split; [reflexivity|]. unfold is_stddev.
  assert (HN : l <> []) by (intros ->; simpl in H; lia). assert (G : 0 < np_size l - 1). { unfold np_size. apply lt_INR in H0. simpl in H0. lra. }
  rewrite np_sum_total. replace (map (fun x => (x - np_mean l) * (x - np_mean l)) l) with (map (fun x => (x - np_mean l) ^ 2) l) by (apply map_ext; intros; ring).
  split; [apply sqrt_pos|]. intros m Hm. rewrite (mean_unique l m (np_mean l)) by (auto using np_mean_spec).
  rewrite pow2_sqrt; [unfold np_size in *; field; lra|]. apply Rmult_le_pos; [apply squares_nonneg|]. left. apply Rinv_0_lt_compat. auto.
Qed.
Lemma mean_between l m lo hi : l <> [] -> is_mean l m -> is_min l lo -> is_max l hi -> lo <= m <= hi.
Proof.
  intros HN HM [_ L] [_ U]. pose proof (inr_pos l HN) as P. unfold is_mean in HM.
  assert (G : forall k, (forall x, In x k -> lo <= x <= hi) -> INR (length k) * lo <= total k <= INR (length k) * hi).
  { induction k as [|x k IH]; intros H; [unfold total; simpl; lra|]. specialize (IH ltac:(intros; apply H; right; auto)). specialize (H x ltac:(left; auto)).
    cbn [length]. rewrite S_INR. unfold total in *. cbn [fold_right]. lra. }
  specialize (G l ltac:(intros x Hx; split; [apply L|apply U]; auto)). rewrite <- HM in G. split; apply (Rmult_le_reg_l (INR (length l))); tauto.
Qed.

(** ** Order does not matter *)
Lemma vals_perm d d' : Permutation d d' -> Permutation (vals d) (vals d').
Proof. intros. unfold vals. apply Permutation_flat_map. auto. Qed.
Lemma np_mean_perm l l' : Permutation l l' -> np_mean l = np_mean l'.
Proof. intros H. unfold np_mean, np_size. rewrite !np_sum_total, (total_perm l l' H), (Permutation_length H). auto. Qed.
Lemma np_std_perm l l' : Permutation l l' -> np_std l = np_std l'.
Proof.
  intros H. unfold np_std. rewrite (Permutation_length H). destruct (length l' <=? 1)%nat; auto. unfold np_size. rewrite (Permutation_length H), !np_sum_total, (np_mean_perm l l' H).
  rewrite (total_perm _ (map (fun x => (x - np_mean l') * (x - np_mean l')) l')); auto. apply Permutation_map. auto.
Qed.
Lemma perm_nil {A} (l l' : list A) : Permutation l l' -> l <> [] -> l' <> [].
Proof. intros H N ->. apply Permutation_sym, Permutation_nil in H. auto. Qed.
Lemma np_min_perm l l' : Permutation l l' -> l <> [] -> np_min l = np_min l'.
Proof.
  intros H N. pose proof (perm_nil _ _ H N) as N'. apply (min_unique l); [apply np_min_spec; auto|]. destruct (np_min_spec l' N') as [A B]. split.
  - apply (Permutation_in _ (Permutation_sym H)). auto.
  - intros x Hx. apply B. apply (Permutation_in _ H). auto.
Qed.
Lemma np_max_perm l l' : Permutation l l' -> l <> [] -> np_max l = np_max l'.
Proof.
  intros H N. pose proof (perm_nil _ _ H N) as N'. apply (max_unique l); [apply np_max_spec; auto|]. destruct (np_max_spec l' N') as [A B]. split.
  - apply (Permutation_in _ (Permutation_sym H)). auto.
  - intros x Hx. apply B. apply (Permutation_in _ H). auto.
Qed.
Lemma data_only_perm f p p' d d' : (forall l l', Permutation l l' -> l <> [] -> f l = f l') -> Permutation d d' -> data_only f p d = data_only f p' d'.
Proof.
  intros HF H. apply vals_perm in H. unfold data_only. rewrite (Permutation_length H). destruct (length (vals d') =? 0)%nat eqn:E; auto. f_equal. apply HF; auto.
  intros C. rewrite C in H. apply Permutation_nil in H. rewrite H in E. discriminate.
Qed.
Theorem kernels_perm k p p' d d' : In k statistics_kernels -> Permutation d d' -> k p d = k p' d'.
Proof.
  intros Hk H. simpl in Hk. destruct Hk as [<-|[<-|[<-|[<-|[<-|[<-|[]]]]]]]; apply data_only_perm; auto; intros l l' P N.
  - rewrite (np_mean_perm l l'); auto.
  - rewrite (np_std_perm l l'); auto.
  - rewrite (np_min_perm l l'); auto.
  - rewrite (np_max_perm l l'); auto.
  - rewrite !np_sum_total, (total_perm l l'); auto.
  - unfold np_size. rewrite (np_mean_perm l l'), (np_std_perm l l'), (Permutation_length P); auto.
Qed.

(** ** Their values *)
Lemma vals_of data l : Forall2 (fun p v => p_val p = Some v) data l -> vals data = l.
Proof. induction 1 as [|p v data l H F IH]; simpl; auto. rewrite H, IH. reflexivity. Qed.
Lemma data_only_ok f p data l : Forall2 (fun p v => p_val p = Some v) data l -> l <> [] -> data_only f p data = Ok (f l).
Proof. intros H N. unfold data_only. rewrite (vals_of _ _ H). destruct l; [congruence|reflexivity]. Qed.
Lemma data_only_empty f p : data_only f p [] = Raises ValueError. Proof. reflexivity. Qed.

(** ** Nearest neighbours *)
Lemma nn_fold (sep : prow -> Q) l x0 : let r := fold_left (fun nearest d => if Qltb (sep d) (sep nearest) then d else nearest) l x0 in first_best (fun d => Q2R (sep d)) (x0 :: l) r.
Proof.
  assert (E : fold_left (fun nearest d => if Qltb (sep d) (sep nearest) then d else nearest) l x0 = fold_left (fun b d => if Rgtb (Q2R (sep b)) (Q2R (sep d)) then d else b) l x0).
  { revert x0. induction l as [|a l IH]; intros x0; simpl; auto. rewrite IH. f_equal. destruct (Qltb_spec (sep a) (sep x0)) as [L|L]; destruct (Rgtb _ _) eqn:G; auto.
    - apply Rgtb_false in G. apply Qlt_Rlt in L. lra.
    - apply Rgtb_spec in G. exfalso. apply L. apply Rlt_Qlt. lra. }
  cbv zeta. rewrite E. clear E. destruct (first_min_spec (fun d => Q2R (sep d)) l x0) as (H1 & H2 & H3). cbv beta zeta in *. set (r := fold_left _ l x0) in *. clearbody r.
  rewrite Forall_forall in H2. assert (ALL : forall y, In y (x0 :: l) -> Q2R (sep r) <= Q2R (sep y)) by (intros y [<-|Hy]; [exact H1|exact (H2 y Hy)]).
  destruct H3 as [[E' F]|(l1 & l2 & E' & L & F)].
  - subst r. exists [], l. split; [reflexivity|]. split; [auto|]. intros y [].
  - exists (x0 :: l1), l2. split; [rewrite E'; reflexivity|]. split; [auto|]. rewrite Forall_forall in F. intros y [<-|Hy]; auto.
Qed.
Lemma nn_loop_spec sep data : data <> [] -> exists d, nn_loop sep data = Ok [p_val d] /\ first_best (fun d => Q2R (sep d)) data d.
Proof. intros H. destruct data as [|d0 rest]; [congruence|]. eexists. split; [reflexivity|]. apply nn_fold. Qed.
Lemma first_best_ext {A} (f g : A -> R) l x : (forall y, In y l -> f y = g y) -> first_best f l x -> first_best g l x.
Proof.
  intros H (l1 & l2 & E & B & S). exists l1, l2. assert (IX : In x l) by (rewrite E; apply in_or_app; right; left; auto).
  split; auto. split; [intros y Hy; rewrite <- !H; auto|]. intros y Hy. assert (In y l) by (rewrite E; apply in_or_app; auto). rewrite <- !H; auto.
Qed.
Lemma Qabs_swap a b : (Qabs.Qabs (a - b) == Qabs.Qabs (b - a))%Q.
Proof. rewrite <- Qabs.Qabs_opp. apply Qabs.Qabs_wd. ring. Qed.
Theorem nn_time_spec point data : data <> [] -> exists d, k_nn_time point data = Ok [p_val d] /\ first_best (fun d => Q2R (Qabs.Qabs (p_time d - p_time point))) data d.
Proof.
  intros H. destruct (nn_loop_spec (fun d => Qabs.Qabs (p_time point - p_time d)) data H) as (d & E & F). exists d. split; auto.
  eapply first_best_ext; [|exact F]. intros y _. apply Qeq_eqR, Qabs_swap.
Qed.
Theorem nn_altitude_spec point data : data <> [] -> exists d, k_nn_altitude point data = Ok [p_val d] /\ first_best (fun d => Q2R (Qabs.Qabs (p_alt d - p_alt point))) data d.
Proof.
  intros H. destruct (nn_loop_spec (fun d => Qabs.Qabs (p_alt point - p_alt d)) data H) as (d & E & F). exists d. split; auto.
  eapply first_best_ext; [|exact F]. intros y _. apply Qeq_eqR, Qabs_swap.
Qed.
Theorem nn_pressure_spec point data : data <> [] -> positive_pressure point -> Forall positive_pressure data ->
  exists d, k_nn_pressure point data = Ok [p_val d] /\ first_best (fun d => Q2R (pressure_ratio (p_pres d) (p_pres point))) data d.
Proof.
  intros H HP HD. destruct (nn_loop_spec (fun d => if Qltb (p_pres d) (p_pres point) then p_pres point / p_pres d else p_pres d / p_pres point)%Q data H) as (d & E & F). exists d. split; auto.
  eapply first_best_ext; [|exact F]. intros y Hy. rewrite Forall_forall in HD. specialize (HD y Hy). unfold positive_pressure in *. apply Qeq_eqR. cbv beta.
  destruct (Qltb_spec (p_pres y) (p_pres point)) as [L|L].
  - rewrite pressure_ratio_le; [reflexivity|auto|]. apply Qlt_le_weak; auto.
  - apply Qnot_lt_le in L. apply Qle_lteq in L. destruct L as [L|L]; [rewrite pressure_ratio_gt; auto; reflexivity|].
    rewrite pressure_ratio_le by (auto; rewrite L; apply Qle_refl). rewrite L. reflexivity.
Qed.
Theorem nn_horizontal_kernel scols dcols restS restD point data : scols = LAT :: LON :: restS -> dcols = LAT :: LON :: restD -> data <> [] ->
  exists d, k_nn_horizontal scols dcols point data = Ok [p_val d] /\ first_best (fun d => surface_distance d point) data d.
Proof.
  intros -> -> H. unfold k_nn_horizontal. destruct (nn_horizontal_spec (option R) (cells (LAT :: LON :: restS) point) (map (fun d => (cells (LAT :: LON :: restD) d, p_val d)) data)) as (l1 & d & l2 & E & EV & A & B).
  { destruct data; [congruence|discriminate]. }
  rewrite EV. cbn [bind]. destruct (map_eq_app _ _ _ _ E) as (m1 & m2 & -> & E1 & E2). destruct m2 as [|x m2]; [discriminate|]. cbn [map] in E2. injection E2 as Ed E2. subst d. cbn [snd]. exists x. split; auto.
  assert (D : forall y, hdist (first_columns (cells (LAT :: LON :: restS) point)) (first_columns (fst (cells (LAT :: LON :: restD) y, p_val y))) = surface_distance y point).
  { intros y. unfold first_columns, cells. cbn [fst map nth field]. unfold hdist. cbn [fst snd]. rewrite hav_sym, haversine_great_circle. reflexivity. }
  rewrite Forall_map in A. rewrite Forall_forall in A. rewrite <- E1 in B. rewrite Forall_map in B. rewrite Forall_forall in B.
  exists m1, m2. split; auto. split; intros y Hy; rewrite <- (D x), <- (D y); [exact (A y Hy)|exact (B y Hy)].
Qed.
Lemma nn_empty scols dcols point : k_nn_horizontal scols dcols point [] = Raises ValueError /\ k_nn_time point [] = Raises ValueError /\ k_nn_altitude point [] = Raises ValueError /\ k_nn_pressure point [] = Raises ValueError.
Proof. repeat split; reflexivity. Qed.
