(** The interpolator (C27, C28, C29) and hybrid coordinates (C57). *)
From Verif Require Import Base QBase DateModel DateProofs InterpModel InterpSpec InterpProofs.
From Coq Require Import Qabs.
Open Scope Q_scope.

Lemma increasing_ascending a : increasing a -> ascending a = true.
Proof.
  induction 1 as [|x l HS IH HF]; [reflexivity|]. destruct l as [|y l]; [reflexivity|]. cbn [ascending]. rewrite andb_true_iff. split; [|exact IH]. apply Qltb_lt. inversion HF; auto.
Qed.
Lemma increasing_not_decreasing d : increasing (d_points d) -> decreasing d = false.
Proof. unfold decreasing. destruct (d_points d) as [|x [|y l]]; auto. intros H. inversion H as [|? ? _ F]; subst. inversion F; subst. apply Qltb_ge. lra. Qed.
Lemma none_decreasing dims : Forall (fun d => increasing (d_points d)) dims -> existsb decreasing dims = false.
Proof. induction 1 as [|d dims H F IH]; simpl; auto. rewrite increasing_not_decreasing by auto. auto. Qed.
Lemma grid_points_continued d : increasing (d_points d) -> grid_points d = continued d.
Proof. intros H. unfold grid_points, continued. rewrite increasing_not_decreasing by auto. reflexivity. Qed.

(** ** Circular axes *)
Lemma set_index_map k f : forall e s, map (fun ab : nat * nat => (if (fst ab =? k)%nat then f (snd ab) else snd ab)) (combine (seq s (length e)) e) =
  match nth_error e (k - s) with Some i => if (s <=? k)%nat then firstn (k - s) e ++ f i :: skipn (S (k - s)) e else e | None => e end.
Proof.
  induction e as [|i e IH]; intros s; [simpl; destruct (k - s)%nat; auto|]. cbn [length seq combine map fst snd]. rewrite IH. destruct (Nat.eqb_spec s k) as [->|N].
  - rewrite Nat.sub_diag. cbn [nth_error firstn app skipn]. rewrite Nat.leb_refl. f_equal. destruct (nth_error e (k - S k)) eqn:E; auto. destruct (Nat.leb_spec (S k) k); [lia|auto].
  - destruct (Nat.leb_spec s k) as [L|L].
    + replace (k - s)%nat with (S (k - S s)) by lia. cbn [nth_error firstn app skipn]. destruct (nth_error e (k - S s)) as [j|] eqn:E; auto. destruct (Nat.leb_spec (S s) k); [reflexivity|lia].
    + replace (k - s)%nat with 0%nat by lia. cbn [nth_error]. f_equal. destruct (nth_error e (k - S s)); auto. destruct (Nat.leb_spec (S s) k); [lia|auto].
Qed.
Lemma set_index_spec k f e i : nth_error e k = Some i -> set_index k f e = firstn k e ++ f i :: skipn (S k) e.
Proof. intros H. unfold set_index, zip_with. rewrite set_index_map, Nat.sub_0_r, H. reflexivity. Qed.
Lemma set_index_app pre k post f : set_index (length pre) f (pre ++ k :: post) = pre ++ f k :: post.
Proof.
  rewrite (set_index_spec _ _ _ k) by (rewrite nth_error_app2, Nat.sub_diag by lia; reflexivity).
  rewrite firstn_app, Nat.sub_diag, firstn_all. cbn [firstn]. rewrite app_nil_r. replace (S (length pre)) with (length (pre ++ [k])) by (rewrite app_length; simpl; lia).
  replace (pre ++ k :: post) with ((pre ++ [k]) ++ post) by (rewrite <- app_assoc; reflexivity). rewrite skipn_app, skipn_all, Nat.sub_diag. reflexivity.
Qed.
Lemma extend_all_from dims : forall pre post v, length post = length dims ->
  fold_left (fun v kd => if d_circular (snd kd) then extend_data (fst kd) (length (d_points (snd kd))) v else v) (combine (seq (length pre) (length dims)) dims) v (pre ++ post) = v (pre ++ wrapped dims post).
Proof.
  induction dims as [|d dims IH]; intros pre post v L; [destruct post; [reflexivity|discriminate]|]. destruct post as [|k post]; [discriminate|]. injection L as L.
  cbn [length seq combine fold_left fst snd wrapped]. replace (S (length pre)) with (length (pre ++ [k])) by (rewrite app_length; simpl; lia).
  replace (pre ++ k :: post) with ((pre ++ [k]) ++ post) by (rewrite <- app_assoc; reflexivity). rewrite IH by auto. rewrite <- app_assoc. cbn [app].
  destruct (d_circular d); cbn [andb]; [|reflexivity]. unfold extend_data. rewrite set_index_app. reflexivity.
Qed.
Lemma extend_all_spec dims values e : length e = length dims -> extend_all dims values e = values (wrapped dims e).
Proof. intros L. apply (extend_all_from dims [] e values L). Qed.

(** ** Dependence on the values *)
Lemma evaluate_ext m v w idx ys : (forall e, corner idx e -> v e = w e) -> length ys = length idx -> evaluate m v idx (map Some ys) [] = evaluate m w idx (map Some ys) [].
Proof.
  intros H L. destruct m; cbn [evaluate].
  - unfold evaluate_linear. fold (edges idx). assert (G : forall es acc, (forall e, In e es -> corner idx e) ->
      forall F : list nat -> option Q, fold_left (fun value edge => oplus value (otimes (v (edge ++ [])) (F edge))) es acc = fold_left (fun value edge => oplus value (otimes (w (edge ++ [])) (F edge))) es acc).
    { induction es as [|e es IH]; intros acc HC F; [reflexivity|]. cbn [fold_left]. rewrite !app_nil_r, (H e) by (apply HC; left; auto). apply IH. intros; apply HC; right; auto. }
    apply (G (edges idx) (Some 0)). intros e He. apply edges_corner; auto.
  - unfold evaluate_nearest. rewrite !app_nil_r. apply H. clear H v w. unfold corner. revert ys L. induction idx as [|i idx IH]; intros [|y ys] L; try discriminate; [constructor|]. cbn [map combine fst snd]. constructor; [destruct (Qleb y (1 # 2)); auto|]. apply IH. injection L as L; exact L.
Qed.
Lemma corner_on_grid axes cell x e : on_cell axes cell x -> corner cell e -> on_grid axes e.
Proof. intros H. revert e. induction H as [|a axes i cell t x Hi H IH]; intros e HC; inversion HC as [|? k ? e' Hk He]; subst; constructor; [lia|apply IH; auto]. Qed.

(** ** All samples *)
Definition point_value (m : method) (axes : list (list Q)) (v : array) (extrapolate : bool) (x : list Q) : option Q :=
  if negb extrapolate && out_of_bounds axes x then None else evaluate m v (map fst (find_indices axes x)) (map snd (find_indices axes x)) [].
Definition sample_value m axes v (mdfms extrapolate : bool) (s : list Q * bool) : option Q := if mdfms && snd s then None else point_value m axes v extrapolate (fst s).
Lemma regular_grid_ok m axes v extrapolate points : Forall increasing axes -> Forall (fun x => length x = length axes) points ->
  regular_grid m axes v extrapolate points = Ok (map (point_value m axes v extrapolate) points).
Proof.
  intros HA HP. unfold regular_grid. assert (A : forallb ascending axes = true) by (apply forallb_forall; intros a Ha; apply increasing_ascending; rewrite Forall_forall in HA; auto). rewrite A. cbn [negb].
  assert (B : forallb (fun x : list Q => (length x =? length axes)%nat) points = true) by (apply forallb_forall; intros x Hx; apply Nat.eqb_eq; rewrite Forall_forall in HP; auto). rewrite B. reflexivity.
Qed.
Lemma pack_spec mdfms (F : list Q -> option Q) samples :
  (fix pack (samples : list (list Q * bool)) (r : list (option Q)) : list (option Q) :=
         match samples with
         | [] => []
         | s :: samples => if mdfms && snd s then None :: pack samples r else match r with x :: r => x :: pack samples r | [] => None :: pack samples [] end
         end) samples (map F (map fst (filter (fun s : list Q * bool => negb (mdfms && snd s)) samples))) = map (fun s => if mdfms && snd s then None else F (fst s)) samples.
Proof. induction samples as [|s samples IH]; [reflexivity|]. cbn [filter map]. destruct (mdfms && snd s); cbn [negb map]; rewrite IH; reflexivity. Qed.
Lemma interpolate_run m dims values mdfms extrapolate samples v : Forall increasing (map grid_points dims) -> account_for_inverted dims (extend_all dims values) = Ok v ->
  Forall (fun s : list Q * bool => length (fst s) = length dims) samples ->
  interpolate m dims values mdfms extrapolate samples = Ok (map (sample_value m (map grid_points dims) v mdfms extrapolate) samples).
Proof.
  intros HA HV HS. unfold interpolate. assert (A : forallb ascending (map grid_points dims) = true) by (apply forallb_forall; intros a Ha; apply increasing_ascending; rewrite Forall_forall in HA; auto). rewrite A. cbn [negb]. rewrite HV. cbn [bind].
  rewrite regular_grid_ok; auto.
  - cbn [bind]. rewrite pack_spec. reflexivity.
  - rewrite map_length. rewrite Forall_map, Forall_forall. intros s Hs. apply filter_In in Hs. rewrite Forall_forall in HS. apply HS. tauto.
Qed.
(** increasing axes *)
Theorem interpolate_increasing m dims values mdfms extrapolate samples : Forall (fun d => increasing (d_points d)) dims -> Forall increasing (map continued dims) ->
  Forall (fun s : list Q * bool => length (fst s) = length dims) samples ->
  interpolate m dims values mdfms extrapolate samples = Ok (map (sample_value m (map continued dims) (extend_all dims values) mdfms extrapolate) samples).
Proof.
  intros HD HC HS. assert (E : map grid_points dims = map continued dims) by (apply map_ext_in; intros d Hd; apply grid_points_continued; rewrite Forall_forall in HD; auto).
  rewrite <- E in *. apply interpolate_run; auto. unfold account_for_inverted. rewrite none_decreasing by auto. reflexivity.
Qed.
Lemma linear_value axes v extrapolate x : Forall good_axis axes -> length x = length axes -> (extrapolate = true \/ inside axes x) ->
  let cell := cells axes x in
  (forall f, (forall e, corner cell e -> v e = Some (f e)) -> exists q, point_value Lin axes v extrapolate x = Some q /\ q == multilinear axes cell x f) /\
  (forall e, corner cell e -> v e = None -> point_value Lin axes v extrapolate x = None).
Proof.
  intros HG L HI cell. destruct (find_indices_good axes x HG L) as (A & B & C). fold cell in A, B, C.
  assert (PV : point_value Lin axes v extrapolate x = evaluate_linear v cell (map Some (norms_of axes cell x)) []).
  { unfold point_value. rewrite A, B. destruct extrapolate; [reflexivity|]. destruct HI as [HI|HI]; [discriminate|]. rewrite (proj2 (out_of_bounds_spec axes x L) HI). reflexivity. }
  rewrite PV. split.
  - intros f Hf. destruct (linear_fold v [] cell (norms_of axes cell x) f) as (q & E & Q1); [intros e He; rewrite app_nil_r; auto|apply norms_length; auto|]. exists q. split; auto. rewrite Q1. apply blend_multilinear; auto.
  - intros e He N. apply linear_missing with (e := e); auto. rewrite app_nil_r. auto.
Qed.
Lemma point_outside m axes v x : length x = length axes -> ~ inside axes x -> point_value m axes v false x = None.
Proof. intros L H. unfold point_value. destruct (out_of_bounds axes x) eqn:E; [reflexivity|]. apply out_of_bounds_spec in E; auto. contradiction. Qed.

(** ** A decreasing axis *)
Lemma sorted_snoc l x : increasing l -> Forall (fun y => y < x) l -> increasing (l ++ [x]).
Proof. intros H. induction H as [|y l HS IH HF]; intros HX; simpl; [repeat constructor|]. inversion HX; subst. constructor; [apply IH; auto|]. apply Forall_app. split; auto. Qed.
Lemma rev_decreasing l : increasing l -> (2 <= length l)%nat -> forall c, decreasing (mkDim (rev l) c) = true.
Proof.
  intros H L c. destruct (exists_last (l := l)) as (l1 & x & ->); [intros ->; simpl in L; lia|]. destruct (exists_last (l := l1)) as (l2 & y & ->); [intros ->; simpl in L; lia|].
  unfold decreasing. cbn [d_points]. rewrite !rev_app_distr. cbn [rev app]. apply Qltb_lt.
  pose proof (increasing_nth _ (length l2) (S (length l2)) H ltac:(lia) ltac:(rewrite !app_length; simpl; lia)) as D.
  rewrite <- app_assoc in D. rewrite (app_nth2 l2 ([y] ++ [x])) in D by lia. rewrite (app_nth2 l2 ([y] ++ [x])) in D by lia. rewrite Nat.sub_diag in D. replace (S (length l2) - length l2)%nat with 1%nat in D by lia. exact D.
Qed.
Theorem decreasing_second m d0 d1 rest values mdfms extrapolate samples : let dims := d0 :: d1 :: rest in
  Forall (fun d => increasing (d_points d)) dims -> Forall good_axis (map continued dims) -> d_circular d1 = false ->
  Forall (fun s : list Q * bool => length (fst s) = length dims) samples ->
  interpolate m (d0 :: mkDim (rev (d_points d1)) false :: rest) (flipped (length (d_points d1)) values) mdfms extrapolate samples = interpolate m dims values mdfms extrapolate samples.
Proof.
  intros dims HD HG HC HS. assert (HI : Forall increasing (map continued dims)) by (eapply Forall_impl; [|exact HG]; intros a Ha; apply Ha).
  rewrite (interpolate_increasing m dims values) by auto. set (d1' := mkDim (rev (d_points d1)) false). set (n := length (d_points d1)).
  inversion HD as [|? ? D0 HD1]; subst. inversion HD1 as [|? ? D1 HD2]; subst. inversion HG as [|? ? G0 HG1]; subst. inversion HG1 as [|? ? G1 HG2]; subst.
  assert (C1 : continued d1 = d_points d1) by (unfold continued; rewrite HC; auto). rewrite C1 in G1.
  assert (DEC : decreasing d1' = true) by (apply rev_decreasing; [auto|apply G1]).
  assert (GP1 : grid_points d1' = d_points d1) by (unfold grid_points; rewrite DEC; unfold d1'; cbn [d_points d_circular]; apply rev_involutive).
  assert (GP : map grid_points (d0 :: d1' :: rest) = map continued dims).
  { unfold dims. cbn [map]. rewrite GP1, C1, (grid_points_continued d0) by auto. do 2 f_equal. apply map_ext_in. intros d Hd. apply grid_points_continued. rewrite Forall_forall in HD2. auto. }
  set (dims' := d0 :: d1' :: rest) in *. set (v' := fun e => extend_all dims' (flipped n values) (set_index 1 (fun i => (dim_size (nth 1 dims' (mkDim [] false)) - 1 - i)%nat) e)).
  rewrite (interpolate_run m dims' (flipped n values) mdfms extrapolate samples v'); [|rewrite GP; auto| |exact HS].
  2:{ unfold account_for_inverted, dims'. cbn [existsb]. rewrite DEC. cbn [orb]. rewrite orb_true_r. reflexivity. }
  f_equal. apply map_ext_in. intros s Hs. unfold sample_value. destruct (mdfms && snd s); auto. rewrite GP.
  rewrite Forall_forall in HS. specialize (HS s Hs). unfold point_value. destruct (negb extrapolate && _); auto.
  destruct (find_indices_good (map continued dims) (fst s)) as (A & B & C); [constructor; [auto|constructor; [rewrite C1; auto|auto]]|rewrite map_length; auto|].
  rewrite A, B. apply evaluate_ext; [|apply norms_length; auto]. intros e He. pose proof (corner_on_grid _ _ _ _ C He) as OG.
  unfold dims in OG. cbn [map] in OG. inversion OG as [|? k0 ? e0 K0 OG1]; subst. inversion OG1 as [|? k1 ? ks K1 OG2]; subst. rewrite C1 in K1. fold n in K1.
  assert (LK : length ks = length rest). { clear -OG2. remember (map continued rest) as r eqn:E. revert rest E. induction OG2; intros rest E; destruct rest; try discriminate; auto. simpl. injection E as _ E. auto. }
  unfold v'. change (k0 :: k1 :: ks) with ([k0] ++ k1 :: ks). change 1%nat with (length [k0]) at 1. rewrite set_index_app. cbn [app].
  rewrite !extend_all_spec by (unfold dims, dims'; simpl; lia). unfold dims', dims, d1', dim_size. cbn [wrapped d_circular d_points andb nth]. rewrite HC. cbn [andb]. unfold flipped. f_equal. f_equal. f_equal. rewrite rev_length. fold n. lia.
Qed.

(** ** Hybrid coordinates *)
Lemma column_all l : fold_right (fun v acc => match v, acc with Some v, Some l => Some (v :: l) | _, _ => None end) (Some []) (map Some l) = Some (l : list Q).
Proof. induction l as [|x l IH]; [reflexivity|]. simpl. rewrite IH. reflexivity. Qed.
Lemma nth_map_fst (ind : list (nat * option Q)) : map (fun d => fst (nth d ind (0%nat, None))) (seq 0 (length ind)) = map fst ind.
Proof.
  assert (G : forall pre, map (fun d => fst (nth d (pre ++ ind) (0%nat, None))) (seq (length pre) (length ind)) = map fst ind).
  { induction ind as [|x ind IH]; intros pre; [reflexivity|]. cbn [length seq map]. rewrite app_nth2, Nat.sub_diag by lia. cbn [nth]. f_equal.
    specialize (IH (pre ++ [x])). rewrite app_length, <- app_assoc in IH. cbn [length app] in IH. rewrite Nat.add_1_r in IH. exact IH. }
  apply (G []).
Qed.
Lemma column_exists hybrid axes x h levels : Forall good_axis axes -> length x = length axes ->
  (forall e k, on_grid axes e -> (k < levels)%nat -> hybrid (e ++ [k]) = Some (h e k)) ->
  exists column, vertical_column Lin hybrid (seq 0 (length axes)) levels (find_indices axes x) = map Some column /\ length column = levels /\
    forall k, (k < levels)%nat -> nth k column 0 == multilinear axes (cells axes x) x (fun e => h e k).
Proof.
  intros HG L HH. destruct (find_indices_good axes x HG L) as (A & B & C). unfold vertical_column.
  assert (LI : length (find_indices axes x) = length axes) by (unfold find_indices, zip_with; rewrite map_length, combine_length; lia).
  rewrite <- LI. rewrite nth_map_fst, A, B.
  assert (G : forall ks, (forall k, In k ks -> (k < levels)%nat) -> exists column, map (fun k => evaluate Lin hybrid (cells axes x) (map Some (norms_of axes (cells axes x) x)) [k]) ks = map Some column /\
    Forall2 (fun k q => q == multilinear axes (cells axes x) x (fun e => h e k)) ks column).
  { induction ks as [|k ks IH]; intros HK; [exists []; split; constructor|]. destruct IH as (col & E & F); [intros; apply HK; right; auto|].
    destruct (linear_fold hybrid [k] (cells axes x) (norms_of axes (cells axes x) x) (fun e => h e k)) as (q & E1 & Q1).
    - intros e He. apply HH; [eapply corner_on_grid; eauto|apply HK; left; auto].
    - apply norms_length; auto.
    - exists (q :: col). cbn [map evaluate] in *. rewrite E1, E. split; [reflexivity|]. constructor; auto. rewrite Q1. apply blend_multilinear; auto. }
  destruct (G (seq 0 levels)) as (col & E & F); [intros k Hk; apply in_seq in Hk; lia|]. exists col. rewrite E. split; [reflexivity|].
  assert (LC : length col = levels). { rewrite <- (seq_length levels 0). clear -F. induction F; simpl; auto. } split; auto.
  assert (G2 : forall s n column, Forall2 (fun k q => q == multilinear axes (cells axes x) x (fun e => h e k)) (seq s n) column -> forall k, (k < n)%nat -> nth k column 0 == multilinear axes (cells axes x) x (fun e => h e (s + k)%nat)).
  { intros s n. revert s. induction n as [|n IH]; intros s column FF k Hk; [lia|]. cbn [seq] in FF. inversion FF as [|? q ? cl Hq FF']; subst. destruct k as [|k]; [rewrite Nat.add_0_r; exact Hq|]. cbn [nth]. rewrite (IH (S s) cl FF' k) by lia. rewrite Nat.add_succ_r. reflexivity. }
  intros k Hk. exact (G2 0%nat levels col F k Hk).
Qed.
Lemma good_app axes a : Forall good_axis axes -> good_axis a -> Forall good_axis (axes ++ [a]).
Proof. intros. apply Forall_app. split; auto. Qed.
Theorem hybrid_spec axes hybrid h levels values v x z extrapolate : Forall good_axis axes -> length x = length axes ->
  (forall e k, on_grid axes e -> (k < levels)%nat -> hybrid (e ++ [k]) = Some (h e k)) ->
  (forall e k, on_grid axes e -> (k < levels)%nat -> values (e ++ [k]) = Some (v (e ++ [k]))) ->
  exists column, length column = levels /\ (forall k, (k < levels)%nat -> nth k column 0 == multilinear axes (cells axes x) x (fun e => h e k)) /\
    (good_axis column -> (extrapolate = true \/ inside (axes ++ [column]) (x ++ [z])) ->
      exists q, hybrid_grid Lin axes hybrid (seq 0 (length axes)) levels values extrapolate [(x, z)] = Ok [Some q] /\
    q == multilinear (axes ++ [column]) (cells (axes ++ [column]) (x ++ [z])) (x ++ [z]) v) /\
    (extrapolate = false -> ~ inside (axes ++ [column]) (x ++ [z]) -> hybrid_grid Lin axes hybrid (seq 0 (length axes)) levels values extrapolate [(x, z)] = Ok [None]).
Proof.
  intros HG L HH HV. destruct (column_exists hybrid axes x h levels HG L HH) as (column & EC & LC & HC). exists column. split; auto. split; auto.
  assert (AS : forallb ascending axes = true) by (apply forallb_forall; intros a Ha; apply increasing_ascending; rewrite Forall_forall in HG; apply HG; auto).
  assert (IN : inside (axes ++ [column]) (x ++ [z]) <-> out_of_bounds axes x || out_of_bounds1 column z = false).
  { rewrite orb_false_iff, out_of_bounds_spec, out_of_bounds1_spec by auto. unfold inside. split.
    - intros H. apply Forall2_app_inv_l in H. destruct H as (x1 & x2 & H1 & H2 & E). inversion H2 as [|? t ? l Ht Hl]; subst. inversion Hl; subst. apply app_inj_tail in E. destruct E as [-> ->]. auto.
    - intros [H1 H2]. apply Forall2_app; auto. }
  unfold hybrid_grid. rewrite AS. cbn [negb map_res]. rewrite EC, column_all. split.
  - intros GC HI. rewrite (find_index_good column z GC). assert (T : negb extrapolate && (out_of_bounds axes x || out_of_bounds1 column z) = false).
    { destruct extrapolate; [reflexivity|]. destruct HI as [HI|HI]; [discriminate|]. apply IN in HI. rewrite HI. reflexivity. }
    rewrite T. cbn [bind]. destruct (find_indices_good axes x HG L) as (A & B & C).
    assert (CE : cells (axes ++ [column]) (x ++ [z]) = cells axes x ++ [cell_index column z] /\ norms_of (axes ++ [column]) (cells (axes ++ [column]) (x ++ [z])) (x ++ [z]) = norms_of axes (cells axes x) x ++ [cell_norm column z]).
    { clear -L. revert x L. induction axes as [|a axes IH]; intros [|t x] L; try discriminate; [split; reflexivity|]. injection L as L. destruct (IH x L) as [E1 E2]. unfold cells, zip_with in *. cbn [app combine map fst snd norms_of]. rewrite E1 in *. split; [reflexivity|]. rewrite E2. reflexivity. }
    destruct CE as [CE NE]. rewrite A, B. change [Some (cell_norm column z)] with (map (@Some Q) [cell_norm column z]). rewrite <- map_app, <- CE, <- NE.
    destruct (find_indices_good (axes ++ [column]) (x ++ [z])) as (_ & _ & C2); [apply good_app; auto|rewrite !app_length; simpl; lia|].
    destruct (linear_fold values [] (cells (axes ++ [column]) (x ++ [z])) (norms_of (axes ++ [column]) (cells (axes ++ [column]) (x ++ [z])) (x ++ [z])) v) as (q & E & Q1).
    + intros e He. rewrite app_nil_r. pose proof (corner_on_grid _ _ _ _ C2 He) as OG. unfold on_grid in OG. apply Forall2_app_inv_l in OG. destruct OG as (e1 & e2 & O1 & O2 & ->). inversion O2 as [|? k ? l Hk Hl]; subst. inversion Hl; subst. apply HV; auto; congruence || lia.
    + apply norms_length; auto.
    + exists q. cbn [evaluate]. rewrite E. split; [reflexivity|]. rewrite Q1. apply blend_multilinear; auto. apply good_app; auto.
  - intros -> HN. destruct (find_index column z) as [vi vy]. destruct (out_of_bounds axes x || out_of_bounds1 column z) eqn:EO; [reflexivity|]. exfalso. apply HN, IN. auto.
Qed.

(** ** The claims *)
Lemma proper_increasing dims : proper_dims dims -> Forall (fun d => increasing (d_points d)) dims /\ Forall good_axis (map continued dims) /\ Forall increasing (map continued dims).
Proof. intros H. split; [eapply Forall_impl; [|exact H]; intros d Hd; apply Hd|]. split; rewrite Forall_map; eapply Forall_impl; [|exact H| |exact H]; intros d Hd; apply Hd. Qed.
Lemma forall2_map_r {A B} (P : A -> B -> Prop) f l : (forall a, In a l -> P a (f a)) -> Forall2 P l (map f l).
Proof. induction l as [|a l IH]; intros H; simpl; constructor; [apply H; left; auto|apply IH; intros; apply H; right; auto]. Qed.
Lemma skipped_dec mdfms s : skipped mdfms s <-> mdfms && snd s = true.
Proof. unfold skipped. rewrite andb_true_iff. reflexivity. Qed.
Lemma inside_length axes x : inside axes x -> length x = length axes.
Proof. induction 1; simpl; auto. Qed.
Lemma corner_length cell e : corner cell e -> length e = length cell.
Proof. induction 1; simpl; auto. Qed.
Lemma cells_length axes x : length x = length axes -> length (cells axes x) = length axes.
Proof. intros L. unfold cells, zip_with. rewrite map_length, combine_length. lia. Qed.
Theorem linear_answers dims values mdfms extrapolate samples : proper_dims dims -> positions_in dims samples ->
  exists results, interpolate Lin dims values mdfms extrapolate samples = Ok results /\ Forall2 (linear_answer dims values mdfms extrapolate) samples results.
Proof.
  intros HP HS. destruct (proper_increasing dims HP) as (H1 & H2 & H3). rewrite interpolate_increasing by auto. eexists. split; [reflexivity|]. apply forall2_map_r. intros s Hs.
  assert (L : length (fst s) = length (map continued dims)) by (rewrite map_length; unfold positions_in in HS; rewrite Forall_forall in HS; auto).
  unfold linear_answer, sample_value. rewrite skipped_dec. destruct (mdfms && snd s) eqn:E; split; try congruence. intros _. split.
  - intros -> HN. apply point_outside; auto.
  - intros HI. exists (cells (map continued dims) (fst s)). split; [apply inside_cell; auto|]. destruct (linear_value (map continued dims) (extend_all dims values) extrapolate (fst s) H2 L (or_intror HI)) as [A B].
    assert (LE : forall e, corner (cells (map continued dims) (fst s)) e -> extend_all dims values e = values (wrapped dims e)).
    { intros e He. apply extend_all_spec. rewrite (corner_length _ _ He), cells_length, map_length; auto. }
    split; [intros f Hf; apply A; intros e He; rewrite LE; auto|]. intros e He N. apply (B e He). rewrite LE; auto.
Qed.
Theorem nearest_answers dims values mdfms extrapolate samples : Forall (fun d => increasing (d_points d) /\ d_points d <> [] /\ increasing (continued d)) dims -> positions_in dims samples ->
  exists results, interpolate Nn dims values mdfms extrapolate samples = Ok results /\ Forall2 (nearest_answer dims values mdfms extrapolate) samples results.
Proof.
  intros HP HS. assert (H1 : Forall (fun d => increasing (d_points d)) dims) by (eapply Forall_impl; [|exact HP]; intros d Hd; apply Hd).
  assert (H3 : Forall increasing (map continued dims)) by (rewrite Forall_map; eapply Forall_impl; [|exact HP]; intros d Hd; apply Hd).
  rewrite interpolate_increasing by auto. eexists. split; [reflexivity|]. apply forall2_map_r. intros s Hs.
  assert (L : length (fst s) = length (map continued dims)) by (rewrite map_length; unfold positions_in in HS; rewrite Forall_forall in HS; auto).
  unfold nearest_answer, sample_value. rewrite skipped_dec. destruct (mdfms && snd s) eqn:E; split; try congruence. intros _. split.
  - intros -> HN. apply point_outside; auto.
  - intros HI. assert (PV : point_value Nn (map continued dims) (extend_all dims values) extrapolate (fst s) = evaluate_nearest (extend_all dims values) (map fst (find_indices (map continued dims) (fst s))) (map snd (find_indices (map continued dims) (fst s))) []).
    { unfold point_value. rewrite (proj2 (out_of_bounds_spec _ _ L) HI), andb_false_r. reflexivity. }
    rewrite PV. destruct (nearest_eval (map continued dims) (fst s) (extend_all dims values)) as (k & Ek & Fk); auto.
    { rewrite Forall_map. eapply Forall_impl; [|exact HP]. intros d (A & B & C). split; auto. unfold continued. destruct (d_circular d); auto. destruct (d_points d); simpl; congruence. }
    exists k. split; auto. rewrite Ek. apply extend_all_spec.
    assert (LF : length k = length (combine (map continued dims) (fst s))) by (clear -Fk; induction Fk; simpl; auto). rewrite LF, combine_length, map_length in *. lia.
Qed.
(** every index of the continued grid is wrapped into the grid *)
Lemma wrapped_on dims e : Forall (fun d => d_points d <> []) dims -> on_grid (map continued dims) e -> on_grid (map d_points dims) (wrapped dims e).
Proof.
  intros HN. revert e. induction HN as [|d dims H HN IH]; intros e HO; inversion HO as [|? k ? e' Hk He]; subst; [constructor|]. cbn [wrapped map]. constructor; [|apply IH; auto].
  unfold continued in Hk. destruct (d_circular d); cbn [andb]; [|exact Hk]. rewrite app_length in Hk. simpl in Hk. destruct (Nat.eqb_spec k (length (d_points d))); [|lia]. destruct (d_points d); [congruence|simpl; lia].
Qed.
Lemma proper_nonempty dims : proper_dims dims -> Forall (fun d => d_points d <> []) dims.
Proof. intros H. eapply Forall_impl; [|exact H]. intros d (A & B & C) E. unfold continued in C. rewrite E in C. destruct (d_circular d); simpl in C; lia. Qed.
Lemma cell_corner_grid dims cell x e : cell_of (map continued dims) cell x -> corner cell e -> on_grid (map continued dims) e.
Proof. intros H. eapply corner_on_grid. apply cell_on. exact H. Qed.
Theorem linear_complete dims values f mdfms extrapolate s r : proper_dims dims -> field_is dims values f -> linear_answer dims values mdfms extrapolate s r -> ~ skipped mdfms s -> inside (map continued dims) (fst s) ->
  exists q cell, r = Some q /\ cell_of (map continued dims) cell (fst s) /\ q == multilinear (map continued dims) cell (fst s) (fun e => f (wrapped dims e)).
Proof.
  intros HP HF [_ HA] HN HI. destruct (HA HN) as [_ HA']. destruct (HA' HI) as (cell & HC & A & _). destruct (A (fun e => f (wrapped dims e))) as (q & E & Q1).
  - intros e He. apply HF. apply wrapped_on; [apply proper_nonempty; auto|]. eapply cell_corner_grid; eauto.
  - exists q, cell. auto.
Qed.
Theorem linear_node dims values f mdfms extrapolate s r k : proper_dims dims -> field_is dims values f -> linear_answer dims values mdfms extrapolate s r -> ~ skipped mdfms s -> inside (map continued dims) (fst s) ->
  node_at (map continued dims) k (fst s) -> exists q, r = Some q /\ q == f (wrapped dims k).
Proof.
  intros HP HF HA HN HI HK. destruct (linear_complete dims values f mdfms extrapolate s r) as (q & cell & E & C & Q1); auto. exists q. split; auto. rewrite Q1.
  destruct (proper_increasing dims HP) as (_ & H2 & _). destruct (multilinear_node _ cell (fst s) k (fun e => f (wrapped dims e)) C H2 HK) as [_ M]. exact M.
Qed.
Theorem linear_bounded dims values f mdfms extrapolate s r lo hi : proper_dims dims -> field_is dims values f -> linear_answer dims values mdfms extrapolate s r -> ~ skipped mdfms s -> inside (map continued dims) (fst s) ->
  (forall e, on_grid (map d_points dims) e -> lo <= f e <= hi) -> exists q, r = Some q /\ lo <= q <= hi.
Proof.
  intros HP HF HA HN HI HB. destruct (linear_complete dims values f mdfms extrapolate s r) as (q & cell & E & C & Q1); auto. exists q. split; auto.
  destruct (proper_increasing dims HP) as (_ & H2 & _). assert (B : lo <= multilinear (map continued dims) cell (fst s) (fun e => f (wrapped dims e)) <= hi).
  { apply multilinear_bounds; auto. intros e He. apply HB. apply wrapped_on; [apply proper_nonempty; auto|]. eapply cell_corner_grid; eauto. }
  rewrite !Q1. exact B.
Qed.
Lemma wrapped_id dims e : Forall (fun d => d_circular d = false) dims -> wrapped dims e = e.
Proof. intros H. revert e. induction H as [|d dims H HF IH]; intros [|k e]; simpl; auto. rewrite H, IH. reflexivity. Qed.
Theorem linear_affine_field dims values f mdfms extrapolate samples : proper_dims dims -> Forall (fun d => d_circular d = false) dims -> positions_in dims samples ->
  multi_affine (length dims) f -> field_is dims values (fun e => f (coordinates (map d_points dims) e)) ->
  exists results, interpolate Lin dims values mdfms extrapolate samples = Ok results /\
    Forall2 (fun s r => ~ skipped mdfms s -> (extrapolate = true \/ inside (map d_points dims) (fst s)) -> exists q, r = Some q /\ q == f (fst s)) samples results.
Proof.
  intros HP HC HS HM HF. destruct (proper_increasing dims HP) as (H1 & H2 & H3). rewrite interpolate_increasing by auto. eexists. split; [reflexivity|]. apply forall2_map_r. intros s Hs HN HI.
  assert (EC : map continued dims = map d_points dims) by (apply map_ext_in; intros d Hd; unfold continued; rewrite Forall_forall in HC; rewrite (HC d Hd); reflexivity).
  assert (L : length (fst s) = length (map continued dims)) by (rewrite map_length; unfold positions_in in HS; rewrite Forall_forall in HS; auto).
  unfold sample_value. rewrite skipped_dec in HN. destruct (mdfms && snd s); [congruence|].
  rewrite <- EC in HI. destruct (linear_value (map continued dims) (extend_all dims values) extrapolate (fst s) H2 L HI) as [A _].
  destruct (find_indices_good (map continued dims) (fst s) H2 L) as (_ & _ & OC).
  destruct (A (fun e => f (coordinates (map continued dims) e))) as (q & E & Q1).
  - intros e He. rewrite extend_all_spec by (rewrite (corner_length _ _ He), cells_length, map_length; auto). rewrite wrapped_id by auto. rewrite EC. apply HF. rewrite <- EC. eapply corner_on_grid; eauto.
  - exists q. split; auto. rewrite Q1. apply multilinear_affine; auto. rewrite map_length. exact HM.
Qed.
