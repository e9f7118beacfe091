From Verif Require Import Base UtilModel UtilSpec StatsModel StatsSpec.
From Coq Require Import Reals Lra.
Open Scope R_scope.

(** ** Lists with masks *)
Definition upairs (d1 d2 : list rv) (m : list bool) : list (rv * rv) := map fst (filter (fun p : (rv * rv) * bool => negb (snd p)) (combine (combine d1 d2) m)).

Lemma orl_length : forall a b, length a = length b -> length (orl a b) = length a.
Proof. intros. unfold orl. rewrite map_length, combine_length. lia. Qed.
Lemma orl_cons : forall a b x y, orl (x :: a) (y :: b) = (x || y) :: orl a b.
Proof. reflexivity. Qed.
Lemma orl_false_l : forall m n, length m = n -> orl (repeat false n) m = m.
Proof. induction m; intros n <-; [reflexivity|]. cbn [length repeat]. rewrite orl_cons, IHm by auto. reflexivity. Qed.
Lemma orl_false_r : forall m n, length m = n -> orl m (repeat false n) = m.
Proof. induction m; intros n <-; [reflexivity|]. cbn [length repeat]. rewrite orl_cons, IHm by auto. rewrite orb_false_r. reflexivity. Qed.
Lemma orl_comm : forall a b, orl a b = orl b a.
Proof. induction a as [|x a IH]; intros [|y b]; try reflexivity. rewrite !orl_cons, IH, orb_comm. reflexivity. Qed.
Lemma orl_idem2 : forall a b, length a = length b -> orl (orl a b) b = orl a b.
Proof. induction a as [|x a IH]; intros [|y b] L; cbn in L; try lia; try reflexivity. rewrite !orl_cons, IH by lia. destruct x, y; reflexivity. Qed.
Lemma orl_idem1 : forall a b, length a = length b -> orl (orl a b) a = orl a b.
Proof. induction a as [|x a IH]; intros [|y b] L; cbn in L; try lia; try reflexivity. rewrite !orl_cons, IH by lia. destruct x, y; reflexivity. Qed.
Lemma gma_length : forall a : farr, array_ok a -> length (getmaskarray a) = f_len a.
Proof. intros [d|d [m|]] H; cbn in *; try rewrite repeat_length; auto. Qed.

(** the mask of an elementwise result *)
Lemma mask_or_masked : forall (a b : farr) (d : list rv), array_ok a -> array_ok b -> f_len a = f_len b -> length d = f_len a ->
  getmaskarray (if is_masked_array a || is_masked_array b then Masked d (mask_or (getmask a) (getmask b)) else Plain d) = orl (getmaskarray a) (getmaskarray b).
Proof.
  intros a b d OA OB L LD. unfold f_len in *.
  destruct a as [da|da [ma|]], b as [db|db [mb|]]; cbn in *; try reflexivity; rewrite ?LD; symmetry;
    first [apply orl_false_l; rewrite ?repeat_length; congruence | rewrite <- L; apply orl_false_r; rewrite ?repeat_length; congruence | rewrite orl_false_l; rewrite ?repeat_length; congruence].
Qed.

Lemma compressed_zip : forall f d1 d2 m, length d1 = length d2 ->
  map fst (filter (fun p : rv * bool => negb (snd p)) (combine (zip_with f d1 d2) m)) = map (fun p => f (fst p) (snd p)) (upairs d1 d2 m).
Proof.
  unfold upairs, zip_with. induction d1 as [|x d1 IH]; intros [|y d2] m L; cbn in L; try lia; try reflexivity.
  destruct m as [|[|] m]; try reflexivity; cbn; rewrite IH by lia; reflexivity.
Qed.
Lemma upairs_swap : forall d1 d2 m, map (fun p : rv * rv => (snd p, fst p)) (upairs d1 d2 m) = upairs d2 d1 m.
Proof.
  unfold upairs. induction d1 as [|x d1 IH]; intros [|y d2] m; try reflexivity. destruct m as [|[|] m]; try reflexivity; cbn; rewrite IH; reflexivity.
Qed.
Lemma upairs_fst : forall d1 d2 m, length d1 = length d2 -> map fst (upairs d1 d2 m) = map fst (filter (fun p : rv * bool => negb (snd p)) (combine d1 m)).
Proof.
  unfold upairs. induction d1 as [|x d1 IH]; intros [|y d2] m L; cbn in L; try lia; try reflexivity. destruct m as [|[|] m]; try reflexivity; cbn; rewrite IH by lia; reflexivity.
Qed.
Lemma upairs_snd : forall d1 d2 m, length d1 = length d2 -> map snd (upairs d1 d2 m) = map fst (filter (fun p : rv * bool => negb (snd p)) (combine d2 m)).
Proof.
  unfold upairs. induction d1 as [|x d1 IH]; intros [|y d2] m L; cbn in L; try lia; try reflexivity. destruct m as [|[|] m]; try reflexivity; cbn; rewrite IH by lia; reflexivity.
Qed.
Lemma upairs_valid : forall d1 d2 m1 m2, length d1 = length d2 -> length m1 = length d1 -> length m2 = length d1 ->
  valid_pairs (combine d1 m1) (combine d2 m2) (upairs d1 d2 (orl m1 m2)).
Proof.
  unfold upairs. induction d1 as [|x d1 IH]; intros [|y d2] [|a m1] [|b m2] L L1 L2; cbn in L, L1, L2; try lia; [constructor|].
  rewrite orl_cons. destruct a, b; cbn; constructor; auto.
Qed.
Lemma valid_unique : forall c1 c2 ps, valid_pairs c1 c2 ps -> forall qs, valid_pairs c1 c2 qs -> ps = qs.
Proof.
  induction 1 as [|x y c1 c2 ps V IH|x a y b c1 c2 ps M V IH]; intros qs W; inversion W; subst; try reflexivity; f_equal; auto;
    try (match goal with H : _ \/ _ |- _ => destruct H; discriminate end).
Qed.
Lemma upairs_all : forall d1 d2 n, length d1 = n -> length d2 = n -> upairs d1 d2 (repeat false n) = combine d1 d2.
Proof. unfold upairs. induction d1 as [|x d1 IH]; intros [|y d2] [|n] L1 L2; cbn in L1, L2; try lia; try reflexivity. cbn. rewrite IH by lia. reflexivity. Qed.

(** ** Mean and standard deviation *)
Lemma r_sum_total : forall l, r_sum l = total l.
Proof.
  unfold r_sum, total. intros l. assert (H : forall l a, fold_left Rplus l a = a + fold_right Rplus 0 l).
  { clear. induction l as [|x l IH]; intros a; cbn; [lra|]. rewrite IH. lra. }
  rewrite H. lra.
Qed.
Lemma all_finite_some : forall l rs, all_finite l = Some rs <-> l = map Some rs.
Proof.
  induction l as [|x l IH]; intros rs; cbn.
  - split; [intros [= <-]; reflexivity|]. destruct rs; [reflexivity|discriminate].
  - split.
    + intros H. destruct x as [r|]; [|discriminate]. destruct (all_finite l) as [l'|] eqn:E; cbn in H; fold (all_finite l) in H; rewrite E in H; [|discriminate]. injection H as <-. cbn. f_equal. apply IH. reflexivity.
    + destruct rs as [|r rs]; [discriminate|]. intros [= -> H]. fold (all_finite l). rewrite (proj2 (IH rs) H). reflexivity.
Qed.
Lemma all_finite_none : forall l, all_finite l = None -> In None l.
Proof.
  induction l as [|x l IH]; cbn; [discriminate|]. destruct x as [r|]; [|auto]. fold (all_finite l). destruct (all_finite l); [discriminate|]. auto.
Qed.
Definition stat_mean (l : list rv) : rv := match all_finite l with Some (x :: l) => Some (r_mean (x :: l)) | _ => None end.
Definition stat_std (l : list rv) : rv :=
  match all_finite l with
  | Some (x :: y :: l) => let m := r_mean (x :: y :: l) in
      Some (sqrt (r_sum (map (fun v => (v - m) * (v - m)) (x :: y :: l)) / (INR (length (x :: y :: l)) - 1)))
  | _ => None
  end.
Lemma stat_mean_ok : forall l, is_mean l (stat_mean l).
Proof.
  intros l. unfold stat_mean, is_mean. destruct (all_finite l) as [[|x rs]|] eqn:E.
  - right. apply all_finite_some in E. cbn in E. auto.
  - left. exists (x :: rs). apply all_finite_some in E. repeat split; auto; [discriminate|]. unfold r_mean. rewrite r_sum_total. reflexivity.
  - right. apply all_finite_none in E. auto.
Qed.
Lemma squares_pos : forall l m, 0 <= total (map (fun v => (v - m) * (v - m)) l).
Proof. induction l as [|x l IH]; intros m; cbn; [lra|]. specialize (IH m). unfold total in IH. pose proof (Rle_0_sqr (x - m)) as S. unfold Rsqr in S. lra. Qed.
Lemma stat_std_ok : forall l, is_stddev l (stat_std l).
Proof.
  intros l. unfold stat_std, is_stddev. destruct (all_finite l) as [[|x [|y rs]]|] eqn:E.
  - right. apply all_finite_some in E. subst. cbn. split; [right; lia|reflexivity].
  - right. apply all_finite_some in E. subst. cbn. split; [right; lia|reflexivity].
  - left. set (k := x :: y :: rs) in *. cbv zeta. eexists k, _, (r_mean k). apply all_finite_some in E. split; [exact E|]. split; [cbn; lia|]. split; [unfold r_mean; rewrite r_sum_total; reflexivity|]. split; [reflexivity|].
    split; [apply sqrt_pos|]. rewrite r_sum_total.
    assert (P : 0 < INR (length k) - 1). { subst k. change (length (x :: y :: rs)) with (S (S (length rs))). rewrite !S_INR. pose proof (pos_INR (length rs)). lra. }
    rewrite sqrt_sqrt; [field; lra|]. apply Rmult_le_pos; [apply squares_pos|]. left. apply Rinv_0_lt_compat. exact P.
  - right. apply all_finite_none in E. auto.
Qed.

(** ** The relative differences *)
Definition ratio (p : rv * rv) : rv := rv_div (rv_sub (snd p) (fst p)) (fst p).
Lemma ratio_ok : forall p, is_ratio p (ratio p).
Proof.
  intros [[x|] [y|]]; unfold ratio, is_ratio; cbn; auto. destruct (Req_EM_T x 0); auto.
Qed.
Lemma ratio_usable : forall p, isfinite (ratio p) = true <-> usable p.
Proof.
  intros [[x|] [y|]]; unfold ratio, usable; cbn; split; try discriminate; try (intros (? & ? & H & _); discriminate H).
  - destruct (Req_EM_T x 0); [discriminate|]. intros _. exists x, y. auto.
  - intros (a & b & [= <- <-] & N). destruct (Req_EM_T x 0); [contradiction|reflexivity].
Qed.
Lemma filter_usable : forall ps, usable_pairs ps (filter (fun p => isfinite (ratio p)) ps).
Proof.
  induction ps as [|p ps IH]; cbn; [constructor|]. destruct (isfinite (ratio p)) eqn:E; constructor; auto; [apply ratio_usable; auto|]. intros U. apply ratio_usable in U. congruence.
Qed.
Lemma filter_true : forall {A} (f : A -> bool) l, Forall (fun x => f x = true) l -> filter f l = l.
Proof. induction 1; cbn; [reflexivity|]. rewrite H, IHForall. reflexivity. Qed.

(** ** Everything for arrays of the same size *)
Section Same.
Variables (d1 d2 : farr).
Hypothesis O1 : array_ok d1.
Hypothesis O2 : array_ok d2.
Hypothesis L : f_len d1 = f_len d2.
Let m := orl (getmaskarray d1) (getmaskarray d2).
Let ps := upairs (an_data d1) (an_data d2) m.

Lemma m_length : length m = f_len d1.
Proof. unfold m. rewrite orl_length; rewrite !gma_length; auto. Qed.
Lemma ps_unmasked : unmasked_pairs d1 d2 = ps.
Proof. reflexivity. Qed.
Lemma ps_valid : valid_pairs (elements_of d1) (elements_of d2) ps.
Proof. unfold elements_of, ps, m. apply upairs_valid; auto; rewrite gma_length; auto. Qed.

Lemma zip_length : forall {A B C} (f : A -> B -> C) a b, length a = length b -> length (zip_with f a b) = length a.
Proof. intros. unfold zip_with. rewrite map_length, combine_length. lia. Qed.
Lemma plus_ok : forall f, exists s, elementwise f d1 d2 = Ok s /\ compressed s = map (fun p => f (fst p) (snd p)) ps.
Proof.
  intros f. unfold elementwise, broadcast. rewrite (proj2 (Nat.eqb_eq _ _) L). cbn [bind]. eexists. split; [reflexivity|]. unfold compressed.
  rewrite mask_or_masked; auto; [|apply zip_length; exact L]. fold m.
  replace (an_data _) with (zip_with f (an_data d1) (an_data d2)) by (destruct (is_masked_array d1 || is_masked_array d2); reflexivity).
  rewrite compressed_zip by exact L. reflexivity.
Qed.
Lemma minus_ok : exists s, elementwise rv_sub d2 d1 = Ok s /\ array_ok s /\ getmaskarray s = m /\ an_data s = zip_with rv_sub (an_data d2) (an_data d1) /\
  is_masked_array s = is_masked_array d2 || is_masked_array d1 /\ compressed s = map difference ps.
Proof.
  unfold elementwise, broadcast. rewrite (proj2 (Nat.eqb_eq _ _) (eq_sym L)). cbn [bind]. eexists. split; [reflexivity|]. set (d := zip_with rv_sub (an_data d2) (an_data d1)).
  assert (LD : length d = f_len d2) by (apply zip_length; exact (eq_sym L)).
  assert (M : getmaskarray (if is_masked_array d2 || is_masked_array d1 then Masked d (mask_or (getmask d2) (getmask d1)) else Plain d) = m).
  { rewrite mask_or_masked; auto. unfold m. apply orl_comm. }
  assert (D : an_data (if is_masked_array d2 || is_masked_array d1 then Masked d (mask_or (getmask d2) (getmask d1)) else Plain d) = d) by (destruct (is_masked_array d2 || is_masked_array d1); reflexivity).
  split; [|split; [exact M|split; [exact D|split]]].
  - destruct (is_masked_array d2 || is_masked_array d1); [|exact I]. cbn in M |- *. destruct (mask_or (getmask d2) (getmask d1)); [|exact I]. rewrite M, m_length. lia.
  - destruct (is_masked_array d2 || is_masked_array d1); reflexivity.
  - unfold compressed. rewrite M, D. unfold d. rewrite compressed_zip by exact (eq_sym L). rewrite <- upairs_swap, map_map. unfold ps. apply map_ext. intros [[x|] [y|]]; reflexivity.
Qed.
Lemma rel_ok : exists d q, elementwise rv_sub d2 d1 = Ok d /\ division d d1 = Ok q /\
  compressed q = if is_masked_array d1 || is_masked_array d2 then map ratio (filter (fun p => isfinite (ratio p)) ps) else map ratio ps.
Proof.
  destruct minus_ok as (d & E & OD & M & D & K & _). exists d. unfold division, broadcast.
  assert (LD : f_len d = f_len d1) by (unfold f_len at 1; rewrite D, zip_length by exact (eq_sym L); symmetry; exact L).
  rewrite (proj2 (Nat.eqb_eq _ _) LD). cbn [bind]. eexists. split; [exact E|]. split; [reflexivity|]. rewrite D, M, K.
  replace (is_masked_array d2 || is_masked_array d1 || is_masked_array d1)%bool with (is_masked_array d1 || is_masked_array d2)%bool by (destruct (is_masked_array d1), (is_masked_array d2); reflexivity).
  unfold compressed.
  assert (Z : zip_with rv_div (zip_with rv_sub (an_data d2) (an_data d1)) (an_data d1) = map ratio (combine (an_data d1) (an_data d2))).
  { clear - L. unfold f_len in L. revert L. generalize (an_data d1), (an_data d2). unfold zip_with. induction l as [|x l IH]; intros [|y l2] L; cbn in L; try lia; [reflexivity|]. cbn. f_equal. apply IH. lia. }
  rewrite Z. destruct (is_masked_array d1 || is_masked_array d2) eqn:K2.
  - cbn [an_data getmaskarray].
    replace (orl m (getmaskarray d1)) with m by (unfold m; rewrite orl_idem1; auto; rewrite !gma_length; auto).
    unfold ps, upairs. generalize (combine (an_data d1) (an_data d2)) m. clear. induction l as [|p l IH]; intros mm; [reflexivity|]. destruct mm as [|b mm]; [cbn; reflexivity|].
    cbn [map]. rewrite orl_cons. cbn [combine filter snd]. destruct b; cbn [negb orb].
    + rewrite orb_true_r. cbn. apply IH.
    + rewrite orb_false_r. cbn [map fst filter]. destruct (isfinite (ratio p)); cbn; rewrite IH; reflexivity.
  - cbn [an_data getmaskarray]. unfold ps. apply orb_false_elim in K2. destruct K2 as [K1 K2]. unfold m. destruct d1 as [x1|], d2 as [x2|]; try discriminate. unfold f_len in L. cbn [an_data getmaskarray] in L |- *.
    rewrite orl_false_l by (rewrite repeat_length; auto). rewrite map_length, combine_length. replace (Init.Nat.min (length x1) (length x2)) with (length x2) by lia. rewrite upairs_all by auto.
    clear -L. revert x2 L. induction x1 as [|x x1 IH]; intros [|y x2] L; cbn in L; try lia; [reflexivity|]. cbn. f_equal. apply IH. lia.
Qed.
Lemma common_ok : exists a b, common_mask d1 d2 = Ok (a, b) /\ compressed a = map fst ps /\ compressed b = map snd ps.
Proof.
  unfold common_mask. rewrite (proj2 (Nat.eqb_eq _ _) L). eexists _, _. split; [reflexivity|]. unfold compressed, masked_array. cbn. fold m. rewrite (orl_comm (getmaskarray d2)). fold m. unfold ps. split; symmetry; [apply upairs_fst|apply upairs_snd]; exact L.
Qed.
Lemma linregress_ok : forall regr, ps <> [] -> mstats_linregress regr d1 d2 = regr ps.
Proof.
  intros regr N. unfold mstats_linregress. rewrite ps_unmasked. destruct (mask_or (getmask d1) (getmask d2)) eqn:E; [destruct ps; [contradiction|reflexivity]|]. f_equal. unfold ps, m.
  destruct d1 as [x1|x1 [|]], d2 as [x2|x2 [|]]; try discriminate; unfold f_len in L; cbn [an_data getmaskarray] in L |- *; rewrite orl_false_l, upairs_all by (rewrite ?repeat_length; auto); reflexivity.
Qed.

Variables (rank : list (rv * rv) -> rv) (regr : list (rv * rv) -> res (rv * rv * rv * rv)).
Lemma analyze_ok : analyze rank regr d1 d2 =
  if (length ps <? 2)%nat then Raises ValueError else
  match regr ps with
  | Raises e => Raises e
  | Ok (g, i, r, e) =>
    let qs := if is_masked_array d1 || is_masked_array d2 then map ratio (filter (fun p => isfinite (ratio p)) ps) else map ratio ps in
    Ok [PointsCount (length ps); DatasetMean (stat_mean (map fst ps)) 1; DatasetMean (stat_mean (map snd ps)) 2; DatasetStddev (stat_std (map fst ps)) 1; DatasetStddev (stat_std (map snd ps)) 2;
        AbsoluteMean (stat_mean (map difference ps)); AbsoluteStddev (stat_std (map difference ps)); RelativeMean (stat_mean qs); RelativeStddev (stat_std qs); SpearmansRank (rank ps);
        LinearRegressionGradient g; LinearRegressionIntercept i; LinearRegressionRValue r; LinearRegressionStderr e]
  end.
Proof.
  unfold analyze. cbn [extend_all]. unfold points_count, means, stddevs, abs_mean, abs_stddev, rel_mean, rel_stddev, spearmans_rank, linear_regression.
  destruct (plus_ok rv_add) as (s & E & C). rewrite E. destruct common_ok as (a & b & EC & CA & CB). rewrite EC. destruct rel_ok as (d & q & ED & EQ & CQ).
  destruct minus_ok as (d' & ED' & _ & _ & _ & _ & CD). rewrite ED in ED'. injection ED' as <-. rewrite ED. cbn [bind]. rewrite EQ. cbn [bind].
  unfold mstats_spearmanr. rewrite (proj2 (Nat.eqb_eq _ _) L). cbn [negb]. rewrite ps_unmasked. destruct (length ps <? 2)%nat eqn:LT; [reflexivity|]. cbn [bind]. apply Nat.ltb_ge in LT.
  rewrite linregress_ok by (intros N; rewrite N in LT; cbn in LT; lia). destruct (regr ps) as [[[[g i] r] e]|e]; [|reflexivity]. cbn [bind app fst snd].
  unfold ma_count, np_mean, np_std. rewrite C, CA, CB, CD, CQ, map_length. reflexivity.
Qed.
Lemma statistics_ok : forall out, analyze rank regr d1 d2 = Ok out ->
  exists ps, valid_pairs (elements_of d1) (elements_of d2) ps /\
    (exists rm rs us qs, usable_pairs ps us /\ (is_masked_array d1 = true \/ is_masked_array d2 = true -> Forall2 is_ratio us qs /\ is_mean qs rm /\ is_stddev qs rs) /\ rest_right rank regr ps out rm rs) /\
    ((is_masked_array d1 = false /\ is_masked_array d2 = false) \/ Forall usable ps -> right_statistics rank regr ps out).
Proof.
  intros out. rewrite analyze_ok. destruct (length ps <? 2)%nat; [discriminate|]. destruct (regr ps) as [[[[g i] r] e]|] eqn:ER; [|discriminate]. cbv zeta.
  set (qs := if is_masked_array d1 || is_masked_array d2 then map ratio (filter (fun p => isfinite (ratio p)) ps) else map ratio ps). intros [= <-]. exists ps. split; [exact ps_valid|].
  assert (F2 : forall l, Forall2 is_ratio l (map ratio l)) by (induction l; constructor; auto; apply ratio_ok).
  assert (R : rest_right rank regr ps [PointsCount (length ps); DatasetMean (stat_mean (map fst ps)) 1; DatasetMean (stat_mean (map snd ps)) 2; DatasetStddev (stat_std (map fst ps)) 1; DatasetStddev (stat_std (map snd ps)) 2;
        AbsoluteMean (stat_mean (map difference ps)); AbsoluteStddev (stat_std (map difference ps)); RelativeMean (stat_mean qs); RelativeStddev (stat_std qs); SpearmansRank (rank ps);
        LinearRegressionGradient g; LinearRegressionIntercept i; LinearRegressionRValue r; LinearRegressionStderr e] (stat_mean qs) (stat_std qs)).
  { eexists _, _, _, _, _, _, _, _, _, _. split; [reflexivity|]. repeat split; try apply stat_mean_ok; try apply stat_std_ok. exact ER. }
  split.
  - exists (stat_mean qs), (stat_std qs), (filter (fun p => isfinite (ratio p)) ps), qs. split; [apply filter_usable|]. split; [|exact R]. intros K. assert (KK : (is_masked_array d1 || is_masked_array d2)%bool = true) by (apply orb_true_iff; exact K).
    unfold qs. rewrite KK. split; [apply F2|]. split; [apply stat_mean_ok|apply stat_std_ok].
  - intros K. exists (stat_mean qs), (stat_std qs), qs. split; [|split; [apply stat_mean_ok|split; [apply stat_std_ok|exact R]]]. unfold qs. destruct K as [[-> ->]|K]; [apply F2|].
    rewrite filter_true; [destruct (_ || _)%bool; apply F2|]. eapply Forall_impl; [|exact K]. intros p U. apply ratio_usable. exact U.
Qed.
Lemma defined_ok : forall ps', valid_pairs (elements_of d1) (elements_of d2) ps' ->
  (length ps' < 2)%nat /\ analyze rank regr d1 d2 = Raises ValueError \/
  (2 <= length ps')%nat /\ ((exists out, analyze rank regr d1 d2 = Ok out) <-> (exists x, regr ps' = Ok x)).
Proof.
  intros ps' V. rewrite (valid_unique _ _ _ V _ ps_valid). rewrite analyze_ok. destruct (length ps <? 2)%nat eqn:LT; [left|right].
  - apply Nat.ltb_lt in LT. auto.
  - apply Nat.ltb_ge in LT. split; [exact LT|]. destruct (regr ps) as [[[[g i] r] e]|] eqn:E; split; try (intros [? H]; discriminate H); intros _; eauto.
Qed.
End Same.
Lemma sizes : forall rank regr d1 d2, f_len d1 <> f_len d2 -> exists e, analyze rank regr d1 d2 = Raises e.
Proof.
  intros rank regr d1 d2 N. unfold analyze. cbn [extend_all]. unfold means, common_mask. rewrite (proj2 (Nat.eqb_neq _ _) N). cbn [bind]. destruct (points_count d1 d2); cbn [bind]; eauto.
Qed.
