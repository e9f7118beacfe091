(** Proofs for C76. *)
From Coq Require Import Reals String Lra Psatz.
From Verif Require Import Base PyStr UtilModel UtilSpec StatsModel StatsSpec StatsProofs TaylorModel TaylorSpec.
Open Scope R_scope.

(** ** Sums *)
Lemma sum_map_plus : forall {A} (f g : A -> R) l, sum (map (fun x => f x + g x) l) = sum (map f l) + sum (map g l).
Proof. unfold sum. induction l as [|x l IH]; cbn; [lra|]. rewrite IH. lra. Qed.
Lemma sum_map_scal : forall {A} (c : R) (f : A -> R) l, sum (map (fun x => c * f x) l) = c * sum (map f l).
Proof. unfold sum. induction l as [|x l IH]; cbn; [lra|]. rewrite IH. lra. Qed.
Lemma sum_map_ext : forall {A} (f g : A -> R) l, (forall x, f x = g x) -> sum (map f l) = sum (map g l).
Proof. intros A f g l H. f_equal. apply map_ext. exact H. Qed.
Lemma sum_map_pos : forall {A} (f : A -> R) l, (forall x, 0 <= f x) -> 0 <= sum (map f l).
Proof. unfold sum. induction l as [|x l IH]; intros H; cbn; [lra|]. specialize (H x) as Hx. specialize (IH H). lra. Qed.
Lemma cauchy : forall {A} (f g : A -> R) l, sum (map (fun x => g x * g x) l) <> 0 ->
  sum (map (fun x => f x * g x) l) * sum (map (fun x => f x * g x) l) <= sum (map (fun x => f x * f x) l) * sum (map (fun x => g x * g x) l).
Proof.
  intros A f g l N. set (sxy := sum (map (fun x => f x * g x) l)). set (syy := sum (map (fun x => g x * g x) l)) in *. set (sxx := sum (map (fun x => f x * f x) l)).
  assert (P : 0 <= sum (map (fun x => (syy * f x - sxy * g x) * (syy * f x - sxy * g x)) l)) by (apply sum_map_pos; intros x; pose proof (Rle_0_sqr (syy * f x - sxy * g x)) as S; exact S).
  assert (E : sum (map (fun x => (syy * f x - sxy * g x) * (syy * f x - sxy * g x)) l) = syy * syy * sxx + (-2 * syy * sxy) * sxy + sxy * sxy * syy).
  { transitivity (sum (map (fun x => (syy * syy) * (f x * f x)) l) + sum (map (fun x => (-2 * syy * sxy) * (f x * g x)) l) + sum (map (fun x => (sxy * sxy) * (g x * g x)) l)).
    - rewrite <- !sum_map_plus. apply sum_map_ext. intros x. ring.
    - rewrite !sum_map_scal. reflexivity. }
  assert (Y : 0 <= syy) by (apply sum_map_pos; intros x; pose proof (Rle_0_sqr (g x)) as S; exact S).
  rewrite E in P. assert (0 < syy) by lra. assert (0 <= syy * (syy * sxx - sxy * sxy)) by lra. assert (0 <= syy * sxx - sxy * sxy).
  { apply Rnot_lt_le. intros L. assert (syy * (syy * sxx - sxy * sxy) < 0) by (rewrite <- (Rmult_0_r syy); apply Rmult_lt_compat_l; lra). lra. }
  lra.
Qed.
Lemma r_sum_sum : forall l, r_sum l = sum l. Proof. exact r_sum_total. Qed.
Lemma r_mean_mean : forall l, r_mean l = mean l. Proof. intros l. unfold r_mean, mean. rewrite r_sum_sum. reflexivity. Qed.

(** codeviations over the list of pairs *)
Lemma codev_self : forall xs, codeviation xs xs = sum (map (fun x => (x - mean xs) * (x - mean xs)) xs).
Proof. intros xs. unfold codeviation. set (m := mean xs). clearbody m. unfold sum. induction xs as [|x l IH]; cbn; [reflexivity|]. rewrite IH. reflexivity. Qed.
Lemma combine_fst : forall {A B} (f : A -> R) (l : list A) (k : list B), length l = length k -> map (fun p => f (fst p)) (combine l k) = map f l.
Proof. induction l as [|x l IH]; intros [|y k] L; cbn in *; try lia; [reflexivity|]. rewrite IH by lia. reflexivity. Qed.
Lemma combine_snd : forall {A B} (f : B -> R) (l : list A) (k : list B), length l = length k -> map (fun p => f (snd p)) (combine l k) = map f k.
Proof. induction l as [|x l IH]; intros [|y k] L; cbn in *; try lia; [reflexivity|]. rewrite IH by lia. reflexivity. Qed.
Lemma codev_fst : forall xs ys, length xs = length ys -> codeviation xs xs = sum (map (fun p : R * R => (fst p - mean xs) * (fst p - mean xs)) (combine xs ys)).
Proof. intros xs ys L. rewrite codev_self. rewrite (combine_fst (fun x => (x - mean xs) * (x - mean xs)) xs ys L). reflexivity. Qed.
Lemma codev_snd : forall xs ys, length xs = length ys -> codeviation ys ys = sum (map (fun p : R * R => (snd p - mean ys) * (snd p - mean ys)) (combine xs ys)).
Proof. intros xs ys L. rewrite codev_self. rewrite (combine_snd (fun x => (x - mean ys) * (x - mean ys)) xs ys L). reflexivity. Qed.
Lemma codev_pos : forall xs, 0 <= codeviation xs xs.
Proof. intros xs. rewrite codev_self. apply sum_map_pos. intros x. pose proof (Rle_0_sqr (x - mean xs)) as S. exact S. Qed.
Lemma codev_cauchy : forall xs ys, length xs = length ys -> codeviation ys ys <> 0 -> codeviation xs ys * codeviation xs ys <= codeviation xs xs * codeviation ys ys.
Proof. intros xs ys L N. rewrite (codev_snd xs ys L) in *. rewrite (codev_fst xs ys L). unfold codeviation. exact (cauchy (fun p : R * R => fst p - mean xs) (fun p : R * R => snd p - mean ys) _ N). Qed.

Section Law.
Variables xs ys : list R.
Hypothesis L : length xs = length ys.
Hypothesis LL : (2 <= length ys)%nat.
Hypothesis NX : codeviation xs xs <> 0.
Hypothesis NY : codeviation ys ys <> 0.
Lemma pX : 0 < codeviation xs xs. Proof. pose proof (codev_pos xs). lra. Qed.
Lemma pY : 0 < codeviation ys ys. Proof. pose proof (codev_pos ys). lra. Qed.
Lemma pXY : 0 < codeviation xs xs * codeviation ys ys. Proof. apply Rmult_lt_0_compat; [exact pX|exact pY]. Qed.
Lemma pN : 0 < INR (length ys) - 1.
Proof. clear - LL. destruct ys as [|a [|b l]]; cbn [length] in *; try lia. rewrite !S_INR. pose proof (pos_INR (length l)). lra. Qed.
Lemma corr_sq : correlation xs ys * correlation xs ys = codeviation xs ys * codeviation xs ys / (codeviation xs xs * codeviation ys ys).
Proof.
  unfold correlation. pose proof pXY as P. pose proof (sqrt_lt_R0 _ P) as Q. pose proof (sqrt_sqrt _ (Rlt_le _ _ P)) as S.
  set (s := sqrt _) in *. replace (codeviation xs ys / s * (codeviation xs ys / s)) with (codeviation xs ys * codeviation xs ys / (s * s)) by (field; lra). rewrite S. reflexivity.
Qed.
Lemma corr_range : -1 <= correlation xs ys <= 1.
Proof.
  pose proof corr_sq as E. pose proof (codev_cauchy xs ys L NY) as C. pose proof pXY as P.
  assert (H : correlation xs ys * correlation xs ys <= 1).
  { rewrite E. apply (Rmult_le_reg_r (codeviation xs xs * codeviation ys ys)); [exact P|]. unfold Rdiv. rewrite Rmult_assoc, Rinv_l by lra. lra. }
  split; nra.
Qed.
Lemma dev_pos : forall zs, length zs = length ys -> codeviation zs zs <> 0 -> 0 < deviation zs.
Proof. intros zs E N. unfold deviation. rewrite E. apply sqrt_lt_R0. apply Rdiv_lt_0_compat; [|exact pN]. pose proof (codev_pos zs). lra. Qed.
Lemma dev_sq : forall zs, length zs = length ys -> deviation zs * deviation zs = codeviation zs zs / (INR (length ys) - 1).
Proof. intros zs E. unfold deviation. rewrite E. apply sqrt_sqrt. pose proof pN. pose proof (codev_pos zs). unfold Rdiv. apply Rmult_le_pos; [lra|]. left. apply Rinv_0_lt_compat. lra. Qed.
Lemma sqrt_ratio : sqrt (codeviation xs xs * codeviation ys ys) = deviation xs * deviation ys * (INR (length ys) - 1).
Proof.
  pose proof pN as P. pose proof (dev_sq xs L) as DX. pose proof (dev_sq ys eq_refl) as DY. pose proof (dev_pos xs L NX). pose proof (dev_pos ys eq_refl NY).
  apply sqrt_lem_1; [left; exact pXY| |].
  - repeat apply Rmult_le_pos; lra.
  - replace (deviation xs * deviation ys * (INR (length ys) - 1) * (deviation xs * deviation ys * (INR (length ys) - 1)))
      with ((deviation xs * deviation xs) * (deviation ys * deviation ys) * ((INR (length ys) - 1) * (INR (length ys) - 1))) by ring.
    rewrite DX, DY. field. lra.
Qed.
Lemma law_of_cosines : distance_from_reference (deviation xs / deviation ys) (correlation xs ys) = centred_rms xs ys / deviation ys.
Proof.
  pose proof pN as P. pose proof (dev_sq xs L) as DX. pose proof (dev_sq ys eq_refl) as DY. pose proof (dev_pos xs L NX) as PX. pose proof (dev_pos ys eq_refl NY) as PY.
  pose proof corr_range as RG. set (c := correlation xs ys) in *.
  unfold distance_from_reference. set (g := deviation xs / deviation ys).
  assert (S : sqrt (1 - c * c) * sqrt (1 - c * c) = 1 - c * c) by (apply sqrt_sqrt; nra).
  replace ((g * c - 1) * (g * c - 1) + g * sqrt (1 - c * c) * (g * sqrt (1 - c * c))) with ((g * c - 1) * (g * c - 1) + g * g * (sqrt (1 - c * c) * sqrt (1 - c * c))) by ring. rewrite S.
  replace ((g * c - 1) * (g * c - 1) + g * g * (1 - c * c)) with (1 + g * g - 2 * (g * c)) by ring.
  assert (GC : g * c = codeviation xs ys / codeviation ys ys).
  { unfold g, c, correlation. rewrite sqrt_ratio. assert (YY : codeviation ys ys = deviation ys * deviation ys * (INR (length ys) - 1)) by (rewrite DY; field; lra). rewrite YY. field. repeat split; lra. }
  assert (GG : g * g = codeviation xs xs / codeviation ys ys).
  { unfold g. replace (deviation xs / deviation ys * (deviation xs / deviation ys)) with (deviation xs * deviation xs / (deviation ys * deviation ys)) by (field; lra). rewrite DX, DY. field. lra. }
  rewrite GC, GG.
  assert (C : sum (map (fun p : R * R => ((fst p - mean xs) - (snd p - mean ys)) * ((fst p - mean xs) - (snd p - mean ys))) (combine xs ys)) = codeviation xs xs + -2 * codeviation xs ys + codeviation ys ys).
  { rewrite (codev_fst xs ys L), (codev_snd xs ys L). unfold codeviation at 1. rewrite <- sum_map_scal, <- !sum_map_plus. apply sum_map_ext. intros p. ring. }
  unfold centred_rms. rewrite C, L.
  assert (NN : 0 <= codeviation xs xs + -2 * codeviation xs ys + codeviation ys ys) by (rewrite <- C; apply sum_map_pos; intros p; pose proof (Rle_0_sqr (fst p - mean xs - (snd p - mean ys))) as Q; exact Q).
  apply sqrt_lem_1.
  - replace (1 + codeviation xs xs / codeviation ys ys - 2 * (codeviation xs ys / codeviation ys ys)) with ((codeviation xs xs + -2 * codeviation xs ys + codeviation ys ys) / codeviation ys ys) by (field; lra).
    apply Rmult_le_pos; [exact NN|]. left. apply Rinv_0_lt_compat. exact pY.
  - apply Rmult_le_pos; [apply sqrt_pos|]. left. apply Rinv_0_lt_compat. exact PY.
  - replace (sqrt ((codeviation xs xs + -2 * codeviation xs ys + codeviation ys ys) / (INR (length ys) - 1)) / deviation ys * (sqrt ((codeviation xs xs + -2 * codeviation xs ys + codeviation ys ys) / (INR (length ys) - 1)) / deviation ys))
      with (sqrt ((codeviation xs xs + -2 * codeviation xs ys + codeviation ys ys) / (INR (length ys) - 1)) * sqrt ((codeviation xs xs + -2 * codeviation xs ys + codeviation ys ys) / (INR (length ys) - 1)) / (deviation ys * deviation ys)) by (field; lra).
    rewrite sqrt_sqrt, DY; [field; lra|]. apply Rmult_le_pos; [exact NN|]. left. apply Rinv_0_lt_compat. exact P.
Qed.
End Law.

(** ** numpy.ma.corrcoef of two rows that miss the same elements *)
Definition minus (c : R) (r : list (rv * bool)) : list (rv * bool) := map (fun p => (rv_sub (fst p) (Some c), snd p)) r.
Lemma both_valid : forall a b xs ys cx cy, map snd a = map snd b -> valid a = map Some xs -> valid b = map Some ys ->
  length xs = length ys /\ both (minus cx a) (minus cy b) = combine (map (fun x => Some (x - cx)) xs) (map (fun y => Some (y - cy)) ys).
Proof.
  unfold both, minus, valid. induction a as [|[x m] a IH]; intros [|[y n] b] xs ys cx cy M VA VB; cbn in M; try discriminate.
  - cbn in VA, VB. destruct xs, ys; try discriminate. split; reflexivity.
  - injection M as -> M. destruct n; cbn in VA, VB |- *.
    + exact (IH b xs ys cx cy M VA VB).
    + destruct xs as [|x' xs], ys as [|y' ys]; try discriminate. injection VA as -> VA. injection VB as -> VB. destruct (IH b xs ys cx cy M VA VB) as [E1 E2]. split; [cbn; lia|]. cbn. rewrite E2. reflexivity.
Qed.
Lemma rv_mean_some : forall xs, xs <> [] -> rv_mean (map Some xs) = Some (mean xs).
Proof. intros xs N. unfold rv_mean. rewrite (proj2 (all_finite_some (map Some xs) xs) eq_refl). destruct xs; [contradiction|]. rewrite r_mean_mean. reflexivity. Qed.
Lemma map_fst_comb : forall {A B} (l : list A) (k : list B), length l = length k -> map fst (combine l k) = l.
Proof. induction l as [|x l IH]; intros [|y k] E; cbn in *; try lia; [reflexivity|]. rewrite IH by lia. reflexivity. Qed.
Lemma map_snd_comb : forall {A B} (l : list A) (k : list B), length l = length k -> map snd (combine l k) = k.
Proof. induction l as [|x l IH]; intros [|y k] E; cbn in *; try lia; [reflexivity|]. rewrite IH by lia. reflexivity. Qed.
Lemma sum_minus : forall xs c, sum (map (fun x => x - c) xs) = sum xs - INR (length xs) * c.
Proof. induction xs as [|x l IH]; intros c; [cbn; lra|]. unfold sum in *. cbn [map fold_right length]. rewrite IH, S_INR. lra. Qed.
Lemma INR_pos : forall {A} (l : list A), l <> [] -> 0 < INR (length l).
Proof. intros A [|x l] N; [contradiction|]. cbn [length]. rewrite S_INR. pose proof (pos_INR (length l)). lra. Qed.
Lemma mean_centred : forall xs, xs <> [] -> mean (map (fun x => x - mean xs) xs) = 0.
Proof. intros xs N. unfold mean at 1. rewrite sum_minus, map_length. unfold mean. pose proof (INR_pos xs N). field. lra. Qed.
Lemma var_centred : forall xs, xs <> [] -> r_var (map (fun x => x - mean xs) xs) = codeviation xs xs / INR (length xs).
Proof.
  intros xs N. unfold r_var. rewrite r_mean_mean, (mean_centred xs N), map_length, r_sum_sum, codev_self, map_map. do 2 f_equal. apply map_ext. intros x. ring.
Qed.
Lemma zip_centred : forall xs ys a b, length xs = length ys -> zip_with Rmult (map (fun x => x - a) xs) (map (fun y => y - b) ys) = map (fun p : R * R => (fst p - a) * (snd p - b)) (combine xs ys).
Proof. unfold zip_with. induction xs as [|x l IH]; intros [|y k] a b E; cbn in *; try lia; [reflexivity|]. rewrite IH by lia. reflexivity. Qed.
Lemma row_correlation_ok : forall a b xs ys, map snd a = map snd b -> valid a = map Some xs -> valid b = map Some ys -> (2 <= length ys)%nat -> codeviation ys ys <> 0 ->
  length xs = length ys /\ row_correlation a b = if Req_EM_T (codeviation xs xs) 0 then None else Some (correlation xs ys).
Proof.
  intros a b xs ys M VA VB L2 NY. destruct (both_valid a b xs ys (mean xs) (mean ys) M VA VB) as [L E]. split; [exact L|].
  assert (NX : xs <> []) by (intros ->; cbn in L; lia). assert (NY' : ys <> []) by (intros ->; cbn in L2; lia).
  unfold row_correlation.
  assert (CA : centred a = minus (mean xs) a) by (unfold centred, minus; rewrite VA, (rv_mean_some xs NX); reflexivity).
  assert (CB : centred b = minus (mean ys) b) by (unfold centred, minus; rewrite VB, (rv_mean_some ys NY'); reflexivity).
  rewrite CA, CB, E, map_fst_comb, map_snd_comb by (rewrite !map_length; exact L).
  rewrite VA, VB, (proj2 (all_finite_some (map Some xs) xs) eq_refl), (proj2 (all_finite_some (map Some ys) ys) eq_refl).
  rewrite (proj2 (all_finite_some (map (fun x => Some (x - mean xs)) xs) (map (fun x => x - mean xs) xs))) by (rewrite map_map; reflexivity).
  rewrite (proj2 (all_finite_some (map (fun y => Some (y - mean ys)) ys) (map (fun y => y - mean ys) ys))) by (rewrite map_map; reflexivity).
  destruct (map (fun x => x - mean xs) xs) as [|z zs] eqn:EZ; [destruct xs; [contradiction|discriminate]|]. rewrite <- EZ. clear EZ z zs.
  rewrite (var_centred xs NX), (var_centred ys NY'), map_length, (zip_centred xs ys (mean xs) (mean ys) L), r_sum_sum, L.
  change (sum (map (fun p : R * R => (fst p - mean xs) * (snd p - mean ys)) (combine xs ys))) with (codeviation xs ys).
  pose proof (INR_pos ys NY') as P. unfold rv_div, rv2. destruct (Req_EM_T (codeviation xs xs) 0) as [Z|Z].
  - rewrite Z. replace (0 / INR (length ys) * (codeviation ys ys / INR (length ys))) with 0 by (field; lra). rewrite sqrt_0. destruct (Req_EM_T 0 0); [reflexivity|lra].
  - pose proof (pXY xs ys Z NY) as PP.
    assert (S : sqrt (codeviation xs xs / INR (length ys) * (codeviation ys ys / INR (length ys))) = sqrt (codeviation xs xs * codeviation ys ys) / INR (length ys)).
    { apply sqrt_lem_1.
      - replace (codeviation xs xs / INR (length ys) * (codeviation ys ys / INR (length ys))) with (codeviation xs xs * codeviation ys ys / (INR (length ys) * INR (length ys))) by (field; lra).
        apply Rmult_le_pos; [lra|]. left. apply Rinv_0_lt_compat. apply Rmult_lt_0_compat; lra.
      - apply Rmult_le_pos; [apply sqrt_pos|]. left. apply Rinv_0_lt_compat. lra.
      - replace (sqrt (codeviation xs xs * codeviation ys ys) / INR (length ys) * (sqrt (codeviation xs xs * codeviation ys ys) / INR (length ys)))
          with (sqrt (codeviation xs xs * codeviation ys ys) * sqrt (codeviation xs xs * codeviation ys ys) / (INR (length ys) * INR (length ys))) by (field; lra).
        rewrite sqrt_sqrt by lra. field. lra. }
    rewrite S. pose proof (sqrt_lt_R0 _ PP) as Q. destruct (Req_EM_T (sqrt (codeviation xs xs * codeviation ys ys) / INR (length ys)) 0) as [Y|_].
    + exfalso. assert (0 < sqrt (codeviation xs xs * codeviation ys ys) / INR (length ys)) by (apply Rdiv_lt_0_compat; lra). lra.
    + unfold correlation. f_equal. field. lra.
Qed.
Lemma orl_self : forall m, orl m m = m.
Proof. induction m as [|b m IH]; [reflexivity|]. unfold orl in *. cbn. rewrite IH, orb_diag. reflexivity. Qed.
Lemma corrcoef_ok : forall a b xs ys, one_dimensional a -> one_dimensional b -> missing_at a = missing_at b -> has_values a xs -> has_values b ys -> (2 <= length ys)%nat -> codeviation ys ys <> 0 ->
  length xs = length ys /\ corrcoef01 a b = Ok (if Req_EM_T (codeviation xs xs) 0 then None else Some (correlation xs ys)).
Proof.
  intros a b xs ys [RA CA] [RB CB] M [OA VA] [OB VB] L2 NY. unfold missing_at in M.
  pose proof (gma_length (ts_values a) OA) as GA. pose proof (gma_length (ts_values b) OB) as GB. unfold f_len in GA, GB. rewrite M in GA.
  assert (LD : length (an_data (ts_values a)) = length (an_data (ts_values b))) by congruence.
  destruct (row_correlation_ok (combine (an_data (ts_values a)) (getmaskarray (ts_values a))) (combine (an_data (ts_values b)) (getmaskarray (ts_values b))) xs ys) as [L E]; try assumption.
  { rewrite M, !map_snd_comb by congruence. reflexivity. }
  split; [exact L|]. unfold corrcoef01. assert (C : ts_cols a = ts_cols b) by congruence. rewrite C, Nat.eqb_refl. cbn [negb]. rewrite RA, RB, Nat.eqb_refl.
  rewrite M, orl_self. cbn [rows_of app]. rewrite !firstn_all2 by (rewrite combine_length; lia). rewrite M in E. rewrite E. reflexivity.
Qed.
