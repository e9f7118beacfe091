From Verif Require Import Base QBase KDModel KDSpec HavModel HavSpec BallModel BallSpec MskModel MskSpec KDProofs KD2Proofs KD4Proofs Hav2Proofs Ball2Proofs MskProofs.
From Coq Require Import List Reals Lia Permutation.
Import ListNotations.
Open Scope nat_scope.

Lemma filter_first {A} (P : A -> bool) x l : filter P (x :: l) = if P x then x :: filter P l else filter P l.
Proof. reflexivity. Qed.
Lemma kept_unmasked m : forall k, filter (fun i => negb (nth (i - k) m false)) (seq k (length m)) = unmasked m (seq k (length m)).
Proof.
  induction m as [|b m IH]; intros k; [reflexivity|]. cbn [length seq unmasked]. rewrite filter_first, Nat.sub_diag.
  assert (E : filter (fun i => negb (nth (i - k) (b :: m) false)) (seq (S k) (length m)) = unmasked m (seq (S k) (length m))).
  { rewrite <- IH. apply filter_ext_in. intros i I. apply in_seq in I. replace (i - k) with (S (i - S k)) by lia. reflexivity. }
  rewrite E. destruct b; reflexivity.
Qed.
Lemma kept_some m n : length m = n -> kept_numbers n (Some m) = Ok (unmasked m (seq 0 n)).
Proof. intros <-. unfold kept_numbers. rewrite Nat.eqb_refl. rewrite <- kept_unmasked. f_equal. apply filter_same. intros i. rewrite Nat.sub_0_r. reflexivity. Qed.
Lemma unmasked_map {A B} (f : A -> B) m : forall l, unmasked m (map f l) = map f (unmasked m l).
Proof. induction m as [|[] m IH]; intros [|x l]; cbn [map unmasked]; try reflexivity; rewrite IH; reflexivity. Qed.
Lemma rows_seq (data : list (list Q)) : map (row data) (seq 0 (length data)) = data.
Proof.
  apply nth_ext with (d := []) (d' := []); [rewrite map_length, seq_length; reflexivity|]. intros i H. rewrite map_length, seq_length in H.
  rewrite (nth_indep _ [] (row data 0)) by (rewrite map_length, seq_length; lia). rewrite (map_nth (row data)), seq_nth by lia. reflexivity.
Qed.
Lemma rows_unmasked m (data : list (list Q)) : length m = length data -> map (row data) (unmasked m (seq 0 (length data))) = unmasked m data.
Proof. intros _. rewrite <- unmasked_map, rows_seq. reflexivity. Qed.
Lemma unmasked_length {A B} m : forall (l : list A) (k : list B), length l = length k -> length (unmasked m l) = length (unmasked m k).
Proof. induction m as [|[] m IH]; intros [|x l] [|y k] H; cbn [unmasked length] in *; try discriminate; try reflexivity; try (apply IH; lia). f_equal. apply IH. lia. Qed.
Lemma unmasked_in m i : forall k, In i (unmasked m (seq k (length m))) <-> k <= i /\ shown m (i - k).
Proof.
  unfold shown. induction m as [|b m IH]; intros k; cbn [length seq unmasked].
  - split; [intros []|]. intros [_ H]. destruct (i - k); discriminate.
  - assert (E : In i (unmasked m (seq (S k) (length m))) <-> k < i /\ nth_error (b :: m) (i - k) = Some false).
    { rewrite IH. split; intros [L H]; (split; [lia|]); replace (i - k) with (S (i - S k)) in * by lia; exact H. }
    destruct b.
    + rewrite E. split; intros [L H]; (split; [|exact H]); [lia|]. destruct (Nat.eq_dec i k) as [->|]; [rewrite Nat.sub_diag in H; discriminate|lia].
    + cbn [In]. rewrite E. split.
      * intros [<-|[L H]]; [rewrite Nat.sub_diag; split; auto|]. split; [lia|exact H].
      * intros [L H]. destruct (Nat.eq_dec k i); [left; auto|right]. split; [lia|exact H].
Qed.
Lemma unmasked_sorted m : forall k, StronglySorted lt (unmasked m (seq k (length m))).
Proof.
  induction m as [|b m IH]; intros k; cbn [length seq unmasked]; [constructor|]. destruct b; [apply IH|]. constructor; [apply IH|].
  rewrite Forall_forall. intros i H. apply unmasked_in in H. lia.
Qed.
Lemma sorted_nth l : StronglySorted lt l -> forall i j, i < j < length l -> forall d e, nth i l d < nth j l e.
Proof.
  induction 1 as [|x l S IH F]; intros i j H d e; [cbn in H; lia|]. destruct j as [|j]; [lia|]. cbn [length] in H. destruct i as [|i]; cbn [nth].
  - rewrite Forall_forall in F. apply F. apply nth_In. lia.
  - apply IH. lia.
Qed.
Lemma left_in m i : i < length (unmasked m (seq 0 (length m))) -> In (number m i) (unmasked m (seq 0 (length m))).
Proof. intros H. unfold number. apply nth_In. exact H. Qed.
Lemma number_less m i : i < length (unmasked m (seq 0 (length m))) -> number m i < length m.
Proof. intros H. apply left_in, unmasked_in in H. destruct H as [_ H]. unfold shown in H. rewrite Nat.sub_0_r in H. apply nth_error_Some. congruence. Qed.
Lemma number_over m i : length (unmasked m (seq 0 (length m))) <= i -> number m i = length m + i.
Proof. intros H. unfold number. apply nth_overflow. exact H. Qed.
Lemma number_lt m i j : i < j -> number m i < number m j.
Proof.
  intros H. set (L := length (unmasked m (seq 0 (length m)))). destruct (Nat.lt_ge_cases j L) as [J|J].
  - apply sorted_nth; [apply unmasked_sorted|]. fold L. lia.
  - rewrite (number_over m j J). destruct (Nat.lt_ge_cases i L) as [I|I]; [pose proof (number_less m i I); lia|]. rewrite (number_over m i I). lia.
Qed.
Lemma number_mono m i j : (number m i <? number m j) = (i <? j).
Proof.
  destruct (Nat.ltb_spec i j) as [H|H]; [apply Nat.ltb_lt, number_lt, H|]. apply Nat.ltb_ge.
  destruct (Nat.eq_dec i j) as [->|N]; [lia|]. apply Nat.lt_le_incl, number_lt. lia.
Qed.
Lemma number_inj m i j : number m i = number m j -> i = j.
Proof. intros H. destruct (Nat.lt_trichotomy i j) as [L|[L|L]]; auto; apply (number_lt m) in L; lia. Qed.
Lemma number_row m (data : list (list Q)) i : length m = length data -> row data (number m i) = row (unmasked m data) i.
Proof.
  intros H. set (L := length (unmasked m (seq 0 (length m)))). destruct (Nat.lt_ge_cases i L) as [I|I].
  - unfold row. rewrite <- (rows_unmasked m data H). unfold number. rewrite <- H.
    rewrite (nth_indep (map (fun i => nth i data []) _) [] (row data (length m + i))) by (rewrite map_length; exact I). rewrite (map_nth (row data)). reflexivity.
  - rewrite (number_over m i I). unfold row. rewrite !nth_overflow; auto; [|lia]. rewrite <- (unmasked_length m (seq 0 (length m)) data) by (rewrite seq_length; auto). exact I.
Qed.
Lemma number_seq m : map (number m) (seq 0 (length (unmasked m (seq 0 (length m))))) = unmasked m (seq 0 (length m)).
Proof.
  apply nth_ext with (d := 0) (d' := 0); [rewrite map_length, seq_length; reflexivity|]. intros i H. rewrite map_length, seq_length in H.
  rewrite (nth_indep (map (number m) _) 0 (number m 0)) by (rewrite map_length, seq_length; lia). rewrite (map_nth (number m)), seq_nth by lia. unfold number. apply nth_indep. exact H.
Qed.

(** a tree with a mask is that of the points left, renumbered *)
Definition with_mask (mask : list bool) (data : list (list Q)) (kd : kdtree) : kdtree := mkKD data (kd_maxes kd) (kd_mins kd) (relabel (number mask) (kd_tree kd)).
Lemma masked_tree data ls mask : length mask = length data -> unmasked mask data <> [] ->
  HaversineTree data ls (Some mask) = match KDTree (unmasked mask data) ls with Ok kd => Ok (with_mask mask data kd) | Raises e => Raises e end.
Proof.
  intros H N. unfold HaversineTree, KDTree. destruct (ls <? 1)%Z; [reflexivity|]. destruct data as [|x0 data0] eqn:D; [destruct mask as [|[] ?]; cbn in N; congruence|]. rewrite <- D in *.
  rewrite (kept_some mask _ H). cbn [bind]. rewrite (rows_unmasked mask data H). destruct (unmasked mask data) as [|y rows] eqn:U; [congruence|]. rewrite <- U in *.
  assert (CX : column_max (unmasked mask data) = fold_left (zipw Qmax) rows y) by (rewrite U; reflexivity).
  assert (CN : column_min (unmasked mask data) = fold_left (zipw Qmin) rows y) by (rewrite U; reflexivity).
  assert (MX : maxes_of (unmasked mask data) = Ok (column_max (unmasked mask data))) by (rewrite U; reflexivity).
  assert (MN : mins_of (unmasked mask data) = Ok (column_min (unmasked mask data))) by (rewrite U; reflexivity).
  rewrite MX, MN. cbn [bind]. rewrite <- H. rewrite (unmasked_length mask data (seq 0 (length mask))) by (rewrite seq_length; auto).
  rewrite <- (number_seq mask) at 2. rewrite (build_relabel (number mask) data (unmasked mask data)) by (intros i; apply number_row, H).
  destruct (build _ _ _ _ _ _); reflexivity.
Qed.
Lemma number_shown m i : shown m i <-> exists j, j < length (unmasked m (seq 0 (length m))) /\ number m j = i.
Proof.
  pose proof (unmasked_in m i 0) as E. rewrite Nat.sub_0_r in E. split.
  - intros H. destruct (In_nth _ _ 0 (proj2 E (conj (Nat.le_0_l i) H))) as (j & J & N). exists j. split; auto. unfold number. rewrite <- N. apply nth_indep. exact J.
  - intros (j & J & <-). apply left_in in J. apply unmasked_in in J. rewrite Nat.sub_0_r in J. tauto.
Qed.
Lemma left_length m (data : list (list Q)) : length m = length data -> length (unmasked m data) = length (unmasked m (seq 0 (length m))).
Proof. intros H. apply unmasked_length. rewrite seq_length. auto. Qed.
Lemma exact_renumbered (P : list Q -> Prop) m (data : list (list Q)) l : length m = length data ->
  exact_list (fun j => j < length (unmasked m data) /\ P (nth j (unmasked m data) [])) l -> exact_list (fun i => shown m i /\ P (nth i data [])) (map (number m) l).
Proof.
  intros H [ND IN]. split.
  - apply FinFun.Injective_map_NoDup; auto. intros i j. apply number_inj.
  - intros i. rewrite in_map_iff, number_shown. split.
    + intros (j & <- & J). apply IN in J. destruct J as [L J]. split; [exists j; split; auto; rewrite <- (left_length m data H); exact L|]. change (nth (number m j) data []) with (row data (number m j)). rewrite number_row by auto. exact J.
    + intros [(j & L & <-) J]. exists j. split; auto. apply IN. split; [rewrite (left_length m data H); exact L|]. change (nth (number m j) data []) with (row data (number m j)) in J. rewrite number_row in J by auto. exact J.
Qed.
Lemma renumbered_back m (data : list (list Q)) i : length m = length data -> shown m i -> exists j, j < length (unmasked m data) /\ number m j = i /\ nth j (unmasked m data) [] = nth i data [].
Proof.
  intros H S. apply number_shown in S. destruct S as (j & L & <-). exists j. split; [rewrite (left_length m data H); exact L|]. split; auto. symmetry. apply (number_row m data j H).
Qed.

(** ** the queries *)
Lemma within_mask m data kd x r : length m = length data -> kd_data kd = unmasked m data -> within_distance (with_mask m data kd) x r = map (number m) (within_distance kd x r).
Proof. intros H E. unfold within_distance, with_mask. cbn [kd_data kd_tree kd_maxes kd_mins]. rewrite E. apply hball_relabel. intros i. apply number_row, H. Qed.
Lemma query_pairs_mask m data kd r p eps : length m = length data -> kd_data kd = unmasked m data -> query_pairs (with_mask m data kd) r p eps = map (numbers m) (query_pairs kd r p eps).
Proof. intros H E. unfold query_pairs, with_mask. cbn [kd_data kd_tree kd_maxes kd_mins]. rewrite E. apply self_pairs_relabel; [intros i; apply number_row, H|intros i j; apply number_mono]. Qed.
Lemma count_mask m1 m2 data1 data2 k1 k2 rs p : length m1 = length data1 -> length m2 = length data2 -> kd_data k1 = unmasked m1 data1 -> kd_data k2 = unmasked m2 data2 ->
  count_neighbors (with_mask m1 data1 k1) (with_mask m2 data2 k2) rs p = count_neighbors k1 k2 rs p.
Proof.
  intros H1 H2 E1 E2. unfold count_neighbors, with_mask. cbn [kd_data kd_tree kd_maxes kd_mins]. rewrite E1, E2, (count_relabel (number m1) (number m2) data1 (unmasked m1 data1) data2 (unmasked m2 data2)); [reflexivity|intros i; apply number_row, H1|intros i; apply number_row, H2].
Qed.
Lemma sparse_mask m1 m2 data1 data2 k1 k2 r p : length m1 = length data1 -> length m2 = length data2 -> kd_data k1 = unmasked m1 data1 -> kd_data k2 = unmasked m2 data2 ->
  sparse_distance_matrix (with_mask m1 data1 k1) (with_mask m2 data2 k2) r p = map (fun e => ((number m1 (fst (fst e)), number m2 (snd (fst e))), snd e)) (sparse_distance_matrix k1 k2 r p).
Proof.
  intros H1 H2 E1 E2. unfold sparse_distance_matrix, with_mask. cbn [kd_data kd_tree kd_maxes kd_mins]. rewrite E1, E2. apply sparse_relabel; [intros i; apply number_row, H1|intros i; apply number_row, H2].
Qed.
(** the pairs that a traversal collects are of points of the two trees *)
Lemma pairs_nc_fst t1 : forall t2 ij, In ij (pairs_nc t1 t2) -> In (fst ij) (leaves t1).
Proof.
  induction t1 as [idx1|d1 s1 l1 IL1 g1 IG1]; intros t2 ij.
  - induction t2 as [idx2|d s l IL g0 IG]; cbn [pairs_nc leaves].
    + rewrite in_flat_map. intros (i & I & J). apply in_map_iff in J. destruct J as (j & <- & _). exact I.
    + cbn [pairs_nc leaves] in IL, IG. rewrite in_app_iff. intros [J|J]; auto.
  - cbn [pairs_nc leaves]. rewrite !in_app_iff. intros [J|J]; eauto.
Qed.
Lemma htraverse_fst prune bulk near t1 : forall r1 t2 r2 ij, In ij (htraverse prune bulk near t1 r1 t2 r2) -> In (fst ij) (leaves t1).
Proof.
  induction t1 as [idx1|d1 s1 l1 IL1 g1 IG1]; intros r1 t2.
  - induction t2 as [idx2|d s l IL g0 IG]; intros r2 ij; rewrite htraverse_eq; destruct (prune r1 r2); try contradiction; destruct (bulk r1 r2); try apply pairs_nc_fst.
    + cbn [leaves]. rewrite in_flat_map. intros (i & I & J). apply in_map_iff in J. destruct J as (j & <- & _). exact I.
    + rewrite in_app_iff. intros [J|J]; [eapply IL, J|eapply IG, J].
  - intros r2 ij. rewrite htraverse_eq. destruct (prune r1 r2); try contradiction. destruct (bulk r1 r2); try apply pairs_nc_fst. cbv zeta. cbn [leaves]. rewrite in_app_iff. destruct t2.
    + rewrite in_app_iff. intros [J|J]; eauto.
    + rewrite !in_app_iff. intros [J|[J|[J|J]]]; eauto.
Qed.
Lemma ball_tree_mask m1 m2 data1 data2 k1 k2 r : length m1 = length data1 -> length m2 = length data2 -> kd_data k1 = unmasked m1 data1 -> kd_data k2 = unmasked m2 data2 ->
  (forall i, In i (leaves (kd_tree k1)) -> i < length (unmasked m1 data1)) ->
  let answer := hquery_ball_tree (with_mask m1 data1 k1) (with_mask m2 data2 k2) r in
  length answer = length data1 /\ (forall i, ~ shown m1 i -> nth i answer [] = []) /\ (forall j, j < length (unmasked m1 data1) -> nth (number m1 j) answer [] = map (number m2) (nth j (hquery_ball_tree k1 k2 r) [])).
Proof.
  intros H1 H2 E1 E2 LV. unfold hquery_ball_tree, with_mask. cbn [kd_data kd_tree kd_maxes kd_mins]. cbv zeta. rewrite E1, E2.
  rewrite (htraverse_relabel (number m1) (number m2) _ _ _ (fun i j => Rleb (hdist (r2 (row (unmasked m2 data2) j)) (r2 (row (unmasked m1 data1) i))) r)) by (intros i j; rewrite !number_row by auto; reflexivity).
  set (ps := htraverse _ _ _ (kd_tree k1) _ _ _).
  assert (PS : forall ij, In ij ps -> fst ij < length (unmasked m1 data1)) by (intros ij H; apply LV; eapply htraverse_fst, H).
  split; [rewrite map_length, seq_length; reflexivity|].
  assert (NTH : forall {A} (F : nat -> list A) n i, i < n -> nth i (map F (seq 0 n)) [] = F i).
  { intros A F n i L. rewrite (nth_indep _ [] (F 0)) by (rewrite map_length, seq_length; lia). rewrite (map_nth F), seq_nth by lia. reflexivity. }
  split.
  - intros i S. destruct (Nat.lt_ge_cases i (length data1)) as [L|L]; [|apply nth_overflow; rewrite map_length, seq_length; exact L].
    rewrite NTH by exact L. rewrite MskProofs.filter_map, map_map. rewrite (proj2 (filter_nil _ ps)); [reflexivity|]. intros ij I. cbn [both fst]. apply Nat.eqb_neq. intros <-. apply S. apply number_shown. exists (fst ij). split; auto. rewrite <- (left_length m1 data1 H1). apply PS, I.
  - intros j L. rewrite (NTH _ _ _ j L). rewrite NTH.
    + rewrite MskProofs.filter_map, !map_map. rewrite (filter_same _ (fun ij => fst ij =? j)); [reflexivity|]. intros ij. cbn [both fst]. destruct (Nat.eqb_spec (fst ij) j) as [->|N]; [apply Nat.eqb_refl|]. apply Nat.eqb_neq. intros E. apply N, (number_inj m1), E.
    + rewrite <- H1. apply number_less. rewrite <- (left_length m1 data1 H1). exact L.
Qed.
