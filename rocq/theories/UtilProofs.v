From Verif Require Import Base QBase UtilModel UtilSpec.
From Coq Require Import Qabs.
Open Scope Q_scope.

(** ** C50 *)
Lemma float_min_pos : 0 < float_min.
Proof. reflexivity. Qed.
Global Opaque float_min.

Lemma loop_test i stop : Qleb float_min (Qabs (i - stop)) && Qltb i stop = true <-> i + float_min <= stop.
Proof.
  pose proof float_min_pos as F. rewrite andb_true_iff, Qleb_le, Qltb_lt. split.
  - intros [H L]. rewrite Qabs_neg in H by lra. lra.
  - intros H. split; [|lra]. rewrite Qabs_neg by lra. lra.
Qed.

Definition N2Q (n : nat) : Q := inject_Z (Z.of_nat n).
Lemma N2Q_0 : N2Q 0 == 0. Proof. reflexivity. Qed.
Lemma N2Q_S n : N2Q (S n) == N2Q n + 1.
Proof. unfold N2Q. rewrite Nat2Z.inj_succ. unfold Z.succ. rewrite inject_Z_plus. reflexivity. Qed.
Lemma N2Q_le a b : (a <= b)%nat -> N2Q a <= N2Q b.
Proof. intros H. unfold N2Q. rewrite <- Zle_Qle. lia. Qed.
Lemma N2Q_lt a b : (a < b)%nat -> N2Q a + 1 <= N2Q b.
Proof. intros H. rewrite <- N2Q_S. apply N2Q_le. lia. Qed.

Lemma edges_loop_k user step stop k : forall fuel i n,
  (user = true \/ (n + k <= 11)%nat) ->
  (forall j, (j < k)%nat -> i + step * N2Q j + float_min <= stop) ->
  (stop < i + step * N2Q k + float_min \/ (user = false /\ (n + k = 11)%nat)) ->
  (k < fuel)%nat ->
  exists edges, edges_loop fuel user step stop i n = Ok edges /\ length edges = k /\ equally_spaced i step edges.
Proof.
  induction k as [|k IH]; intros fuel i n HU HJ HK HF; (destruct fuel as [|fuel]; [lia|]); cbn [edges_loop].
  - destruct (Qleb float_min (Qabs (i - stop)) && Qltb i stop) eqn:E.
    + apply loop_test in E. destruct HK as [HK|[-> HK]]; [rewrite N2Q_0 in HK; lra|].
      rewrite Nat.add_0_r in HK. subst n. exists []. repeat split; auto. intros [|?] ?; discriminate.
    + exists []. repeat split; auto. intros [|?] ?; discriminate.
  - assert (E : Qleb float_min (Qabs (i - stop)) && Qltb i stop = true).
    { apply loop_test. specialize (HJ 0%nat ltac:(lia)). rewrite N2Q_0 in HJ. lra. }
    rewrite E. replace (negb user && (n =? 11)%nat) with false.
    2:{ symmetry. destruct HU as [->|HU]; simpl; auto. destruct (Nat.eqb_spec n 11); [lia|]. apply andb_false_r. }
    destruct (IH fuel (i + step) (S n)) as (edges & E1 & E2 & E3).
    + destruct HU; auto. right. lia.
    + intros j Hj. specialize (HJ (S j) ltac:(lia)). rewrite N2Q_S in HJ. lra.
    + destruct HK as [HK|[-> HK]]; [left; rewrite N2Q_S in HK; lra|right; split; auto; lia].
    + lia.
    + rewrite E1. simpl. exists (i :: edges). repeat split; auto; [simpl; lia|].
      intros [|m] e He; simpl in He.
      * injection He as <-. change (inject_Z (Z.of_nat 0)) with 0. ring.
      * apply E3 in He. fold (N2Q m) in He. fold (N2Q (S m)). rewrite N2Q_S, He. ring.
Qed.

Lemma spaced_covers lo step edges n : 0 < step -> length edges = S n -> (0 < n)%nat -> equally_spaced lo step edges ->
  forall v, lo <= v <= lo + step * N2Q n -> in_some_bin edges v.
Proof.
  intros Hs HL Hn HE v Hv.
  assert (G : forall k, (k < n)%nat -> v < lo + step * N2Q (S k) \/ (v == lo + step * N2Q n /\ S k = n) -> lo + step * N2Q k <= v -> in_some_bin edges v).
  { intros k Hk H1 H2. destruct (nth_error edges k) as [a|] eqn:Ea; [|apply nth_error_None in Ea; lia].
    destruct (nth_error edges (S k)) as [b|] eqn:Eb; [|apply nth_error_None in Eb; lia].
    exists k, a, b. pose proof (HE _ _ Ea) as Ha. pose proof (HE _ _ Eb) as Hb. fold (N2Q k) in Ha. fold (N2Q (S k)) in Hb.
    repeat split; auto; [lra|]. destruct H1 as [H1|[H1 H3]]; [left; lra|right]. split; [|lia]. rewrite H1, Hb, H3. reflexivity. }
  assert (K : forall m, (m <= n)%nat -> v <= lo + step * N2Q m -> (exists k, (k < m)%nat /\ lo + step * N2Q k <= v /\ v < lo + step * N2Q (S k)) \/ (v == lo + step * N2Q m)).
  { induction m as [|m IH]; intros Hm Hvm.
    - right. rewrite N2Q_0 in *. lra.
    - destruct (Qlt_le_dec v (lo + step * N2Q m)) as [L|L].
      + destruct IH as [(k & ? & ? & ?)|E]; [lia|lra| |lra]. left. exists k. repeat split; auto. 
      + destruct (Qlt_le_dec v (lo + step * N2Q (S m))) as [L2|L2]; [left; exists m; repeat split; auto|right; lra]. }
  destruct (K n) as [(k & Hk & H1 & H2)|E]; [lia|lra| |].
  - apply (G k); auto.
  - apply (G (n - 1)%nat); [lia| |].
    + right. split; [auto|lia].
    + rewrite E. assert (N2Q (n - 1) <= N2Q n) by (apply N2Q_le; lia). nra.
Qed.

Lemma inject_Z_Qfloor_N2Q n : Qfloor (N2Q n) = Z.of_nat n.
Proof. unfold N2Q. apply Qfloor_Z. Qed.

Lemma dec_mod_dividing r s n : 0 < s -> r == s * N2Q n -> dec_mod r s == 0.
Proof.
  intros Hs Hr. unfold dec_mod, Qtrunc.
  assert (E : r / s == N2Q n) by (rewrite Hr; field; lra).
  assert (0 <= N2Q n) by (change 0 with (N2Q 0); apply N2Q_le; lia).
  replace (Qleb 0 (r / s)) with true by (symmetry; apply Qleb_le; rewrite E; auto).
  rewrite (Qfloor_comp _ _ E), inject_Z_Qfloor_N2Q. fold (N2Q n). rewrite Hr. ring.
Qed.

Lemma mult_le_mono s a b : 0 < s -> a <= b -> s * a <= s * b.
Proof. intros H L. apply Qmult_le_l; auto. Qed.

Lemma edges_user_dividing data umin umax step lo hi n fuel :
  q_or umin (list_min data) = Ok lo -> q_or umax (list_max data) = Ok hi ->
  float_min <= step -> (0 < n)%nat -> hi - lo == step * N2Q n -> (S n < fuel)%nat ->
  exists edges, histogram_bin_edges fuel data umin umax (Some step) = Ok edges
    /\ length edges = S n /\ equally_spaced lo step edges
    /\ forall v, lo <= v <= hi -> in_some_bin edges v.
Proof.
  intros E1 E2 Hs Hn HR HF. pose proof float_min_pos as F. unfold histogram_bin_edges. rewrite E1, E2. cbn [bind].
  replace (Qeqb step 0) with false by (symmetry; apply Qeqb_neq; lra).
  replace (Qltb (dec_mod (hi - lo) step) (1 # 10000000)) with true.
  2:{ symmetry. apply Qltb_lt. rewrite (dec_mod_dividing _ _ n) by (auto; lra). reflexivity. }
  destruct (edges_loop_k true step (hi + step) (S n) fuel lo 0) as (edges & R1 & R2 & R3); auto.
  - intros j Hj. assert (step * N2Q j <= step * N2Q n) by (apply mult_le_mono; [lra|apply N2Q_le; lia]). lra.
  - left. rewrite N2Q_S. lra.
  - exists edges. repeat split; auto. intros v Hv. apply (spaced_covers lo step edges n); auto; lra.
Qed.

Lemma edges_default data umin umax lo hi fuel :
  q_or umin (list_min data) = Ok lo -> q_or umax (list_max data) = Ok hi ->
  float_min <= (hi - lo) / 10 -> (11 < fuel)%nat ->
  exists edges, histogram_bin_edges fuel data umin umax None = Ok edges
    /\ length edges = 11%nat /\ equally_spaced lo ((hi - lo) / 10) edges
    /\ forall v, lo <= v <= hi -> in_some_bin edges v.
Proof.
  intros E1 E2 Hs HF. pose proof float_min_pos as F. unfold histogram_bin_edges. rewrite E1, E2. cbn [bind].
  set (step := (hi - lo) / 10) in *.
  assert (HR : hi - lo == step * N2Q 10) by (unfold step; change (N2Q 10) with 10; field).
  replace (Qeqb step 0) with false by (symmetry; apply Qeqb_neq; lra).
  replace (Qltb (dec_mod (hi - lo) step) (1 # 10000000)) with true.
  2:{ symmetry. apply Qltb_lt. rewrite (dec_mod_dividing _ _ 10) by (auto; lra). reflexivity. }
  destruct (edges_loop_k false step (hi + step) 11 fuel lo 0) as (edges & R1 & R2 & R3); auto.
  - intros j Hj. assert (step * N2Q j <= step * N2Q 10) by (apply mult_le_mono; [lra|apply N2Q_le; lia]). lra.
  - exists edges. repeat split; auto. intros v Hv. apply (spaced_covers lo step edges 10); auto; try lra. lia.
Qed.

(** a remainder: the last edge is below the maximum *)
Lemma steps_exist lo step stop : float_min <= step -> exists k, stop < lo + step * N2Q k + float_min
   /\ forall j, (j < k)%nat -> lo + step * N2Q j + float_min <= stop.
Proof.
  intros Hs. pose proof float_min_pos as F.
  assert (exists K, stop < lo + step * N2Q K + float_min) as [K HK].
  { exists (Z.to_nat (Qceiling ((stop - lo) / step))). unfold N2Q.
    pose proof (Qle_ceiling ((stop - lo) / step)) as C. set (c := Qceiling ((stop - lo) / step)) in *.
    assert (inject_Z c <= inject_Z (Z.of_nat (Z.to_nat c))) by (rewrite <- Zle_Qle; lia).
    assert (stop - lo == step * ((stop - lo) / step)) as E by (field; lra).
    assert (step * ((stop - lo) / step) <= step * inject_Z (Z.of_nat (Z.to_nat c))) by (apply mult_le_mono; lra). lra. }
  induction K as [|K IH].
  - exists 0%nat. split; auto. intros j Hj. lia.
  - destruct (Qlt_le_dec stop (lo + step * N2Q K + float_min)) as [L|L]; auto.
    exists (S K). split; auto. intros j Hj. assert (step * N2Q j <= step * N2Q K) by (apply mult_le_mono; [lra|apply N2Q_le; lia]). lra.
Qed.

Lemma edges_remainder data umin umax step lo hi :
  q_or umin (list_min data) = Ok lo -> q_or umax (list_max data) = Ok hi ->
  float_min <= step -> 1 # 10000000 <= dec_mod (hi - lo) step ->
  exists edges k, (forall fuel, (k < fuel)%nat -> histogram_bin_edges fuel data umin umax (Some step) = Ok edges)
    /\ Forall (fun e => e < hi) edges /\ ~ in_some_bin edges hi.
Proof.
  intros E1 E2 Hs HX. pose proof float_min_pos as F.
  destruct (steps_exist lo step hi Hs) as (k & Hk & Hj).
  assert (G : forall fuel, (k < fuel)%nat -> exists edges, histogram_bin_edges fuel data umin umax (Some step) = Ok edges
    /\ length edges = k /\ equally_spaced lo step edges /\ histogram_bin_edges fuel data umin umax (Some step) = edges_loop fuel true step hi lo 0).
  { intros fuel HF. unfold histogram_bin_edges. rewrite E1, E2. cbn [bind].
    replace (Qeqb step 0) with false by (symmetry; apply Qeqb_neq; lra).
    replace (Qltb (dec_mod (hi - lo) step) (1 # 10000000)) with false by (symmetry; apply Qltb_ge; auto).
    destruct (edges_loop_k true step hi k fuel lo 0) as (edges & R1 & R2 & R3); auto. exists edges. auto. }
  destruct (G (S k)) as (edges & R1 & R2 & R3 & R4); [lia|].
  assert (M : forall f i n l, edges_loop f true step hi i n = Ok l -> edges_loop (S f) true step hi i n = Ok l).
  { induction f as [|f IH]; intros i n l; [discriminate|]. cbn [edges_loop]. cbn [negb andb].
    destruct (Qleb float_min (Qabs (i - hi)) && Qltb i hi); auto.
    destruct (edges_loop f true step hi (i + step) (S n)) as [r|] eqn:E; [|discriminate].
    apply IH in E. cbn [edges_loop negb andb] in E. rewrite E. auto. }
  assert (LT : Forall (fun e => e < hi) edges).
  { apply Forall_forall. intros e He. destruct (In_nth_error _ _ He) as [j Ej]. pose proof (R3 _ _ Ej) as Eq.
    assert (j < k)%nat by (rewrite <- R2; apply nth_error_Some; congruence). specialize (Hj j H). fold (N2Q j) in Eq. lra. }
  exists edges, k. split; [|split; auto].
  - intros fuel HF. destruct (G fuel HF) as (e' & Q1 & _ & _ & Q4). rewrite Q4.
    replace fuel with ((fuel - S k) + S k)%nat by lia. rewrite R4 in R1.
    induction (fuel - S k)%nat as [|d IHd]; auto. simpl plus. apply M. auto.
  - intros (i & a & b & Ha & Hb & _ & [L|[L _]]).
    + apply nth_error_In in Hb. rewrite Forall_forall in LT. specialize (LT _ Hb). lra.
    + apply nth_error_In in Hb. rewrite Forall_forall in LT. specialize (LT _ Hb). lra.
Qed.

(** ** C54 *)
Lemma list_nat_eqb_eq a b : list_nat_eqb a b = true <-> a = b.
Proof. unfold list_nat_eqb. destruct (list_eq_dec Nat.eq_dec a b); split; congruence. Qed.
Lemma nan_loop_spec a : forall b, length a = length b ->
  (nan_loop (combine a b) = true <-> forall i x y, nth_error a i = Some x -> nth_error b i = Some y -> x = None \/ same_value x y).
Proof.
  induction a as [|x a IH]; intros [|y b] HL; simpl in *; try discriminate.
  - split; auto. intros _ [|?] ? ? ?; discriminate.
  - assert (S1 : f_ne x x = true <-> x = None).
    { destruct x as [q|]; simpl; [|split; auto]. destruct (Qeqb_spec q q); simpl; [split; discriminate|]. exfalso. apply n. reflexivity. }
    assert (S2 : x <> None -> f_ne x y = false <-> same_value x y).
    { destruct x as [q|], y as [r|]; simpl; intros H; try tauto; try (split; [discriminate|tauto]).
      destruct (Qeqb_spec q r); simpl; split; auto; try discriminate; try tauto. }
    injection HL as HL. specialize (IH b HL). destruct (f_ne x x) eqn:E.
    + destruct S1 as [S1 _]. specialize (S1 eq_refl). subst x. rewrite IH. split.
      * intros H [|i] u v; simpl; [intros [= <-] _; auto|apply H].
      * intros H i u v. apply (H (S i)).
    + assert (x <> None) as Nx by (intros C; apply S1 in C; discriminate).
      destruct (f_ne x y) eqn:E2.
      * split; [discriminate|]. intros H. destruct (H 0%nat x y eq_refl eq_refl) as [C|C]; [tauto|]. apply S2 in C; [discriminate|auto].
      * destruct (S2 Nx) as [S2' _]. specialize (S2' eq_refl). rewrite IH. split.
        -- intros H [|i] u v; simpl; [intros [= <-] [= <-]; auto|apply H].
        -- intros H i u v. apply (H (S i)).
Qed.

Definition arr_ok (a : ndarray) : Prop := length (arr_elems a) = fold_right Nat.mul 1%nat (arr_shape a).
Lemma array_equal_spec a b : arr_ok a -> arr_ok b -> (0 < length (arr_elems a))%nat -> (0 < length (arr_elems b))%nat ->
  exists r, array_equal_including_nan a b = Ok r /\
  (r = true <-> arr_shape a = arr_shape b /\
     forall i x y, nth_error (arr_elems a) i = Some x -> nth_error (arr_elems b) i = Some y -> x = None \/ same_value x y).
Proof.
  intros Ha Hb Pa Pb. unfold array_equal_including_nan. destruct (list_nat_eqb (arr_shape a) (arr_shape b)) eqn:E; simpl.
  - apply list_nat_eqb_eq in E. unfold arr_ok in *. rewrite E in Ha. rewrite <- Hb in Ha.
    pose proof (nan_loop_spec _ _ Ha) as N.
    destruct (combine (arr_elems a) (arr_elems b)) as [|p0 ps0] eqn:C.
    + apply (f_equal (@length _)) in C. rewrite combine_length in C. simpl in C. lia.
    + eexists. split; [reflexivity|]. rewrite N. tauto.
  - exists false. split; auto. split; [discriminate|]. intros [C _]. apply list_nat_eqb_eq in C. congruence.
Qed.
Lemma array_equal_nan_free a b : arr_ok a -> arr_ok b -> (0 < length (arr_elems a))%nat -> (0 < length (arr_elems b))%nat ->
  (forall x, In x (arr_elems a) -> x <> None) ->
  exists r, array_equal_including_nan a b = Ok r /\
  (r = true <-> arr_shape a = arr_shape b /\ Forall2 same_value (arr_elems a) (arr_elems b)).
Proof.
  intros Ha Hb Pa Pb N. destruct (array_equal_spec a b Ha Hb Pa Pb) as (r & E & H). exists r. split; auto. rewrite H. clear H E.
  assert (G : forall l1 l2 : list fval, length l1 = length l2 -> (forall x, In x l1 -> x <> None) ->
    ((forall i x y, nth_error l1 i = Some x -> nth_error l2 i = Some y -> x = None \/ same_value x y) <-> Forall2 same_value l1 l2)).
  { clear. induction l1 as [|x l1 IH]; intros [|y l2] HL N; simpl in *; try discriminate.
    - split; auto. intros _ [|?] ? ? ?; discriminate.
    - injection HL as HL. specialize (IH l2 HL (fun z Hz => N z (or_intror Hz))). split.
      + intros H. constructor; [destruct (H 0%nat x y eq_refl eq_refl) as [C|C]; auto; destruct (N x); auto|].
        apply IH. intros i u v. apply (H (S i)).
      + intros H. inversion H; subst. intros [|i] u v; simpl; [intros [= <-] [= <-]; auto|]. apply IH; auto. }
  split; intros [E H]; (split; [auto|]); (apply G; [unfold arr_ok in *; congruence|auto|auto]).
Qed.

(** ** C55 *)
Lemma orl_nth m1 : forall m2 i b, nth_error (orl m1 m2) i = Some b <-> exists b1 b2, nth_error m1 i = Some b1 /\ nth_error m2 i = Some b2 /\ b = b1 || b2.
Proof.
  unfold orl. induction m1 as [|x m1 IH]; intros [|y m2] [|i] b; simpl; try (split; [discriminate|intros (? & ? & ? & ? & ?); discriminate]).
  - split; [intros [= <-]; eauto|intros (? & ? & [= <-] & [= <-] & ->); auto].
  - apply IH.
Qed.
Lemma orl_length m1 m2 : length m1 = length m2 -> length (orl m1 m2) = length m1.
Proof. intros H. unfold orl. rewrite map_length, combine_length. lia. Qed.
Lemma getmaskarray_length {A} (a : anarray A) : array_ok a -> length (getmaskarray a) = length (an_data a).
Proof. destruct a as [d|d [m|]]; simpl; auto; intros; apply repeat_length. Qed.

Lemma apply_mask_elements {A} (a : anarray A) m i x b : array_ok a -> length m = length (an_data a) ->
  (element (apply_mask_to_numpy_array a (Some m)) i x b
   <-> exists b1 b2, element a i x b1 /\ nth_error m i = Some b2 /\ b = b1 || b2).
Proof.
  intros OK HL. unfold apply_mask_to_numpy_array. destruct (existsb (fun b => b) m) eqn:E.
  - unfold element. simpl. rewrite orl_nth. split.
    + intros [H (b1 & b2 & H1 & H2 & H3)]. exists b1, b2. auto.
    + intros (b1 & b2 & [H1 H2] & H3 & H4). split; auto. eauto.
  - assert (N : forall j c, nth_error m j = Some c -> c = false).
    { intros j c Hj. destruct c; auto. apply nth_error_In in Hj. assert (existsb (fun b => b) m = true) by (apply existsb_exists; eauto). congruence. }
    split.
    + intros [H1 H2]. assert (i < length m)%nat by (rewrite HL; apply nth_error_Some; congruence).
      destruct (nth_error m i) as [c|] eqn:Ec; [|apply nth_error_None in Ec; lia]. exists b, c. rewrite (N _ _ Ec), orb_false_r. split; [split; auto|auto].
    + intros (b1 & b2 & H1 & H2 & ->). rewrite (N _ _ H2), orb_false_r. auto.
Qed.
Lemma intersection_mask_elements {A B} (a : anarray A) (b : anarray B) : array_ok a -> array_ok b -> length (an_data a) = length (an_data b) ->
  let r := apply_intersection_mask_to_two_arrays a b in
  getmaskarray (fst r) = getmaskarray (snd r) /\
  (forall i x m, element (fst r) i x m <-> exists m1 m2, element a i x m1 /\ nth_error (getmaskarray b) i = Some m2 /\ m = m1 || m2) /\
  (forall i y m, element (snd r) i y m <-> exists m1 m2, element b i y m2 /\ nth_error (getmaskarray a) i = Some m1 /\ m = m1 || m2).
Proof.
  intros OA OB HL. simpl. split; [|split].
  - unfold orl. generalize (getmaskarray a), (getmaskarray b). clear. induction l as [|x l IH]; intros [|y m]; simpl; auto. rewrite IH, orb_comm. reflexivity.
  - intros i x m. unfold element. simpl. rewrite orl_nth. split.
    + intros [H (b1 & b2 & H1 & H2 & H3)]. exists b1, b2. auto.
    + intros (b1 & b2 & [H1 H2] & H3 & H4). split; auto. eauto.
  - intros i x m. unfold element. simpl. rewrite orl_nth. split.
    + intros [H (b1 & b2 & H1 & H2 & ->)]. exists b2, b1. rewrite orb_comm. auto.
    + intros (b1 & b2 & [H1 H2] & H3 & ->). split; auto. exists b2, b1. rewrite orb_comm. auto.
Qed.

Lemma masked_where_ok {A} eqb (v : A) a : array_ok a -> array_ok (masked_where eqb v a).
Proof. intros H. simpl. rewrite orl_length; rewrite ?map_length, ?combine_length, ?getmaskarray_length; auto; lia. Qed.
Lemma masked_where_elements {A} eqb (v : A) a i x b : array_ok a ->
  (element (masked_where eqb v a) i x b <-> exists b0, element a i x b0 /\ b = b0 || eqb v x).
Proof.
  intros OK. unfold element. simpl. rewrite orl_nth. split.
  - intros [H (b1 & b2 & H1 & H2 & ->)]. exists b2. split; auto. rewrite nth_error_map in H1.
    assert (nth_error (combine (an_data a) (getmaskarray a)) i = Some (x, b2)) as E.
    { clear -H H2. revert H H2. generalize (an_data a), (getmaskarray a). intros l. revert i. induction l as [|z l IH]; intros [|i] [|c m]; simpl; try discriminate; [intros [= <-] [= <-]; auto|apply IH]. }
    rewrite E in H1. simpl in H1. injection H1 as <-. destruct b2, (eqb v x); auto.
  - intros (b0 & [H H2] & ->). split; auto. exists (b0 || eqb v x), b0. split; [|split; auto; destruct b0, (eqb v x); auto].
    rewrite nth_error_map.
    assert (nth_error (combine (an_data a) (getmaskarray a)) i = Some (x, b0)) as E.
    { clear -H H2. revert H H2. generalize (an_data a), (getmaskarray a). intros l. revert i. induction l as [|z l IH]; intros [|i] [|c m]; simpl; try discriminate; [intros [= <-] [= <-]; auto|apply IH]. }
    rewrite E. auto.
Qed.
Lemma missing_values_elements {A} (eqb : A -> A -> bool) (missing : list (option A)) : forall (a : anarray A) i x b, array_ok a ->
  (element (create_masked_array_for_missing_values eqb a missing) i x b
   <-> exists b0, element a i x b0 /\ b = b0 || existsb (fun mv => match mv with Some v => eqb v x | None => false end) missing).
Proof.
  unfold create_masked_array_for_missing_values.
  induction missing as [|[v|] missing IH]; intros a i x b OK; simpl.
  - split; [intros H; exists b; rewrite orb_false_r; auto|intros (b0 & H & ->); rewrite orb_false_r; auto].
  - rewrite IH by (apply masked_where_ok; auto). split.
    + intros (b0 & H & ->). apply masked_where_elements in H; auto. destruct H as (b1 & H1 & ->). exists b1. rewrite orb_assoc. auto.
    + intros (b0 & H & ->). exists (b0 || eqb v x). rewrite orb_assoc. split; auto. apply masked_where_elements; auto. eauto.
  - apply IH; auto.
Qed.

(** concatenation *)
Definition content {A} (a : anarray A) : list (A * bool) := combine (an_data a) (getmaskarray a).
Lemma combine_app_eq {A B} (a1 a2 : list A) (b1 b2 : list B) : length a1 = length b1 -> combine (a1 ++ a2) (b1 ++ b2) = combine a1 b1 ++ combine a2 b2.
Proof. revert b1. induction a1; intros [|y b1] H; simpl in *; try discriminate; auto. rewrite IHa1 by lia. auto. Qed.
Lemma content_ma {A} (a b : anarray A) : array_ok a -> array_ok b -> content (ma_concat2 a b) = content a ++ content b.
Proof. intros OA OB. unfold content. simpl. apply combine_app_eq. symmetry. apply getmaskarray_length. auto. Qed.
Lemma concatenate_content {A} (arrays : list (anarray A)) r : Forall array_ok arrays -> concatenate arrays = Ok r ->
  content r = concat (map content arrays).
Proof.
  destruct arrays as [|a rest]; [discriminate|]. intros OK E. unfold concatenate in E.
  destruct (existsb is_masked_array (a :: rest)) eqn:EM; injection E as <-.
  - inversion OK as [|? ? O1 O2]; subst. clear EM OK. simpl. revert a O1 O2. induction rest as [|b rest IH]; intros a O1 O2; simpl; [symmetry; apply app_nil_r|].
    inversion O2; subst. rewrite IH; auto.
    + rewrite content_ma by auto. apply eq_sym, app_assoc.
    + simpl. rewrite !app_length, !getmaskarray_length; auto.
  - assert (P : forall b, In b (a :: rest) -> exists d, b = Plain d).
    { intros b Hb. destruct b as [d|d m]; eauto. assert (existsb is_masked_array (a :: rest) = true); [|congruence].
      apply existsb_exists. eauto. }
    clear OK EM. simpl. revert a P. induction rest as [|b rest IH]; intros a P; simpl; [symmetry; apply app_nil_r|].
    destruct (P a) as [da ->]; [simpl; auto|]. destruct (P b) as [db ->]; [simpl; auto|]. rewrite IH.
    + simpl. unfold content. simpl. rewrite app_length, repeat_app, combine_app_eq by (symmetry; apply repeat_length). apply eq_sym, app_assoc.
    + intros c [<-|Hc]; [simpl; eauto|]. apply P. simpl. auto.
Qed.
Lemma expand_spec {A} (a : anarray A) len i j c :
  ((exists row, nth_error (expand_1d_to_2d_array a len true) i = Some row /\ nth_error row j = Some c)
     <-> (i < len)%nat /\ nth_error (content a) j = Some c)
  /\ ((exists row, nth_error (expand_1d_to_2d_array a len false) i = Some row /\ nth_error row j = Some c)
     <-> nth_error (content a) i = Some c /\ (j < len)%nat).
Proof.
  assert (R : forall (B : Type) (x : B) n k y, nth_error (repeat x n) k = Some y <-> (k < n)%nat /\ y = x).
  { intros B x n. induction n as [|n IH]; intros [|k] y; simpl; try (split; [discriminate|lia]).
    - split; [intros [= <-]; split; auto; lia|intros [_ ->]; auto].
    - rewrite IH. split; intros [? ?]; split; auto; lia. }
  unfold expand_1d_to_2d_array. fold (content a). split.
  - split.
    + intros (row & H1 & H2). apply R in H1. destruct H1 as [? ->]. auto.
    + intros [H1 H2]. exists (content a). split; auto. apply R. auto.
  - split.
    + intros (row & H1 & H2). rewrite nth_error_map in H1. destruct (nth_error (content a) i) as [d|]; [|discriminate].
      injection H1 as <-. apply R in H2. destruct H2 as [? ->]. auto.
    + intros [H1 H2]. exists (repeat c len). rewrite nth_error_map, H1. split; auto. apply R. auto.
Qed.
