(** The kd-tree queries on trees built by KDTree(data, leafsize): what the C17-C19 theorems state. *)
From Verif Require Import Base QBase KDModel KDSpec KDProofs KD2Proofs KD3Proofs.
Open Scope Q_scope.

Lemma built_ok data m leafsize kd : (0 < m)%nat -> rows_of_length m data -> KDTree data leafsize = Ok kd ->
  (1 <= leafsize)%Z /\ data <> [] /\ kd_data kd = data /\ length (kd_maxes kd) = m /\
  built data m (Z.to_nat leafsize) (seq 0 (length data)) (kd_tree kd) /\
  cell_ok data (kd_tree kd) (mk_rect (kd_maxes kd) (kd_mins kd)) /\ length (mk_rect (kd_maxes kd) (kd_mins kd)) = m /\
  NoDup (leaves (kd_tree kd)) /\ (forall i, In i (leaves (kd_tree kd)) <-> (i < length data)%nat).
Proof.
  intros Hm HR HK. assert (HL : (1 <= leafsize)%Z).
  { unfold KDTree in HK. destruct (leafsize <? 1)%Z eqn:E; [discriminate|]. apply Z.ltb_ge in E. auto. }
  assert (HN : data <> []). { intros ->. unfold KDTree in HK. destruct (leafsize <? 1)%Z; discriminate. }
  destruct (kdtree_spec data m leafsize Hm HN HR HL) as (kd' & EK & KD & KM & Km & KC & B). rewrite HK in EK. injection EK as <-.
  assert (IN : forall i, In i (leaves (kd_tree kd)) <-> (i < length data)%nat) by (intros i; rewrite (Permutation_in' eq_refl (b_perm _ _ _ _ _ B)), in_seq; lia).
  repeat (split; [solve [auto]|]). split; [|split; [|split; [|exact IN]]].
  - intros i Hi. apply IN in Hi. destruct (KC i Hi) as [C1 C2]. unfold in_rect, mk_rect, zipw. clear -C1 C2. revert C2. generalize (kd_maxes kd) as mx. induction C1 as [|a b la lb H1 H IH]; intros mx C2; inversion C2; subst; simpl; constructor; auto.
    match goal with |- context [Qmin ?u ?v] => pose proof (Q.le_min_r u v); pose proof (Q.le_max_l u v) end. simpl. lra.
  - rewrite mk_rect_length; congruence.
  - eapply Permutation_NoDup; [apply Permutation_sym; apply (b_perm _ _ _ _ _ B)|apply seq_NoDup].
Qed.

Section API.
Variables (data : list (list Q)) (m : nat) (leafsize : Z) (kd : kdtree).
Hypothesis Hm : (0 < m)%nat.
Hypothesis HR : rows_of_length m data.
Hypothesis HK : KDTree data leafsize = Ok kd.
Lemma row_len i : (i < length data)%nat -> length (nth i data []) = m.
Proof. intros H. unfold rows_of_length in HR. rewrite Forall_forall in HR. apply HR. apply nth_In. auto. Qed.

Lemma div_one r : r / (1 + 0) == r.
Proof. field. Qed.
Lemma mul_one r : r * (1 + 0) == r.
Proof. ring. Qed.
Lemma root_le_eq p s r r' : r == r' -> root_le p s r = root_le p s r'.
Proof.
  intros E. destruct (root_le p s r) eqn:A, (root_le p s r') eqn:B; auto.
  - rewrite (root_le_mono p s s r r') in B; auto; lra.
  - rewrite (root_le_mono p s s r' r) in A; auto; lra.
Qed.
Lemma neg_div r eps : 0 <= eps -> r < 0 -> r / (1 + eps) < 0.
Proof. intros H H0. apply Qlt_shift_div_r; lra. Qed.
Lemma root_le_lt0 p s r : r < 0 -> root_le p s r = false.
Proof. intros H. unfold root_le. destruct (Qleb_spec 0 r); [lra|reflexivity]. Qed.

Theorem query_ball_point_spec x r p eps : 0 <= eps -> length x = m ->
  exists hits, query_ball_point kd x r p eps = Ok hits /\ NoDup hits /\
    (forall i, In i hits -> (i < length data)%nat /\ close p (nth i data []) x (r * (1 + eps))) /\
    (forall i, (i < length data)%nat -> close p (nth i data []) x (r / (1 + eps)) -> In i hits).
Proof.
  intros He Hx. destruct (built_ok data m leafsize kd Hm HR HK) as (_ & _ & KD & KM & B & C & L & ND & IN).
  unfold query_ball_point. rewrite KM, Hx, Nat.eqb_refl, KD. cbn [negb]. eexists. split; [reflexivity|].
  destruct (Qlt_le_dec r 0) as [N|P].
  - pose proof (neg_div r eps He N) as NE. assert (E : ball_point data p x r eps (kd_tree kd) (mk_rect (kd_maxes kd) (kd_mins kd)) = []).
    { destruct (kd_tree kd); cbn [ball_point]; rewrite root_le_lt0 by auto; reflexivity. }
    rewrite E. split; [constructor|]. split; [intros i []|]. intros i _ [H _]. lra.
  - destruct (ball_point_spec data m p x r eps He P (kd_tree kd) _ ltac:(rewrite L; auto) (b_splits _ _ _ _ _ B) C ND) as (A1 & A2 & A3).
    split; auto. split.
    + intros i Hi. destruct (A1 i Hi) as [I D]. apply IN in I. split; auto. apply minkowski_close; auto. rewrite row_len; auto.
    + intros i Hi D. apply A2; [apply IN; auto|]. apply minkowski_close in D; auto. rewrite row_len; auto.
Qed.
Lemma close_eq p a b r r' : length a = length b -> r == r' -> close p a b r <-> close p a b r'.
Proof. intros H E. rewrite <- !minkowski_close by auto. rewrite (root_le_eq p _ r r') by auto. tauto. Qed.
Theorem query_ball_point_exact x r p : length x = m ->
  exists hits, query_ball_point kd x r p 0 = Ok hits /\ exact_list (fun i => (i < length data)%nat /\ close p (nth i data []) x r) hits.
Proof.
  intros Hx. destruct (query_ball_point_spec x r p 0 (Qle_refl 0) Hx) as (h & E & ND & S & C). exists h. split; auto. split; auto.
  intros i. split.
  - intros Hi. destruct (S i Hi) as [I D]. split; auto. eapply close_eq; [rewrite row_len; auto| |exact D]. symmetry. apply mul_one.
  - intros [I D]. apply C; auto. eapply close_eq; [rewrite row_len; auto| |exact D]. apply div_one.
Qed.
Theorem query_ball_point_wrong x r p eps : length x <> m -> query_ball_point kd x r p eps = Raises ValueError.
Proof.
  intros Hx. destruct (built_ok data m leafsize kd Hm HR HK) as (_ & _ & KD & KM & _).
  unfold query_ball_point. rewrite KM. apply Nat.eqb_neq in Hx. rewrite Hx. reflexivity.
Qed.

Theorem query_pairs_spec r p eps : 0 <= eps ->
  (forall a b, In (a, b) (query_pairs kd r p eps) -> (a < b < length data)%nat /\ close p (nth a data []) (nth b data []) (r * (1 + eps))) /\
  (forall a b, (a < b < length data)%nat -> close p (nth a data []) (nth b data []) (r / (1 + eps)) -> In (a, b) (query_pairs kd r p eps)).
Proof.
  intros He. destruct (built_ok data m leafsize kd Hm HR HK) as (_ & _ & KD & KM & B & C & L & ND & IN).
  unfold query_pairs. rewrite KD. cbv zeta. destruct (Qlt_le_dec r 0) as [N|P].
  - pose proof (neg_div r eps He N) as NE.
    assert (E : forall t, self_pairs data p r eps t [] (mk_rect (kd_maxes kd) (kd_mins kd)) t [] (mk_rect (kd_maxes kd) (kd_mins kd)) = []).
    { intros t. rewrite self_pairs_eq. rewrite root_le_lt0 by auto. reflexivity. }
    rewrite E. split; [intros a b []|]. intros a b _ [H _]. lra.
  - destruct (self_pairs_same data m p r eps He P (kd_tree kd) [] _ (b_splits _ _ _ _ _ B) C) as [S1 S2].
    assert (CL : forall a b r', (a < length data)%nat -> (b < length data)%nat -> root_le p (pd data data p a b) r' = true <-> close p (nth b data []) (nth a data []) r').
    { intros a b r' Ha Hb. apply minkowski_close. rewrite !row_len; auto. }
    split.
    + intros a b H. destruct (S1 a b H) as [LT X]. destruct X as [(I1 & I2 & X)|(I1 & I2 & X)]; apply IN in I1; apply IN in I2; split; try lia.
      * unfold HI, pd in X. rewrite root_le_sym in X. apply CL; auto.
      * apply CL; auto.
    + intros a b LT X. specialize (S2 a b). rewrite !IN in S2. replace (Nat.min a b) with a in S2 by lia. replace (Nat.max a b) with b in S2 by lia. apply S2; try lia.
      unfold LO, pd. rewrite root_le_sym. apply CL; auto; lia.
Qed.
Theorem query_pairs_exact r p a b : In (a, b) (query_pairs kd r p 0) <-> (a < b < length data)%nat /\ close p (nth a data []) (nth b data []) r.
Proof.
  destruct (query_pairs_spec r p 0 (Qle_refl 0)) as [S C]. split.
  - intros H. destruct (S _ _ H) as [I D]. split; auto. eapply close_eq; [rewrite !row_len; lia| |exact D]. symmetry. apply mul_one.
  - intros [I D]. apply C; auto. eapply close_eq; [rewrite !row_len; lia| |exact D]. apply div_one.
Qed.
End API.

Section API2.
Variables (d1 d2 : list (list Q)) (m : nat) (ls1 ls2 : Z) (k1 k2 : kdtree).
Hypothesis Hm : (0 < m)%nat.
Hypothesis HR1 : rows_of_length m d1.
Hypothesis HR2 : rows_of_length m d2.
Hypothesis HK1 : KDTree d1 ls1 = Ok k1.
Hypothesis HK2 : KDTree d2 ls2 = Ok k2.
Let CL : forall p i j r, (i < length d1)%nat -> (j < length d2)%nat -> root_le p (pd d1 d2 p i j) r = true <-> close p (nth j d2 []) (nth i d1 []) r.
Proof. intros p i j r Hi Hj. apply minkowski_close. rewrite (row_len d1 m), (row_len d2 m); auto. Qed.
Let CLs : forall p i j r, (i < length d1)%nat -> (j < length d2)%nat -> root_le p (dist12 d1 d2 p i j) r = true <-> close p (nth i d1 []) (nth j d2 []) r.
Proof. intros p i j r Hi Hj. apply minkowski_close. rewrite (row_len d1 m), (row_len d2 m); auto. Qed.

Theorem query_ball_tree_spec r p eps : 0 <= eps ->
  length (query_ball_tree k1 k2 r p eps) = length d1 /\
  forall i, (i < length d1)%nat -> let l := nth i (query_ball_tree k1 k2 r p eps) [] in
    NoDup l /\ (forall j, In j l -> (j < length d2)%nat /\ close p (nth i d1 []) (nth j d2 []) (r * (1 + eps))) /\
    (forall j, (j < length d2)%nat -> close p (nth i d1 []) (nth j d2 []) (r / (1 + eps)) -> In j l).
Proof.
  intros He. destruct (built_ok d1 m ls1 k1 Hm HR1 HK1) as (_ & _ & KD1 & KM1 & B1 & C1 & L1 & ND1 & IN1).
  destruct (built_ok d2 m ls2 k2 Hm HR2 HK2) as (_ & _ & KD2 & KM2 & B2 & C2 & L2 & ND2 & IN2).
  unfold query_ball_tree. rewrite KD1, KD2. set (ps := ball_tree _ _ _ _ _ _ _ _ _). cbv zeta.
  assert (PS : prod_spec (fun i j => root_le p (pd d1 d2 p i j) (r / (1 + eps)) = true) (fun i j => root_le p (pd d1 d2 p i j) (r * (1 + eps)) = true) (leaves (kd_tree k1)) (leaves (kd_tree k2)) ps).
  { destruct (Qlt_le_dec r 0) as [N|P].
    - pose proof (neg_div r eps He N) as NE. unfold ps. rewrite ball_tree_eq, root_le_lt0 by auto. cbn [negb]. apply ps_empty. intros i j _ _. rewrite root_le_lt0 by auto. discriminate.
    - eapply (ball_tree_spec d1 d2 m m); auto; [congruence|apply (b_splits _ _ _ _ _ B1)|apply (b_splits _ _ _ _ _ B2)]. }
  split; [rewrite map_length, seq_length; auto|]. intros i Hi.
  set (g := fun i : nat => map snd (filter (fun ij : nat * nat => (fst ij =? i)%nat) ps)).
  replace (nth i (map g (seq 0 (length d1))) []) with (g i).
  2: { rewrite (nth_indep _ [] (g 0%nat)) by (rewrite map_length, seq_length; auto). rewrite map_nth, seq_nth by auto. reflexivity. }
  destruct PS as [PS PC PN].
  assert (GI : forall j, In j (g i) <-> In (i, j) ps).
  { intros j. unfold g. rewrite in_map_iff. split.
    - intros ([a b] & <- & H). apply filter_In in H. destruct H as [H E]. cbn [fst] in E. apply Nat.eqb_eq in E. subst a. exact H.
    - intros H. exists (i, j). split; auto. apply filter_In. split; auto. cbn. apply Nat.eqb_refl. }
  split; [|split].
  - unfold g. clear -PN. induction PN as [|[a b] l NI ND IH]; cbn [filter map]; [constructor|]. cbn [fst]. destruct (a =? i)%nat eqn:E; auto. cbn [map snd]. constructor; auto.
    apply Nat.eqb_eq in E. subst a. intros H. apply in_map_iff in H. destruct H as ([a' b'] & E & H). apply filter_In in H. destruct H as [H E']. cbn [fst snd] in *. apply Nat.eqb_eq in E'. subst. auto.
  - intros j Hj. apply GI in Hj. destruct (PS _ _ Hj) as (I1 & I2 & X). apply IN2 in I2. split; auto. rewrite <- dist12_pd in X. apply CLs; auto.
  - intros j Hj X. apply GI. apply PC; [apply IN1; auto|apply IN2; auto|]. rewrite <- dist12_pd. apply CLs; auto.
Qed.
Theorem query_ball_tree_exact r p :
  length (query_ball_tree k1 k2 r p 0) = length d1 /\
  forall i, (i < length d1)%nat -> exact_list (fun j => (j < length d2)%nat /\ close p (nth i d1 []) (nth j d2 []) r) (nth i (query_ball_tree k1 k2 r p 0) []).
Proof.
  destruct (query_ball_tree_spec r p 0 (Qle_refl 0)) as [L S]. split; auto. intros i Hi. destruct (S i Hi) as (ND & A & B). split; auto.
  intros j. split.
  - intros Hj. destruct (A j Hj) as [I D]. split; auto. eapply close_eq; [rewrite (row_len d1 m), (row_len d2 m); auto| |exact D]. symmetry. apply mul_one.
  - intros [I D]. apply B; auto. eapply close_eq; [rewrite (row_len d1 m), (row_len d2 m); auto| |exact D]. apply div_one.
Qed.

(** count_neighbors: the number of pairs (i, j) *)
Theorem count_neighbors_spec rs p : length (count_neighbors k1 k2 rs p) = length rs /\
  forall q, (q < length rs)%nat -> exists pairs, NoDup pairs /\
    (forall i j, In (i, j) pairs <-> (i < length d1)%nat /\ (j < length d2)%nat /\ close p (nth i d1 []) (nth j d2 []) (nth q rs 0)) /\
    nth q (count_neighbors k1 k2 rs p) 0%nat = length pairs.
Proof.
  destruct (built_ok d1 m ls1 k1 Hm HR1 HK1) as (_ & _ & KD1 & KM1 & B1 & C1 & L1 & ND1 & IN1).
  destruct (built_ok d2 m ls2 k2 Hm HR2 HK2) as (_ & _ & KD2 & KM2 & B2 & C2 & L2 & ND2 & IN2).
  unfold count_neighbors. rewrite KD1, KD2. set (inc := count_tree _ _ _ _ _ _ _ _ _). cbv zeta. split; [rewrite map_length, seq_length; auto|]. intros q Hq.
  exists (filter (fun ij : nat * nat => root_le p (dist12 d1 d2 p (fst ij) (snd ij)) (nth q rs 0)) (list_prod (leaves (kd_tree k1)) (leaves (kd_tree k2)))).
  split; [|split].
  - apply NoDup_filter. clear -ND1 ND2. induction ND1 as [|a l NI ND IH]; cbn [list_prod]; [constructor|]. apply nodup_app; auto.
    + apply FinFun.Injective_map_NoDup; auto. intros x y E. congruence.
    + intros [u v] H1 H2. apply in_map_iff in H1. destruct H1 as (w & E & _). injection E as <- <-. apply in_prod_iff in H2. tauto.
  - intros i j. rewrite filter_In. cbn [fst snd]. rewrite in_prod_iff, IN1, IN2. split.
    + intros [[H1 H2] H3]. split; auto. split; auto. apply CLs; auto.
    + intros (H1 & H2 & H3). split; auto. apply CLs; auto.
  - rewrite (nth_indep _ 0%nat (increments 0 inc)) by (rewrite map_length, seq_length; auto). rewrite (map_nth (fun i => increments i inc)), seq_nth by auto. cbn [Nat.add].
    unfold inc. rewrite (count_tree_spec d1 d2 m m p rs q); auto; [|congruence|apply (b_splits _ _ _ _ _ B1)|apply (b_splits _ _ _ _ _ B2)|apply seq_NoDup].
    replace (existsb (Nat.eqb q) (seq 0 (length rs))) with true; [reflexivity|]. symmetry. apply existsb_in. apply in_seq. lia.
Qed.

(** sparse_distance_matrix: the entries set, each pair once *)
Theorem sparse_spec r p : exists pairs, NoDup pairs /\
    (forall i j, In (i, j) pairs <-> (i < length d1)%nat /\ (j < length d2)%nat /\ close p (nth i d1 []) (nth j d2 []) r) /\
    Forall2 (fun (ij : nat * nat) (e : nat * nat * Q) => fst e = ij /\ snd e == distance_power p (nth (fst ij) d1 []) (nth (snd ij) d2 [])) pairs (sparse_distance_matrix k1 k2 r p).
Proof.
  destruct (built_ok d1 m ls1 k1 Hm HR1 HK1) as (_ & _ & KD1 & KM1 & B1 & C1 & L1 & ND1 & IN1).
  destruct (built_ok d2 m ls2 k2 Hm HR2 HK2) as (_ & _ & KD2 & KM2 & B2 & C2 & L2 & ND2 & IN2).
  unfold sparse_distance_matrix. rewrite KD1, KD2.
  destruct (sparse_tree_spec d1 d2 m m p r (kd_tree k1) (mk_rect (kd_maxes k1) (kd_mins k1)) (kd_tree k2) (mk_rect (kd_maxes k2) (kd_mins k2))) as (R & E & [S C N]); auto;
    [congruence|apply (b_splits _ _ _ _ _ B1)|apply (b_splits _ _ _ _ _ B2)|].
  exists R. split; auto. split.
  - intros i j. split.
    + intros H. destruct (S _ _ H) as (I1 & I2 & X). apply IN1 in I1. apply IN2 in I2. split; auto. split; auto. apply CLs; auto.
    + intros (I1 & I2 & X). apply C; [apply IN1; auto|apply IN2; auto|apply CLs; auto].
  - rewrite E. assert (F : Forall (fun ij : nat * nat => (fst ij < length d1)%nat /\ (snd ij < length d2)%nat) R).
    { apply Forall_forall. intros [i j] H. destruct (S _ _ H) as (I1 & I2 & _). rewrite <- IN1, <- IN2. auto. }
    clear -F HR1 HR2. induction F as [|[i j] l [H1 H2] F IH]; cbn [sp_map map]; constructor; auto. cbn [fst snd] in *. split; auto.
    apply distance_power_eq. rewrite (row_len d1 m), (row_len d2 m); auto.
Qed.
End API2.

(** ** Nearest neighbours in terms of the specification *)
Theorem query_exact_spec pop data m leafsize kd x k p : heap_pop_contract pop ->
  (0 < m)%nat -> rows_of_length m data -> KDTree data leafsize = Ok kd -> length x = m -> (1 <= k)%nat -> p <> PN 0 ->
  exists hits, query pop kd x (Some k) 0 p None = Ok hits /\ length hits = Nat.min k (length data) /\
    NoDup (map snd hits) /\ StronglySorted (fun a b : Q * nat => fst a <= fst b) hits /\
    Forall (fun h => (snd h < length data)%nat /\ fst h == distance_power p (nth (snd h) data []) x) hits /\
    (forall i, (i < length data)%nat -> ~ In i (map snd hits) -> Forall (fun h => fst h <= distance_power p (nth i data []) x) hits).
Proof.
  intros HP Hm HR HK Hx Hk Hp. destruct (built_ok data m leafsize kd Hm HR HK) as (HL & HN & _).
  destruct (query_spec pop data m leafsize kd x (Some k) 0 p None HP Hm HN HR HL HK Hx ltac:(destruct k; [lia|discriminate]) Hp (Qle_refl 0) I) as (hits & E & S & ND & F & KL & X).
  exists hits. split; auto.
  assert (INC : incl (map snd hits) (seq 0 (length data))). { intros i Hi. apply in_map_iff in Hi. destruct Hi as (h & <- & Hh). rewrite Forall_forall in F. destruct (F h Hh) as [A _]. apply in_seq. lia. }
  split.
  - unfold nb in *. cbn iota in KL. pose proof (NoDup_incl_length ND INC) as LE. rewrite map_length, seq_length in LE. destruct (Nat.eq_dec (length hits) k) as [Ek|Nk]; [lia|].
    assert (GE : (length data <= length hits)%nat); [|lia].
    destruct (le_lt_dec (length data) (length hits)) as [?|LT]; auto. exfalso.
    assert (incl (seq 0 (length data)) (map snd hits)).
    { intros i Hi. apply in_seq in Hi. destruct (in_dec Nat.eq_dec i (map snd hits)) as [?|NI]; auto. exfalso. destruct (X i ltac:(lia) NI) as [[]|[EK _]]. congruence. }
    pose proof (NoDup_incl_length (seq_NoDup _ _) H) as L2. rewrite map_length, seq_length in L2. lia.
  - split; auto. split; [exact S|]. split.
    + eapply Forall_impl; [|exact F]. intros h (A & B & _). cbn beta. split; auto. rewrite B. apply distance_power_eq. rewrite (row_len data m); auto.
    + intros i Hi NI. destruct (X i Hi NI) as [[]|[_ Y]]. eapply Forall_impl; [|exact Y]. cbn beta. intros h Hh.
      rewrite <- distance_power_eq by (rewrite (row_len data m); auto). assert (W : pw p (1 + 0) == 1).
      { destruct p as [n|]; simpl; [|ring]. clear. induction n as [|n IH]; cbn [qpow]; [reflexivity|]. rewrite IH. ring. }
      rewrite W in Hh. lra.
Qed.
(** with an upper bound on the distance and an accuracy eps *)
Theorem query_general_spec pop data m leafsize kd x k eps p dub : heap_pop_contract pop ->
  (0 < m)%nat -> rows_of_length m data -> KDTree data leafsize = Ok kd -> length x = m -> (1 <= k)%nat -> p <> PN 0 -> 0 <= eps ->
  match dub with Some u => 0 <= u | None => True end ->
  exists hits, query pop kd x (Some k) eps p dub = Ok hits /\ (length hits <= k)%nat /\
    NoDup (map snd hits) /\ StronglySorted (fun a b : Q * nat => fst a <= fst b) hits /\
    Forall (fun h => (snd h < length data)%nat /\ fst h == distance_power p (nth (snd h) data []) x /\ match dub with Some u => fst h < pw p u | None => True end) hits /\
    (forall i, (i < length data)%nat -> ~ In i (map snd hits) ->
      match dub with Some u => pw p u <= distance_power p (nth i data []) x * pw p (1 + eps) | None => False end \/
      (length hits = k /\ Forall (fun h => fst h <= distance_power p (nth i data []) x * pw p (1 + eps)) hits)).
Proof.
  intros HP Hm HR HK Hx Hk Hp He Hd. destruct (built_ok data m leafsize kd Hm HR HK) as (HL & HN & _).
  destruct (query_spec pop data m leafsize kd x (Some k) eps p dub HP Hm HN HR HL HK Hx ltac:(destruct k; [lia|discriminate]) Hp He Hd) as (hits & E & S & ND & F & KL & X).
  exists hits. split; auto. split; auto. split; auto. split; [exact S|]. split.
  - eapply Forall_impl; [|exact F]. intros h (A & B & C). cbn beta. split; auto. split; [rewrite B; apply distance_power_eq; rewrite (row_len data m); auto|].
    destruct dub as [u|]; auto. simpl in C. apply Qltb_lt. exact C.
  - intros i Hi NI. assert (EQ : minkowski_p p (nth i data []) x == distance_power p (nth i data []) x) by (apply distance_power_eq; rewrite (row_len data m); auto).
    destruct (X i Hi NI) as [Y|[A Y]]; [left|right].
    + destruct dub as [u|]; auto. rewrite <- EQ. auto.
    + split; [congruence|]. eapply Forall_impl; [|exact Y]. cbn beta. intros h Hh. rewrite <- EQ. auto.
Qed.

(** a heap that pops a minimal entry exists *)
Fixpoint pop_min (q : list entry) : option (entry * list entry) :=
  match q with
  | [] => None
  | e :: q => match pop_min q with
              | None => Some (e, [])
              | Some (e', q') => if Qleb (e_min e) (e_min e') then Some (e, q) else Some (e', e :: q')
              end
  end.
Lemma pop_min_contract : heap_pop_contract pop_min.
Proof.
  split; [reflexivity|]. induction q as [|e q IH]; [congruence|]. intros _. cbn [pop_min]. destruct q as [|e2 q].
  - cbn. exists e, []. repeat split; auto.
  - destruct (IH ltac:(discriminate)) as (e' & q' & E & P & F). rewrite E. destruct (Qleb_spec (e_min e) (e_min e')) as [L|L].
    + exists e, (e2 :: q). split; auto. split; auto. eapply Permutation_Forall; [apply Permutation_sym; exact P|]. constructor; auto. eapply Forall_impl; [|exact F]. cbn beta. intros; lra.
    + exists e', (e :: q'). split; auto. split; [eapply Permutation_trans; [constructor; exact P|apply perm_swap]|]. constructor; [lra|auto].
Qed.

(** ** Building *)
Theorem build_partition data m leafsize : (0 < m)%nat -> rows_of_length m data -> data <> [] -> (1 <= leafsize)%Z ->
  exists kd, KDTree data leafsize = Ok kd /\ Permutation (concat (leaf_lists (kd_tree kd))) (seq 0 (length data)) /\
    splits_ok data m (kd_tree kd) /\
    Forall (fun l => (length l <= Z.to_nat leafsize)%nat \/ share_a_coordinate data m l) (leaf_lists (kd_tree kd)).
Proof.
  intros Hm HR HN HL. destruct (kdtree_spec data m leafsize Hm HN HR HL) as (kd & EK & KD & KM & Km & KC & [BP BS BL]).
  exists kd. split; auto. split; [|split; [auto|apply Forall_forall; auto]].
  replace (concat (leaf_lists (kd_tree kd))) with (leaves (kd_tree kd)); auto. generalize (kd_tree kd). clear. induction n as [l|d s l IHl g IHg]; simpl; [rewrite app_nil_r; reflexivity|].
  rewrite concat_app. congruence.
Qed.
Theorem build_rejects data leafsize : (leafsize < 1)%Z \/ data = [] -> KDTree data leafsize = Raises ValueError.
Proof.
  unfold KDTree. destruct (leafsize <? 1)%Z eqn:E; auto. intros [H| ->]; auto. apply Z.ltb_ge in E. lia.
Qed.
