(** Two-tree queries: query_ball_tree, query_pairs, count_neighbors, sparse_distance_matrix. *)
From Verif Require Import Base QBase KDModel KDSpec KDProofs.
Open Scope Q_scope.

(** pair lists over A x B: everything listed satisfies [hi], everything satisfying [lo] is listed, nothing twice *)
Record prod_spec (lo hi : nat -> nat -> Prop) (A B : list nat) (R : list (nat * nat)) : Prop := {
  ps_sound : forall i j, In (i, j) R -> In i A /\ In j B /\ hi i j;
  ps_complete : forall i j, In i A -> In j B -> lo i j -> In (i, j) R;
  ps_nodup : NoDup R
}.
Lemma ps_app_l lo hi A1 A2 B R1 R2 : (forall x, In x A1 -> ~ In x A2) -> prod_spec lo hi A1 B R1 -> prod_spec lo hi A2 B R2 -> prod_spec lo hi (A1 ++ A2) B (R1 ++ R2).
Proof.
  intros D [S1 C1 N1] [S2 C2 N2]. split.
  - intros i j H. apply in_app_or in H. rewrite in_app_iff. destruct H as [H|H]; [apply S1 in H|apply S2 in H]; tauto.
  - intros i j Hi Hj L. apply in_or_app. apply in_app_or in Hi. destruct Hi; auto.
  - apply nodup_app; auto. intros [i j] H1 H2. apply S1 in H1. apply S2 in H2. apply (D i); tauto.
Qed.
Lemma ps_app_r lo hi A B1 B2 R1 R2 : (forall x, In x B1 -> ~ In x B2) -> prod_spec lo hi A B1 R1 -> prod_spec lo hi A B2 R2 -> prod_spec lo hi A (B1 ++ B2) (R1 ++ R2).
Proof.
  intros D [S1 C1 N1] [S2 C2 N2]. split.
  - intros i j H. apply in_app_or in H. rewrite in_app_iff. destruct H as [H|H]; [apply S1 in H|apply S2 in H]; tauto.
  - intros i j Hi Hj L. apply in_or_app. apply in_app_or in Hj. destruct Hj; auto.
  - apply nodup_app; auto. intros [i j] H1 H2. apply S1 in H1. apply S2 in H2. apply (D j); tauto.
Qed.
Lemma ps_weaken (lo lo' hi hi' : nat -> nat -> Prop) A B R : (forall i j, In i A -> In j B -> lo' i j -> lo i j) -> (forall i j, In i A -> In j B -> hi i j -> hi' i j) -> prod_spec lo hi A B R -> prod_spec lo' hi' A B R.
Proof. intros H1 H2 [S C N]. split; auto. intros i j H. apply S in H. intuition. Qed.
Lemma ps_leaf (f : nat -> nat -> bool) A B : NoDup A -> NoDup B ->
  prod_spec (fun i j => f i j = true) (fun i j => f i j = true) A B (flat_map (fun i => map (fun j => (i, j)) (filter (f i) B)) A).
Proof.
  intros NA NB. split.
  - intros i j H. apply in_flat_map in H. destruct H as (i' & Hi & H). apply in_map_iff in H. destruct H as (j' & E & H). injection E as -> ->. apply filter_In in H. tauto.
  - intros i j Hi Hj F. apply in_flat_map. exists i. split; auto. apply in_map. apply filter_In. auto.
  - induction NA as [|a A Ha NA IH]; cbn [flat_map]; [constructor|]. apply nodup_app; auto.
    + apply FinFun.Injective_map_NoDup; [intros x y E; congruence|apply NoDup_filter; auto].
    + intros [i j] H1 H2. apply in_map_iff in H1. destruct H1 as (j' & E & _). injection E as <- <-.
      apply in_flat_map in H2. destruct H2 as (i' & Hi & H). apply in_map_iff in H. destruct H as (j'' & E & _). congruence.
Qed.
Lemma ps_empty lo hi A B : (forall i j, In i A -> In j B -> ~ lo i j) -> prod_spec lo hi A B [].
Proof. intros H. split; [intros ? ? []| |constructor]. intros i j Hi Hj L. exfalso. eapply H; eauto. Qed.

Definition pT (_ _ : nat) := True.
Lemma filter_true {A} (l : list A) : filter (fun _ => true) l = l.
Proof. induction l as [|x l IH]; simpl; congruence. Qed.
Lemma pairs_nc_spec t1 t2 : NoDup (leaves t1) -> NoDup (leaves t2) -> prod_spec pT pT (leaves t1) (leaves t2) (pairs_nc t1 t2).
Proof.
  revert t2. induction t1 as [idx1|d1 s1 l1 IHl g1 IHg]; intros t2 N1 N2.
  - induction t2 as [idx2|d2 s2 l2 IH2l g2 IH2g].
    + cbn [pairs_nc]. cbn [leaves] in *. pose proof (ps_leaf (fun _ _ => true) idx1 idx2 N1 N2) as P.
      erewrite flat_map_ext in P; [eapply ps_weaken; [| |exact P]; intros; first [exact I|reflexivity]|]. intros i. cbn beta. rewrite filter_true. reflexivity.
    + cbn [leaves] in N2. destruct (nodup_app_inv _ _ N2) as (M1 & M2 & D). change (pairs_nc (Leaf idx1) (Inner d2 s2 l2 g2)) with (pairs_nc (Leaf idx1) l2 ++ pairs_nc (Leaf idx1) g2).
      cbn [leaves]. apply ps_app_r; auto.
  - cbn [leaves] in N1. destruct (nodup_app_inv _ _ N1) as (M1 & M2 & D). cbn [pairs_nc leaves]. apply ps_app_l; auto.
Qed.

Lemma ball_tree_eq d1 d2 p r eps t1 r1 t2 r2 : ball_tree d1 d2 p r eps t1 r1 t2 r2 =
  if negb (root_le p (min_distance_rectangle p r1 r2) (r / (1 + eps))) then []
  else if root_lt p (max_distance_rectangle p r1 r2) (r * (1 + eps)) then pairs_nc t1 t2
  else match t1 with
       | Leaf idx1 =>
         match t2 with
         | Leaf idx2 => flat_map (fun i => map (fun j => (i, j)) (filter (fun j => root_le p (minkowski_p p (row d2 j) (row d1 i)) r) idx2)) idx1
         | Inner d s l g => ball_tree d1 d2 p r eps t1 r1 l (fst (rect_split r2 d s)) ++ ball_tree d1 d2 p r eps t1 r1 g (snd (rect_split r2 d s))
         end
       | Inner d s l1 g1 =>
         let '(rl1, rg1) := rect_split r1 d s in
         match t2 with
         | Leaf _ => ball_tree d1 d2 p r eps l1 rl1 t2 r2 ++ ball_tree d1 d2 p r eps g1 rg1 t2 r2
         | Inner d s l2 g2 =>
           let '(rl2, rg2) := rect_split r2 d s in
           ball_tree d1 d2 p r eps l1 rl1 l2 rl2 ++ ball_tree d1 d2 p r eps l1 rl1 g2 rg2 ++
           ball_tree d1 d2 p r eps g1 rg1 l2 rl2 ++ ball_tree d1 d2 p r eps g1 rg1 g2 rg2
         end
       end.
Proof. destruct t1, t2; reflexivity. Qed.

Section TwoTrees.
Variables (d1 d2 : list (list Q)) (m1 m2 : nat) (p : pnorm).
Definition pd (i j : nat) : Q := minkowski_p p (row d2 j) (row d1 i).
Lemma prune2 r t1 r1 t2 r2 : length r1 = length r2 -> cell_ok d1 t1 r1 -> cell_ok d2 t2 r2 -> root_le p (min_distance_rectangle p r1 r2) r = false ->
  forall i j, In i (leaves t1) -> In j (leaves t2) -> root_le p (pd i j) r = false.
Proof.
  intros HL C1 C2 E i j Hi Hj. destruct (root_le p (pd i j) r) eqn:E'; auto.
  rewrite (root_le_mono p (pd i j) _ r r) in E; auto; [|lra]. apply min_rect_le; auto.
Qed.
Lemma bulk2 r t1 r1 t2 r2 : length r1 = length r2 -> cell_ok d1 t1 r1 -> cell_ok d2 t2 r2 -> root_lt p (max_distance_rectangle p r1 r2) r = true ->
  forall i j, In i (leaves t1) -> In j (leaves t2) -> root_le p (pd i j) r = true.
Proof. intros HL C1 C2 E i j Hi Hj. eapply root_lt_le; [|exact E]. apply max_rect_ge; auto. Qed.

Lemma ball_tree_spec r eps : 0 <= eps -> 0 <= r -> forall t1 r1 t2 r2, length r1 = length r2 ->
  splits_ok d1 m1 t1 -> splits_ok d2 m2 t2 -> cell_ok d1 t1 r1 -> cell_ok d2 t2 r2 -> NoDup (leaves t1) -> NoDup (leaves t2) ->
  prod_spec (fun i j => root_le p (pd i j) (r / (1 + eps)) = true) (fun i j => root_le p (pd i j) (r * (1 + eps)) = true)
    (leaves t1) (leaves t2) (ball_tree d1 d2 p r eps t1 r1 t2 r2).
Proof.
  intros He Hr. destruct (eps_bounds r eps He Hr) as [EL EU].
  induction t1 as [idx1|e1 s1 l1 IHl g1 IHg].
  - intros r1 t2. induction t2 as [idx2|e2 s2 l2 IH2l g2 IH2g]; intros r2 HL S1 S2 C1 C2 N1 N2; rewrite ball_tree_eq;
      (destruct (root_le p (min_distance_rectangle p r1 r2) (r / (1 + eps))) eqn:E1; cbn [negb];
       [|apply ps_empty; intros i j Hi Hj L; cbn beta in L; rewrite (prune2 _ _ _ _ _ HL C1 C2 E1 i j Hi Hj) in L; discriminate]);
      (destruct (root_lt p (max_distance_rectangle p r1 r2) (r * (1 + eps))) eqn:E2;
       [eapply ps_weaken; [| |apply pairs_nc_spec; auto]; [intros; exact I|intros i j Hi Hj _; exact (bulk2 _ _ _ _ _ HL C1 C2 E2 i j Hi Hj)]|]).
    + eapply ps_weaken; [| |apply (ps_leaf (fun i j => root_le p (minkowski_p p (row d2 j) (row d1 i)) r)); auto]; cbn beta; intros i j _ _ H;
        (eapply root_le_mono; [apply Qle_refl| |exact H]); auto.
    + destruct (cell_ok_split d2 m2 e2 s2 l2 g2 r2 S2 C2) as [Cl Cg]. destruct (split_length r2 e2 s2) as [Ll Lg]. destruct S2 as (_ & _ & _ & Sl & Sg).
      cbn [leaves] in N2 |- *. destruct (nodup_app_inv _ _ N2) as (M1 & M2 & D). apply ps_app_r; auto; [apply IH2l|apply IH2g]; auto; congruence.
  - intros r1 t2 r2 HL S1 S2 C1 C2 N1 N2. rewrite ball_tree_eq.
    destruct (root_le p (min_distance_rectangle p r1 r2) (r / (1 + eps))) eqn:E1; cbn [negb];
       [|apply ps_empty; intros i j Hi Hj L; cbn beta in L; rewrite (prune2 _ _ _ _ _ HL C1 C2 E1 i j Hi Hj) in L; discriminate].
    destruct (root_lt p (max_distance_rectangle p r1 r2) (r * (1 + eps))) eqn:E2;
       [eapply ps_weaken; [| |apply pairs_nc_spec; auto]; [intros; exact I|intros i j Hi Hj _; exact (bulk2 _ _ _ _ _ HL C1 C2 E2 i j Hi Hj)]|].
    destruct (cell_ok_split d1 m1 e1 s1 l1 g1 r1 S1 C1) as [Cl Cg]. destruct (split_length r1 e1 s1) as [Ll Lg]. destruct S1 as (_ & _ & _ & Sl & Sg).
    destruct (rect_split r1 e1 s1) as [rl1 rg1]. cbn [fst snd] in *. cbn [leaves] in N1. destruct (nodup_app_inv _ _ N1) as (M1 & M2 & D).
    cbn [leaves]. destruct t2 as [idx2|e2 s2 l2 g2].
    + apply ps_app_l; auto; [apply IHl|apply IHg]; auto; congruence.
    + destruct (cell_ok_split d2 m2 e2 s2 l2 g2 r2 S2 C2) as [Cl2 Cg2]. destruct (split_length r2 e2 s2) as [Ll2 Lg2]. destruct S2 as (_ & _ & _ & Sl2 & Sg2).
      destruct (rect_split r2 e2 s2) as [rl2 rg2]. cbn [fst snd] in *. cbn [leaves] in N2 |- *. destruct (nodup_app_inv _ _ N2) as (M3 & M4 & D2).
      rewrite (app_assoc (ball_tree d1 d2 p r eps l1 rl1 l2 rl2)). apply ps_app_l; auto; apply ps_app_r; auto; first [apply IHl|apply IHg]; auto; congruence.
Qed.

(** ** sparse_distance_matrix *)
Lemma sparse_tree_eq r t1 r1 t2 r2 : sparse_tree d1 d2 p r t1 r1 t2 r2 =
  if negb (root_le p (min_distance_rectangle p r1 r2) r) then []
  else match t1 with
       | Leaf idx1 =>
         match t2 with
         | Leaf idx2 => flat_map (fun i => flat_map (fun j => let s := minkowski_p p (row d1 i) (row d2 j) in if root_le p s r then [(i, j, s)] else []) idx2) idx1
         | Inner d s l g => sparse_tree d1 d2 p r t1 r1 l (fst (rect_split r2 d s)) ++ sparse_tree d1 d2 p r t1 r1 g (snd (rect_split r2 d s))
         end
       | Inner d s l1 g1 =>
         let '(rl1, rg1) := rect_split r1 d s in
         match t2 with
         | Leaf _ => sparse_tree d1 d2 p r l1 rl1 t2 r2 ++ sparse_tree d1 d2 p r g1 rg1 t2 r2
         | Inner d s l2 g2 =>
           let '(rl2, rg2) := rect_split r2 d s in
           sparse_tree d1 d2 p r l1 rl1 l2 rl2 ++ sparse_tree d1 d2 p r l1 rl1 g2 rg2 ++
           sparse_tree d1 d2 p r g1 rg1 l2 rl2 ++ sparse_tree d1 d2 p r g1 rg1 g2 rg2
         end
       end.
Proof. destruct t1, t2; reflexivity. Qed.
Definition dist12 (i j : nat) : Q := minkowski_p p (row d1 i) (row d2 j).
Lemma dist12_pd i j r : root_le p (dist12 i j) r = root_le p (pd i j) r.
Proof.
  assert (E : dist12 i j == pd i j) by apply minkowski_sym. destruct (root_le p (dist12 i j) r) eqn:E1; destruct (root_le p (pd i j) r) eqn:E2; auto.
  - rewrite (root_le_mono p (dist12 i j) (pd i j) r r) in E2; auto; lra.
  - rewrite (root_le_mono p (pd i j) (dist12 i j) r r) in E1; auto; lra.
Qed.
Definition sp_map (R : list (nat * nat)) : list (nat * nat * Q) := map (fun ij : nat * nat => (fst ij, snd ij, dist12 (fst ij) (snd ij))) R.
Lemma sparse_leaf r A B : flat_map (fun i => flat_map (fun j => let s := minkowski_p p (row d1 i) (row d2 j) in if root_le p s r then [(i, j, s)] else []) B) A
  = sp_map (flat_map (fun i => map (fun j => (i, j)) (filter (fun j => root_le p (dist12 i j) r) B)) A).
Proof.
  cbv zeta. induction A as [|i A IH]; [reflexivity|]. cbn [flat_map]. rewrite IH. unfold sp_map. rewrite map_app. f_equal. clear.
  induction B as [|j B IH]; [reflexivity|]. cbn [flat_map filter]. rewrite IH. fold (dist12 i j). destruct (root_le p (dist12 i j) r); reflexivity.
Qed.
Lemma sparse_tree_spec r : forall t1 r1 t2 r2, length r1 = length r2 ->
  splits_ok d1 m1 t1 -> splits_ok d2 m2 t2 -> cell_ok d1 t1 r1 -> cell_ok d2 t2 r2 -> NoDup (leaves t1) -> NoDup (leaves t2) ->
  exists R, sparse_tree d1 d2 p r t1 r1 t2 r2 = sp_map R /\
  prod_spec (fun i j => root_le p (dist12 i j) r = true) (fun i j => root_le p (dist12 i j) r = true) (leaves t1) (leaves t2) R.
Proof.
  assert (PR : forall t1 r1 t2 r2, length r1 = length r2 -> cell_ok d1 t1 r1 -> cell_ok d2 t2 r2 -> root_le p (min_distance_rectangle p r1 r2) r = false ->
     exists R, [] = sp_map R /\ prod_spec (fun i j => root_le p (dist12 i j) r = true) (fun i j => root_le p (dist12 i j) r = true) (leaves t1) (leaves t2) R).
  { intros t1 r1 t2 r2 HL C1 C2 E1. exists []. split; [reflexivity|]. apply ps_empty. intros i j Hi Hj. rewrite dist12_pd, (prune2 _ _ _ _ _ HL C1 C2 E1 i j Hi Hj). discriminate. }
  induction t1 as [idx1|e1 s1 l1 IHl g1 IHg].
  - intros r1 t2. induction t2 as [idx2|e2 s2 l2 IH2l g2 IH2g]; intros r2 HL S1 S2 C1 C2 N1 N2; rewrite sparse_tree_eq;
      (destruct (root_le p (min_distance_rectangle p r1 r2) r) eqn:E1; cbn [negb]; [|apply (PR _ r1 _ r2); auto]).
    + rewrite sparse_leaf. eexists. split; [reflexivity|]. apply ps_leaf; auto.
    + destruct (cell_ok_split d2 m2 e2 s2 l2 g2 r2 S2 C2) as [Cl Cg]. destruct (split_length r2 e2 s2) as [Ll Lg]. destruct S2 as (_ & _ & _ & Sl & Sg).
      cbn [leaves] in N2 |- *. destruct (nodup_app_inv _ _ N2) as (M1 & M2 & D).
      destruct (IH2l (fst (rect_split r2 e2 s2)) ltac:(congruence) S1 Sl C1 Cl N1 M1) as (Ra & Ea & Pa).
      destruct (IH2g (snd (rect_split r2 e2 s2)) ltac:(congruence) S1 Sg C1 Cg N1 M2) as (Rb & Eb & Pb).
      exists (Ra ++ Rb). rewrite Ea, Eb. unfold sp_map. rewrite map_app. split; [reflexivity|]. apply ps_app_r; auto.
  - intros r1 t2 r2 HL S1 S2 C1 C2 N1 N2. rewrite sparse_tree_eq.
    destruct (root_le p (min_distance_rectangle p r1 r2) r) eqn:E1; cbn [negb]; [|apply (PR _ r1 _ r2); auto].
    destruct (cell_ok_split d1 m1 e1 s1 l1 g1 r1 S1 C1) as [Cl Cg]. destruct (split_length r1 e1 s1) as [Ll Lg]. destruct S1 as (_ & _ & _ & Sl & Sg).
    destruct (rect_split r1 e1 s1) as [rl1 rg1]. cbn [fst snd] in *. cbn [leaves] in N1. destruct (nodup_app_inv _ _ N1) as (M1 & M2 & D).
    cbn [leaves]. destruct t2 as [idx2|e2 s2 l2 g2].
    + destruct (IHl rl1 (Leaf idx2) r2) as (Ra & Ea & Pa); auto; try congruence. destruct (IHg rg1 (Leaf idx2) r2) as (Rb & Eb & Pb); auto; try congruence.
      exists (Ra ++ Rb). rewrite Ea, Eb. unfold sp_map. rewrite map_app. split; [reflexivity|]. apply ps_app_l; auto.
    + destruct (cell_ok_split d2 m2 e2 s2 l2 g2 r2 S2 C2) as [Cl2 Cg2]. destruct (split_length r2 e2 s2) as [Ll2 Lg2]. destruct S2 as (_ & _ & _ & Sl2 & Sg2).
      destruct (rect_split r2 e2 s2) as [rl2 rg2]. cbn [fst snd] in *. cbn [leaves] in N2 |- *. destruct (nodup_app_inv _ _ N2) as (M3 & M4 & D2).
      destruct (IHl rl1 l2 rl2) as (Ra & Ea & Pa); auto; try congruence. destruct (IHl rl1 g2 rg2) as (Rb & Eb & Pb); auto; try congruence.
      destruct (IHg rg1 l2 rl2) as (Rc & Ec & Pc); auto; try congruence. destruct (IHg rg1 g2 rg2) as (Rd & Ed & Pd); auto; try congruence.
      exists ((Ra ++ Rb) ++ Rc ++ Rd). rewrite Ea, Eb, Ec, Ed. unfold sp_map. rewrite !map_app. rewrite app_assoc. split; [reflexivity|].
      apply ps_app_l; auto; apply ps_app_r; auto.
Qed.

(** ** count_neighbors *)
Definition npairs (r : Q) (A B : list nat) : nat := length (filter (fun ij : nat * nat => root_le p (dist12 (fst ij) (snd ij)) r) (list_prod A B)).
Lemma npairs_app_l r A1 A2 B : npairs r (A1 ++ A2) B = (npairs r A1 B + npairs r A2 B)%nat.
Proof. unfold npairs. induction A1 as [|a A1 IH]; [reflexivity|]. cbn [app list_prod]. rewrite !filter_app, !app_length, IH. lia. Qed.
Lemma npairs_app_r r A B1 B2 : npairs r A (B1 ++ B2) = (npairs r A B1 + npairs r A B2)%nat.
Proof. unfold npairs. induction A as [|a A IH]; [reflexivity|]. cbn [list_prod]. rewrite map_app, !filter_app, !app_length, IH. lia. Qed.
Lemma npairs_all r A B : (forall i j, In i A -> In j B -> root_le p (dist12 i j) r = true) -> npairs r A B = (length A * length B)%nat.
Proof.
  intros H. unfold npairs. rewrite <- prod_length. f_equal. rewrite <- (filter_true (list_prod A B)) at 2. apply filter_ext_in.
  intros [i j] HI. apply in_prod_iff in HI. cbn. apply H; tauto.
Qed.
Lemma npairs_none r A B : (forall i j, In i A -> In j B -> root_le p (dist12 i j) r = false) -> npairs r A B = 0%nat.
Proof.
  intros H. unfold npairs. rewrite (proj2 (filter_nil _ _)); [reflexivity|]. intros [i j] HI. apply in_prod_iff in HI. cbn. apply H; tauto.
Qed.
Lemma increments_app k a b : increments k (a ++ b) = (increments k a + increments k b)%nat.
Proof. unfold increments. rewrite filter_app, map_app. induction (map snd (filter (fun kv : nat * nat => (fst kv =? k)%nat) a)) as [|x l IH]; cbn [app fold_right]; lia. Qed.
Lemma increments_map k (f : nat -> nat) idx : NoDup idx -> increments k (map (fun i => (i, f i)) idx) = if existsb (Nat.eqb k) idx then f k else 0%nat.
Proof.
  induction 1 as [|a idx Ha ND IH]; [reflexivity|]. unfold increments in *. cbn [map filter existsb fst]. rewrite (Nat.eqb_sym k a). destruct (Nat.eqb_spec a k) as [->|E]; cbn [orb].
  - cbn [map fold_right snd]. rewrite IH. replace (existsb (Nat.eqb k) idx) with false; [lia|]. symmetry. apply not_true_iff_false. intros C. apply existsb_exists in C. destruct C as (x & Hx & E). apply Nat.eqb_eq in E. subst. auto.
  - exact IH.
Qed.
Lemma existsb_in k idx : existsb (Nat.eqb k) idx = true <-> In k idx.
Proof. rewrite existsb_exists. split; [intros (x & Hx & E); apply Nat.eqb_eq in E; subst; auto|]. intros H. exists k. split; auto. apply Nat.eqb_refl. Qed.
Lemma existsb_filter k f idx : existsb (Nat.eqb k) (filter f idx) = existsb (Nat.eqb k) idx && f k.
Proof.
  apply eq_true_iff_eq. rewrite andb_true_iff, !existsb_in, filter_In. tauto.
Qed.
Lemma children_leaves t : children t = length (leaves t).
Proof. induction t; simpl; auto. rewrite app_length. lia. Qed.

Definition count_step rs t1 r1 t2 r2 idx (rest : list nat -> list (nat * nat)) : list (nat * nat) :=
  let rad i := nth i rs 0 in
  map (fun i => (i, (children t1 * children t2)%nat)) (filter (fun i => root_lt p (max_distance_rectangle p r1 r2) (rad i)) idx) ++
  (let idx' := filter (fun i => root_le p (min_distance_rectangle p r1 r2) (rad i) && negb (root_lt p (max_distance_rectangle p r1 r2) (rad i))) idx in
   if is_nil idx' then [] else rest idx').
Lemma count_tree_eq rs t1 r1 t2 r2 idx : count_tree d1 d2 p rs t1 r1 t2 r2 idx = count_step rs t1 r1 t2 r2 idx (fun idx =>
   match t1 with
   | Leaf idx1 =>
     match t2 with
     | Leaf idx2 => map (fun k => (k, npairs (nth k rs 0) idx1 idx2)) idx
     | Inner d s l g => count_tree d1 d2 p rs t1 r1 l (fst (rect_split r2 d s)) idx ++ count_tree d1 d2 p rs t1 r1 g (snd (rect_split r2 d s)) idx
     end
   | Inner d s l1 g1 =>
     let '(rl1, rg1) := rect_split r1 d s in
     match t2 with
     | Leaf _ => count_tree d1 d2 p rs l1 rl1 t2 r2 idx ++ count_tree d1 d2 p rs g1 rg1 t2 r2 idx
     | Inner d s l2 g2 =>
       let '(rl2, rg2) := rect_split r2 d s in
       count_tree d1 d2 p rs l1 rl1 l2 rl2 idx ++ count_tree d1 d2 p rs l1 rl1 g2 rg2 idx ++
       count_tree d1 d2 p rs g1 rg1 l2 rl2 idx ++ count_tree d1 d2 p rs g1 rg1 g2 rg2 idx
     end
   end).
Proof. destruct t1, t2; reflexivity. Qed.
Lemma count_step_spec rs t1 r1 t2 r2 idx rest k : length r1 = length r2 -> cell_ok d1 t1 r1 -> cell_ok d2 t2 r2 -> NoDup idx ->
  (forall idx', NoDup idx' -> increments k (rest idx') = if existsb (Nat.eqb k) idx' then npairs (nth k rs 0) (leaves t1) (leaves t2) else 0%nat) ->
  increments k (count_step rs t1 r1 t2 r2 idx rest) = if existsb (Nat.eqb k) idx then npairs (nth k rs 0) (leaves t1) (leaves t2) else 0%nat.
Proof.
  intros HL C1 C2 ND HR. unfold count_step. cbv zeta. rewrite increments_app.
  rewrite (increments_map k (fun _ => (children t1 * children t2)%nat)) by (apply NoDup_filter; auto). rewrite existsb_filter.
  set (idx' := filter _ idx) at 2. set (r := nth k rs 0) in *.
  assert (REST : increments k (if is_nil idx' then [] else rest idx') = if existsb (Nat.eqb k) idx && (root_le p (min_distance_rectangle p r1 r2) r && negb (root_lt p (max_distance_rectangle p r1 r2) r)) then npairs r (leaves t1) (leaves t2) else 0%nat).
  { replace (existsb (Nat.eqb k) idx && _) with (existsb (Nat.eqb k) idx') by (unfold idx'; rewrite existsb_filter; reflexivity).
    destruct idx' as [|a l] eqn:E; [reflexivity|]. cbn [is_nil]. rewrite HR; [reflexivity|]. rewrite <- E. apply NoDup_filter. auto. }
  change (filter (fun i : nat => root_le p (min_distance_rectangle p r1 r2) (nth i rs 0) && negb (root_lt p (max_distance_rectangle p r1 r2) (nth i rs 0))) idx) with idx'.
  rewrite REST. destruct (existsb (Nat.eqb k) idx); [cbn [andb]|reflexivity].
  destruct (root_lt p (max_distance_rectangle p r1 r2) r) eqn:E2; cbn [negb].
  - rewrite andb_false_r. rewrite !children_leaves, npairs_all; [lia|]. intros i j Hi Hj. rewrite dist12_pd. eapply bulk2; [exact HL|exact C1|exact C2|exact E2|auto|auto].
  - rewrite andb_true_r. destruct (root_le p (min_distance_rectangle p r1 r2) r) eqn:E1; [lia|]. rewrite npairs_none; [lia|].
    intros i j Hi Hj. rewrite dist12_pd. eapply prune2; [exact HL|exact C1|exact C2|exact E1|auto|auto].
Qed.
Lemma count_tree_spec rs k : forall t1 r1 t2 r2 idx, length r1 = length r2 ->
  splits_ok d1 m1 t1 -> splits_ok d2 m2 t2 -> cell_ok d1 t1 r1 -> cell_ok d2 t2 r2 -> NoDup idx ->
  increments k (count_tree d1 d2 p rs t1 r1 t2 r2 idx) = if existsb (Nat.eqb k) idx then npairs (nth k rs 0) (leaves t1) (leaves t2) else 0%nat.
Proof.
  induction t1 as [idx1|e1 s1 l1 IHl g1 IHg].
  - intros r1 t2. induction t2 as [idx2|e2 s2 l2 IH2l g2 IH2g]; intros r2 idx HL S1 S2 C1 C2 ND; rewrite count_tree_eq; apply count_step_spec; auto; intros idx' ND'.
    + apply (increments_map k (fun k => npairs (nth k rs 0) idx1 idx2)). auto.
    + destruct (cell_ok_split d2 m2 e2 s2 l2 g2 r2 S2 C2) as [Cl Cg]. destruct (split_length r2 e2 s2) as [Ll Lg]. destruct S2 as (_ & _ & _ & Sl & Sg).
      rewrite increments_app, IH2l, IH2g by (auto; congruence). cbn [leaves]. rewrite npairs_app_r. destruct (existsb (Nat.eqb k) idx'); lia.
  - intros r1 t2 r2 idx HL S1 S2 C1 C2 ND. rewrite count_tree_eq. apply count_step_spec; auto. intros idx' ND'.
    destruct (cell_ok_split d1 m1 e1 s1 l1 g1 r1 S1 C1) as [Cl Cg]. destruct (split_length r1 e1 s1) as [Ll Lg]. destruct S1 as (_ & _ & _ & Sl & Sg).
    destruct (rect_split r1 e1 s1) as [rl1 rg1]. cbn [fst snd] in *. destruct t2 as [idx2|e2 s2 l2 g2].
    + rewrite increments_app, IHl, IHg by (auto; congruence). cbn [leaves]. rewrite npairs_app_l. destruct (existsb (Nat.eqb k) idx'); lia.
    + destruct (cell_ok_split d2 m2 e2 s2 l2 g2 r2 S2 C2) as [Cl2 Cg2]. destruct (split_length r2 e2 s2) as [Ll2 Lg2]. destruct S2 as (_ & _ & _ & Sl2 & Sg2).
      destruct (rect_split r2 e2 s2) as [rl2 rg2]. cbn [fst snd] in *. rewrite !increments_app, !IHl, !IHg by (auto; congruence).
      cbn [leaves]. rewrite npairs_app_l, !npairs_app_r. destruct (existsb (Nat.eqb k) idx'); lia.
Qed.
End TwoTrees.

(** ** query_pairs *)
Record set_spec (lo hi : nat -> nat -> Prop) (A B : list nat) (R : list (nat * nat)) : Prop := {
  ss_sound : forall a b, In (a, b) R -> (a < b)%nat /\ ((In a A /\ In b B /\ hi a b) \/ (In b A /\ In a B /\ hi b a));
  ss_complete : forall i j, In i A -> In j B -> i <> j -> lo i j -> In (Nat.min i j, Nat.max i j) R
}.
Lemma ss_app_l lo hi A1 A2 B R1 R2 : set_spec lo hi A1 B R1 -> set_spec lo hi A2 B R2 -> set_spec lo hi (A1 ++ A2) B (R1 ++ R2).
Proof.
  intros [S1 C1] [S2 C2]. split.
  - intros a b H. rewrite !in_app_iff. apply in_app_or in H. destruct H as [H|H]; [apply S1 in H|apply S2 in H]; tauto.
  - intros i j Hi Hj N L. apply in_or_app. apply in_app_or in Hi. destruct Hi; auto.
Qed.
Lemma ss_app_r lo hi A B1 B2 R1 R2 : set_spec lo hi A B1 R1 -> set_spec lo hi A B2 R2 -> set_spec lo hi A (B1 ++ B2) (R1 ++ R2).
Proof.
  intros [S1 C1] [S2 C2]. split.
  - intros a b H. rewrite !in_app_iff. apply in_app_or in H. destruct H as [H|H]; [apply S1 in H|apply S2 in H]; tauto.
  - intros i j Hi Hj N L. apply in_or_app. apply in_app_or in Hj. destruct Hj; auto.
Qed.
Lemma ss_same (lo hi : nat -> nat -> Prop) A B R1 R2 R3 : (forall i j, lo i j -> lo j i) -> set_spec lo hi A A R1 -> set_spec lo hi A B R2 -> set_spec lo hi B B R3 ->
  set_spec lo hi (A ++ B) (A ++ B) (R1 ++ R2 ++ R3).
Proof.
  intros SY [S1 C1] [S2 C2] [S3 C3]. split.
  - intros a b H. rewrite !in_app_iff. apply in_app_or in H. destruct H as [H|H]; [apply S1 in H|apply in_app_or in H; destruct H as [H|H]; [apply S2 in H|apply S3 in H]]; tauto.
  - intros i j Hi Hj N L. rewrite !in_app_iff. apply in_app_or in Hi. apply in_app_or in Hj. destruct Hi as [Hi|Hi], Hj as [Hj|Hj]; auto.
    right. left. rewrite Nat.min_comm, Nat.max_comm. auto.
Qed.
Lemma ss_weaken (lo lo' hi hi' : nat -> nat -> Prop) A B R : (forall i j, In i A -> In j B -> lo' i j -> lo i j) -> (forall i j, In i A -> In j B -> hi i j -> hi' i j) -> set_spec lo hi A B R -> set_spec lo' hi' A B R.
Proof. intros H1 H2 [S C]. split; auto. intros a b H. apply S in H. destruct H as [L [(X & Y & Z)|(X & Y & Z)]]; split; auto. Qed.
Lemma ss_empty lo hi A B : (forall i j, In i A -> In j B -> ~ lo i j) -> set_spec lo hi A B [].
Proof. intros H. split; [intros ? ? []|]. intros i j Hi Hj _ L. exfalso. eapply H; eauto. Qed.

Lemma leaf_pairs_spec same A B (f : nat -> nat -> bool) : (forall i j, f i j = f j i) -> (same = true -> A = B) ->
  set_spec (fun i j => f i j = true) (fun i j => f i j = true) A B (leaf_pairs same A f B).
Proof.
  intros SY HS. unfold leaf_pairs. split.
  - intros a b H. apply in_flat_map in H. destruct H as (i & Hi & H). apply in_flat_map in H. destruct H as (j & Hj & H). apply filter_In in Hj. destruct Hj as [Hj F].
    destruct same; unfold pair_same, pair_diff in H; destruct (Nat.ltb_spec i j); try (destruct H as [E|[]]; injection E as <- <-; auto; fail); [destruct H|].
    destruct (Nat.ltb_spec j i); [|destruct H]. destruct H as [E|[]]. injection E as <- <-. split; auto.
  - intros i j Hi Hj N F. destruct same.
    + specialize (HS eq_refl). subst B. destruct (Nat.lt_total i j) as [L|[L|L]]; [|congruence|].
      * apply in_flat_map. exists i. split; auto. apply in_flat_map. exists j. split; [apply filter_In; auto|]. unfold pair_same.
        rewrite (proj2 (Nat.ltb_lt i j) L). left. f_equal; lia.
      * apply in_flat_map. exists j. split; auto. apply in_flat_map. exists i. split; [apply filter_In; split; auto; congruence|]. unfold pair_same.
        rewrite (proj2 (Nat.ltb_lt j i) L). left. f_equal; lia.
    + apply in_flat_map. exists i. split; auto. apply in_flat_map. exists j. split; [apply filter_In; auto|]. unfold pair_diff.
      destruct (Nat.ltb_spec i j); [left; f_equal; lia|]. destruct (Nat.ltb_spec j i); [left; f_equal; lia|lia].
Qed.

Definition apart (p1 p2 : list bool) : Prop := exists c b t1 t2, p1 = c ++ b :: t1 /\ p2 = c ++ negb b :: t2.
Lemma apart_neq p1 p2 : apart p1 p2 -> path_eqb p1 p2 = false.
Proof.
  intros (c & b & t1 & t2 & -> & ->). unfold path_eqb. destruct (list_eq_dec bool_dec _ _) as [E|E]; auto. exfalso.
  apply app_inv_head in E. injection E as E _. destruct b; discriminate.
Qed.
Lemma apart_l p1 p2 x : apart p1 p2 -> apart (p1 ++ [x]) p2.
Proof. intros (c & b & t1 & t2 & -> & ->). exists c, b, (t1 ++ [x]), t2. split; auto. rewrite <- app_assoc. reflexivity. Qed.
Lemma apart_r p1 p2 x : apart p1 p2 -> apart p1 (p2 ++ [x]).
Proof. intros (c & b & t1 & t2 & -> & ->). exists c, b, t1, (t2 ++ [x]). split; auto. rewrite <- app_assoc. reflexivity. Qed.
Lemma apart_split p : apart (p ++ [false]) (p ++ [true]).
Proof. exists p, false, [], []. auto. Qed.
Lemma path_eqb_refl p : path_eqb p p = true.
Proof. unfold path_eqb. destruct (list_eq_dec bool_dec p p); auto. Qed.

Lemma self_nc_apart t1 : forall p1 t2 p2, apart p1 p2 -> set_spec pT pT (leaves t1) (leaves t2) (self_nc t1 p1 t2 p2).
Proof.
  induction t1 as [idx1|e1 s1 l1 IHl g1 IHg]; intros p1 t2.
  - induction t2 as [idx2|e2 s2 l2 IH2l g2 IH2g]; intros p2 AP.
    + cbn [self_nc leaves]. eapply ss_weaken; [| |apply leaf_pairs_spec; auto]; [reflexivity|intros; exact I|rewrite (apart_neq _ _ AP); discriminate].
    + change (self_nc (Leaf idx1) p1 (Inner e2 s2 l2 g2) p2) with (self_nc (Leaf idx1) p1 l2 (p2 ++ [false]) ++ self_nc (Leaf idx1) p1 g2 (p2 ++ [true])).
      cbn [leaves]. apply ss_app_r; [apply IH2l|apply IH2g]; apply apart_r; auto.
  - intros p2 AP. cbn [self_nc leaves]. rewrite (apart_neq _ _ AP). apply ss_app_l; [apply IHl|apply IHg]; apply apart_l; auto.
Qed.
Lemma self_nc_same t : forall p, set_spec pT pT (leaves t) (leaves t) (self_nc t p t p).
Proof.
  induction t as [idx|e s l IHl g IHg]; intros p.
  - cbn [self_nc leaves]. eapply ss_weaken; [| |apply leaf_pairs_spec; auto]; [reflexivity|intros; exact I].
  - cbn [self_nc leaves]. rewrite path_eqb_refl. apply ss_same; auto. apply self_nc_apart. apply apart_split.
Qed.
Section SelfPairs.
Variables (data : list (list Q)) (m : nat) (p : pnorm) (r eps : Q).
Lemma self_pairs_eq t1 p1 r1 t2 p2 r2 : self_pairs data p r eps t1 p1 r1 t2 p2 r2 =
  if negb (root_le p (min_distance_rectangle p r1 r2) (r / (1 + eps))) then []
  else if root_lt p (max_distance_rectangle p r1 r2) (r * (1 + eps)) then self_nc t1 p1 t2 p2
  else match t1 with
       | Leaf idx1 =>
         match t2 with
         | Leaf idx2 => leaf_pairs (path_eqb p1 p2) idx1 (fun i j => root_le p (minkowski_p p (row data j) (row data i)) r) idx2
         | Inner d s l g => self_pairs data p r eps t1 p1 r1 l (p2 ++ [false]) (fst (rect_split r2 d s)) ++ self_pairs data p r eps t1 p1 r1 g (p2 ++ [true]) (snd (rect_split r2 d s))
         end
       | Inner d s l1 g1 =>
         let '(rl1, rg1) := rect_split r1 d s in
         match t2 with
         | Leaf _ => self_pairs data p r eps l1 (p1 ++ [false]) rl1 t2 p2 r2 ++ self_pairs data p r eps g1 (p1 ++ [true]) rg1 t2 p2 r2
         | Inner d s l2 g2 =>
           let '(rl2, rg2) := rect_split r2 d s in
           self_pairs data p r eps l1 (p1 ++ [false]) rl1 l2 (p2 ++ [false]) rl2 ++
           self_pairs data p r eps l1 (p1 ++ [false]) rl1 g2 (p2 ++ [true]) rg2 ++
           (if path_eqb p1 p2 then [] else self_pairs data p r eps g1 (p1 ++ [true]) rg1 l2 (p2 ++ [false]) rl2) ++
           self_pairs data p r eps g1 (p1 ++ [true]) rg1 g2 (p2 ++ [true]) rg2
         end
       end.
Proof. destruct t1, t2; reflexivity. Qed.
Definition sym_f (i j : nat) : bool := root_le p (minkowski_p p (row data j) (row data i)) r.
Lemma root_le_sym r' i j : root_le p (minkowski_p p (row data j) (row data i)) r' = root_le p (minkowski_p p (row data i) (row data j)) r'.
Proof.
  pose proof (minkowski_sym p (row data j) (row data i)) as E.
  destruct (root_le p (minkowski_p p (row data j) (row data i)) r') eqn:E1; destruct (root_le p (minkowski_p p (row data i) (row data j)) r') eqn:E2; auto.
  - rewrite (root_le_mono p (minkowski_p p (row data j) (row data i)) _ r' r') in E2; auto; lra.
  - rewrite (root_le_mono p (minkowski_p p (row data i) (row data j)) _ r' r') in E1; auto; lra.
Qed.
Hypothesis He : 0 <= eps.
Hypothesis Hr : 0 <= r.
Definition LO i j := root_le p (pd data data p i j) (r / (1 + eps)) = true.
Definition HI i j := root_le p (pd data data p i j) (r * (1 + eps)) = true.
Lemma leaf_LOHI same idx1 idx2 : (same = true -> idx1 = idx2) -> set_spec LO HI idx1 idx2 (leaf_pairs same idx1 (fun i j => root_le p (minkowski_p p (row data j) (row data i)) r) idx2).
Proof.
  intros HS. destruct (eps_bounds r eps He Hr) as [EL EU]. eapply ss_weaken; [| |apply leaf_pairs_spec; auto]; cbn beta; [| |intros i j; apply root_le_sym];
  intros i j _ _ H; (eapply root_le_mono; [apply Qle_refl| |exact H]); auto.
Qed.
Lemma self_pairs_apart t1 : forall p1 r1 t2 p2 r2, apart p1 p2 -> length r1 = length r2 -> splits_ok data m t1 -> splits_ok data m t2 -> cell_ok data t1 r1 -> cell_ok data t2 r2 ->
  set_spec LO HI (leaves t1) (leaves t2) (self_pairs data p r eps t1 p1 r1 t2 p2 r2).
Proof.
  assert (PR : forall t1 r1 t2 r2, length r1 = length r2 -> cell_ok data t1 r1 -> cell_ok data t2 r2 -> root_le p (min_distance_rectangle p r1 r2) (r / (1 + eps)) = false -> set_spec LO HI (leaves t1) (leaves t2) []).
  { intros t0 r1 t2 r2 HL C1 C2 E. apply ss_empty. intros i j Hi Hj. unfold LO. rewrite (prune2 data data p _ _ _ _ _ HL C1 C2 E i j Hi Hj). discriminate. }
  assert (BU : forall t1 r1 t2 r2 R, length r1 = length r2 -> cell_ok data t1 r1 -> cell_ok data t2 r2 -> root_lt p (max_distance_rectangle p r1 r2) (r * (1 + eps)) = true -> set_spec pT pT (leaves t1) (leaves t2) R -> set_spec LO HI (leaves t1) (leaves t2) R).
  { intros t0 r1 t2 r2 R HL C1 C2 E. apply ss_weaken; [intros; exact I|]. intros i j Hi Hj _. exact (bulk2 data data p _ _ _ _ _ HL C1 C2 E i j Hi Hj). }
  induction t1 as [idx1|e1 s1 l1 IHl g1 IHg].
  - intros p1 r1 t2. induction t2 as [idx2|e2 s2 l2 IH2l g2 IH2g]; intros p2 r2 AP HL S1 S2 C1 C2; rewrite self_pairs_eq;
      (destruct (root_le p (min_distance_rectangle p r1 r2) (r / (1 + eps))) eqn:E1; cbn [negb]; [|eapply PR; eauto]);
      (destruct (root_lt p (max_distance_rectangle p r1 r2) (r * (1 + eps))) eqn:E2; [eapply BU; eauto; apply self_nc_apart; auto|]).
    + apply leaf_LOHI. rewrite (apart_neq _ _ AP). discriminate.
    + destruct (cell_ok_split data m e2 s2 l2 g2 r2 S2 C2) as [Cl Cg]. destruct (split_length r2 e2 s2) as [Ll Lg]. destruct S2 as (_ & _ & _ & Sl & Sg).
      cbn [leaves]. apply ss_app_r; [apply IH2l|apply IH2g]; auto using apart_r; congruence.
  - intros p1 r1 t2 p2 r2 AP HL S1 S2 C1 C2. rewrite self_pairs_eq.
    destruct (root_le p (min_distance_rectangle p r1 r2) (r / (1 + eps))) eqn:E1; cbn [negb]; [|eapply PR; eauto].
    destruct (root_lt p (max_distance_rectangle p r1 r2) (r * (1 + eps))) eqn:E2; [eapply BU; eauto; apply self_nc_apart; auto|].
    destruct (cell_ok_split data m e1 s1 l1 g1 r1 S1 C1) as [Cl Cg]. destruct (split_length r1 e1 s1) as [Ll Lg]. destruct S1 as (_ & _ & _ & Sl & Sg).
    destruct (rect_split r1 e1 s1) as [rl1 rg1]. cbn [fst snd] in *. cbn [leaves]. destruct t2 as [idx2|e2 s2 l2 g2].
    + apply ss_app_l; [apply IHl|apply IHg]; auto using apart_l; congruence.
    + destruct (cell_ok_split data m e2 s2 l2 g2 r2 S2 C2) as [Cl2 Cg2]. destruct (split_length r2 e2 s2) as [Ll2 Lg2]. destruct S2 as (_ & _ & _ & Sl2 & Sg2).
      destruct (rect_split r2 e2 s2) as [rl2 rg2]. cbn [fst snd] in *. cbn [leaves]. rewrite (apart_neq _ _ AP).
      rewrite (app_assoc (self_pairs data p r eps l1 (p1 ++ [false]) rl1 l2 (p2 ++ [false]) rl2)).
      apply ss_app_l; apply ss_app_r; first [apply IHl|apply IHg]; auto using apart_l, apart_r; congruence.
Qed.
Lemma self_pairs_same t : forall pa rc, splits_ok data m t -> cell_ok data t rc -> set_spec LO HI (leaves t) (leaves t) (self_pairs data p r eps t pa rc t pa rc).
Proof.
  induction t as [idx|e s l IHl g IHg]; intros pa rc S C; rewrite self_pairs_eq;
    (destruct (root_le p (min_distance_rectangle p rc rc) (r / (1 + eps))) eqn:E1; cbn [negb];
       [|apply ss_empty; intros i j Hi Hj; unfold LO; rewrite (prune2 data data p _ _ _ _ _ eq_refl C C E1 i j Hi Hj); discriminate]);
    (destruct (root_lt p (max_distance_rectangle p rc rc) (r * (1 + eps))) eqn:E2;
       [eapply ss_weaken; [| |apply self_nc_same]; [intros; exact I|intros i j Hi Hj _; exact (bulk2 data data p _ _ _ _ _ eq_refl C C E2 i j Hi Hj)]|]).
  - apply leaf_LOHI. auto.
  - destruct (cell_ok_split data m e s l g rc S C) as [Cl Cg]. destruct (split_length rc e s) as [Ll Lg]. destruct S as (_ & _ & _ & Sl & Sg).
    destruct (rect_split rc e s) as [rl rg]. cbn [fst snd] in *. cbn [leaves]. rewrite path_eqb_refl. cbn [app].
    apply ss_same; auto.
    + intros i j. unfold LO, pd. intros H. rewrite root_le_sym. auto.
    + apply self_pairs_apart; auto using apart_split. congruence.
Qed.
End SelfPairs.
