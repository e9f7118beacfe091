From Verif Require Import Base QBase KDModel KDSpec HavModel HavSpec BallModel BallSpec MskModel MskSpec KDProofs KD4Proofs KD2Proofs Hav2Proofs Ball2Proofs.
From Coq Require Import List Reals Lia.
Import ListNotations.

Lemma filter_map {A B} (f : A -> B) P l : filter P (map f l) = map f (filter (fun x => P (f x)) l).
Proof. induction l as [|x l IH]; cbn [map filter]; [reflexivity|]. rewrite IH. destruct (P (f x)); reflexivity. Qed.
Lemma filter_same {A} (P Q : A -> bool) l : (forall x, P x = Q x) -> filter P l = filter Q l.
Proof. intros H. induction l as [|x l IH]; cbn [filter]; [reflexivity|]. rewrite IH, H. reflexivity. Qed.
Lemma flat_map_map {A B C} (f : A -> B) (g : B -> list C) l : flat_map g (map f l) = flat_map (fun x => g (f x)) l.
Proof. induction l as [|x l IH]; cbn [map flat_map]; [reflexivity|]. rewrite IH. reflexivity. Qed.
Lemma map_flat_map {A B C} (f : B -> C) (g : A -> list B) l : map f (flat_map g l) = flat_map (fun x => map f (g x)) l.
Proof. induction l as [|x l IH]; cbn [map flat_map]; [reflexivity|]. rewrite map_app, IH. reflexivity. Qed.
Lemma flat_map_same {A B} (f g : A -> list B) l : (forall x, f x = g x) -> flat_map f l = flat_map g l.
Proof. intros H. induction l as [|x l IH]; cbn [flat_map]; [reflexivity|]. rewrite IH, H. reflexivity. Qed.
Lemma is_nil_map {A B} (f : A -> B) l : is_nil (map f l) = is_nil l.
Proof. destruct l; reflexivity. Qed.

(** a tree with its points renumbered *)
Fixpoint relabel (f : nat -> nat) (t : node) : node := match t with Leaf idx => Leaf (map f idx) | Inner d s l g => Inner d s (relabel f l) (relabel f g) end.
Lemma leaves_relabel f t : leaves (relabel f t) = map f (leaves t).
Proof. induction t as [idx|d s l IL g IG]; cbn [leaves relabel]; [reflexivity|]. rewrite IL, IG, map_app. reflexivity. Qed.
Lemma leaf_lists_relabel f t : leaf_lists (relabel f t) = map (map f) (leaf_lists t).
Proof. induction t as [idx|d s l IL g IG]; cbn [leaf_lists relabel map]; [reflexivity|]. rewrite IL, IG, map_app. reflexivity. Qed.
Lemma children_relabel f t : children (relabel f t) = children t.
Proof. induction t as [idx|d s l IL g IG]; cbn [children relabel]; [apply map_length|]. rewrite IL, IG. reflexivity. Qed.
Definition both (f g : nat -> nat) (ij : nat * nat) : nat * nat := (f (fst ij), g (snd ij)).

Section One.
  Variables (f : nat -> nat) (data data' : list (list Q)).
  Hypothesis HF : forall i, row data (f i) = row data' i.

  Lemma at_relabel d i : at_ data d (f i) = at_ data' d i.
  Proof. unfold at_. rewrite HF. reflexivity. Qed.
  Lemma build_relabel ls : forall fuel idx maxes mins,
    build fuel ls data (map f idx) maxes mins = match build fuel ls data' idx maxes mins with Ok t => Ok (relabel f t) | Raises e => Raises e end.
  Proof.
    induction fuel as [|fuel IH]; intros idx maxes mins; [reflexivity|].
    cbn [build]. rewrite map_length. destruct (length idx <=? ls)%nat; [reflexivity|].
    set (d := argmax (zipw Qminus maxes mins)). destruct (Qeqb (nth d maxes 0%Q) (nth d mins 0%Q)); [reflexivity|].
    assert (V : map (at_ data d) (map f idx) = map (at_ data' d) idx). { rewrite map_map. apply map_ext. intros i. apply at_relabel. }
    rewrite V.
    assert (FL : forall s, filter (fun i => Qleb (at_ data d i) s) (map f idx) = map f (filter (fun i => Qleb (at_ data' d i) s) idx)).
    { intros s. rewrite filter_map. f_equal. apply filter_same. intros i. rewrite at_relabel. reflexivity. }
    assert (FR : forall s, filter (fun i => Qltb s (at_ data d i)) (map f idx) = map f (filter (fun i => Qltb s (at_ data' d i)) idx)).
    { intros s. rewrite filter_map. f_equal. apply filter_same. intros i. rewrite at_relabel. reflexivity. }
    assert (FL' : forall s, filter (fun i => Qltb (at_ data d i) s) (map f idx) = map f (filter (fun i => Qltb (at_ data' d i) s) idx)).
    { intros s. rewrite filter_map. f_equal. apply filter_same. intros i. rewrite at_relabel. reflexivity. }
    assert (FR' : forall s, filter (fun i => Qleb s (at_ data d i)) (map f idx) = map f (filter (fun i => Qleb s (at_ data' d i)) idx)).
    { intros s. rewrite filter_map. f_equal. apply filter_same. intros i. rewrite at_relabel. reflexivity. }
    set (sp := ((nth d maxes 0 + nth d mins 0) / 2)%Q). rewrite !FL, !FR, is_nil_map.
    destruct (is_nil (filter (fun i => Qleb (at_ data' d i) sp) idx)).
    - rewrite !is_nil_map, !FL', !FR'. destruct (is_nil (filter (fun i => Qltb (amin (map (at_ data' d) idx)) (at_ data' d i)) idx)); rewrite is_nil_map.
      + destruct (is_nil (filter (fun i => Qltb (at_ data' d i) (amax (map (at_ data' d) idx))) idx)); [destruct (forallb _ _); reflexivity|].
        rewrite !IH. destruct (build fuel ls data' _ _ mins); [|reflexivity]. cbn [bind]. destruct (build fuel ls data' _ maxes _); reflexivity.
      + destruct (is_nil (filter (fun i => Qleb (at_ data' d i) (amin (map (at_ data' d) idx))) idx)); [destruct (forallb _ _); reflexivity|].
        rewrite !IH. destruct (build fuel ls data' _ _ mins); [|reflexivity]. cbn [bind]. destruct (build fuel ls data' _ maxes _); reflexivity.
    - rewrite !is_nil_map, !FL', !FR'. destruct (is_nil (filter (fun i => Qltb sp (at_ data' d i)) idx)); rewrite is_nil_map.
      + destruct (is_nil (filter (fun i => Qltb (at_ data' d i) (amax (map (at_ data' d) idx))) idx)); [destruct (forallb _ _); reflexivity|].
        rewrite !IH. destruct (build fuel ls data' _ _ mins); [|reflexivity]. cbn [bind]. destruct (build fuel ls data' _ maxes _); reflexivity.
      + destruct (is_nil (filter (fun i => Qleb (at_ data' d i) sp) idx)); [destruct (forallb _ _); reflexivity|].
        rewrite !IH. destruct (build fuel ls data' _ _ mins); [|reflexivity]. cbn [bind]. destruct (build fuel ls data' _ maxes _); reflexivity.
  Qed.

  Lemma hball_relabel x r : forall t rc, hball_point data x r (relabel f t) rc = map f (hball_point data' x r t rc).
  Proof.
    induction t as [idx|d s l IL g IG]; intros rc; cbn [hball_point relabel].
    - destruct (Rgtb _ _); [reflexivity|]. destruct (Rltb _ _); [reflexivity|]. rewrite filter_map. f_equal. apply filter_same. intros i. rewrite HF. reflexivity.
    - destruct (Rgtb _ _); [reflexivity|]. destruct (Rltb _ _); [apply (leaves_relabel f (Inner d s l g))|]. destruct (rect_split rc d s) as [rl rg]. rewrite IL, IG, map_app. reflexivity.
  Qed.
End One.

Section Two.
  Variables (f g : nat -> nat).
  Lemma pairs_relabel : forall t1 t2, pairs_nc (relabel f t1) (relabel g t2) = map (both f g) (pairs_nc t1 t2).
  Proof.
    induction t1 as [idx1|d1 s1 l1 IL1 g1 IG1]; intros t2.
    - induction t2 as [idx2|d s l IL g0 IG]; cbn [relabel pairs_nc].
      + rewrite flat_map_map, map_flat_map. apply flat_map_same. intros i. rewrite !map_map. reflexivity.
      + cbn [relabel pairs_nc] in IL, IG. rewrite IL, IG, map_app. reflexivity.
    - cbn [relabel pairs_nc]. rewrite IL1, IG1, map_app. reflexivity.
  Qed.
  Variables (prune bulk : rect -> rect -> bool) (near near' : nat -> nat -> bool).
  Hypothesis HN : forall i j, near (f i) (g j) = near' i j.
  Lemma htraverse_relabel : forall t1 r1 t2 r2, htraverse prune bulk near (relabel f t1) r1 (relabel g t2) r2 = map (both f g) (htraverse prune bulk near' t1 r1 t2 r2).
  Proof.
    induction t1 as [idx1|d1 s1 l1 IL1 g1 IG1]; intros r1 t2.
    - induction t2 as [idx2|d s l IL g0 IG]; intros r2; cbn [relabel]; rewrite (htraverse_eq prune bulk near), (htraverse_eq prune bulk near'); destruct (prune r1 r2); try reflexivity; destruct (bulk r1 r2);
        try exact (pairs_relabel (Leaf idx1) (Leaf idx2)); try exact (pairs_relabel (Leaf idx1) (Inner d s l g0)).
      + rewrite flat_map_map, map_flat_map. apply flat_map_same. intros i. rewrite filter_map, !map_map. f_equal. apply filter_same. intros j. apply HN.
      + cbn [relabel] in IL, IG. rewrite IL, IG, map_app. reflexivity.
    - intros r2. destruct t2 as [idx2|d s l g0]; cbn [relabel]; rewrite (htraverse_eq prune bulk near), (htraverse_eq prune bulk near'); destruct (prune r1 r2); try reflexivity; destruct (bulk r1 r2);
        try exact (pairs_relabel (Inner d1 s1 l1 g1) (Leaf idx2)); try exact (pairs_relabel (Inner d1 s1 l1 g1) (Inner d s l g0)).
      + cbv zeta. change (Leaf (map g idx2)) with (relabel g (Leaf idx2)). rewrite IL1, IG1, map_app. reflexivity.
      + cbv zeta. rewrite !IL1, !IG1, !map_app. reflexivity.
  Qed.
End Two.

(** ** The queries of KDTree that HaversineDistanceKDTree inherits *)
Section Pairs.
  Variables (f : nat -> nat) (data data' : list (list Q)) (p : pnorm) (r eps : Q).
  Hypothesis HF : forall i, row data (f i) = row data' i.
  Hypothesis MONO : forall i j, (f i <? f j)%nat = (i <? j)%nat.
  Lemma pair_same_relabel i j : pair_same (f i) (f j) = map (both f f) (pair_same i j).
  Proof. unfold pair_same. rewrite MONO. destruct (i <? j)%nat; reflexivity. Qed.
  Lemma pair_diff_relabel i j : pair_diff (f i) (f j) = map (both f f) (pair_diff i j).
  Proof. unfold pair_diff. rewrite !MONO. destruct (i <? j)%nat; [reflexivity|]. destruct (j <? i)%nat; reflexivity. Qed.
  Lemma leaf_pairs_relabel same idx1 cl cl' idx2 : (forall i j, cl (f i) (f j) = cl' i j) -> leaf_pairs same (map f idx1) cl (map f idx2) = map (both f f) (leaf_pairs same idx1 cl' idx2).
  Proof.
    intros H. unfold leaf_pairs. rewrite flat_map_map, map_flat_map. apply flat_map_same. intros i. rewrite filter_map, flat_map_map, map_flat_map.
    rewrite (filter_same _ (cl' i)) by (intros; apply H). apply flat_map_same. intros j. destruct same; [apply pair_same_relabel|apply pair_diff_relabel].
  Qed.
  Lemma self_nc_relabel : forall t1 p1 t2 p2, self_nc (relabel f t1) p1 (relabel f t2) p2 = map (both f f) (self_nc t1 p1 t2 p2).
  Proof.
    induction t1 as [idx1|d1 s1 l1 IL1 g1 IG1]; intros p1 t2.
    - induction t2 as [idx2|d s l IL g IG]; intros p2.
      + cbn [relabel self_nc]. apply leaf_pairs_relabel. reflexivity.
      + cbn [relabel self_nc] in IL, IG |- *. rewrite IL, IG, map_app. reflexivity.
    - intros p2. destruct t2 as [idx2|d s l g]; cbn [relabel self_nc]; destruct (path_eqb p1 p2).
      + change (Leaf (map f idx2)) with (relabel f (Leaf idx2)). rewrite IL1, IG1, map_app. reflexivity.
      + change (Leaf (map f idx2)) with (relabel f (Leaf idx2)). rewrite IL1, IG1, map_app. reflexivity.
      + rewrite !IL1, IG1, !map_app. reflexivity.
      + change (Inner d s (relabel f l) (relabel f g)) with (relabel f (Inner d s l g)). rewrite IL1, IG1, map_app. reflexivity.
  Qed.
  Lemma self_pairs_relabel : forall t1 p1 r1 t2 p2 r2, self_pairs data p r eps (relabel f t1) p1 r1 (relabel f t2) p2 r2 = map (both f f) (self_pairs data' p r eps t1 p1 r1 t2 p2 r2).
  Proof.
    induction t1 as [idx1|d1 s1 l1 IL1 g1 IG1]; intros p1 r1 t2.
    - induction t2 as [idx2|d s l IL g IG]; intros p2 r2; cbn [relabel]; rewrite (self_pairs_eq data), (self_pairs_eq data'); destruct (negb _); try reflexivity;
        destruct (root_lt _ _ _); try exact (self_nc_relabel (Leaf idx1) p1 (Leaf idx2) p2); try exact (self_nc_relabel (Leaf idx1) p1 (Inner d s l g) p2).
      + apply leaf_pairs_relabel. intros i j. rewrite !HF. reflexivity.
      + cbn [relabel] in IL, IG. rewrite IL, IG, map_app. reflexivity.
    - intros p2 r2. destruct t2 as [idx2|d s l g]; cbn [relabel]; rewrite (self_pairs_eq data), (self_pairs_eq data'); destruct (negb _); try reflexivity;
        destruct (root_lt _ _ _); try exact (self_nc_relabel (Inner d1 s1 l1 g1) p1 (Leaf idx2) p2); try exact (self_nc_relabel (Inner d1 s1 l1 g1) p1 (Inner d s l g) p2); destruct (rect_split r1 d1 s1) as [rl1 rg1].
      + change (Leaf (map f idx2)) with (relabel f (Leaf idx2)). rewrite IL1, IG1, map_app. reflexivity.
      + destruct (rect_split r2 d s) as [rl2 rg2]. destruct (path_eqb p1 p2); rewrite !IL1, !IG1, !map_app; reflexivity.
  Qed.
End Pairs.

Lemma prod_map {A B C D} (f : A -> C) (g : B -> D) a b : list_prod (map f a) (map g b) = map (fun ij : A * B => (f (fst ij), g (snd ij))) (list_prod a b).
Proof. induction a as [|x a IH]; cbn [map list_prod]; [reflexivity|]. rewrite map_app, IH, !map_map. reflexivity. Qed.
Section Two2.
  Variables (f g : nat -> nat) (d1 d1' d2 d2' : list (list Q)) (p : pnorm).
  Hypothesis HF : forall i, row d1 (f i) = row d1' i.
  Hypothesis HG : forall i, row d2 (g i) = row d2' i.
  Lemma npairs_relabel x a b : npairs d1 d2 p x (map f a) (map g b) = npairs d1' d2' p x a b.
  Proof. unfold npairs. rewrite prod_map, filter_map, map_length. f_equal. apply filter_same. intros [i j]. cbn [fst snd]. unfold dist12. rewrite HF, HG. reflexivity. Qed.
  Lemma count_relabel rs : forall t1 r1 t2 r2 idx, count_tree d1 d2 p rs (relabel f t1) r1 (relabel g t2) r2 idx = count_tree d1' d2' p rs t1 r1 t2 r2 idx.
  Proof.
    assert (ST : forall t1 r1 t2 r2 idx F G, (forall i, F i = G i) -> count_step p rs (relabel f t1) r1 (relabel g t2) r2 idx F = count_step p rs t1 r1 t2 r2 idx G).
    { intros t1 r1 t2 r2 idx F G E. unfold count_step. rewrite !children_relabel, E. reflexivity. }
    induction t1 as [idx1|e1 s1 l1 IL1 g1 IG1]; intros r1 t2.
    - induction t2 as [idx2|d s l IL g0 IG]; intros r2 idx; cbn [relabel]; rewrite (count_tree_eq d1 d2), (count_tree_eq d1' d2').
      + apply (ST (Leaf idx1) r1 (Leaf idx2) r2). intros i. apply map_ext. intros k. rewrite npairs_relabel. reflexivity.
      + apply (ST (Leaf idx1) r1 (Inner d s l g0) r2). intros i. cbn [relabel] in IL, IG. rewrite IL, IG. reflexivity.
    - intros r2 idx. destruct t2 as [idx2|d s l g0]; cbn [relabel]; rewrite (count_tree_eq d1 d2), (count_tree_eq d1' d2').
      + apply (ST (Inner e1 s1 l1 g1) r1 (Leaf idx2) r2). intros i. destruct (rect_split r1 e1 s1) as [rl1 rg1]. change (Leaf (map g idx2)) with (relabel g (Leaf idx2)). rewrite IL1, IG1. reflexivity.
      + apply (ST (Inner e1 s1 l1 g1) r1 (Inner d s l g0) r2). intros i. destruct (rect_split r1 e1 s1) as [rl1 rg1]. destruct (rect_split r2 d s) as [rl2 rg2]. rewrite !IL1, !IG1. reflexivity.
  Qed.
  Lemma sparse_relabel r : forall t1 r1 t2 r2, sparse_tree d1 d2 p r (relabel f t1) r1 (relabel g t2) r2 = map (fun e : nat * nat * Q => (both f g (fst e), snd e)) (sparse_tree d1' d2' p r t1 r1 t2 r2).
  Proof.
    induction t1 as [idx1|e1 s1 l1 IL1 g1 IG1]; intros r1 t2.
    - induction t2 as [idx2|d s l IL g0 IG]; intros r2; cbn [relabel]; rewrite (sparse_tree_eq d1 d2), (sparse_tree_eq d1' d2'); destruct (negb _); try reflexivity.
      + rewrite flat_map_map, map_flat_map. apply flat_map_same. intros i. rewrite flat_map_map, map_flat_map. apply flat_map_same. intros j. cbv zeta. rewrite HF, HG. destruct (root_le _ _ _); reflexivity.
      + cbn [relabel] in IL, IG. rewrite IL, IG, map_app. reflexivity.
    - intros r2. destruct t2 as [idx2|d s l g0]; cbn [relabel]; rewrite (sparse_tree_eq d1 d2), (sparse_tree_eq d1' d2'); destruct (negb _); try reflexivity; destruct (rect_split r1 e1 s1) as [rl1 rg1].
      + change (Leaf (map g idx2)) with (relabel g (Leaf idx2)). rewrite IL1, IG1, map_app. reflexivity.
      + destruct (rect_split r2 d s) as [rl2 rg2]. rewrite !IL1, !IG1, !map_app. reflexivity.
  Qed.
End Two2.
