(** Linear and nearest interpolation on one grid (C27, C28). *)
From Verif Require Import Base QBase DateModel InterpModel InterpSpec.
From Coq Require Import Qabs.
Open Scope Q_scope.

(** ** One axis *)
Lemma increasing_nth l i j : increasing l -> (i < j)%nat -> (j < length l)%nat -> nth i l 0 < nth j l 0.
Proof.
  intros H. revert i j. induction H as [|x l HS IH HF]; intros i j Hij Hj; [simpl in Hj; lia|].
  destruct j as [|j]; [lia|]. destruct i as [|i]; simpl.
  - rewrite Forall_forall in HF. apply HF. apply nth_In. simpl in Hj. lia.
  - apply IH; simpl in Hj; lia.
Qed.
Lemma increasing_nth_le l i j : increasing l -> (i <= j)%nat -> (j < length l)%nat -> nth i l 0 <= nth j l 0.
Proof. intros H Hij Hj. destruct (Nat.eq_dec i j) as [->|]; [lra|]. apply Qlt_le_weak, increasing_nth; auto; lia. Qed.
Lemma ss_left_below l v i : (i < searchsorted_left l v)%nat -> nth i l 0 < v.
Proof.
  revert i. induction l as [|x l IH]; intros i H; simpl in H; [lia|]. destruct (Qltb_spec x v) as [L|L]; [|lia].
  destruct i as [|i]; simpl; auto. apply IH. lia.
Qed.
Lemma ss_left_above l v i : increasing l -> (searchsorted_left l v <= i)%nat -> (i < length l)%nat -> v <= nth i l 0.
Proof.
  intros HI. revert i. induction HI as [|x l HS IH HF]; intros i H Hi; [simpl in Hi; lia|]. simpl in H. destruct (Qltb_spec x v) as [L|L].
  - destruct i as [|i]; [lia|]. simpl. apply IH; simpl in Hi; lia.
  - apply Qnot_lt_le in L. destruct i as [|i]; simpl; auto. rewrite Forall_forall in HF. assert (x < nth i l 0) by (apply HF, nth_In; simpl in Hi; lia). lra.
Qed.
Definition cell_index (a : list Q) (t : Q) : nat := Nat.min (pred (searchsorted_left a t)) (length a - 2).
Definition cell_norm (a : list Q) (t : Q) : Q := let i := cell_index a t in (t - nth i a 0) / (nth (S i) a 0 - nth i a 0).
Lemma find_index_good a t : good_axis a -> find_index a t = (cell_index a t, Some (cell_norm a t)).
Proof. intros [_ H]. unfold find_index. destruct (Nat.leb_spec (length a) 1); [lia|]. reflexivity. Qed.
Lemma cell_index_lt a t : good_axis a -> (S (cell_index a t) < length a)%nat.
Proof. intros [_ H]. unfold cell_index. lia. Qed.
Lemma last_nth (a : list Q) : last a 0 = nth (length a - 1) a 0.
Proof.
  induction a as [|x [|y a] IH]; [reflexivity|reflexivity|]. change (last (x :: y :: a) 0) with (last (y :: a) 0). rewrite IH. simpl. rewrite Nat.sub_0_r. reflexivity.
Qed.
Lemma hd_nth (a : list Q) : hd 0 a = nth 0 a 0. Proof. destruct a; reflexivity. Qed.
Lemma cell_index_encloses a t : good_axis a -> within a t -> encloses a (cell_index a t) t.
Proof.
  intros HG [H0 H1]. split; [apply cell_index_lt; auto|]. destruct HG as [HI HL]. rewrite last_nth in H1. rewrite hd_nth in H0. unfold cell_index.
  set (s := searchsorted_left a t). destruct (Nat.le_gt_cases (pred s) (length a - 2)) as [C|C].
  - rewrite Nat.min_l by auto. split.
    + destruct s as [|s'] eqn:Es; [exact H0|]. simpl. apply Qlt_le_weak, ss_left_below. fold s. lia.
    + destruct s as [|s'] eqn:Es; simpl pred in *.
      * apply Qle_trans with (nth 0 a 0); [apply ss_left_above; auto; fold s; lia|apply increasing_nth_le; auto; lia].
      * apply ss_left_above; auto; fold s; lia.
  - rewrite Nat.min_r by lia. split; [apply Qlt_le_weak, ss_left_below; fold s; lia|]. replace (S (length a - 2)) with (length a - 1)%nat by lia. auto.
Qed.
Lemma cell_gap a i : good_axis a -> (S i < length a)%nat -> nth i a 0 < nth (S i) a 0.
Proof. intros [H _] Hi. apply increasing_nth; auto. Qed.
Lemma out_of_bounds1_spec a t : out_of_bounds1 a t = false <-> within a t.
Proof. unfold out_of_bounds1, within. rewrite orb_false_iff, !Qltb_ge. tauto. Qed.

(** ** The sum over the corners *)
Fixpoint blend (idx : list nat) (ys : list Q) (v : list nat -> Q) : Q :=
  match idx, ys with
  | i :: idx, y :: ys => (1 - y) * blend idx ys (fun e => v (i :: e)) + y * blend idx ys (fun e => v (S i :: e))
  | _, _ => v []
  end.
Fixpoint weight (e idx : list nat) (ys : list Q) : Q :=
  match e, idx, ys with k :: e, i :: idx, y :: ys => (if (k =? i)%nat then 1 - y else y) * weight e idx ys | _, _, _ => 1 end.
Definition wstep (w : option Q) (eiy : nat * (nat * option Q)) : option Q :=
  let '(e, (i, y)) := eiy in otimes w (if (e =? i)%nat then oplus (Some 1) (otimes (Some (-1)) y) else y).
Lemma weight_fold e : forall idx ys w, exists q, fold_left wstep (combine e (combine idx (map Some ys))) (Some w) = Some q /\ q == w * weight e idx ys.
Proof.
  induction e as [|k e IH]; intros idx ys w; [exists w; split; [reflexivity|simpl; ring]|].
  destruct idx as [|i idx], ys as [|y ys]; try (exists w; split; [reflexivity|simpl; ring]).
  cbn [map combine fold_left wstep]. destruct (k =? i)%nat eqn:E; cbn [otimes oplus].
  - destruct (IH idx ys (w * (1 + -1 * y))) as (q & A & B). exists q. split; auto. rewrite B. cbn [weight]. rewrite E. ring.
  - destruct (IH idx ys (w * y)) as (q & A & B). exists q. split; auto. rewrite B. cbn [weight]. rewrite E. ring.
Qed.
Definition edges (idx : list nat) := product (map (fun i => [i; S i]) idx).
Fixpoint sumQ (l : list Q) : Q := match l with [] => 0 | x :: l => x + sumQ l end.
Lemma sumQ_app l m : sumQ (l ++ m) == sumQ l + sumQ m.
Proof. induction l as [|x l IH]; simpl; [ring|]. rewrite IH. ring. Qed.
Lemma sumQ_scale c (f g : list nat -> Q) l : (forall e, In e l -> f e == c * g e) -> sumQ (map f l) == c * sumQ (map g l).
Proof. induction l as [|x l IH]; intros H; simpl; [ring|]. rewrite IH, (H x) by (try (left; auto; fail); intros; apply H; right; auto). ring. Qed.
Lemma edges_sum idx : forall ys v, length ys = length idx -> sumQ (map (fun e => v e * weight e idx ys) (edges idx)) == blend idx ys v.
Proof.
  induction idx as [|i idx IH]; intros ys v L; [simpl; ring|]. destruct ys as [|y ys]; [discriminate|]. cbn [blend]. injection L as L.
  unfold edges. cbn [map product flat_map]. fold (edges idx). rewrite app_nil_r, map_app, sumQ_app, !map_map.
  rewrite <- (IH ys (fun e => v (i :: e)) L), <- (IH ys (fun e => v (S i :: e)) L). apply Qplus_comp; apply sumQ_scale; intros e _; cbn [weight].
  - rewrite Nat.eqb_refl. ring.
  - rewrite (proj2 (Nat.eqb_neq (S i) i)) by lia. ring.
Qed.
Lemma edges_corner idx e : In e (edges idx) <-> corner idx e.
Proof.
  revert e. induction idx as [|i idx IH]; intros e.
  - simpl. split; [intros [<-|[]]; constructor|intros H; inversion H; auto].
  - unfold edges. cbn [map product flat_map]. fold (edges idx). rewrite app_nil_r, in_app_iff, !in_map_iff. split.
    + intros [(x & <- & H)|(x & <- & H)]; apply IH in H; constructor; auto.
    + intros H. inversion H as [|? k ? e' Hk He]; subst. apply IH in He. destruct Hk as [->| ->]; [left|right]; eauto.
Qed.
Lemma linear_fold values trailing idx ys v : (forall e, corner idx e -> values (e ++ trailing) = Some (v e)) -> length ys = length idx ->
  exists q, evaluate_linear values idx (map Some ys) trailing = Some q /\ q == blend idx ys v.
Proof.
  intros HV L. unfold evaluate_linear. fold (edges idx). fold wstep.
  assert (G : forall es acc, (forall e, In e es -> corner idx e) -> exists q, fold_left (fun value edge => oplus value (otimes (values (edge ++ trailing)) (fold_left wstep (combine edge (combine idx (map Some ys))) (Some 1)))) es (Some acc) = Some q /\
     q == acc + sumQ (map (fun e => v e * weight e idx ys) es)).
  { induction es as [|e es IH]; intros acc H; [exists acc; split; [reflexivity|simpl; ring]|]. cbn [fold_left]. rewrite (HV e) by (apply H; left; auto).
    destruct (weight_fold e idx ys 1) as (w & Ew & Hw). rewrite Ew. cbn [otimes oplus]. destruct (IH (acc + v e * w)) as (q & A & B); [intros; apply H; right; auto|].
    exists q. split; auto. rewrite B, Hw. cbn [map sumQ]. ring. }
  destruct (G (edges idx) 0) as (q & A & B); [intros e H; apply edges_corner; auto|]. exists q. split; [exact A|]. rewrite B, edges_sum by auto. ring.
Qed.
Lemma linear_missing values trailing idx norms e : corner idx e -> values (e ++ trailing) = None -> evaluate_linear values idx norms trailing = None.
Proof.
  intros HC HN. apply edges_corner in HC. unfold evaluate_linear. fold (edges idx). fold wstep.
  assert (G : forall es acc, In e es \/ acc = None -> fold_left (fun value edge => oplus value (otimes (values (edge ++ trailing)) (fold_left wstep (combine edge (combine idx norms)) (Some 1)))) es acc = None).
  { induction es as [|x es IH]; intros acc H; [destruct H as [[]|H]; auto|]. cbn [fold_left]. apply IH. destruct H as [[->|H]| ->]; [right|left; auto|right; reflexivity]. rewrite HN. destruct acc; reflexivity. }
  apply G. left. auto.
Qed.

(** ** Geometry *)
Fixpoint norms_of (axes : list (list Q)) (cell : list nat) (x : list Q) : list Q :=
  match axes, cell, x with a :: axes, i :: cell, t :: x => (t - nth i a 0) / (nth (S i) a 0 - nth i a 0) :: norms_of axes cell x | _, _, _ => [] end.
Inductive on_cell : list (list Q) -> list nat -> list Q -> Prop :=
| on_nil : on_cell [] [] []
| on_cons a axes i cell t x : (S i < length a)%nat -> on_cell axes cell x -> on_cell (a :: axes) (i :: cell) (t :: x).
Lemma cell_on axes cell x : cell_of axes cell x -> on_cell axes cell x.
Proof. induction 1 as [|a axes i cell t x [H1 H2] H IH]; constructor; auto. Qed.
Lemma blend_multilinear axes cell x : on_cell axes cell x -> Forall good_axis axes -> forall v, blend cell (norms_of axes cell x) v == multilinear axes cell x v.
Proof.
  induction 1 as [|a axes i cell t x Hi H IH]; intros HG v; [reflexivity|]. inversion HG as [|? ? G1 G2]; subst. cbn [blend norms_of multilinear].
  rewrite !IH by auto. pose proof (cell_gap a i G1 Hi). field. lra.
Qed.
Lemma norms_length axes cell x : on_cell axes cell x -> length (norms_of axes cell x) = length cell.
Proof. induction 1; simpl; auto. Qed.
Definition cells (axes : list (list Q)) (x : list Q) : list nat := zip_with cell_index axes x.
Lemma find_indices_good axes x : Forall good_axis axes -> length x = length axes ->
  map fst (find_indices axes x) = cells axes x /\ map snd (find_indices axes x) = map Some (norms_of axes (cells axes x) x) /\ on_cell axes (cells axes x) x.
Proof.
  intros HG. revert x. induction HG as [|a axes G HG IH]; intros [|t x] L; try discriminate; [repeat split; constructor|].
  injection L as L. destruct (IH x L) as (A & B & C). unfold find_indices, cells, zip_with in *. cbn [combine map fst snd norms_of]. rewrite find_index_good by auto. cbn [fst snd].
  rewrite A, B. split; [reflexivity|]. split; [reflexivity|]. constructor; auto. apply cell_index_lt; auto.
Qed.
Lemma inside_cell axes x : Forall good_axis axes -> inside axes x -> cell_of axes (cells axes x) x.
Proof.
  intros HG H. revert HG. induction H as [|a t axes x H1 H IH]; intros HG; [constructor|]. inversion HG; subst. unfold cells, zip_with in *. cbn [combine map fst snd]. constructor; auto. apply cell_index_encloses; auto.
Qed.
Lemma out_of_bounds_spec axes x : length x = length axes -> out_of_bounds axes x = false <-> inside axes x.
Proof.
  revert x. induction axes as [|a axes IH]; intros [|t x] L; try discriminate; [split; [constructor|reflexivity]|]. injection L as L. unfold out_of_bounds, zip_with in *. cbn [combine map existsb fst snd].
  rewrite orb_false_iff, out_of_bounds1_spec. rewrite (IH x L). split; [intros [A B]; constructor; auto|intros H; inversion H; subst; auto].
Qed.
(** multilinear interpolation reproduces multi-affine fields *)
Lemma multilinear_ext axes cell x v w : (forall e, corner cell e -> v e == w e) -> on_cell axes cell x -> Forall good_axis axes -> multilinear axes cell x v == multilinear axes cell x w.
Proof.
  intros HV H HG. revert v w HV. induction H as [|a axes i cell t x Hi H IH]; intros v w HV; [apply HV; constructor|]. inversion HG as [|? ? G1 G2]; subst. cbn [multilinear].
  rewrite (IH G2 (fun e => v (i :: e)) (fun e => w (i :: e))) by (intros e He; apply HV; constructor; auto).
  rewrite (IH G2 (fun e => v (S i :: e)) (fun e => w (S i :: e))) by (intros e He; apply HV; constructor; auto). reflexivity.
Qed.
Lemma multilinear_lin axes cell x v w c : on_cell axes cell x -> Forall good_axis axes -> multilinear axes cell x (fun e => v e + c * w e) == multilinear axes cell x v + c * multilinear axes cell x w.
Proof.
  intros H HG. revert v w. induction H as [|a axes i cell t x Hi H IH]; intros v w; [simpl; ring|]. inversion HG as [|? ? G1 G2]; subst. cbn [multilinear].
  rewrite !(IH G2). pose proof (cell_gap a i G1 Hi). field. lra.
Qed.
Lemma multilinear_affine axes cell x f : on_cell axes cell x -> Forall good_axis axes -> multi_affine (length axes) f -> multilinear axes cell x (fun e => f (coordinates axes e)) == f x.
Proof.
  intros H HG. revert f. induction H as [|a axes i cell t x Hi H IH]; intros f HF.
  - inversion HF as [? c Hc|]; subst. simpl. reflexivity.
  - inversion HG as [|? ? G1 G2]; subst. inversion HF as [|n f' g h Hg Hh Hf]; subst. cbn [multilinear].
    assert (LX : length x = length axes) by (clear -H; induction H; simpl; congruence).
    assert (K : forall k, multilinear axes cell x (fun e => f (coordinates (a :: axes) (k :: e))) == g x + nth k a 0 * h x).
    { intros k. rewrite (multilinear_ext axes cell x _ (fun e => g (coordinates axes e) + nth k a 0 * h (coordinates axes e))); auto.
      - rewrite multilinear_lin by auto. rewrite !(IH G2) by auto. reflexivity.
      - intros e He. unfold coordinates at 1. cbn [combine map fst snd]. fold (coordinates axes e). apply Hf. unfold coordinates. rewrite map_length, combine_length.
        assert (length e = length axes). { clear -H He. revert e He. induction H; intros e He; inversion He; subst; simpl; auto. } lia. }
    rewrite !K, Hf by auto. pose proof (cell_gap a i G1 Hi). field. lra.
Qed.
Lemma multilinear_bounds axes cell x v lo hi : cell_of axes cell x -> Forall good_axis axes -> (forall e, corner cell e -> lo <= v e <= hi) -> lo <= multilinear axes cell x v <= hi.
Proof.
  intros H HG. revert v. induction H as [|a axes i cell t x [Hi He] H IH]; intros v HV; [apply HV; constructor|]. inversion HG as [|? ? G1 G2]; subst. cbn [multilinear].
  pose proof (cell_gap a i G1 Hi) as GAP. destruct (IH G2 (fun e => v (i :: e))) as [A1 A2]; [intros; apply HV; constructor; auto|]. destruct (IH G2 (fun e => v (S i :: e))) as [B1 B2]; [intros; apply HV; constructor; auto|].
  set (m1 := multilinear axes cell x (fun e => v (i :: e))) in *. set (m2 := multilinear axes cell x (fun e => v (S i :: e))) in *. clearbody m1 m2. set (l := nth i a 0) in *. set (u := nth (S i) a 0) in *. clearbody l u.
  split; [apply Qle_shift_div_l; [lra|]|apply Qle_shift_div_r; [lra|]].
  - assert (0 <= (u - t) * (m1 - lo)) by (apply Qmult_le_0_compat; lra). assert (0 <= (t - l) * (m2 - lo)) by (apply Qmult_le_0_compat; lra). lra.
  - assert (0 <= (u - t) * (hi - m1)) by (apply Qmult_le_0_compat; lra). assert (0 <= (t - l) * (hi - m2)) by (apply Qmult_le_0_compat; lra). lra.
Qed.
Lemma multilinear_node axes cell x k v : cell_of axes cell x -> Forall good_axis axes -> node_at axes k x -> corner cell k /\ multilinear axes cell x v == v k.
Proof.
  intros H HG [HN HL]. revert k v HN HL. induction H as [|a axes i cell t x [Hi He] H IH]; intros k v HN HL.
  - destruct k; [|discriminate]. split; [constructor|reflexivity].
  - destruct k as [|k ks]; [discriminate|]. injection HL as HL. cbn [combine] in HN. inversion HN as [|? ? ? ? [K1 K2] HN']; subst. cbn [fst snd] in *. inversion HG as [|? ? G1 G2]; subst.
    pose proof (cell_gap a i G1 Hi) as GAP.
    assert (KI : k = i \/ k = S i).
    { destruct (Nat.lt_trichotomy k i) as [C|[C|C]]; [|auto|].
      - exfalso. pose proof (increasing_nth a k i (proj1 G1) C ltac:(lia)). lra.
      - destruct (Nat.eq_dec k (S i)) as [|D]; auto. exfalso. pose proof (increasing_nth a (S i) k (proj1 G1) ltac:(lia) K1). lra. }
    split; [constructor; auto; apply (IH G2 ks v HN' HL)|]. cbn [multilinear]. destruct (IH G2 ks (fun e => v (i :: e)) HN' HL) as [_ E1]. destruct (IH G2 ks (fun e => v (S i :: e)) HN' HL) as [_ E2]. rewrite E1, E2.
    destruct KI as [->| ->]; rewrite K2; field; lra.
Qed.

(** ** Nearest *)
Definition near_index (a : list Q) (t : Q) : nat := if Qleb (cell_norm a t) (1 # 2) then cell_index a t else S (cell_index a t).
Lemma near_index_nearest a t : good_axis a -> within a t -> nearest_on a t (near_index a t).
Proof.
  intros HG HW. pose proof (cell_index_lt a t HG) as L. destruct (cell_index_encloses a t HG HW) as [_ HE]. pose proof (cell_gap a (cell_index a t) HG L) as GAP.
  unfold near_index, cell_norm. cbv zeta. set (i := cell_index a t) in *. set (y := (t - nth i a 0) / (nth (S i) a 0 - nth i a 0)). assert (EY : t - nth i a 0 == y * (nth (S i) a 0 - nth i a 0)) by (unfold y; field; lra). clearbody y.
  assert (FAR : forall j, (j < length a)%nat -> (nth j a 0 <= nth i a 0 \/ nth (S i) a 0 <= nth j a 0)).
  { intros j Hj. destruct (Nat.le_gt_cases j i); [left; apply increasing_nth_le; try apply HG; lia|right; apply increasing_nth_le; try apply HG; lia]. }
  destruct (Qleb_spec y (1 # 2)) as [C|C]; split; try lia; intros j Hj; destruct (FAR j Hj) as [F|F].
  - rewrite !Qabs_pos by lra. lra.
  - rewrite (Qabs_pos (t - nth i a 0)) by lra. rewrite Qabs_neg by lra. assert (0 <= (1 - 2 * y) * (nth (S i) a 0 - nth i a 0)) by (apply Qmult_le_0_compat; lra). lra.
  - rewrite (Qabs_neg (t - nth (S i) a 0)) by lra. rewrite Qabs_pos by lra. assert (0 <= (2 * y - 1) * (nth (S i) a 0 - nth i a 0)) by (apply Qmult_le_0_compat; lra). lra.
  - rewrite !Qabs_neg by lra. lra.
Qed.
Lemma find_index_single a t : length a = 1%nat -> find_index a t = (0%nat, None).
Proof. intros H. unfold find_index. rewrite H. reflexivity. Qed.
Definition near1 (a : list Q) (t : Q) : nat := if (length a <=? 1)%nat then 0%nat else near_index a t.
Lemma near1_nearest a t : increasing a -> a <> [] -> within a t -> nearest_on a t (near1 a t).
Proof.
  intros HI HN HW. unfold near1. destruct (Nat.leb_spec (length a) 1) as [L|L].
  - destruct a as [|x [|? ?]]; [congruence| |simpl in L; lia]. split; [simpl; lia|]. intros [|j] Hj; [lra|simpl in Hj; lia].
  - apply near_index_nearest; auto. split; auto.
Qed.
Lemma nearest_eval axes x values : Forall (fun a => increasing a /\ a <> []) axes -> inside axes x ->
  exists k, evaluate_nearest values (map fst (find_indices axes x)) (map snd (find_indices axes x)) [] = values k /\ Forall2 (fun (at_ : list Q * Q) k => nearest_on (fst at_) (snd at_) k) (combine axes x) k.
Proof.
  intros HG H. exists (zip_with near1 axes x). split.
  - unfold evaluate_nearest. rewrite app_nil_r. f_equal. unfold find_indices, zip_with. rewrite !map_map. revert HG. induction H as [|a t axes x H1 H IH]; intros HG; [reflexivity|]. inversion HG as [|? ? [G1 G2] G3]; subst.
    cbn [combine map fst snd]. rewrite IH by auto. f_equal. unfold near1. destruct (Nat.leb_spec (length a) 1) as [L|L].
    + rewrite find_index_single by (destruct a; [congruence|simpl in *; lia]). reflexivity.
    + rewrite find_index_good by (split; auto). reflexivity.
  - revert HG. induction H as [|a t axes x H1 H IH]; intros HG; [constructor|]. inversion HG as [|? ? [G1 G2] G3]; subst. unfold zip_with in *. cbn [combine map fst snd]. constructor; auto. apply near1_nearest; auto.
Qed.
