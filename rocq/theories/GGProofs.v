(** Proofs for C70, part 1: the data with other turns. *)
From Coq Require Import String.
From Verif Require Import Base PyStr QBase LonModel LonSpec LonProofs DateModel UngrModel AggModel InterpModel InterpSpec InterpProofs Interp2Proofs GUModel GUSpec GUProofs GU3Proofs GGModel GGSpec.
From Coq Require Import List Lia Lqa Arith QArith Permutation.
Import ListNotations.
Open Scope string_scope. Open Scope list_scope. Open Scope nat_scope. Notation length := List.length.

Definition same_axis (d : gdim) : list nat := seq 0 (length (points_of d)).
Lemma zip_ids ds : forall e, on_grid (map points_of ds) e -> zip_with (fun sigma k => nth k sigma 0) (map same_axis ds) e = e.
Proof.
  induction ds as [|d ds IH]; intros e H; inversion H as [|? k ? e' Hk He]; subst; [reflexivity|]. unfold zip_with in *. cbn [map combine fst snd]. unfold same_axis at 1. rewrite seq_nth by auto. f_equal. apply IH. exact He.
Qed.
Lemma zip_app {A B C} (f : A -> B -> C) l1 : forall m1 l2 m2, length l1 = length m1 -> zip_with f (l1 ++ l2) (m1 ++ m2) = zip_with f l1 m1 ++ zip_with f l2 m2.
Proof. unfold zip_with. induction l1 as [|a l1 IH]; intros [|b m1] l2 m2 L; try discriminate; [reflexivity|]. cbn. f_equal. apply IH. injection L; auto. Qed.
Lemma same_place_refl d : same_place d d (same_axis d).
Proof.
  repeat (split; auto). intros j Hj. unfold same_axis. rewrite seq_nth by auto. cbn [Nat.add]. destruct (is_lon (gd_std d)); [|reflexivity]. exists 0%Z. change (inject_Z 0) with 0%Q. ring.
Qed.
Lemma F2_same_refl ds : Forall2 (fun dd sigma => same_place (fst dd) (snd dd) sigma) (combine ds ds) (map same_axis ds).
Proof. induction ds; cbn; constructor; auto. apply same_place_refl. Qed.
Lemma same_variable_refl g : same_variable g g.
Proof. split; auto. exists (map same_axis (g_dims g)). split; [apply F2_same_refl|]. split; auto. intros e He. rewrite zip_ids; auto. Qed.
Lemma nodup_map_in {A B} (f : A -> B) l : NoDup l -> (forall a b, In a l -> In b l -> f a = f b -> a = b) -> NoDup (map f l).
Proof.
  induction 1 as [|x l Hx ND IH]; intros HI; cbn; constructor.
  - rewrite in_map_iff. intros (y & E & Hy). apply Hx. rewrite (HI x y); cbn; auto.
  - apply IH. intros a b Ha Hb. apply HI; cbn; auto.
Qed.
Lemma roll_perm n i : i < n -> Permutation (map (fun j => (j + i) mod n) (seq 0 n)) (seq 0 n).
Proof.
  intros Hi. apply NoDup_Permutation_bis.
  - apply nodup_map_in; [apply seq_NoDup|]. intros a b Ha Hb. apply in_seq in Ha, Hb. rewrite !mod_wrap by lia. destruct (Nat.leb_spec (n - i) a), (Nat.leb_spec (n - i) b); lia.
  - rewrite map_length, seq_length; lia.
  - intros x Hx. apply in_map_iff in Hx. destruct Hx as (j & <- & _). apply in_seq. pose proof (Nat.mod_upper_bound (j + i) n). lia.
Qed.
Lemma nth_ext_eq (l m : list nat) : length l = length m -> (forall j, j < length l -> nth j l 0 = nth j m 0) -> l = m.
Proof. intros L H. apply (nth_ext l m 0 0 L H). Qed.
Lemma turned_place low d : increasing (points_of d) -> points_of d <> [] -> is_lon (gd_std d) = true ->
  let ax := set_longitude_range (mkAxis (points_of d) None (seq 0 (length (points_of d)))) low in
  same_place d (mkGDim (gd_std d) (gd_other d) (InterpModel.mkDim (lon_points ax) (d_circular (gd_dim d)))) (lon_columns ax).
Proof.
  intros HI HN HL ax. destruct (rotation (points_of d) low HI HN) as (i & k & Hi & L1 & L2 & H). fold ax in L1, L2, H. split; auto. split; auto. split; auto. split; [|split; [exact L1|]].
  - replace (lon_columns ax) with (map (fun j => (j + i) mod length (points_of d)) (seq 0 (length (points_of d)))); [apply roll_perm; auto|].
    apply nth_ext_eq; [rewrite map_length, seq_length; auto|]. intros j Hj. rewrite map_length, seq_length in Hj. destruct (H j Hj) as [E _]. rewrite E.
    set (f := fun j => (j + i) mod length (points_of d)). rewrite (nth_indep _ 0 (f 0)) by (rewrite map_length, seq_length; auto). rewrite map_nth, seq_nth by auto. reflexivity.
  - intros j Hj. rewrite HL. destruct (H j Hj) as [E1 E2]. rewrite E1. unfold points_of at 2. cbn [gd_dim d_points]. unfold turns in E2. eexists. exact E2.
Qed.
Lemma on_grid_app a b e : on_grid (a ++ b) e -> exists e1 e2, e = e1 ++ e2 /\ on_grid a e1 /\ on_grid b e2.
Proof. intros H. apply Forall2_app_inv_l in H. destruct H as (e1 & e2 & H1 & H2 & ->). eauto. Qed.
Lemma on_grid_len a e : on_grid a e -> length e = length a.
Proof. induction 1; cbn; auto. Qed.
Lemma gd_name_lon d : gd_std d = Some (lit "longitude") -> gd_name d = lit "longitude".
Proof. intros E. unfold gd_name. rewrite E. reflexivity. Qed.
Theorem rotate_same low g : good_data g -> exists g', rotate low g = Ok g' /\ same_variable g g' /\ map (fun d => (gd_std d, gd_other d)) (g_dims g') = map (fun d => (gd_std d, gd_other d)) (g_dims g).
Proof.
  intros (HD & HA & HL). destruct (rotate_dims low g HA) as (g' & ER & ED & EA). exists g'. split; auto. split; [|rewrite ED; apply turned_names].
  revert ER ED. unfold rotate, turned_dims. pose proof (index_where_spec (fun d => is_lon (gd_std d)) (g_dims g)) as H. destruct (index_where _ (g_dims g)) as [li|].
  2: { intros ER ED. destruct (existsb is_lon (g_aux g)); [discriminate|]. injection ER as <-. apply same_variable_refl. }
  destruct H as (pre & gl & post & E & <- & HLon & HPre). intros ER ED.
  assert (EN : nth (length pre) (g_dims g) no_dim = gl) by (rewrite E, app_nth2, Nat.sub_diag by lia; reflexivity).
  assert (EF : firstn (length pre) (g_dims g) = pre) by (rewrite E, firstn_app, Nat.sub_diag, firstn_all; cbn; apply app_nil_r).
  assert (ES : skipn (S (length pre)) (g_dims g) = post) by (rewrite E; clear; induction pre; cbn; auto).
  rewrite EN, EF, ES in *. destruct (HL gl) as [HI HN]; [rewrite E; apply in_elt|apply is_lon_spec; auto|]. pose proof (turned_place low gl HI HN HLon) as TP. cbn zeta in TP.
  injection ER as <-. cbn [g_dims g_aux g_values] in *. unfold points_of in TP. set (ax := set_longitude_range (mkAxis (d_points (gd_dim gl)) None (seq 0 (length (d_points (gd_dim gl))))) low) in *.
  split; [exact EA|]. exists (map same_axis pre ++ lon_columns ax :: map same_axis post). split; [|split].
  - rewrite E. clear -TP. induction pre as [|d pre IH]; cbn [app combine map]; apply Forall2_cons; [exact TP|apply F2_same_refl|apply same_place_refl|exact IH].
  - cbn [g_dims]. rewrite E, !app_length. reflexivity.
  - clear EN EF ES ED. intros e He. cbn [g_dims g_values] in He |- *. f_equal. rewrite map_app in He. apply on_grid_app in He. destruct He as (e1 & e2 & -> & H1 & H2). cbn [map] in H2. inversion H2 as [|? k ? e3 Hk H3]; subst.
    pose proof (on_grid_len _ _ H1) as L1. rewrite map_length in L1. rewrite <- L1, set_index_app. rewrite zip_app by (rewrite map_length; auto). rewrite zip_ids by auto. f_equal. unfold zip_with at 1. cbn [combine map fst snd]. f_equal. symmetry. apply zip_ids. exact H3.
Qed.
