(** Proofs for C70, part 3: one variable, interpolated and transposed. *)
From Coq Require Import String.
From Verif Require Import Base PyStr QBase DateModel DateProofs UngrModel AggModel Agg2Proofs CollapseProofs InterpModel InterpSpec GUModel GUSpec GU3Proofs GGModel GGSpec GGProofs GG2Proofs.
From Coq Require Import List Lia Arith QArith Permutation Sorting.Sorted.
Import ListNotations.
Open Scope string_scope. Open Scope list_scope. Open Scope nat_scope. Notation length := List.length.

Lemma name_position_spec ds k d : different_names ds -> nth_error ds k = Some d -> name_position ds (gd_name d) = Some k.
Proof.
  intros HD Hk. unfold name_position. pose proof (index_where_names (fun x : gdim => x) (rev ds) (gd_name d)) as H. assert (L : k < length ds) by (apply nth_error_Some; congruence).
  cbn beta in H. change (fun c : gdim => named (gd_name d) c) with (named (gd_name d)) in H. destruct (index_where (named (gd_name d)) (rev ds)) as [j|].
  - destruct H as (c & Hc & E). assert (Lj : j < length ds) by (rewrite <- rev_length; apply nth_error_Some; congruence). cbn. f_equal.
    apply (nth_error_nth _ _ no_dim) in Hc. rewrite rev_nth in Hc by auto. apply (names_index ds HD (length ds - 1 - j) k c d); auto. replace (length ds - 1 - j) with (length ds - S j) by lia. rewrite <- Hc. apply nth_error_nth'. lia.
  - exfalso. apply (H d); auto. rewrite <- in_rev. eapply nth_error_In; eauto.
Qed.
Lemma nodupb_true l : NoDup l -> nodupb l = true.
Proof.
  induction 1 as [|x l Hx N IH]; [reflexivity|]. cbn. rewrite IH, andb_true_r, negb_true_iff. destruct (existsb (Nat.eqb x) l) eqn:E; auto. exfalso. apply Hx. apply existsb_exists in E. destruct E as (y & Hy & E). apply Nat.eqb_eq in E. subst. auto.
Qed.
Lemma nodupb_false l : ~ NoDup l -> nodupb l = false.
Proof.
  induction l as [|x l IH]; intros H; [exfalso; apply H; constructor|]. cbn. destruct (existsb (Nat.eqb x) l) eqn:E; [reflexivity|]. apply IH. intros N. apply H. constructor; auto. intros X.
  assert (existsb (Nat.eqb x) l = true); [|congruence]. apply existsb_exists. exists x. split; auto. apply Nat.eqb_refl.
Qed.
Lemma map_res_F2 {A B} (f : A -> res B) (R : A -> B -> Prop) l : (forall x, In x l -> exists y, f x = Ok y /\ R x y) -> exists m, map_res f l = Ok m /\ Forall2 R l m.
Proof.
  induction l as [|x l IH]; intros H; [exists []; split; [reflexivity|constructor]|]. destruct (H x (or_introl eq_refl)) as (y & E & Hy). destruct IH as (m & Em & Hm); [intros; apply H; right; auto|].
  exists (y :: m). cbn [map_res]. rewrite E. cbn [bind]. rewrite Em. cbn [bind]. split; auto.
Qed.
Lemma F2_seq {A B} (R : A -> B -> Prop) (t : nat -> B) D : (forall i d, nth_error D i = Some d -> R d (t i)) -> Forall2 R D (map t (seq 0 (length D))).
Proof.
  assert (G : forall D k, (forall i d, nth_error D i = Some d -> R d (t (k + i))) -> Forall2 R D (map t (seq k (length D)))).
  { clear. induction D as [|d D IH]; intros k H; cbn; constructor; [specialize (H 0 d eq_refl); rewrite Nat.add_0_r in H; auto|]. apply IH. intros i x Hx. specialize (H (S i) x Hx). rewrite <- Nat.add_succ_comm in H. auto. }
  intros H. apply G. exact H.
Qed.
Lemma zip_seq {A B C} (f : A -> B -> C) (h : nat -> B) D d0 : zip_with f D (map h (seq 0 (length D))) = map (fun i => f (nth i D d0) (h i)) (seq 0 (length D)).
Proof.
  assert (G : forall D k, zip_with f D (map h (seq k (length D))) = map (fun i => f (nth (i - k) D d0) (h i)) (seq k (length D))).
  { clear. unfold zip_with. induction D as [|d D IH]; intros k; [reflexivity|]. cbn [length seq map combine fst snd]. rewrite Nat.sub_diag. cbn [nth]. f_equal. rewrite IH. apply map_ext_in. intros i Hi. apply in_seq in Hi.
    replace (i - k) with (S (i - S k)) by lia. reflexivity. }
  rewrite G. apply map_ext. intros i. rewrite Nat.sub_0_r. reflexivity.
Qed.
Lemma map_eq_F2 {A B C} (f : A -> C) (h : B -> C) l m : Forall2 (fun x y => f x = h y) l m -> map f l = map h m.
Proof. induction 1 as [|x y l m E H IH]; cbn; [auto|]. rewrite E, IH. reflexivity. Qed.
Lemma F2_nth {A B} (R : A -> B -> Prop) l m : Forall2 R l m -> forall p y, nth_error m p = Some y -> exists x, nth_error l p = Some x /\ R x y.
Proof. induction 1 as [|a b l m H F IH]; intros [|p] y E; try discriminate; [injection E as <-; exists a; auto|apply IH; auto]. Qed.
Lemma F2_nth_l {A B} (R : A -> B -> Prop) l m : Forall2 R l m -> forall p x, nth_error l p = Some x -> exists y, nth_error m p = Some y /\ R x y.
Proof. induction 1 as [|a b l m H F IH]; intros [|p] y E; try discriminate; [injection E as <-; exists b; auto|apply IH; auto]. Qed.
Lemma F2_in {A B} (R : A -> B -> Prop) l m : Forall2 R l m -> Forall2 (fun x y => In x l /\ R x y) l m.
Proof.
  intros H. assert (G : forall k, (forall x, In x l -> In x k) -> Forall2 (fun x y => In x k /\ R x y) l m); [|apply G; auto].
  induction H as [|x y l m H F IH]; intros k HK; constructor; [split; auto; apply HK; left; auto|apply IH; intros; apply HK; right; auto].
Qed.
Lemma index_of_in l x : In x l -> nth_error l (index_of x l) = Some x.
Proof. induction l as [|y l IH]; intros H; [contradiction|]. cbn. destruct (Nat.eqb_spec y x) as [->|N]; [reflexivity|]. destruct H as [->|H]; [congruence|]. cbn. auto. Qed.

(** ** names: those of the result are those of the data, in another order *)
Lemma own_names s D n : In n (map gd_name (own_of s D)) <-> is_among n (coords_of s) /\ is_among n D.
Proof.
  rewrite in_map_iff. split.
  - intros (c & <- & H). apply (selected_in _ _ _ (own_selected s D)) in H. destruct H as [H1 H2]. split; auto. exists c. auto.
  - intros [(c & H1 & E) H2]. exists c. split; auto. apply (selected_in _ _ _ (own_selected s D)). subst. auto.
Qed.
Lemma rest_names s D n : In n (map gd_name (rest_of s D)) <-> is_among n D /\ ~ is_among n (coords_of s).
Proof.
  rewrite in_map_iff. split.
  - intros (c & <- & H). apply (selected_in _ _ _ (rest_selected s D)) in H. destruct H as [H1 H2]. split; auto. exists c. auto.
  - intros [(c & H1 & E) H2]. exists c. split; auto. apply (selected_in _ _ _ (rest_selected s D)). subst. auto.
Qed.
Lemma NoDup_app_intro {A} (l m : list A) : NoDup l -> NoDup m -> (forall x, In x l -> ~ In x m) -> NoDup (l ++ m).
Proof. induction 1 as [|x l Hx N IH]; intros NM H; cbn; auto. constructor; [rewrite in_app_iff; intros [X|X]; [auto|apply (H x); cbn; auto]|apply IH; auto; intros y Hy; apply H; right; auto]. Qed.
Lemma result_names_nodup s D : different_names (coords_of s) -> different_names D -> NoDup (map gd_name (own_of s D ++ rest_of s D)).
Proof.
  intros HC HD. rewrite map_app. apply NoDup_app_intro.
  - eapply selected_nodup; [apply own_selected|exact HC].
  - eapply selected_nodup; [apply rest_selected|exact HD].
  - intros n H1 H2. apply own_names in H1. apply rest_names in H2. tauto.
Qed.
Lemma result_names_perm s D : different_names (coords_of s) -> different_names D -> Permutation (map gd_name (own_of s D ++ rest_of s D)) (map gd_name D).
Proof.
  intros HC HD. apply NoDup_Permutation; [apply result_names_nodup; auto|exact HD|]. intros n. rewrite map_app, in_app_iff, own_names, rest_names, <- among_map. destruct (among_b n (coords_of s)) eqn:E; [apply among_b_spec in E|rewrite <- not_true_iff_false, among_b_spec in E]; tauto.
Qed.
Lemma own_of_names s D D' : map gd_name D = map gd_name D' -> own_of s D = own_of s D'.
Proof.
  intros E. apply filter_ext. intros c. destruct (among_b (gd_name c) D) eqn:A; symmetry.
  - apply among_b_spec, among_map. apply among_b_spec, among_map in A. congruence.
  - rewrite <- not_true_iff_false in *. rewrite among_b_spec, among_map in *. congruence.
Qed.
Lemma rest_of_labels {A} (f : gdim -> A) s D D' : map (fun d => (gd_name d, f d)) D = map (fun d => (gd_name d, f d)) D' -> map (fun d => (gd_name d, f d)) (rest_of s D) = map (fun d => (gd_name d, f d)) (rest_of s D').
Proof.
  unfold rest_of. revert D'. induction D as [|d D IH]; intros [|d' D'] E; try discriminate; [reflexivity|]. cbn in E. injection E as E1 E2 E. cbn [filter]. rewrite E1. destruct (negb (among_b (gd_name d') (coords_of s))); [cbn; rewrite E1, E2; f_equal|]; auto.
Qed.
Lemma wanted_spec own d pts : NoDup (map gd_name own) -> (wanted (map labelled own) d = Some pts <-> exists c, In c own /\ gd_name c = gd_name d /\ pts = points_of c).
Proof.
  intros HN. unfold wanted. destruct (find (fun p => named (fst p) d) (map labelled own)) as [p|] eqn:F; cbn.
  - apply find_some in F. destruct F as [F1 F2]. apply in_map_iff in F1. destruct F1 as (c & <- & Hc). apply named_eq in F2. cbn in F2. split.
    + intros [= <-]. exists c. auto.
    + intros (c' & Hc' & E & ->). assert (c' = c) as -> by (apply In_nth_error in Hc, Hc'; destruct Hc as (i & Hi), Hc' as (j & Hj); assert (j = i) by (apply (names_index own HN j i c' c); auto; congruence); subst; congruence). reflexivity.
  - split; [discriminate|]. intros (c & Hc & E & ->). exfalso. pose proof (find_none _ _ F (labelled c) (in_map _ _ _ Hc)) as X. cbn in X. rewrite (proj2 (named_eq _ _)) in X; [discriminate|auto].
Qed.
Definition filled (pairs : list (str * list Q)) (d : gdim) : gdim :=
  match wanted pairs d with Some pts => mkGDim (gd_std d) (gd_other d) (InterpModel.mkDim pts (d_circular (gd_dim d))) | None => d end.
Lemma filled_name pairs d : gd_name (filled pairs d) = gd_name d.
Proof. unfold filled. destruct (wanted pairs d); reflexivity. Qed.

Section One.
Variable scheme : method -> gdata -> list target -> option Q.
Lemma interpolate_ok m s g : different_names (coords_of s) -> different_names (g_dims g) -> let pairs := map labelled (own_of s (g_dims g)) in
  interpolate_cube scheme m pairs g = Ok (mkG (map (filled pairs) (g_dims g)) (g_aux g) (fun e => scheme m g (zip_with (fun d k => match wanted pairs d with Some pts => At (nth k pts 0%Q) | None => Index k end) (g_dims g) e))).
Proof.
  intros HC HD pairs. unfold interpolate_cube. replace (forallb _ pairs) with true; [reflexivity|]. symmetry. apply forallb_forall. intros p Hp. apply in_map_iff in Hp. destruct Hp as (c & <- & Hc). cbn [labelled fst].
  apply (selected_in _ _ _ (own_selected s (g_dims g))) in Hc. destruct Hc as [_ (d & Hd & E)]. rewrite <- E. clear E. revert HD Hd. unfold different_names. generalize (g_dims g) as D. clear. intros D HD Hd.
  apply Nat.eqb_eq. induction D as [|x D IH]; [contradiction|]. cbn in HD. inversion HD as [|? ? Hx N]; subst. cbn. destruct Hd as [->|Hd].
  - rewrite (proj2 (named_eq _ _) eq_refl). cbn. f_equal. destruct (filter (named (gd_name d)) D) as [|y l] eqn:F; auto. exfalso. assert (Hy : In y (filter (named (gd_name d)) D)) by (rewrite F; left; auto). apply filter_In in Hy. destruct Hy as [Hy E]. apply named_eq in E. apply Hx. rewrite <- E. apply in_map. auto.
  - destruct (named (gd_name d) x) eqn:E; [|auto]. apply named_eq in E. exfalso. apply Hx. rewrite E. apply in_map. auto.
Qed.
Lemma order_ok s D D' : different_names (coords_of s) -> different_names D -> map gd_name D' = map gd_name D ->
  exists order, map_res (fun n => match name_position D' n with Some k => Ok k | None => Raises KeyError end) (map gd_name (own_of s D ++ rest_of s D)) = Ok order /\
    Forall2 (fun x k => exists d, nth_error D k = Some d /\ gd_name d = gd_name x) (own_of s D ++ rest_of s D) order.
Proof.
  intros HC HD E. set (R := own_of s D ++ rest_of s D).
  assert (G : exists order, map_res (fun n => match name_position D' n with Some k => Ok k | None => Raises KeyError end) (map gd_name R) = Ok order /\ Forall2 (fun n k => exists d, nth_error D k = Some d /\ gd_name d = n) (map gd_name R) order).
  { apply map_res_F2. intros n Hn. apply (Permutation_in _ (result_names_perm s D HC HD)) in Hn. apply in_map_iff in Hn. destruct Hn as (d & <- & Hd). apply In_nth_error in Hd. destruct Hd as (k & Hk). exists k.
    assert (EN : nth_error (map gd_name D') k = Some (gd_name d)) by (rewrite E; apply map_nth_error; auto). destruct (nth_error D' k) as [d'|] eqn:Hd'; [|exfalso; apply nth_error_None in Hd'; assert (k < length (map gd_name D')) by (apply nth_error_Some; congruence); rewrite map_length in *; lia].
    rewrite (map_nth_error gd_name _ _ Hd') in EN. injection EN as EN. rewrite <- EN. rewrite (name_position_spec D' k d'); auto; [|unfold different_names; rewrite E; auto]. split; auto. exists d. auto. }
  destruct G as (order & G1 & G2). exists order. split; auto. clear -G2. revert order G2. induction R as [|x R IH]; intros order G2; inversion G2; subst; constructor; auto.
Qed.
Theorem one_variable m s D g order : different_names (coords_of s) -> different_names D -> map gd_name (g_dims g) = map gd_name D ->
  Forall2 (fun x k => exists d, nth_error D k = Some d /\ gd_name d = gd_name x) (own_of s D ++ rest_of s D) order ->
  exists o r, interpolate_cube scheme m (map labelled (own_of s D)) g = Ok o /\ map gd_name (g_dims o) = map gd_name D /\ transpose order o = Ok r /\
    let dims := map labelled (own_of s (g_dims g) ++ rest_of s (g_dims g)) in
    map labelled (g_dims r) = dims /\ forall e, on_grid (map snd dims) e -> exists ts, Forall2 (wanted_at s dims e) (g_dims g) ts /\ g_values r e = scheme m g ts.
Proof.
  intros HC HD EN HO. assert (HG : different_names (g_dims g)) by (unfold different_names; rewrite EN; auto). assert (EO : own_of s D = own_of s (g_dims g)) by (apply own_of_names; auto).
  assert (ER : map gd_name (rest_of s D) = map gd_name (rest_of s (g_dims g))).
  { assert (X : map (fun d => (gd_name d, tt)) (rest_of s D) = map (fun d => (gd_name d, tt)) (rest_of s (g_dims g))).
    { apply (rest_of_labels (fun _ => tt)). clear -EN. revert EN. generalize (g_dims g). induction D as [|d D IH]; intros [|d' D'] E; try discriminate; [reflexivity|]. injection E as E1 E. cbn. rewrite E1. f_equal. auto. }
    apply (f_equal (map fst)) in X. rewrite !map_map in X. exact X. }
  set (R := own_of s (g_dims g) ++ rest_of s (g_dims g)).
  assert (HR : Forall2 (fun x k => exists d, nth_error (g_dims g) k = Some d /\ gd_name d = gd_name x) R order).
  { assert (ENR : map gd_name (own_of s D ++ rest_of s D) = map gd_name R) by (unfold R; rewrite !map_app, EO, ER; reflexivity). clear -HO ENR EN. revert ENR. generalize R. induction HO as [|x k l order (d & Hd & E) HO IH]; intros [|y R'] ENR; try discriminate; constructor.
    - injection ENR as E1 _. assert (X : nth_error (map gd_name (g_dims g)) k = Some (gd_name d)) by (rewrite EN; apply map_nth_error; auto). destruct (nth_error (g_dims g) k) as [d'|] eqn:Hd'.
      + rewrite (map_nth_error gd_name _ _ Hd') in X. injection X as X. exists d'. split; auto. congruence.
      + exfalso. apply nth_error_None in Hd'. assert (k < length (map gd_name (g_dims g))) by (apply nth_error_Some; congruence). rewrite map_length in *. lia.
    - injection ENR as _ E2. apply IH. auto. }
  clear HO. rewrite EO. pose proof (interpolate_ok m s g HC HG) as EI. cbn zeta in EI. set (pairs := map labelled (own_of s (g_dims g))) in *. set (o := mkG _ _ _) in EI. exists o.
  assert (NO : NoDup order).
  { apply NoDup_nth_error. intros p q Hp E. destruct (nth_error order p) as [k|] eqn:Ep; [|apply nth_error_None in Ep; lia]. symmetry in E. destruct (F2_nth _ _ _ HR p k Ep) as (x & Hx & d & Hd & E1). destruct (F2_nth _ _ _ HR q k E) as (y & Hy & d' & Hd' & E2).
    pose proof (result_names_nodup s (g_dims g) HC HG) as ND. fold R in ND. apply (names_index R ND p q x y); auto. congruence. }
  assert (LR : length R = length (g_dims g)) by (pose proof (Permutation_length (result_names_perm s (g_dims g) HC HG)) as X; rewrite !map_length in X; exact X).
  assert (LO : length order = length (g_dims g)) by (rewrite <- LR; symmetry; clear -HR; induction HR; cbn; auto).
  assert (BO : forall k, In k order -> k < length (g_dims g)). { intros k Hk. apply In_nth_error in Hk. destruct Hk as (p & Hp). destruct (F2_nth _ _ _ HR p k Hp) as (x & _ & d & Hd & _). apply nth_error_Some. congruence. }
  assert (AO : forall i, i < length (g_dims g) -> In i order). { intros i Hi. assert (P : Permutation order (seq 0 (length (g_dims g)))) by (apply NoDup_Permutation_bis; auto; [rewrite seq_length; lia|intros k Hk; apply in_seq; apply BO in Hk; lia]). apply (Permutation_in _ (Permutation_sym P)). apply in_seq. lia. }
  assert (FL : forall x k, (In x R /\ exists d, nth_error (g_dims g) k = Some d /\ gd_name d = gd_name x) -> exists d, nth_error (g_dims g) k = Some d /\ labelled (filled pairs d) = labelled x).
  { intros x k [Hx (d & Hd & E)]. exists d. split; auto. unfold labelled. rewrite filled_name, E. f_equal. unfold filled.
    assert (NOwn : NoDup (map gd_name (own_of s (g_dims g)))) by (eapply selected_nodup; [apply own_selected|exact HC]). unfold R in Hx. apply in_app_iff in Hx. destruct Hx as [Hx|Hx].
    - assert (W : wanted pairs d = Some (points_of x)) by (apply wanted_spec; auto; exists x; auto). rewrite W. reflexivity.
    - apply (selected_in _ _ _ (rest_selected s (g_dims g))) in Hx. destruct Hx as [H1 H2]. assert (x = d) as -> by (apply In_nth_error in H1; destruct H1 as (i & Hi); assert (i = k) by (apply (names_index _ HG i k x d); auto); subst; congruence).
      destruct (wanted pairs d) as [pts|] eqn:W; auto. exfalso. apply wanted_spec in W; auto. destruct W as (c & Hc & E' & _). apply H2. exists c. split; auto. apply (selected_in _ _ _ (own_selected s (g_dims g))) in Hc. tauto. }
  assert (HRI : Forall2 (fun x k => exists d, nth_error (g_dims g) k = Some d /\ labelled (filled pairs d) = labelled x) R order).
  { pose proof (F2_in _ _ _ HR) as X. clear -X FL. induction X as [|x k l m H X IH]; constructor; auto. }
  eexists. split; [exact EI|]. split; [unfold o; cbn [g_dims]; rewrite map_map; transitivity (map gd_name (g_dims g)); auto; apply map_ext; intros; apply filled_name|].
  unfold transpose. unfold o. cbn [g_dims g_aux g_values]. rewrite map_length, LO, Nat.eqb_refl, (nodupb_true _ NO). cbn [andb].
  replace (forallb (fun i => i <? length (g_dims g)) order) with true by (symmetry; apply forallb_forall; intros i Hi; apply Nat.ltb_lt; auto). split; [reflexivity|]. cbn zeta. cbn [g_dims g_values]. fold R.
  assert (EL : map labelled (map (fun i => nth i (map (filled pairs) (g_dims g)) no_dim) order) = map labelled R).
  { rewrite map_map. symmetry. apply map_eq_F2. clear -HRI. induction HRI as [|x k l m (d & Hd & E) H IH]; constructor; auto. rewrite (nth_error_nth _ _ no_dim (map_nth_error (filled pairs) _ _ Hd)). auto. }
  split; [exact EL|]. intros e He. set (T := fun (d : gdim) (k : nat) => match wanted pairs d with Some pts => At (nth k pts 0%Q) | None => Index k end).
  exists (map (fun i => T (nth i (g_dims g) no_dim) (nth (index_of i order) e 0)) (seq 0 (length (g_dims g)))). split.
  - apply F2_seq. intros i d Hd. assert (Hi : i < length (g_dims g)) by (apply nth_error_Some; congruence). rewrite (nth_error_nth _ _ no_dim Hd). pose proof (index_of_in order i (AO i Hi)) as HP.
    destruct (F2_nth _ _ _ HRI _ _ HP) as (x & Hx & d' & Hd' & EL'). assert (d' = d) by congruence. subst d'.
    assert (Le : length e = length R) by (apply on_grid_len in He; rewrite !map_length in He; auto). assert (Lp : index_of i order < length e) by (rewrite Le; apply nth_error_Some; congruence).
    exists (index_of i order), (points_of (filled pairs d)), (nth (index_of i order) e 0). split; [rewrite (map_nth_error labelled _ _ Hx), <- EL'; unfold labelled; rewrite filled_name; reflexivity|]. split; [apply nth_error_nth'; auto|].
    assert (NOwn : NoDup (map gd_name (own_of s (g_dims g)))) by (eapply selected_nodup; [apply own_selected|exact HC]). unfold T, filled. destruct (wanted pairs d) as [pts|] eqn:W.
    + left. split; [|reflexivity]. apply wanted_spec in W; auto. destruct W as (c & Hc & E & _). exists c. split; auto. apply (selected_in _ _ _ (own_selected s (g_dims g))) in Hc. tauto.
    + right. split; [|reflexivity]. intros (c & Hc & E). assert (X : wanted pairs d = Some (points_of c)); [|congruence]. apply wanted_spec; auto. exists c. split; auto. apply (selected_in _ _ _ (own_selected s (g_dims g))). split; auto. exists d. split; auto. eapply nth_error_In; eauto.
  - rewrite (zip_seq T (fun i => nth (index_of i order) e 0) (g_dims g) no_dim). reflexivity.
Qed.
End One.
