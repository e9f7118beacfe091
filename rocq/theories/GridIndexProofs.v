From Verif Require Import Base QBase GridIndexModel GridIndexSpec.
Open Scope Z_scope.

(** ** One coordinate *)
Lemma up_above lo hi r : contiguous_up ((lo, hi) :: r) -> Forall (fun p => (hi <= fst p)%Q) r.
Proof.
  revert lo hi. induction r as [|[lo' hi'] r IH]; intros lo hi H; constructor.
  - destruct H as (_ & H & _). simpl. lra.
  - destruct H as (H1 & H2 & H3). specialize (IH _ _ H3). destruct H3 as (H3 & _).
    eapply Forall_impl; [|exact IH]. simpl. intros; lra.
Qed.
Lemma up_below_last b d : contiguous_up b -> Forall (fun p => (snd p <= snd (last b d))%Q) b.
Proof.
  induction b as [|[lo hi] r IH]; intros H; constructor.
  - destruct r as [|[lo' hi'] r]; [simpl; lra|]. pose proof (up_above _ _ _ H) as A. destruct H as (_ & _ & H3). specialize (IH H3).
    change (last ((lo, hi) :: (lo', hi') :: r) d) with (last ((lo', hi') :: r) d).
    inversion A as [|? ? A1 _]; subst. inversion IH as [|? ? B1 _]; subst. destruct H3 as (H3 & _). simpl fst in *. simpl snd in *. lra.
  - destruct r as [|[lo' hi'] r]; [constructor|]. destruct H as (_ & _ & H3). apply IH. auto.
Qed.
Lemma ss_up b v : contiguous_up b -> (v < snd (last b (0, 0)))%Q -> forall i,
  searchsorted_right (map fst b) v = S i <-> exists p, nth_error b i = Some p /\ (fst p <= v < snd p)%Q.
Proof.
  induction b as [|[lo hi] r IH]; intros H HV i.
  - simpl. split; [discriminate|]. intros (p & Hp & _). destruct i; discriminate.
  - pose proof (up_above _ _ _ H) as A. destruct H as (H1 & H2 & H3). cbn [map searchsorted_right fst].
    destruct (Qleb_spec lo v) as [L|L].
    + destruct i as [|i].
      * split.
        -- intros E. injection E as E. exists (lo, hi). split; [reflexivity|]. split; [exact L|]. simpl.
           destruct r as [|[lo' hi'] r]; [simpl in HV; lra|]. cbn [map searchsorted_right fst] in E. destruct (Qleb_spec lo' v); [discriminate|]. lra.
        -- intros (p & Hp & HH). injection Hp as <-. simpl in HH. f_equal. destruct r as [|[lo' hi'] r]; [reflexivity|].
           cbn [map searchsorted_right fst]. destruct (Qleb_spec lo' v); [lra|reflexivity].
      * destruct r as [|q r]; [simpl; split; [discriminate|]; intros (p & Hp & _); destruct i; discriminate|].
        specialize (IH H3 HV i). cbn [nth_error]. rewrite <- IH. split; intros E; [injection E; auto|rewrite E; auto].
    + split; [discriminate|]. intros (p & Hp & HH). destruct i as [|i]; simpl in Hp.
      * injection Hp as <-. simpl in HH. lra.
      * apply nth_error_In in Hp. rewrite Forall_forall in A. specialize (A _ Hp). lra.
Qed.

Definition swap (p : Q * Q) : Q * Q := (snd p, fst p).
Lemma up_snoc l x : contiguous_up l -> (fst x < snd x)%Q -> (forall y, l <> [] -> last l y = last l (0, 0)%Q -> (fst x == snd (last l (0, 0)))%Q) -> contiguous_up (l ++ [x]).
Proof.
  induction l as [|[lo hi] l IH]; intros H HX HL; simpl.
  - destruct x. simpl in HX. auto.
  - destruct H as (H1 & H2 & H3). split; auto. split.
    + destruct l as [|[lo' hi'] l]; simpl; auto. destruct x as [a b]. specialize (HL (0,0)%Q ltac:(discriminate) eq_refl). simpl in HL. exact HL.
    + apply IH; auto. intros y N _. destruct l as [|q l]; [congruence|]. apply (HL (0,0)%Q); [discriminate|reflexivity].
Qed.
Lemma last_rev_hd {A} (l : list A) d : last (rev l) d = hd d l.
Proof. destruct l as [|x l]; auto. simpl. apply last_last. Qed.
Lemma down_up b : contiguous_down b -> contiguous_up (rev (map swap b)).
Proof.
  induction b as [|[hi lo] b IH]; intros H; [constructor|]. destruct H as (H1 & H2 & H3). simpl rev. apply up_snoc; auto.
  intros _ N _. rewrite last_rev_hd. destruct b as [|[hi' lo'] b]; [simpl in N; congruence|]. simpl. lra.
Qed.
Lemma nth_error_rev {A} (l : list A) i : (i < length l)%nat -> nth_error (rev l) i = nth_error l (length l - 1 - i).
Proof.
  intros H. destruct (nth_error l (length l - 1 - i)) as [x|] eqn:E.
  - rewrite <- E. pose proof (rev_nth l x (n := i)) as R. assert (i < length l)%nat by auto.
    rewrite (nth_error_nth' (rev l) x) by (rewrite rev_length; auto). rewrite R by auto.
    rewrite (nth_error_nth' l x) by lia. f_equal. f_equal. lia.
  - apply nth_error_None in E. lia.
Qed.

Definition served (a : axis) (i : Z) (v : Q) : Prop := contains a i v /\ (decreasing a = true -> i <> 0).
Lemma contains_range a i v : contains a i v -> 0 <= i < Z.of_nat (length (ax_bounds a)).
Proof. intros (H & b & Hb & _). assert (Z.to_nat i < length (ax_bounds a))%nat by (apply nth_error_Some; congruence). lia. Qed.

Lemma Qmin_l a b : (a < b)%Q -> (Qmin a b == a /\ Qmax a b == b)%Q.
Proof. intros H. split; [apply Q.min_l; lra|apply Q.max_r; lra]. Qed.
Lemma Qmin_r a b : (b < a)%Q -> (Qmin a b == b /\ Qmax a b == a)%Q.
Proof. intros H. split; [apply Q.min_r; lra|apply Q.max_l; lra]. Qed.
Lemma up_each b : contiguous_up b -> Forall (fun p => (fst p < snd p)%Q) b.
Proof. induction b as [|[lo hi] b IH]; intros H; constructor; destruct H as (H1 & H2 & H3); auto. Qed.
Lemma down_each b : contiguous_down b -> Forall (fun p => (snd p < fst p)%Q) b.
Proof. induction b as [|[lo hi] b IH]; intros H; constructor; destruct H as (H1 & H2 & H3); auto. Qed.

Lemma last_in {A} (l : list A) d : l <> [] -> In (last l d) l.
Proof. intros H. destruct (exists_last H) as (l' & x & ->). rewrite last_last. apply in_or_app. simpl. auto. Qed.
Lemma up_nth_last b i p : contiguous_up b -> nth_error b i = Some p -> (S i < length b)%nat -> (snd p <= fst (last b (0, 0)))%Q.
Proof.
  revert i. induction b as [|[lo hi] b IH]; intros i H Hi HL; [destruct i; discriminate|].
  pose proof (up_above _ _ _ H) as A. destruct H as (H1 & H2 & H3). simpl in HL.
  destruct b as [|q b]; [simpl in HL; lia|]. change (last ((lo, hi) :: q :: b) (0, 0)%Q) with (last (q :: b) (0, 0)%Q).
  destruct i as [|i]; simpl in Hi.
  - injection Hi as <-. rewrite Forall_forall in A. apply (A (last (q :: b) (0, 0)%Q)). apply last_in. discriminate.
  - apply (IH i); auto. simpl in *. lia.
Qed.

Lemma axis_index a : good_axis a -> forall v i, (0 <= raw_index a v /\ flip a (raw_index a v) = i) <-> served a i v.
Proof.
  intros (HN & HL & HC) v i. unfold raw_index, flip, served, contains, max_bound, lower_bounds. destruct (decreasing a) eqn:D.
  - set (up := rev (map swap (ax_bounds a))). assert (HU : contiguous_up up) by (apply down_up; auto).
    assert (EL : rev (map snd (ax_bounds a)) = map fst up). { unfold up. rewrite map_rev, map_map. reflexivity. }
    assert (LU : length up = length (ax_bounds a)) by (unfold up; rewrite rev_length, map_length; auto).
    assert (EM : (snd (hd (0, 0) (ax_bounds a)) = fst (last up (0, 0)))%Q).
    { unfold up. rewrite last_rev_hd. destruct (ax_bounds a); reflexivity. }
    assert (EMs : (fst (last up (0, 0)) < snd (last up (0, 0)))%Q).
    { pose proof (up_each _ HU) as F. rewrite Forall_forall in F. apply F.
      assert (up <> []) by (intros E; rewrite E in LU; destruct (ax_bounds a); [congruence|discriminate]).
      destruct (exists_last H) as (l' & x & E). rewrite E, last_last. apply in_or_app. simpl. auto. }
    assert (NU : forall k, (k < length (ax_bounds a))%nat -> nth_error up k = option_map swap (nth_error (ax_bounds a) (length (ax_bounds a) - 1 - k))).
    { intros k Hk. unfold up. rewrite nth_error_rev by (rewrite map_length; auto). rewrite map_length, nth_error_map. reflexivity. }
    rewrite EL, EM. set (n := length (ax_bounds a)) in *.
    assert (n <> 0)%nat by (unfold n; destruct (ax_bounds a); [congruence|discriminate]).
    pose proof (down_each _ HC) as DE. rewrite Forall_forall in DE.
    destruct (Qltb_spec v (fst (last up (0, 0)%Q))) as [L|L].
    + split.
      * intros [H0 <-]. destruct (searchsorted_right (map fst up) v) as [|k] eqn:E; [lia|].
        apply ss_up in E; auto; [|lra]. destruct E as (p & Hp & HV).
        assert (Hk : (k < n)%nat) by (rewrite <- LU; apply nth_error_Some; congruence).
        rewrite NU in Hp by auto. destruct (nth_error (ax_bounds a) (n - 1 - k)) as [q|] eqn:Eq; [|discriminate]. injection Hp as <-.
        simpl in HV. rewrite HL. split.
        -- split; [lia|]. exists q. split; [rewrite <- Eq; f_equal; lia|].
           specialize (DE q (nth_error_In _ _ Eq)). destruct (Qmin_r _ _ DE) as [-> ->]. exact HV.
        -- intros _ C. assert (k = n - 1)%nat by lia. subst k.
           replace (n - 1 - (n - 1))%nat with 0%nat in Eq by lia.
           assert (snd (hd (0, 0) (ax_bounds a)) == snd q)%Q by (destruct (ax_bounds a) as [|q0 ?]; [discriminate|]; injection Eq as <-; reflexivity).
           rewrite EM in H1. lra.
      * intros [(Hi & q & Eq & HV) HD]. specialize (HD eq_refl).
        assert (Hlt : (Z.to_nat i < n)%nat) by (apply nth_error_Some; congruence).
        specialize (DE q (nth_error_In _ _ Eq)). destruct (Qmin_r _ _ DE) as [E1 E2]. rewrite E1, E2 in HV.
        assert (E : searchsorted_right (map fst up) v = S (n - 1 - Z.to_nat i)).
        { apply ss_up; auto; [lra|]. exists (swap q). rewrite NU by lia. replace (n - 1 - (n - 1 - Z.to_nat i))%nat with (Z.to_nat i) by lia.
          rewrite Eq. split; [reflexivity|]. exact HV. }
        rewrite E, HL. split; lia.
    + split; [lia|]. intros [(Hi & q & Eq & HV) HD]. specialize (HD eq_refl).
      assert (Hlt : (Z.to_nat i < n)%nat) by (apply nth_error_Some; congruence).
      specialize (DE q (nth_error_In _ _ Eq)). destruct (Qmin_r _ _ DE) as [E1 E2]. rewrite E1, E2 in HV.
      assert (nth_error up (n - 1 - Z.to_nat i) = Some (swap q)).
      { rewrite NU by lia. replace (n - 1 - (n - 1 - Z.to_nat i))%nat with (Z.to_nat i) by lia. rewrite Eq. auto. }
      pose proof (up_nth_last _ _ _ HU H0). simpl in H1. assert (fst q <= fst (last up (0, 0)))%Q by (apply H1; lia). lra.
  - pose proof (up_each _ HC) as DE. rewrite Forall_forall in DE. pose proof (up_below_last _ (0, 0)%Q HC) as BL. rewrite Forall_forall in BL.
    destruct (Qltb_spec v (snd (last (ax_bounds a) (0, 0)%Q))) as [L|L].
    + split.
      * intros [H0 <-]. split; [|discriminate]. destruct (searchsorted_right (map fst (ax_bounds a)) v) as [|k] eqn:E; [lia|].
        apply ss_up in E; auto. destruct E as (p & Hp & HV). split; [lia|]. exists p. replace (Z.to_nat (Z.of_nat (S k) - 1)) with k by lia.
        split; auto. specialize (DE p (nth_error_In _ _ Hp)). destruct (Qmin_l _ _ DE) as [-> ->]. auto.
      * intros [(Hi & q & Eq & HV) _]. specialize (DE q (nth_error_In _ _ Eq)). destruct (Qmin_l _ _ DE) as [E1 E2]. rewrite E1, E2 in HV.
        assert (E : searchsorted_right (map fst (ax_bounds a)) v = S (Z.to_nat i)) by (apply ss_up; auto; eauto). rewrite E. lia.
    + split; [lia|]. intros [(Hi & q & Eq & HV) _]. specialize (BL q (nth_error_In _ _ Eq)).
      specialize (DE q (nth_error_In _ _ Eq)). destruct (Qmin_l _ _ DE) as [E1 E2]. rewrite E1, E2 in HV. lra.
Qed.

Lemma nth_error_firstn {A} n : forall (l : list A) i, (i < n)%nat -> nth_error (firstn n l) i = nth_error l i.
Proof. induction n as [|n IH]; intros [|x l] [|i] H; simpl; auto; try lia. apply IH. lia. Qed.
(** GridCellBinIndex along one coordinate *)
Lemma ss_up_general b v : contiguous_up b -> forall i,
  (searchsorted_right (map fst b) v = S i /\ (v < snd (nth i b (0, 0)))%Q) <-> exists p, nth_error b i = Some p /\ (fst p <= v < snd p)%Q.
Proof.
  intros H i. split.
  - intros [E L]. destruct (nth_error b i) as [p|] eqn:Ep.
    + exists p. split; auto. rewrite (nth_error_nth _ _ _ Ep) in L. split; auto.
      pose proof (searchsorted_right_before (map fst b) v) as B. rewrite E in B. rewrite Forall_forall in B. apply B.
      assert (nth_error (firstn (S i) (map fst b)) i = Some (fst p)).
      { rewrite nth_error_firstn by lia. rewrite nth_error_map, Ep. auto. }
      eapply nth_error_In; eauto.
    + pose proof (searchsorted_right_le (map fst b) v) as B. rewrite map_length in B. apply nth_error_None in Ep. lia.
  - intros (p & Hp & HV). split; [|rewrite (nth_error_nth _ _ _ Hp); tauto].
    apply ss_up; eauto. pose proof (up_below_last b (0, 0)%Q H) as BL. rewrite Forall_forall in BL. specialize (BL p (nth_error_In _ _ Hp)). lra.
Qed.

Lemma nth_map_snd b i : nth i (map snd b) 0%Q = snd (nth i b (0, 0)%Q).
Proof. revert i. induction b as [|p b IH]; intros [|i]; simpl; auto. Qed.
Lemma bin_index_contains a : good_axis a -> forall v i, bin_index a v = Some i <-> contains a i v.
Proof.
  intros (HN & HL & HC) v i. unfold bin_index, contains, lower_bounds, upper_bounds.
  set (up := if decreasing a then rev (map swap (ax_bounds a)) else ax_bounds a).
  assert (HU : contiguous_up up) by (unfold up; destruct (decreasing a); auto; apply down_up; auto).
  assert (EL : (if decreasing a then rev (map snd (ax_bounds a)) else map fst (ax_bounds a)) = map fst up).
  { unfold up. destruct (decreasing a); auto. rewrite map_rev, map_map. reflexivity. }
  assert (EU : (if decreasing a then rev (map fst (ax_bounds a)) else map snd (ax_bounds a)) = map snd up).
  { unfold up. destruct (decreasing a); auto. rewrite map_rev, map_map. reflexivity. }
  rewrite EL, EU. set (n := length (ax_bounds a)) in *.
  assert (LU : length up = n) by (unfold up, n; destruct (decreasing a); rewrite ?rev_length, ?map_length; auto).
  assert (K : forall k, searchsorted_right (map fst up) v = S k -> Qltb v (nth k (map snd up) 0%Q) = true <-> exists p, nth_error up k = Some p /\ (fst p <= v < snd p)%Q).
  { intros k E. rewrite <- ss_up_general by auto. rewrite Qltb_lt, nth_map_snd. tauto. }
  assert (CON : forall k, (k < n)%nat -> ((exists p, nth_error up k = Some p /\ (fst p <= v < snd p)%Q) <->
     (exists b, nth_error (ax_bounds a) (if decreasing a then n - 1 - k else k)%nat = Some b /\ (Qmin (fst b) (snd b) <= v < Qmax (fst b) (snd b))%Q))).
  { intros k Hk. unfold up. destruct (decreasing a) eqn:D.
    - rewrite nth_error_rev by (rewrite map_length; auto). rewrite map_length, nth_error_map. fold n.
      pose proof (down_each _ HC) as DE. rewrite Forall_forall in DE.
      destruct (nth_error (ax_bounds a) (n - 1 - k)) as [q|] eqn:Eq; simpl.
      + specialize (DE q (nth_error_In _ _ Eq)). destruct (Qmin_r _ _ DE) as [E1 E2]. split.
        * intros (p & [= <-] & HV). exists q. split; auto. rewrite E1, E2. exact HV.
        * intros (b & [= <-] & HV). rewrite E1, E2 in HV. exists (swap q). auto.
      + split; intros (? & ? & _); discriminate.
    - pose proof (up_each _ HC) as DE. rewrite Forall_forall in DE. split; intros (p & Hp & HV); exists p; (split; [auto|]);
        destruct (Qmin_l _ _ (DE p (nth_error_In _ _ Hp))) as [E1 E2]; [rewrite E1, E2|rewrite E1, E2 in HV]; exact HV. }
  destruct (searchsorted_right (map fst up) v) as [|k] eqn:E.
  - cbn. split; [discriminate|]. intros (Hi & b & Hb & HV).
    assert (Hlt : (Z.to_nat i < n)%nat) by (apply nth_error_Some; congruence).
    assert (exists k, (k < n)%nat /\ (if decreasing a then n - 1 - k else k)%nat = Z.to_nat i) as (k & Hk & Ek).
    { destruct (decreasing a); [exists (n - 1 - Z.to_nat i)%nat|exists (Z.to_nat i)]; split; lia. }
    assert (C : exists p, nth_error up k = Some p /\ (fst p <= v < snd p)%Q) by (apply CON; auto; rewrite Ek; eauto).
    apply ss_up_general in C; auto. destruct C as [C _]. congruence.
  - replace (0 <=? Z.of_nat (S k) - 1) with true by (symmetry; apply Z.leb_le; lia). replace (Z.to_nat (Z.of_nat (S k) - 1)) with k by lia. cbn [andb].
    pose proof (searchsorted_right_le (map fst up) v) as B. rewrite E, map_length, LU in B.
    specialize (K k eq_refl). rewrite (CON k ltac:(lia)) in K. split.
    + destruct (Qltb v (nth k (map snd up) 0%Q)) eqn:EQ; [|discriminate]. destruct K as [K _]. specialize (K eq_refl). destruct K as (b & Hb & HV).
      intros Hi. rewrite HL in Hi. assert (EI : i = (if decreasing a then Z.of_nat n - (Z.of_nat (S k) - 1) - 1 else Z.of_nat (S k) - 1)) by congruence. clear Hi. subst i.
      split; [destruct (decreasing a); lia|]. exists b. split; auto. rewrite <- Hb. f_equal. destruct (decreasing a); lia.
    + intros (Hi & b & Hb & HV). assert (Hlt : (Z.to_nat i < n)%nat) by (apply nth_error_Some; congruence).
      assert (exists k, (k < n)%nat /\ (if decreasing a then n - 1 - k else k)%nat = Z.to_nat i) as (k' & Hk' & Ek').
      { destruct (decreasing a); [exists (n - 1 - Z.to_nat i)%nat|exists (Z.to_nat i)]; split; lia. }
      assert (C : exists p, nth_error up k' = Some p /\ (fst p <= v < snd p)%Q) by (apply CON; auto; rewrite Ek'; eauto).
      apply ss_up_general in C; auto. destruct C as [C CV]. rewrite E in C. injection C as ->.
      replace (Qltb v (nth k' (map snd up) 0%Q)) with true by (symmetry; apply Qltb_lt; rewrite nth_map_snd; auto).
      f_equal. rewrite HL. fold n. destruct (decreasing a); lia.
Qed.

(** ** Cells *)
Fixpoint zip_all {A B} (P : A -> Z -> B -> Prop) (xs : list A) (is : list Z) (vs : list B) : Prop :=
  match xs, is, vs with
  | [], [], [] => True
  | x :: xs, i :: is, v :: vs => P x i v /\ zip_all P xs is vs
  | _, _, _ => False
  end.
Lemma zip_all_nth {A B} (P : A -> Z -> B -> Prop) xs : forall is vs, length vs = length xs ->
  (zip_all P xs is vs <-> length is = length xs /\ forall k x i v, nth_error xs k = Some x -> nth_error is k = Some i -> nth_error vs k = Some v -> P x i v).
Proof.
  induction xs as [|x xs IH]; intros [|i is] [|v vs] HL; simpl in *; try discriminate.
  - split; auto. split; auto. intros [|k] ? ? ? ?; discriminate.
  - split; [tauto|]. intros [C _]. discriminate.
  - split; [tauto|]. intros [C _]. discriminate.
  - injection HL as HL. rewrite IH by auto. split.
    + intros [H1 [H2 H3]]. split; [lia|]. intros [|k] a b c; simpl; [intros [= <-] [= <-] [= <-]; auto|apply H3].
    + intros [H1 H2]. split; [apply (H2 0%nat); auto|]. split; [lia|]. intros k a b c. apply (H2 (S k)).
Qed.
Lemma cell_contains_zip axes cell p : length (pt_coords p) = length axes ->
  (cell_contains axes cell p <-> zip_all contains axes cell (pt_coords p)).
Proof. intros H. rewrite zip_all_nth by auto. unfold cell_contains. split; intros [H1 H2]; split; auto; intros k a i v H3 H4 H5; apply (H2 k); auto. Qed.

Lemma out_indices_cons a axes v vs m : out_indices (a :: axes) (mkPt (v :: vs) m) = flip a (raw_index a v) :: out_indices axes (mkPt vs m).
Proof. reflexivity. Qed.
Lemma in_grid_served axes : Forall good_axis axes -> forall p cell, length (pt_coords p) = length axes ->
  (in_grid axes p = true /\ out_indices axes p = cell <-> pt_masked p = false /\ zip_all served axes cell (pt_coords p)).
Proof.
  intros HG [vs m] cell HL. cbn [pt_coords pt_masked] in *. unfold in_grid. cbn [pt_masked]. rewrite andb_true_iff, negb_true_iff.
  assert (G : (forallb (fun i => 0 <=? i) (raw_indices axes (mkPt vs m)) = true /\ out_indices axes (mkPt vs m) = cell) <-> zip_all served axes cell vs).
  { clear -HG HL. revert vs cell HL. induction HG as [|a axes Ha HG IH]; intros [|v vs] cell HL; try discriminate.
    - cbn. split; [intros [_ <-]; auto|]. destruct cell; [auto|tauto].
    - cbn in HL. injection HL as HL. specialize (IH vs). change (raw_indices (a :: axes) (mkPt (v :: vs) m)) with (raw_index a v :: raw_indices axes (mkPt vs m)).
      cbn [forallb]. rewrite out_indices_cons, andb_true_iff, Z.leb_le. destruct cell as [|i cell]; cbn [zip_all].
      + split; [intros [_ C]; discriminate|tauto].
      + rewrite <- axis_index by auto. rewrite <- IH by auto. split.
        * intros [[H1 H2] H3]. injection H3 as H3 H4. auto.
        * intros [[H1 H2] [H3 H4]]. subst. auto. }
  tauto.
Qed.

Definition in_shape (axes : list axis) (cell : list Z) : Prop := Forall2 (fun a i => 0 <= i < Z.of_nat (length (ax_bounds a))) axes cell.
Lemma served_in_shape axes cell vs : zip_all served axes cell vs -> in_shape axes cell.
Proof.
  revert cell vs. induction axes as [|a axes IH]; intros [|i cell] [|v vs]; simpl; try tauto; [constructor|].
  intros [[H _] HZ]. constructor; [eapply contains_range; eauto|eapply IH; eauto].
Qed.
Lemma dot_scale acc shape : forall idx, dot (cumprod acc shape) idx = acc * dot (cumprod 1 shape) idx.
Proof.
  revert acc. induction shape as [|s shape IH]; intros acc [|i idx]; cbn [cumprod]; unfold dot; cbn [combine map fold_right fst snd]; try ring.
  fold (dot (cumprod (acc * s) shape) idx). fold (dot (cumprod (1 * s) shape) idx). rewrite IH, (IH (1 * s)). ring.
Qed.
Lemma dot_cons s shape i idx : dot (cumprod 1 (s :: shape)) (i :: idx) = i + s * dot (cumprod 1 shape) idx.
Proof. cbn [cumprod]. unfold dot at 1. cbn [combine map fold_right fst snd]. fold (dot (cumprod (1 * s) shape) idx). rewrite dot_scale. ring. Qed.
Lemma dot_inj axes : forall c1 c2, in_shape axes c1 -> in_shape axes c2 ->
  0 <= dot (cumprod 1 (grid_shape axes)) c1 /\ (dot (cumprod 1 (grid_shape axes)) c1 = dot (cumprod 1 (grid_shape axes)) c2 -> c1 = c2).
Proof.
  induction axes as [|a axes IH]; intros c1 c2 H1 H2; inversion H1 as [|? i1 ? r1 B1 R1]; inversion H2 as [|? i2 ? r2 B2 R2]; subst.
  - split; [reflexivity|auto].
  - change (grid_shape (a :: axes)) with (Z.of_nat (length (ax_bounds a)) :: grid_shape axes). rewrite !dot_cons.
    set (s := Z.of_nat (length (ax_bounds a))) in *. destruct (IH r1 r2 R1 R2) as [P1 I]. split; [nia|].
    intros E. assert (i1 = i2 /\ dot (cumprod 1 (grid_shape axes)) r1 = dot (cumprod 1 (grid_shape axes)) r2) as [-> E2].
    { set (x := dot (cumprod 1 (grid_shape axes)) r1) in *. set (y := dot (cumprod 1 (grid_shape axes)) r2) in *.
      assert (x = y) by nia. split; auto. subst. nia. }
    f_equal. auto.
Qed.

(** ** Slices *)
Definition pairs (off : nat) (l : list Z) : list (nat * nat) :=
  combine (off :: changes off l) (changes off l ++ [off + length l])%nat.
Record good_slices (off : nat) (l : list Z) (ps : list (nat * nat)) : Prop := {
  gs_each : Forall (fun ab => (off <= fst ab < snd ab)%nat /\ (snd ab <= off + length l)%nat /\
              forall j, (fst ab <= j < snd ab)%nat -> nth (j - off) l 0 = nth (fst ab - off) l 0) ps;
  gs_cover : forall j, (off <= j < off + length l)%nat -> exists ab, In ab ps /\ (fst ab <= j < snd ab)%nat;
  gs_sorted : StronglySorted Z.le l -> StronglySorted Z.lt (map (fun ab => nth (fst ab - off) l 0) ps)
}.
Lemma pairs_cons off a b r : pairs off (a :: b :: r) =
  if b - a =? 0 then match pairs (S off) (b :: r) with (_, e) :: t => (off, e) :: t | [] => [] end
  else (off, S off) :: pairs (S off) (b :: r).
Proof.
  unfold pairs. replace (off + length (a :: b :: r))%nat with (S off + length (b :: r))%nat by (simpl; lia).
  change (changes off (a :: b :: r)) with ((if b - a =? 0 then [] else [S off]) ++ changes (S off) (b :: r)).
  destruct (b - a =? 0); cbn [app].
  - destruct (changes (S off) (b :: r) ++ [(S off + length (b :: r))%nat]) eqn:E; [destruct (changes (S off) (b :: r)); discriminate|]. reflexivity.
  - reflexivity.
Qed.
Lemma pairs_head off a r : exists e t, pairs off (a :: r) = (off, e) :: t.
Proof. unfold pairs. destruct (changes off (a :: r) ++ _) eqn:E; [destruct (changes off (a :: r)); discriminate|]. simpl. eauto. Qed.
Lemma nth_shift {A} (x : A) l j off d : (S off <= j)%nat -> nth (j - off) (x :: l) d = nth (j - S off) l d.
Proof. intros H. replace (j - off)%nat with (S (j - S off)) by lia. reflexivity. Qed.

Lemma pairs_good l : l <> [] -> forall off, good_slices off l (pairs off l).
Proof.
  induction l as [|a l IH]; [congruence|]. intros _ off. destruct l as [|b r].
  - unfold pairs. cbn [changes length combine app]. split.
    + constructor; [|constructor]. cbn [fst snd length]. split; [lia|]. split; [lia|]. intros j Hj. replace j with off by lia. reflexivity.
    + intros j Hj. exists (off, (off + 1)%nat). cbn [length fst snd In] in *. split; [auto|lia].
    + intros _. repeat constructor.
  - destruct (IH ltac:(discriminate) (S off)) as [GE GC GS]. destruct (pairs_head (S off) b r) as (e & t & EP).
    rewrite pairs_cons. rewrite EP in *. inversion GE as [|? ? [G1 [G2 G3]] GT]; subst. cbn [fst snd] in *.
    destruct (Z.eqb_spec (b - a) 0) as [E|E].
    + assert (b = a) by lia. subst b. split.
      * constructor.
        -- cbn [fst snd]. split; [lia|]. split; [simpl in *; lia|]. intros j Hj. rewrite Nat.sub_diag.
           destruct (Nat.eq_dec j off) as [->|]; [rewrite Nat.sub_diag; reflexivity|]. rewrite nth_shift by lia. rewrite G3 by lia.
           replace (S off - S off)%nat with 0%nat by lia. reflexivity.
        -- eapply Forall_impl; [|exact GT]. intros [x y]. cbn [fst snd]. intros (H1 & H2 & H3). split; [lia|]. split; [simpl in *; lia|].
           intros j Hj. rewrite (nth_shift a (a :: r) j), (nth_shift a (a :: r) x) by lia. apply H3. lia.
      * intros j Hj. destruct (Nat.eq_dec j off) as [->|].
        -- exists (off, e). split; [simpl; auto|]. simpl. lia.
        -- destruct (GC j) as (ab & [<-|Hab] & HH); [simpl in *; lia| |].
           ++ exists (off, e). split; [simpl; auto|]. simpl in *. lia.
           ++ exists ab. split; [simpl; auto|auto].
      * intros HS. inversion HS as [|? ? HS' _]; subst. specialize (GS HS'). cbn [map] in GS |- *.
        assert (EM : map (fun ab : nat * nat => nth (fst ab - off) (a :: a :: r) 0) t = map (fun ab : nat * nat => nth (fst ab - S off) (a :: r) 0) t).
        { apply map_ext_in. intros ab Hab. rewrite Forall_forall in GT. destruct (GT _ Hab) as (H1 & _). apply nth_shift. lia. }
        rewrite EM. cbn [fst] in GS |- *. rewrite Nat.sub_diag in GS |- *. exact GS.
    + split.
      * constructor; [cbn [fst snd]; split; [lia|]; split; [simpl in *; lia|]; intros j Hj; replace j with off by lia; reflexivity|].
        eapply Forall_impl; [|exact GE]. intros [x y]. cbn [fst snd]. intros (H1 & H2 & H3). split; [lia|]. split; [simpl in *; lia|].
        intros j Hj. rewrite (nth_shift a (b :: r) j), (nth_shift a (b :: r) x) by lia. apply H3. lia.
      * intros j Hj. destruct (Nat.eq_dec j off) as [->|].
        -- exists (off, S off). split; [simpl; auto|]. simpl. lia.
        -- destruct (GC j) as (ab & Hab & HH); [simpl in *; lia|]. exists ab. split; auto. right. auto.
      * intros HS. inversion HS as [|? ? HS' HF]; subst. specialize (GS HS').
        assert (EM : map (fun ab : nat * nat => nth (fst ab - off) (a :: b :: r) 0) ((S off, e) :: t) = map (fun ab : nat * nat => nth (fst ab - S off) (b :: r) 0) ((S off, e) :: t)).
        { apply map_ext_in. intros ab Hab. rewrite Forall_forall in GE. destruct (GE _ Hab) as (H1 & _). apply nth_shift. lia. }
        cbn [map]. cbn [map] in EM. constructor; [rewrite EM; exact GS|]. rewrite EM. cbn [fst]. rewrite Nat.sub_diag. cbn [nth].
        rewrite Forall_forall in HF. assert (a < b) by (specialize (HF b ltac:(simpl; auto)); lia).
        cbn [map fst] in GS. rewrite Nat.sub_diag in GS. cbn [nth] in GS. inversion GS as [|? ? _ GF]; subst.
        constructor; [replace (S off - S off)%nat with 0%nat by lia; cbn; auto|]. eapply Forall_impl; [|exact GF]. cbn beta. intros; lia.
Qed.

Lemma cell_slices_pairs c l : cell_slices (c :: l) = Ok (if c =? -1 then tl (pairs 0 (c :: l)) else pairs 0 (c :: l)).
Proof.
  unfold cell_slices, pairs. destruct (c =? -1); [|reflexivity].
  destruct (changes 0 (c :: l)) as [|c0 cs]; reflexivity.
Qed.

(** ** The iterator *)
Lemma sorted_lt_inj {A} (f : A -> Z) l : StronglySorted Z.lt (map f l) -> forall x y, In x l -> In y l -> f x = f y -> x = y.
Proof.
  induction l as [|a l IH]; intros HS x y Hx Hy E; [destruct Hx|]. inversion HS as [|? ? HS1 HF]; subst. rewrite Forall_forall in HF.
  destruct Hx as [<-|Hx], Hy as [<-|Hy]; auto.
  - specialize (HF (f y) (in_map f _ _ Hy)). lia.
  - specialize (HF (f x) (in_map f _ _ Hx)). lia.
Qed.
Lemma sorted_lt_nodup l : StronglySorted Z.lt l -> NoDup l.
Proof. induction 1 as [|a l HS IH HF]; constructor; auto. rewrite Forall_forall in HF. intros C. specialize (HF _ C). lia. Qed.
Lemma nth_error_skipn {A} k : forall (l : list A) i, nth_error (skipn k l) i = nth_error l (k + i).
Proof. induction k as [|k IH]; intros [|x l] i; simpl; auto. destruct i; auto. Qed.
Lemma in_slice {A} (l : list A) a b x : (a <= b)%nat -> In x (firstn (b - a) (skipn a l)) <-> exists j, (a <= j < b)%nat /\ nth_error l j = Some x.
Proof.
  intros H. split.
  - intros HI. apply In_nth_error in HI. destruct HI as (j & Hj).
    destruct (le_lt_dec (b - a) j) as [G|G].
    + assert (nth_error (firstn (b - a) (skipn a l)) j = None) by (apply nth_error_None; rewrite firstn_length; lia). congruence.
    + rewrite nth_error_firstn in Hj by auto. rewrite nth_error_skipn in Hj. exists (a + j)%nat. split; [lia|auto].
  - intros (j & Hj & E). apply (nth_error_In _ (j - a)). rewrite nth_error_firstn by lia. rewrite nth_error_skipn. rewrite <- E. f_equal. lia.
Qed.
Lemma nodup_skipn {A} k : forall l : list A, NoDup l -> NoDup (skipn k l).
Proof. induction k as [|k IH]; intros [|x l] H; simpl; auto. inversion H; auto. Qed.
Lemma in_firstn {A} k : forall (l : list A) x, In x (firstn k l) -> In x l.
Proof. induction k as [|k IH]; intros [|y l] x; simpl; try tauto. intros [H|H]; auto. Qed.
Lemma nodup_firstn {A} k : forall l : list A, NoDup l -> NoDup (firstn k l).
Proof. induction k as [|k IH]; intros [|x l] H; simpl; auto; [constructor|]. inversion H; subst. constructor; auto. intros C. apply in_firstn in C. auto. Qed.

Lemma nodup_map {A B C} (f : A -> B) (g : B -> C) (l : list A) : NoDup (map (fun x => g (f x)) l) -> NoDup (map f l).
Proof.
  induction l as [|a l IH]; simpl; intros H; constructor; inversion H; subst; auto.
  intros C0. apply in_map_iff in C0. destruct C0 as (y & E & Hy). apply H2. apply in_map_iff. exists y. split; auto. rewrite E. auto.
Qed.

Definition dflt : dpoint := mkPt [] true.
Lemma cell_number_cases axes p : Forall good_axis axes -> length (pt_coords p) = length axes ->
  (in_grid axes p = false /\ cell_number axes p = -1) \/
  (in_grid axes p = true /\ pt_masked p = false /\ zip_all served axes (out_indices axes p) (pt_coords p) /\ 0 <= cell_number axes p).
Proof.
  intros HG HL. unfold cell_number. destruct (in_grid axes p) eqn:E; [right|left; auto]. split; auto.
  pose proof (proj1 (in_grid_served axes HG p (out_indices axes p) HL) (conj E eq_refl)) as [HM HZ]. split; auto. split; auto.
  apply served_in_shape in HZ. apply (dot_inj axes _ _ HZ HZ).
Qed.
Lemma cell_number_eq axes p q : Forall good_axis axes -> length (pt_coords p) = length axes -> length (pt_coords q) = length axes ->
  cell_number axes p = cell_number axes q -> 0 <= cell_number axes p -> out_indices axes p = out_indices axes q.
Proof.
  intros HG Hp Hq E P. destruct (cell_number_cases axes p HG Hp) as [[_ C]|(Ip & _ & Zp & _)]; [lia|].
  destruct (cell_number_cases axes q HG Hq) as [[_ C]|(Iq & _ & Zq & _)]; [lia|].
  unfold cell_number in E. rewrite Ip, Iq in E. apply served_in_shape in Zp, Zq. apply (dot_inj axes _ _ Zp Zq). auto.
Qed.

Record served_exactly (axes : list axis) (pts : list dpoint) (P : axis -> Z -> Q -> Prop) (ds : list (list Z * list nat)) : Prop := {
  se_cells : NoDup (map fst ds);
  se_each : forall cell idxs, In (cell, idxs) ds -> idxs <> [] /\ NoDup idxs /\
    forall i, In i idxs <-> exists p, nth_error pts i = Some p /\ pt_masked p = false /\ zip_all P axes cell (pt_coords p);
  se_cover : forall i p cell, nth_error pts i = Some p -> pt_masked p = false -> zip_all P axes cell (pt_coords p) ->
    exists idxs, In (cell, idxs) ds /\ In i idxs
}.

Theorem deliveries_correct axes pts order : Forall good_axis axes -> pts <> [] -> Forall (fun p => length (pt_coords p) = length axes) pts ->
  is_argsort (map (cell_number axes) pts) order -> exists ds, deliveries axes pts order = Ok ds /\ served_exactly axes pts served ds.
Proof.
  intros HG HN HL [HP HS]. rewrite map_length in HP.
  set (cn := fun i => cell_number axes (nth i pts dflt)).
  assert (RNG : forall i, In i order <-> (i < length pts)%nat).
  { intros i. rewrite (Permutation_in' eq_refl HP). rewrite in_seq. lia. }
  assert (PT : forall i, (i < length pts)%nat -> nth_error pts i = Some (nth i pts dflt) /\ length (pt_coords (nth i pts dflt)) = length axes).
  { intros i Hi. split; [apply nth_error_nth'; auto|]. rewrite Forall_forall in HL. apply HL. apply nth_In. auto. }
  assert (ES : map (fun i => nth i (map (cell_number axes) pts) 0) order = map cn order).
  { apply map_ext_in. intros i Hi. apply RNG in Hi. unfold cn. rewrite (nth_indep _ 0 (cell_number axes dflt)) by (rewrite map_length; auto). apply map_nth. }
  rewrite ES in HS.
  assert (ND : NoDup order) by (eapply Permutation_NoDup; [apply Permutation_sym; exact HP|apply seq_NoDup]).
  assert (LO : length order = length pts) by (rewrite (Permutation_length HP); apply seq_length).
  assert (NE : map cn order <> []).
  { destruct pts; [congruence|]. destruct order; [discriminate|]. discriminate. }
  pose proof (pairs_good _ NE 0%nat) as [GE GC GS]. specialize (GS HS). cbn [Nat.add] in *. rewrite map_length in *.
  set (ps0 := pairs 0 (map cn order)) in *.
  set (val := fun ab : nat * nat => nth (fst ab - 0) (map cn order) 0) in *.
  assert (VAL : forall j i, nth_error order j = Some i -> nth j (map cn order) 0 = cn i).
  { intros j i H. apply nth_error_nth. rewrite nth_error_map, H. reflexivity. }
  assert (exists ps, cell_slices (map cn order) = Ok ps /\ StronglySorted Z.lt (map val ps) /\ forall ab, In ab ps <-> In ab ps0 /\ 0 <= val ab) as (ps & EP & SP & IP).
  { assert (CV : forall ab, In ab ps0 -> val ab = -1 \/ 0 <= val ab).
    { intros ab Hab. rewrite Forall_forall in GE. destruct (GE _ Hab) as (B1 & B2 & _). unfold val. rewrite Nat.sub_0_r.
      destruct (nth_error order (fst ab)) as [i|] eqn:Ei; [|apply nth_error_None in Ei; lia].
      rewrite (VAL _ _ Ei). assert (Hi : (i < length pts)%nat) by (apply RNG; eapply nth_error_In; eauto).
      destruct (PT i Hi) as [_ HH]. unfold cn. destruct (cell_number_cases axes _ HG HH) as [[_ ?]|(_ & _ & _ & ?)]; auto. }
    destruct (map cn order) as [|c l] eqn:Em; [congruence|]. rewrite cell_slices_pairs. fold ps0. eexists. split; [reflexivity|].
    destruct (pairs_head 0 c l) as (e & t & Et). fold ps0 in Et. rewrite Et in *. cbn [tl].
    assert (V0 : val (0%nat, e) = c) by reflexivity. cbn [map] in GS. pose proof (StronglySorted_inv GS) as [GS1 GS2]. rewrite Forall_forall in GS2. rewrite V0 in GS2.
    destruct (Z.eqb_spec c (-1)) as [->|Nc].
    - split; auto. intros ab. split.
      + intros Hab. split; [right; auto|]. specialize (GS2 _ (in_map val _ _ Hab)). lia.
      + intros [[<-|Hab] P]; auto. lia.
    - split; [exact GS|]. assert (0 <= c) by (destruct (CV (0%nat, e)) as [C|C]; [left; auto|lia|lia]).
      intros ab. split; [|tauto]. intros Hab. split; auto. destruct Hab as [<-|Hab]; [lia|]. specialize (GS2 _ (in_map val _ _ Hab)). lia. }
  (* one slice *)
  assert (ONE : forall ab, In ab ps -> exists i0, nth_error order (fst ab) = Some i0 /\ (i0 < length pts)%nat /\ val ab = cn i0 /\ 0 <= cn i0 /\
     (fst ab < snd ab <= length order)%nat /\
     forall i, In i (firstn (snd ab - fst ab) (skipn (fst ab) order)) <-> (i < length pts)%nat /\ cn i = cn i0).
  { intros ab Hab. apply IP in Hab. destruct Hab as [Hab PV]. rewrite Forall_forall in GE. pose proof (GE _ Hab) as (B1 & B2 & B3).
    destruct (nth_error order (fst ab)) as [i0|] eqn:Ei; [|apply nth_error_None in Ei; lia]. exists i0. split; auto.
    assert (Hi : (i0 < length pts)%nat) by (apply RNG; eapply nth_error_In; eauto). split; auto.
    assert (EV : val ab = cn i0) by (unfold val; rewrite Nat.sub_0_r; apply VAL; auto). split; auto. split; [lia|]. split; [lia|].
    intros i. rewrite in_slice by lia. split.
    - intros (j & Hj & Ej). split; [apply RNG; eapply nth_error_In; eauto|]. rewrite <- (VAL _ _ Ej), <- (VAL _ _ Ei).
      specialize (B3 j Hj). rewrite !Nat.sub_0_r in B3. auto.
    - intros [Hlt Ec]. apply RNG in Hlt. apply In_nth_error in Hlt. destruct Hlt as (j & Ej). exists j. split; auto.
      assert (Hj : (j < length order)%nat) by (apply nth_error_Some; congruence).
      destruct (GC j) as (ab' & Hab' & Hj'); [lia|].
      assert (ab' = ab); [|subst; auto]. apply (sorted_lt_inj val ps0 GS); auto. rewrite EV, <- Ec, <- (VAL _ _ Ej).
      pose proof (GE _ Hab') as (_ & _ & B3'). specialize (B3' j Hj'). rewrite !Nat.sub_0_r in B3'. unfold val. rewrite Nat.sub_0_r. auto. }
  unfold deliveries. fold dflt. change (fun i : nat => cell_number axes (nth i pts dflt)) with cn. rewrite EP. cbn [bind].
  eexists. split; [reflexivity|].
  assert (CELL : forall ab i0, In ab ps -> nth_error order (fst ab) = Some i0 -> nth (nth (fst ab) order 0%nat) pts dflt = nth i0 pts dflt).
  { intros ab i0 _ E. rewrite (nth_error_nth _ _ _ E). auto. }
  split.
  - rewrite map_map. cbn [fst]. apply (nodup_map _ (dot (cumprod 1 (grid_shape axes)))).
    assert (EM : map (fun x : nat * nat => dot (cumprod 1 (grid_shape axes)) (out_indices axes (nth (nth (fst x) order 0%nat) pts dflt))) ps = map val ps).
    { apply map_ext_in. intros ab Hab. destruct (ONE ab Hab) as (i0 & E0 & Hi0 & EV & P0 & _). rewrite (CELL ab i0 Hab E0), EV. unfold cn in *.
      unfold cell_number in *. destruct (in_grid axes (nth i0 pts dflt)); [auto|lia]. }
    rewrite EM. apply sorted_lt_nodup. auto.
  - intros cell idxs HI. apply in_map_iff in HI. destruct HI as (ab & E & Hab). injection E as <- <-.
    destruct (ONE ab Hab) as (i0 & E0 & Hi0 & EV & P0 & B & IFF). rewrite (CELL ab i0 Hab E0).
    split; [|split].
    + intros C. assert (In i0 []) by (rewrite <- C; apply IFF; auto). auto.
    + apply nodup_firstn, nodup_skipn; auto.
    + intros i. rewrite IFF. destruct (PT i0 Hi0) as [_ L0]. split.
      * intros [Hi Ec]. destruct (PT i Hi) as [Ei Li]. exists (nth i pts dflt). split; auto. unfold cn in *.
        rewrite <- (cell_number_eq axes (nth i pts dflt) (nth i0 pts dflt)); auto; [|lia].
        destruct (cell_number_cases axes (nth i pts dflt) HG Li) as [[_ C]|(_ & HM & HZ & _)]; [lia|auto].
      * intros (p & Ei & HM & HZ). assert (Hi : (i < length pts)%nat) by (apply nth_error_Some; congruence). split; auto.
        destruct (PT i Hi) as [Ei' Li]. rewrite Ei in Ei'. injection Ei' as ->.
        pose proof (proj2 (in_grid_served axes HG _ _ Li) (conj HM HZ)) as [IG IO]. unfold cn. unfold cell_number at 1. rewrite IG, IO.
        unfold cn, cell_number in P0 |- *. destruct (in_grid axes (nth i0 pts dflt)); [auto|lia].
  - intros i p cell Ei HM HZ. assert (Hi : (i < length pts)%nat) by (apply nth_error_Some; congruence).
    destruct (PT i Hi) as [Ei' Li]. rewrite Ei in Ei'. injection Ei' as ->.
    pose proof (proj2 (in_grid_served axes HG _ _ Li) (conj HM HZ)) as [IG IO].
    assert (PC : 0 <= cn i). { destruct (cell_number_cases axes _ HG Li) as [[C _]|(_ & _ & _ & ?)]; [congruence|auto]. }
    pose proof (proj2 (RNG i) Hi) as Ho. apply In_nth_error in Ho. destruct Ho as (j & Ej).
    assert (Hj : (j < length order)%nat) by (apply nth_error_Some; congruence).
    destruct (GC j) as (ab & Hab & Hj'); [lia|]. rewrite Forall_forall in GE.
    assert (EV : val ab = cn i). { pose proof (GE _ Hab) as (_ & _ & B3). specialize (B3 j Hj'). rewrite !Nat.sub_0_r in B3. unfold val. rewrite Nat.sub_0_r, <- B3. auto. }
    assert (Hps : In ab ps) by (apply IP; split; auto; lia).
    destruct (ONE ab Hps) as (i0 & E0 & Hi0 & EV0 & P0 & B & IFF). destruct (PT i0 Hi0) as [_ L0].
    exists (firstn (snd ab - fst ab) (skipn (fst ab) order)). split.
    + apply in_map_iff. exists ab. split; auto. f_equal. rewrite (CELL ab i0 Hps E0). rewrite <- IO. apply cell_number_eq; auto. fold (cn i0) (cn i). lia.
    + apply IFF. split; auto. lia.
Qed.
Lemma deliveries_empty axes order : is_argsort (map (cell_number axes) []) order -> deliveries axes [] order = Raises IndexError.
Proof. intros [HP _]. cbn in HP. apply Permutation_sym, Permutation_nil in HP. subst. reflexivity. Qed.

(** ** In terms of the specification *)
Lemma served_spec axes : forall cell vs, length vs = length axes ->
  (zip_all served axes cell vs <-> zip_all contains axes cell vs /\ not_first_of_decreasing axes cell).
Proof.
  induction axes as [|a axes IH]; intros [|i cell] [|v vs] HL; simpl in *; try discriminate; try tauto.
  - split; auto. intros _. split; auto. intros [|k] a; discriminate.
  - injection HL as HL. rewrite (IH cell vs HL). unfold not_first_of_decreasing, served. split.
    + intros [[H1 H2] [H3 H4]]. split; [auto|]. intros [|k] b; simpl; [intros [= <-] D [= E]; apply (H2 D); auto|apply H4].
    + intros [[H1 H2] H3]. split; [split; [auto|]|split; auto].
      * intros D ->. apply (H3 0%nat a); auto.
      * intros k b. apply (H3 (S k) b).
Qed.
Lemma contains_fun a i j v : good_axis a -> contains a i v -> contains a j v -> i = j.
Proof. intros H Hi Hj. apply bin_index_contains in Hi, Hj; auto. congruence. Qed.
Lemma zip_contains_fun axes : Forall good_axis axes -> forall c1 c2 vs, zip_all contains axes c1 vs -> zip_all contains axes c2 vs -> c1 = c2.
Proof.
  induction 1 as [|a axes Ha HG IH]; intros [|i c1] [|j c2] [|v vs]; simpl; try tauto.
  intros [H1 H2] [H3 H4]. f_equal; [eapply contains_fun; eauto|eauto].
Qed.
Lemma cell_contains_unique axes p c1 c2 : Forall good_axis axes -> length (pt_coords p) = length axes ->
  cell_contains axes c1 p -> cell_contains axes c2 p -> c1 = c2.
Proof. intros HG HL H1 H2. apply cell_contains_zip in H1, H2; auto. eapply zip_contains_fun; eauto. Qed.

Lemma nodup_concat {A B} (ds : list (A * list B)) : NoDup (map fst ds) -> (forall d, In d ds -> NoDup (snd d)) ->
  (forall d d' x, In d ds -> In d' ds -> In x (snd d) -> In x (snd d') -> fst d = fst d') -> NoDup (concat (map snd ds)).
Proof.
  induction ds as [|d ds IH]; intros HF HN HD; simpl; [constructor|]. inversion HF as [|? ? N HF']; subst.
  assert (APP : forall l1 l2 : list B, NoDup l1 -> NoDup l2 -> (forall x, In x l1 -> ~ In x l2) -> NoDup (l1 ++ l2)).
  { clear. induction l1 as [|x l1 IH]; intros l2 H1 H2 H; simpl; auto. inversion H1; subst. constructor.
    - rewrite in_app_iff. intros [C|C]; auto. apply (H x); simpl; auto.
    - apply IH; auto. intros y Hy. apply H. simpl; auto. }
  apply APP.
  - apply HN. simpl; auto.
  - apply IH; auto; [intros; apply HN; simpl; auto|]. intros; eapply HD; eauto; simpl; auto.
  - intros x Hx Hc. apply in_concat in Hc. destruct Hc as (l & Hl & Hxl). apply in_map_iff in Hl. destruct Hl as (d' & <- & Hd').
    apply N. rewrite (HD d d' x); simpl; auto. apply in_map. auto.
Qed.

Theorem deliveries_spec axes pts order : Forall good_axis axes -> pts <> [] -> Forall (fun p => length (pt_coords p) = length axes) pts ->
  is_argsort (map (cell_number axes) pts) order -> exists ds, deliveries axes pts order = Ok ds /\
    delivers_exactly pts (fun cell p => cell_contains axes cell p /\ not_first_of_decreasing axes cell) ds.
Proof.
  intros HG HN HL HA. destruct (deliveries_correct axes pts order HG HN HL HA) as (ds & E & [D1 D2 D3]). exists ds. split; auto.
  assert (LEN : forall i p, nth_error pts i = Some p -> length (pt_coords p) = length axes) by (intros i p Hp; rewrite Forall_forall in HL; apply HL; eapply nth_error_In; eauto).
  assert (CC : forall i p cell, nth_error pts i = Some p -> (zip_all served axes cell (pt_coords p) <-> cell_contains axes cell p /\ not_first_of_decreasing axes cell)).
  { intros i p cell Hp. rewrite served_spec, cell_contains_zip by eauto. tauto. }
  split; auto.
  - apply nodup_concat; auto.
    + intros [c l] Hd. apply (D2 _ _ Hd).
    + intros [c l] [c' l'] x H1 H2 X1 X2. cbn [fst snd] in *. apply (D2 _ _ H1) in X1. apply (D2 _ _ H2) in X2.
      destruct X1 as (p & Hp & _ & Z1), X2 as (p' & Hp' & _ & Z2). rewrite Hp in Hp'. injection Hp' as <-.
      apply (CC x p c Hp) in Z1. apply (CC x p c' Hp) in Z2. eapply (cell_contains_unique axes p); eauto; tauto.
  - intros c l Hd. apply (D2 _ _ Hd).
  - intros cell i. split.
    + intros (l & Hd & Hi). apply (D2 _ _ Hd) in Hi. destruct Hi as (p & Hp & HM & HZ). exists p. split; auto. split; auto. eapply CC; eauto.
    + intros (p & Hp & HM & HZ). apply (D3 i p); auto. eapply CC; eauto.
Qed.
Lemma delivers_ext pts m1 m2 ds : (forall i c p, nth_error pts i = Some p -> (m1 c p <-> m2 c p)) -> delivers_exactly pts m1 ds -> delivers_exactly pts m2 ds.
Proof.
  intros H [A B C D]. split; auto. intros cell i. rewrite D. split; intros (p & Hp & HM & Hm); exists p; split; auto; split; auto; eapply H; eauto.
Qed.
Theorem deliveries_increasing axes pts order : Forall good_axis axes -> Forall (fun a => decreasing a = false) axes ->
  pts <> [] -> Forall (fun p => length (pt_coords p) = length axes) pts ->
  is_argsort (map (cell_number axes) pts) order -> exists ds, deliveries axes pts order = Ok ds /\ delivers_exactly pts (cell_contains axes) ds.
Proof.
  intros HG HD HN HL HA. destruct (deliveries_spec axes pts order HG HN HL HA) as (ds & E & D). exists ds. split; auto.
  eapply delivers_ext; [|exact D]. intros i c p _. cbn beta. split; [tauto|]. intros Hc. split; auto.
  intros k a Ha Hd. rewrite Forall_forall in HD. rewrite HD in Hd; [discriminate|]. eapply nth_error_In; eauto.
Qed.

(** ** Conservation *)
Lemma total_delivered_concat ds : total_delivered ds = length (concat (map snd ds)).
Proof. induction ds as [|d ds IH]; [reflexivity|]. unfold total_delivered in *. simpl. rewrite app_length, IH. reflexivity. Qed.

(** ** GridCellBinIndex *)
Lemma all_some_spec {A} (l : list (option A)) r : all_some l = Some r <-> Forall2 (fun o x => o = Some x) l r.
Proof.
  revert r. induction l as [|[x|] l IH]; intros r; simpl.
  - split; [intros [= <-]; constructor|]. inversion 1; auto.
  - destruct (all_some l) as [t|] eqn:E; simpl.
    + split; [intros [= <-]; constructor; auto; apply IH; auto|]. inversion 1 as [|? y ? r' H1 H2]; subst. injection H1 as <-. apply IH in H2. congruence.
    + split; [discriminate|]. inversion 1 as [|? y ? r' H1 H2]; subst. apply IH in H2. discriminate.
  - split; [discriminate|]. inversion 1; discriminate.
Qed.
Lemma bin_cell_contains axes p cell : Forall good_axis axes -> length (pt_coords p) = length axes ->
  (bin_cell axes p = Some cell <-> cell_contains axes cell p).
Proof.
  intros HG HL. rewrite cell_contains_zip by auto. destruct p as [vs m]. unfold bin_cell. cbn [pt_coords] in *. rewrite all_some_spec.
  revert vs cell HL. induction HG as [|a axes Ha HG IH]; intros [|v vs] cell HL; try discriminate; cbn [combine map].
  - split; [inversion 1; cbn; auto|]. destruct cell; [constructor|simpl; tauto].
  - simpl in HL. injection HL as HL. split.
    + inversion 1 as [|? i ? c H1 H2]; subst. cbn [fst snd] in H1. cbn [zip_all]. split; [apply bin_index_contains; auto|apply IH; auto].
    + destruct cell as [|i cell]; cbn [zip_all]; [tauto|]. intros [H1 H2]. constructor; [apply bin_index_contains; auto|apply IH; auto].
Qed.
Lemma sorted_filter_seq f a n : StronglySorted lt (filter f (seq a n)).
Proof.
  revert a. induction n as [|n IH]; intros a; simpl; [constructor|]. destruct (f a); auto. constructor; auto.
  apply Forall_forall. intros x Hx. apply filter_In in Hx. destruct Hx as [Hx _]. apply in_seq in Hx. lia.
Qed.
Theorem bin_points_spec axes pts cell : Forall good_axis axes -> Forall (fun p => length (pt_coords p) = length axes) pts ->
  match get_points_by_indices axes pts cell with
  | Some l => l <> [] /\ StronglySorted lt l /\ forall i, In i l <-> exists p, nth_error pts i = Some p /\ pt_masked p = false /\ cell_contains axes cell p
  | None => forall i p, nth_error pts i = Some p -> pt_masked p = false -> ~ cell_contains axes cell p
  end.
Proof.
  intros HG HL. unfold get_points_by_indices. fold dflt.
  set (f := fun i : nat => negb (pt_masked (nth i pts dflt)) && match bin_cell axes (nth i pts dflt) with Some c => list_Z_eqb c cell | None => false end).
  assert (IN : forall i, In i (filter f (seq 0 (length pts))) <-> exists p, nth_error pts i = Some p /\ pt_masked p = false /\ cell_contains axes cell p).
  { intros i. rewrite filter_In, in_seq. unfold f. rewrite andb_true_iff, negb_true_iff. rewrite Forall_forall in HL. split.
    - intros (Hi & HM & HB). exists (nth i pts dflt). split; [apply nth_error_nth'; lia|]. split; auto.
      destruct (bin_cell axes (nth i pts dflt)) as [c|] eqn:E; [|discriminate]. unfold list_Z_eqb in HB. destruct (list_eq_dec Z.eq_dec c cell); [|discriminate]. subst.
      apply bin_cell_contains; auto. apply HL. apply nth_In. lia.
    - intros (p & Hp & HM & HC). assert ((i < length pts)%nat) by (apply nth_error_Some; congruence). rewrite (nth_error_nth _ _ _ Hp).
      split; [lia|]. split; auto. apply bin_cell_contains in HC; auto; [|apply HL; eapply nth_error_In; eauto]. rewrite HC.
      unfold list_Z_eqb. destruct (list_eq_dec Z.eq_dec cell cell); auto. }
  pose proof (sorted_filter_seq f 0 (length pts)) as SS. cbv zeta. change (filter _ _) with (filter f (seq 0 (length pts))).
  destruct (filter f (seq 0 (length pts))) as [|x l] eqn:E.
  - intros i p Hp HM HC. assert (In i []) by (apply IN; eauto). auto.
  - split; [discriminate|]. split; auto.
Qed.

Lemma sorted_lt_nodup_nat l : StronglySorted lt l -> NoDup l.
Proof. induction 1 as [|a l HS IH HF]; constructor; auto. rewrite Forall_forall in HF. intros C. specialize (HF _ C). lia. Qed.
Theorem indexes_agree axes pts order ds : Forall good_axis axes -> Forall (fun a => decreasing a = false) axes ->
  pts <> [] -> Forall (fun p => length (pt_coords p) = length axes) pts ->
  is_argsort (map (cell_number axes) pts) order -> deliveries axes pts order = Ok ds -> forall cell,
  match get_points_by_indices axes pts cell with
  | Some l => exists idxs, In (cell, idxs) ds /\ Permutation l idxs
  | None => ~ In cell (map fst ds)
  end.
Proof.
  intros HG HD HN HL HA E cell. destruct (deliveries_increasing axes pts order HG HD HN HL HA) as (ds' & E' & [D1 D2 D3 D4]).
  rewrite E in E'. injection E' as <-. pose proof (bin_points_spec axes pts cell HG HL) as B. destruct (get_points_by_indices axes pts cell) as [l|].
  - destruct B as (N & SS & IN). destruct l as [|x l]; [congruence|].
    assert (X : In x (x :: l)) by (simpl; auto). apply IN in X. pose proof (proj2 (D4 cell x) X) as (idxs & Hd & Hx).
    exists idxs. split; auto. apply NoDup_Permutation.
    + apply sorted_lt_nodup_nat. auto.
    + destruct (deliveries_correct axes pts order HG HN HL HA) as (ds' & E' & [_ S2 _]). rewrite E in E'. injection E' as <-. apply (S2 _ _ Hd).
    + intros i. rewrite IN. rewrite <- D4. split.
      * intros (l' & Hd' & Hi). assert (l' = idxs); [|subst; auto].
        { clear -D1 Hd Hd'. induction ds as [|[c0 l0] ds IH]; [destruct Hd|]. simpl in D1. inversion D1 as [|? ? Nc D1']; subst.
          destruct Hd as [Hd|Hd], Hd' as [Hd'|Hd']; auto; try congruence.
          - exfalso. apply Nc. injection Hd as -> _. apply (in_map fst) in Hd'. exact Hd'.
          - exfalso. apply Nc. injection Hd' as -> _. apply (in_map fst) in Hd. exact Hd. }
      * intros Hi. eauto.
  - intros C. apply in_map_iff in C. destruct C as ([c l] & Ec & Hd). cbn in Ec. subst c.
    pose proof (D3 _ _ Hd) as Nl. destruct l as [|x l]; [congruence|].
    destruct (proj1 (D4 cell x)) as (p & Hp & HM & HC); [exists (x :: l); simpl; auto|]. apply (B x p); auto.
Qed.
