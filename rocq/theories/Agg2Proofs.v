(** Proofs for C35: the cells of the result. *)
From Verif Require Import Base PyStr QBase LonModel LonSpec LonProofs DateModel UngrModel UngrSpec UngrProofs SubsetModel SubsetSpec SubsetProofs Subset2Proofs GridIndexModel GridIndexSpec GridIndexProofs IndexProofs UtilProofs AggModel AggSpec AggProofs.
From Coq Require Import Lqa Lia.
Open Scope nat_scope.
Notation length := List.length.

(** ** coord_map *)
Definition has_name (stds : list (option str)) (ci : nat) (n : str) : Prop := nth_error stds ci = Some (Some n).
Definition unique_stds (stds : list (option str)) : Prop := forall i j n, n <> [] -> has_name stds i n -> has_name stds j n -> i = j.
Lemma in_positions n stds ci : In ci (positions n stds) <-> has_name stds ci n.
Proof.
  unfold positions, has_name. rewrite filter_In, in_seq, std_eqb_eq. split.
  - intros [H E]. destruct (nth_error stds ci) eqn:F; [apply nth_error_nth with (d := None) in F; congruence|apply nth_error_None in F; lia].
  - intros H. split; [assert (ci < length stds) by (apply nth_error_Some; congruence); lia|apply nth_error_nth; auto].
Qed.
Lemma positions_unique n stds : n <> [] -> unique_stds stds -> positions n stds = [] \/ exists ci, positions n stds = [ci].
Proof.
  intros N U. assert (ND : NoDup (positions n stds)) by (apply NoDup_filter, seq_NoDup).
  destruct (positions n stds) as [|a [|b l]] eqn:E; eauto. exfalso. assert (a = b) by (apply (U a b n N); apply in_positions; rewrite E; cbn; auto). subst. apply NoDup_cons_iff in ND. apply (proj1 ND). left. auto.
Qed.
Lemma coord_map_spec stds : unique_stds stds -> forall (names : list str) present hpi, (forall n, In n names -> n <> []) -> NoDup names -> length present = length names ->
  (forall k n ci, nth_error names k = Some n -> has_name stds ci n -> nth k present false = true) ->
  exists m, coord_map hpi names present stds = Ok m /\ NoDup (map snd m) /\ (forall h ci, In (h, ci) m <-> exists k n, h = hpi + k /\ nth_error names k = Some n /\ has_name stds ci n).
Proof.
  intros U. induction names as [|n names IH]; intros present hpi NE ND L P.
  { destruct present; [|discriminate]. exists []. split; [reflexivity|]. split; [constructor|]. intros h ci. split; [contradiction|]. intros (k & n & _ & H & _). destruct k; discriminate. }
  destruct present as [|p present]; [discriminate|]. cbn [coord_map].
  destruct (IH present (S hpi)) as (m & E & NDm & Hm); [intros; apply NE; right; auto|inversion ND; auto|cbn in L; lia|intros k n' ci Hk; apply (P (S k) n' ci Hk)|].
  assert (G : exists here, (if p then match positions n stds with [] => Ok [] | [ci] => Ok [(hpi, ci)] | _ => Raises CoordinateNotFoundError end else Ok []) = Ok here /\ (forall h ci, In (h, ci) here <-> h = hpi /\ has_name stds ci n) /\ NoDup (map snd here)).
  { destruct p.
    - destruct (positions_unique n stds (NE n (or_introl eq_refl)) U) as [Ep|(ci & Ep)]; rewrite Ep; eexists; (split; [reflexivity|]).
      + split; [|constructor]. intros h ci. split; [contradiction|]. intros [_ H]. apply in_positions in H. rewrite Ep in H. contradiction.
      + split; [|repeat constructor; auto]. intros h c. rewrite <- in_positions, Ep. cbn. split; [intros [[= <- <-]|[]]; auto|intros [-> [->|[]]]; auto].
    - exists []. split; [reflexivity|]. split; [|constructor]. intros h ci. split; [contradiction|]. intros [_ H]. specialize (P 0 n ci eq_refl H). discriminate. }
  destruct G as (here & -> & Hh & NDh). cbn [bind]. rewrite E. cbn [bind]. exists (here ++ m). split; [reflexivity|]. split.
  - rewrite map_app. assert (X : forall x, In x (map snd here) -> In x (map snd m) -> False).
    { intros x H1 H2. apply in_map_iff in H1, H2. destruct H1 as ([h1 c1] & <- & H1), H2 as ([h2 c2] & E2 & H2). cbn in E2. subst. apply Hh in H1. apply Hm in H2. destruct H1 as [_ H1], H2 as (k & n' & _ & Hk & H2). unfold has_name in *. rewrite H1 in H2. injection H2 as <-. apply NoDup_cons_iff in ND. apply (proj1 ND). eapply nth_error_In; eauto. }
    clear - NDh NDm X. induction (map snd here) as [|y l IHl]; [auto|]. apply NoDup_cons_iff in NDh. destruct NDh as [Ny NDl]. cbn. constructor; [rewrite in_app_iff; intros [H|H]; [auto|apply (X y); [left; auto|auto]]|]. apply IHl; auto. intros x H1 H2. apply (X x); [right; auto|auto].
  - intros h ci. rewrite in_app_iff, Hh, Hm. split.
    + intros [[-> H]|(k & n' & -> & Hk & H)]; [exists 0, n; repeat split; auto; lia|exists (S k), n'; repeat split; auto; lia].
    + intros ([|k] & n' & -> & Hk & H); cbn in Hk; [injection Hk as <-; left; split; auto; lia|right; exists k, n'; repeat split; auto; lia].
Qed.

(** ** sorting *)
Lemma insert_perm x l : Permutation (insert_by x l) (x :: l).
Proof. induction l as [|y l IH]; [reflexivity|]. cbn [insert_by]. destruct (fst x <? fst y); [reflexivity|]. rewrite IH. constructor. Qed.
Lemma sort_perm_gen l : forall acc, Permutation (fold_left (fun acc x => insert_by x acc) l acc) (l ++ acc).
Proof. induction l as [|x l IH]; intros acc; [reflexivity|]. cbn. rewrite IH. rewrite insert_perm. symmetry. apply Permutation_middle. Qed.
Lemma sort_perm l : Permutation (sort_by l) l.
Proof. unfold sort_by. rewrite sort_perm_gen, app_nil_r. reflexivity. Qed.
Lemma insert_sorted x l : StronglySorted (fun a b : nat * nat => fst a <= fst b) l -> StronglySorted (fun a b : nat * nat => fst a <= fst b) (insert_by x l).
Proof.
  induction l as [|y l IH]; intros H; [repeat constructor|]. cbn [insert_by]. inversion H as [|? ? Hs Hf]; subst. destruct (Nat.ltb_spec (fst x) (fst y)).
  - constructor; auto. constructor; [lia|]. eapply Forall_impl; [|exact Hf]. intros a Ha. cbn in Ha. lia.
  - constructor; [apply IH; auto|]. eapply Permutation_Forall; [symmetry; apply insert_perm|]. constructor; [lia|auto].
Qed.
Lemma sort_sorted l : StronglySorted (fun a b : nat * nat => fst a <= fst b) (sort_by l).
Proof. unfold sort_by. assert (H : StronglySorted (fun a b : nat * nat => fst a <= fst b) []) by constructor. revert H. generalize (@nil (nat * nat)). induction l as [|x l IH]; intros acc H; auto. cbn. apply IH, insert_sorted. auto. Qed.
Lemma sorted_strict (l : list (nat * nat)) : StronglySorted (fun a b : nat * nat => fst a <= fst b) l -> NoDup (map fst l) -> StronglySorted lt (map fst l).
Proof.
  induction l as [|x l IH]; intros H N; [constructor|]. inversion H as [|? ? Hs Hf]; subst. cbn in N |- *. apply NoDup_cons_iff in N. destruct N as [Nx Nl]. constructor; [auto|].
  rewrite Forall_map. rewrite Forall_forall in Hf |- *. intros y Hy. specialize (Hf y Hy). assert (fst x <> fst y) by (intros E; apply Nx; rewrite E; apply in_map; auto). lia.
Qed.
Lemma index_of_nth l : NoDup l -> forall j x, nth_error l j = Some x -> index_of x l = j.
Proof.
  induction l as [|y l IH]; intros N j x H; [destruct j; discriminate|]. apply NoDup_cons_iff in N. destruct N as [Ny Nl]. cbn. destruct j as [|j]; cbn in H.
  - injection H as ->. rewrite Nat.eqb_refl. auto.
  - destruct (Nat.eqb_spec y x) as [->|_]; [exfalso; apply Ny; eapply nth_error_In; eauto|]. rewrite (IH Nl j x H). auto.
Qed.

(** ** filling the cells *)
Lemma list_Z_eqb_eq a b : list_Z_eqb a b = true <-> a = b.
Proof. unfold list_Z_eqb. destruct (list_eq_dec Z.eq_dec a b); split; congruence. Qed.
Lemma fill_spec {V} (kernel : list Q -> list (option V)) values ds : NoDup (map fst ds) -> forall c,
  (forall idxs, In (c, idxs) ds -> fill_cells kernel values ds c = Some (kernel (somes (map (fun i => nth i values None) idxs)))) /\
  (~ In c (map fst ds) -> fill_cells kernel values ds c = None).
Proof.
  intros N c. unfold fill_cells.
  assert (G : forall acc : list Z -> option (list (option V)), (forall idxs, In (c, idxs) ds -> fold_left (fun acc d => set_cell acc (fst d) (kernel (somes (map (fun i => nth i values None) (snd d))))) ds acc c = Some (kernel (somes (map (fun i => nth i values None) idxs)))) /\
    (~ In c (map fst ds) -> fold_left (fun acc d => set_cell acc (fst d) (kernel (somes (map (fun i => nth i values None) (snd d))))) ds acc c = acc c)).
  { induction ds as [|[c0 i0] ds IH]; intros acc; [split; [contradiction|auto]|]. cbn in N. apply NoDup_cons_iff in N. destruct N as [N0 N]. specialize (IH N). cbn [fold_left fst snd map]. split.
    - intros idxs [[= -> ->]|H]; [|apply IH; auto]. rewrite (proj2 (IH _)) by auto. unfold set_cell. rewrite (proj2 (list_Z_eqb_eq c c)) by auto. auto.
    - intros H. cbn in H. rewrite (proj2 (IH _)) by tauto. unfold set_cell. destruct (list_Z_eqb c c0) eqn:E; auto. apply list_Z_eqb_eq in E. subst. exfalso. apply H. left. auto. }
  apply G.
Qed.

(** ** axes *)
Lemma fold_min_le l : forall x, (fold_left Qmin l x <= x)%Q /\ forall v, In v l -> (fold_left Qmin l x <= v)%Q.
Proof.
  induction l as [|y l IH]; intros x; [split; [cbn; apply Qle_refl|contradiction]|]. cbn. destruct (IH (Qmin x y)) as [A B]. pose proof (Q.le_min_l x y). pose proof (Q.le_min_r x y). split; [lra|]. intros v [<-|H1]; [lra|auto].
Qed.
Lemma fold_max_ge l : forall x, (x <= fold_left Qmax l x)%Q /\ forall v, In v l -> (v <= fold_left Qmax l x)%Q.
Proof.
  induction l as [|y l IH]; intros x; [split; [cbn; apply Qle_refl|contradiction]|]. cbn. destruct (IH (Qmax x y)) as [A B]. pose proof (Q.le_max_l x y). pose proof (Q.le_max_r x y). split; [lra|]. intros v [<-|H1]; [lra|auto].
Qed.
Definition fine (g : gaxis) : Prop := match g with Cells a => good_axis a /\ decreasing a = false | Whole _ => True end.
Lemma comparable_fine vals g : fine g -> good_axis (comparable vals g) /\ decreasing (comparable vals g) = false.
Proof.
  destruct g as [a|c]; cbn [fine comparable]; auto. intros _. destruct vals as [|v r]; (split; [|reflexivity]); (split; [discriminate|]); (split; [reflexivity|]); cbn; repeat split; auto; try lra.
  pose proof (proj1 (fold_min_le r v)). pose proof (proj1 (fold_max_ge r v)). lra.
Qed.
Lemma comparable_contains vals g k v : fine g -> In v vals -> (contains (comparable vals g) (Z.of_nat k) v <-> in_cell g k v).
Proof.
  destruct g as [a|c]; cbn [comparable in_cell]; [tauto|]. intros _ H. destruct vals as [|x r]; [contradiction|]. unfold contains. cbn [ax_bounds]. rewrite Nat2Z.id.
  assert (B : (fold_left Qmin r x - 1 <= v)%Q /\ (v < fold_left Qmax r x + 1)%Q /\ (fold_left Qmin r x - 1 < fold_left Qmax r x + 1)%Q).
  { destruct (fold_min_le r x) as [A1 A2], (fold_max_ge r x) as [B1 B2]. destruct H as [->|H]; [lra|]. specialize (A2 v H). specialize (B2 v H). lra. }
  destruct (Qmin_l (fold_left Qmin r x - 1) (fold_left Qmax r x + 1)) as [E1 E2]; [tauto|]. split.
  - intros [_ (b & Hb & _)]. destruct k as [|k]; auto. destruct k; discriminate.
  - intros ->. split; [lia|]. eexists. split; [reflexivity|]. cbn [fst snd]. rewrite E1, E2. tauto.
Qed.
Lemma comparable_size vals g : length (ax_bounds (comparable vals g)) = size_of g.
Proof. destruct g; auto. destruct vals; auto. Qed.
