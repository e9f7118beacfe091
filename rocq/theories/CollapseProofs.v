(** Proofs for C36. *)
From Verif Require Import Base PyStr QBase IndexModel IndexSpec IndexProofs AggModel Agg2Proofs CollapseModel CollapseSpec.
From Coq Require Import Permutation Lia.
Open Scope nat_scope. Notation length := List.length.

Lemma in_dims_spec dims d : in_dims dims d = true <-> In d dims.
Proof. unfold in_dims. rewrite existsb_exists. split; [intros (x & H & E); apply Nat.eqb_eq in E; congruence|intros H; exists d; split; auto; apply Nat.eqb_refl]. Qed.
Lemma not_in_dims dims d : in_dims dims d = false <-> ~ In d dims.
Proof. rewrite <- in_dims_spec. destruct (in_dims dims d); split; congruence. Qed.
Lemma sorted_filter (p : nat -> bool) l : StronglySorted lt l -> StronglySorted lt (filter p l).
Proof.
  induction 1 as [|x l S IH F]; cbn; [constructor|]. destruct (p x); auto. constructor; auto. rewrite Forall_forall in *. intros y Hy. apply filter_In in Hy. apply F. tauto.
Qed.
Lemma sorted_seq n : forall k, StronglySorted lt (seq k n).
Proof. induction n as [|n IH]; intros k; cbn; constructor; auto. apply Forall_forall. intros x Hx. apply in_seq in Hx. lia. Qed.
Lemma sorted_nodup_nat l : StronglySorted lt l -> NoDup l.
Proof. induction 1 as [|x l S IH F]; constructor; auto. intros H. rewrite Forall_forall in F. specialize (F x H). lia. Qed.
Lemma sorted_unique l : StronglySorted lt l -> forall m, StronglySorted lt m -> (forall x, In x l <-> In x m) -> l = m.
Proof.
  induction 1 as [|x l S IH F]; intros m SM H; [destruct m as [|y m]; auto; exfalso; apply (H y); left; auto|]. destruct SM as [|y m SM FM]; [exfalso; apply (H x); left; auto|]. rewrite Forall_forall in *.
  assert (x = y). { destruct (proj1 (H x)) as [E|I]; [left; auto|congruence|]. destruct (proj2 (H y)) as [E|I']; [left; auto|congruence|]. specialize (F y I'). specialize (FM x I). lia. }
  subst y. f_equal. apply IH; auto. intros z. split; intros Hz.
  - destruct (proj1 (H z)) as [E|I]; [right; auto| |auto]. subst z. specialize (F x Hz). lia.
  - destruct (proj2 (H z)) as [E|I]; [right; auto| |auto]. subst z. specialize (FM x Hz). lia.
Qed.
Lemma untouched_left n dims : left_over n dims (untouched n dims).
Proof. split; [apply sorted_filter, sorted_seq|]. intros d. unfold untouched. rewrite filter_In, in_seq, negb_true_iff, not_in_dims. intuition lia. Qed.
Lemma left_over_unique n dims r : left_over n dims r -> r = untouched n dims.
Proof. intros [S H]. destruct (untouched_left n dims) as [S' H']. apply sorted_unique; auto. intros x. rewrite H, H'. tauto. Qed.

(** ** Renumbering *)
Lemma rank_position n dims d : d < n -> ~ In d dims -> nth_error (untouched n dims) (length (untouched d dims)) = Some d.
Proof.
  intros L H. unfold untouched. replace (seq 0 n) with (seq 0 d ++ d :: seq (S d) (n - S d)).
  - rewrite filter_app, nth_error_app2, Nat.sub_diag by lia. cbn [filter]. apply not_in_dims in H. rewrite H. reflexivity.
  - replace n with (d + S (n - S d)) at 2 by lia. rewrite seq_app. reflexivity.
Qed.
Lemma filter_split {A} (p : A -> bool) l : length (filter p l) + length (filter (fun x => negb (p x)) l) = length l.
Proof. induction l as [|x l IH]; [reflexivity|]. cbn. destruct (p x); cbn; lia. Qed.
Lemma new_dim dims d : NoDup dims -> fold_left (fun n dc => if dc <? d then n - 1 else n) dims d = length (untouched d dims).
Proof.
  intros ND. assert (G : forall l n, fold_left (fun n dc => if dc <? d then n - 1 else n) l n = n - length (filter (fun dc => dc <? d) l)).
  { induction l as [|x l IH]; intros n; cbn [fold_left filter length]; [lia|]. rewrite IH. destruct (x <? d); cbn [length]; lia. }
  rewrite G. unfold untouched. pose proof (filter_split (in_dims dims) (seq 0 d)) as E. rewrite seq_length in E.
  assert (EQ : length (filter (in_dims dims) (seq 0 d)) = length (filter (fun dc => dc <? d) dims)).
  { apply Permutation_length. apply NoDup_Permutation; [apply NoDup_filter, seq_NoDup|apply NoDup_filter; auto|]. intros x. rewrite !filter_In, in_seq, in_dims_spec, Nat.ltb_lt. intuition lia. }
  lia.
Qed.
Lemma calc_new_dims_spec n dims cd : NoDup dims -> Forall (fun d => d < n) cd -> Forall2 (renumbered n dims) (filter (fun d => negb (in_dims dims d)) cd) (calc_new_dims cd dims).
Proof.
  intros ND H. induction H as [|d cd Hd H IH]; [constructor|]. unfold calc_new_dims. cbn [flat_map filter]. fold (calc_new_dims cd dims). destruct (in_dims dims d) eqn:E; cbn [negb app]; auto.
  constructor; auto. rewrite new_dim by auto. exists (untouched n dims). split; [apply untouched_left|]. apply rank_position; auto. apply not_in_dims. auto.
Qed.

(** ** Reduction *)
Lemma unravel_app s2 : forall s1 i k, k < cells s2 -> unravel (i * cells s2 + k) (s1 ++ s2) = unravel i s1 ++ unravel k s2.
Proof.
  induction s2 as [|n s2 IH] using rev_ind; intros s1 i k Hk.
  - cbn in Hk. rewrite app_nil_r. assert (k = 0) by lia. subst. cbn [cells]. rewrite Nat.mul_1_r, Nat.add_0_r. unfold unravel at 3. cbn. rewrite app_nil_r. reflexivity.
  - rewrite cells_app in *. cbn [cells] in *. rewrite Nat.mul_1_r in *. assert (N : n <> 0) by (intros ->; lia). rewrite app_assoc, !unravel_snoc.
    assert (Q1 : (i * (cells s2 * n) + k) / n = i * cells s2 + k / n) by (rewrite Nat.mul_assoc, (Nat.add_comm _ k), Nat.div_add by auto; lia).
    assert (Q2 : (i * (cells s2 * n) + k) mod n = k mod n) by (rewrite Nat.mul_assoc, (Nat.add_comm _ k), Nat.mod_add by auto; reflexivity).
    rewrite Q1, Q2, IH, <- app_assoc; [reflexivity|]. apply Nat.div_lt_upper_bound; auto. lia.
Qed.
Lemma chunk_map {A B} (g : A -> B) n k l : chunk n k (map g l) = map g (chunk n k l).
Proof. unfold chunk. rewrite skipn_map, firstn_map. reflexivity. Qed.
Lemma skipn_seq k : forall s n, skipn k (seq s n) = seq (s + k) (n - k).
Proof. induction k as [|k IH]; intros s n; [rewrite Nat.add_0_r, Nat.sub_0_r; reflexivity|]. destruct n as [|n]; cbn; auto. rewrite IH. f_equal; lia. Qed.
Lemma firstn_seq k : forall s n, firstn k (seq s n) = seq s (Nat.min k n).
Proof. induction k as [|k IH]; intros s n; [reflexivity|]. destruct n as [|n]; [reflexivity|]. cbn. rewrite IH. reflexivity. Qed.
Lemma seq_map_add a n : seq a n = map (fun k => a + k) (seq 0 n).
Proof. induction n as [|n IH]; [reflexivity|]. rewrite !seq_S, map_app, IH. reflexivity. Qed.
Lemma chunk_iterator s1 s2 j : j < cells s1 -> chunk (cells s2) j (index_iterator (s1 ++ s2)) = map (fun c => unravel j s1 ++ c) (index_iterator s2).
Proof.
  intros Hj. rewrite !index_iterator_unravel, chunk_map. unfold chunk. rewrite skipn_seq, firstn_seq, cells_app, Nat.add_0_l.
  assert (M : Nat.min (cells s2) (cells s1 * cells s2 - j * cells s2) = cells s2) by (rewrite <- Nat.mul_sub_distr_r; apply Nat.min_l; destruct (cells s1 - j) eqn:E; [lia|cbn; lia]).
  rewrite M, seq_map_add, !map_map. apply map_ext_in. intros k Hk. apply in_seq in Hk. apply unravel_app. lia.
Qed.
Lemma nth_of_nth_error {A} (l : list A) i d x : nth_error l i = Some x -> nth i l d = x.
Proof. intros. erewrite nth_error_nth; eauto. Qed.
Lemma valid_nth s idx : valid_index s idx <-> length idx = length s /\ forall d, d < length s -> nth d idx 0 < nth d s 0.
Proof.
  unfold valid_index. split.
  - intros H. split; [eapply Forall2_length; eauto|]. induction H as [|i n idx s Hi H IH]; intros d Hd; [cbn in Hd; lia|]. destruct d; cbn; auto. apply IH. cbn in Hd. lia.
  - revert idx. induction s as [|n s IH]; intros [|i idx] [L H]; try discriminate; constructor; [apply (H 0); cbn; lia|apply IH]. split; [cbn in L; lia|]. intros d Hd. apply (H (S d)). cbn. lia.
Qed.
Lemma index_of_in x l : In x l -> index_of x l < length l /\ nth_error l (index_of x l) = Some x.
Proof.
  induction l as [|y l IH]; [contradiction|]. cbn. destruct (Nat.eqb_spec y x) as [->|N]; [split; [lia|reflexivity]|]. intros [E|H]; [congruence|]. destruct (IH H). split; [lia|auto].
Qed.
Section Reduce.
Context {A B : Type} (da : A) (db : B) (f : list A -> B) (a : arr A) (dims : list nat).
Hypothesis (ND : NoDup dims) (IN : Forall (fun d => d < length (a_shape a)) dims).
Let n := length (a_shape a).
Let lft := untouched n dims.
Let perm := lft ++ dims.
Let sh := fun l => map (fun d => nth d (a_shape a) 0) l.
Definition unperm (idx : list nat) : list nat := map (fun d => nth (index_of d perm) idx 0) (seq 0 (length perm)).
Lemma perm_nodup : NoDup perm.
Proof.
  unfold perm, lft. assert (N1 : NoDup (untouched n dims)) by (apply sorted_nodup_nat, untouched_left). assert (DJ : forall x, In x (untouched n dims) -> ~ In x dims) by (intros x Hx; apply (untouched_left n dims) in Hx; tauto).
  clear - N1 DJ ND. induction (untouched n dims) as [|x l IH]; auto. cbn. apply NoDup_cons_iff in N1. destruct N1 as [X N1]. apply NoDup_cons_iff. split; [rewrite in_app_iff; intros [H|H]; [auto|apply (DJ x); [left; auto|auto]]|]. apply IH; auto. intros y Hy. apply DJ. right. auto.
Qed.
Lemma perm_in d : In d perm <-> d < n.
Proof.
  unfold perm. rewrite in_app_iff. destruct (untouched_left n dims) as [_ H]. unfold lft. rewrite H. split; [intros [[L _]|I]; auto; rewrite Forall_forall in IN; apply IN; auto|]. intros L. destruct (in_dec Nat.eq_dec d dims); auto.
Qed.
Lemma perm_length : length perm = n.
Proof. rewrite <- (seq_length n 0). apply Permutation_length. apply NoDup_Permutation; [apply perm_nodup|apply seq_NoDup|]. intros x. rewrite perm_in, in_seq. lia. Qed.
Lemma unperm_at d idx : d < n -> nth d (unperm idx) 0 = nth (index_of d perm) idx 0.
Proof. intros L. unfold unperm. apply nth_of_nth_error. rewrite nth_error_map, (nth_error_nth' _ 0) by (rewrite seq_length, perm_length; auto). rewrite seq_nth by (rewrite perm_length; auto). reflexivity. Qed.
Lemma sh_nth l k d : nth_error l k = Some d -> nth k (sh l) 0 = nth d (a_shape a) 0.
Proof. intros H. unfold sh. apply nth_of_nth_error. rewrite nth_error_map, H. reflexivity. Qed.
Lemma unperm_valid idx : valid_index (sh perm) idx -> valid_index (a_shape a) (unperm idx).
Proof.
  intros V. apply valid_nth in V. destruct V as [L V]. apply valid_nth. split; [unfold unperm; rewrite map_length, seq_length; apply perm_length|]. intros d Hd. rewrite unperm_at by auto.
  assert (I : In d perm) by (apply perm_in; auto). destruct (index_of_in d perm I) as [LI NI]. rewrite <- (sh_nth perm (index_of d perm) d NI). apply V. unfold sh. rewrite map_length. auto.
Qed.
Lemma unperm_parts u c : length u = length lft -> length c = length dims -> map (fun d => nth d (unperm (u ++ c)) 0) lft = u /\ map (fun d => nth d (unperm (u ++ c)) 0) dims = c.
Proof.
  intros LU LC.
  assert (G : forall l v off, length v = length l -> (forall k d, nth_error l k = Some d -> nth_error perm (off + k) = Some d /\ nth (off + k) (u ++ c) 0 = nth k v 0) -> map (fun d => nth d (unperm (u ++ c)) 0) l = v).
  { intros l v off L H. apply nth_ext with (d := 0) (d' := 0); [rewrite map_length; auto|]. intros k Hk. rewrite map_length in Hk. destruct (nth_error l k) as [d|] eqn:E; [|apply nth_error_None in E; lia]. destruct (H k d E) as [H1 H2].
    rewrite (nth_of_nth_error _ k 0 (nth d (unperm (u ++ c)) 0)) by (rewrite nth_error_map, E; reflexivity). rewrite unperm_at by (apply perm_in; eapply nth_error_In; eauto). rewrite (index_of_nth _ perm_nodup _ _ H1). exact H2. }
  split; [apply (G lft u 0)|apply (G dims c (length lft))]; auto; intros k d E.
  - assert (Hk : k < length lft) by (apply nth_error_Some; congruence). unfold perm. rewrite Nat.add_0_l, nth_error_app1, app_nth1 by lia. auto.
  - assert (Hk : k < length dims) by (apply nth_error_Some; congruence). unfold perm. rewrite nth_error_app2, app_nth2 by lia. replace (length lft + k - length lft) with k by lia. replace (length lft + k - length u) with k by lia. auto.
Qed.
Lemma unperm_onto i u : valid_index (a_shape a) i -> map (fun d => nth d i 0) lft = u -> unperm (u ++ map (fun d => nth d i 0) dims) = i.
Proof.
  intros V <-. rewrite <- map_app. fold perm. apply valid_nth in V. destruct V as [L V]. apply nth_ext with (d := 0) (d' := 0); [unfold unperm; rewrite map_length, seq_length, perm_length; auto|].
  intros d Hd. unfold unperm in Hd. rewrite map_length, seq_length, perm_length in Hd. rewrite unperm_at by auto. assert (I : In d perm) by (apply perm_in; auto). destruct (index_of_in d perm I) as [LI NI]. apply nth_of_nth_error. rewrite nth_error_map, NI. reflexivity.
Qed.
Lemma collapse_array_spec : exists b, collapse_array da f a dims = Ok b /\ reduced da db f a dims b /\ a_shape b = sh lft.
Proof.
  unfold collapse_array. fold n.
  assert (NE : existsb (fun d => n <=? d) dims = false). { apply not_true_iff_false. rewrite existsb_exists. intros (d & Hd & E). apply Nat.leb_le in E. rewrite Forall_forall in IN. specialize (IN d Hd). fold n in IN. lia. }
  rewrite NE. fold lft. eexists. split; [reflexivity|]. split; [|reflexivity]. unfold reduce_last. split; [cbn [a_flat a_shape]; unfold whole; cbn [a_flat a_shape]; rewrite map_length, seq_length; reflexivity|].
  exists lft. split; [apply untouched_left|]. cbn [a_shape]. split; [reflexivity|]. intros j VJ. fold (sh lft) in VJ. fold (sh lft). fold (sh dims).
  destruct (valid_unravel _ _ VJ) as (q & Hq & EJ). exists (map unperm (map (fun c => j ++ c) (index_iterator (sh dims)))).
  assert (LJ : length j = length lft) by (apply valid_nth in VJ; destruct VJ as [VJ _]; unfold sh in VJ; rewrite map_length in VJ; auto).
  assert (VC : forall c, In c (index_iterator (sh dims)) -> valid_index (sh dims) c /\ length c = length dims) by (intros c Hc; apply index_iterator_in in Hc; split; auto; apply valid_nth in Hc; destruct Hc as [Hc _]; unfold sh in Hc; rewrite map_length in Hc; auto).
  split; [|split].
  - destruct (index_iterator_spec (sh dims)) as (_ & N & _). rewrite map_map. revert N VC. clear - LJ ND IN. intros N VC. induction (index_iterator (sh dims)) as [|c l IH]; [constructor|]. cbn [map]. apply NoDup_cons_iff in N. destruct N as [X N]. apply NoDup_cons_iff. split; [|apply IH; auto; intros; apply VC; right; auto].
    rewrite in_map_iff. intros (c' & E & Hc'). apply X. destruct (VC c) as [_ L1]; [left; auto|]. destruct (VC c') as [_ L2]; [right; auto|]. destruct (unperm_parts j c LJ L1) as [_ E1]. destruct (unperm_parts j c' LJ L2) as [_ E2]. rewrite E in E2. rewrite E1 in E2. congruence.
  - intros i. rewrite map_map, in_map_iff. split.
    + intros (c & <- & Hc). destruct (VC c Hc) as [V L]. split; [|apply unperm_parts; auto]. apply unperm_valid. unfold perm, sh. rewrite map_app. apply Forall2_app; auto.
    + intros [V E]. exists (map (fun d => nth d i 0) dims). split; [apply unperm_onto; auto|]. apply index_iterator_in. apply valid_nth in V. destruct V as [L V]. apply valid_nth. unfold sh. rewrite !map_length. split; auto. intros k Hk.
      destruct (nth_error dims k) as [d|] eqn:Ek; [|apply nth_error_None in Ek; lia]. rewrite (nth_of_nth_error _ k 0 (nth d i 0)), (nth_of_nth_error _ k 0 (nth d (a_shape a) 0)) by (rewrite nth_error_map, Ek; reflexivity). apply V. rewrite Forall_forall in IN. apply IN. eapply nth_error_In; eauto.
  - unfold a_at at 1. cbn [a_shape a_flat]. rewrite <- EJ, flat_pos_unravel by auto. rewrite (nth_of_nth_error _ q db (f (chunk (num_iterations (sh dims)) q (a_flat (transpose da a (lft ++ dims)))))) by (rewrite nth_error_map, (nth_error_nth' _ 0) by (rewrite seq_length; auto); rewrite seq_nth by auto; reflexivity).
    f_equal. unfold transpose. cbn [a_flat]. fold perm. fold (sh perm). rewrite chunk_map. assert (SE : sh perm = sh lft ++ sh dims) by apply map_app. rewrite SE, num_cells, chunk_iterator by auto. rewrite EJ, !map_map. reflexivity.
Qed.
End Reduce.

(** ** The whole cube *)
Lemma dims_sorted {A} (c : cube A) coords : collapse_dims c coords (dims_to_collapse c coords).
Proof.
  unfold dims_to_collapse. split; [apply sorted_filter, sorted_seq|]. intros d. rewrite filter_In, in_seq, existsb_exists. split.
  - intros [L (k & Hk & E)]. split; [lia|]. destruct (nth_error (cb_coords c) k) as [x|] eqn:Ex; [|discriminate]. apply in_dims_spec in E. eauto 6.
  - intros [L (k & x & Hk & Ex & I)]. split; [lia|]. exists k. split; auto. rewrite Ex. apply in_dims_spec. auto.
Qed.
Lemma collapse_dims_unique {A} (c : cube A) coords d1 d2 : collapse_dims c coords d1 -> collapse_dims c coords d2 -> d1 = d2.
Proof. intros [S1 H1] [S2 H2]. apply sorted_unique; auto. intros x. rewrite H1, H2. tauto. Qed.
Lemma partial_spec dims k : is_partial dims k = true <-> touched k dims /\ survives k dims.
Proof.
  unfold is_partial, touched, survives. rewrite andb_true_iff, !existsb_exists. split; intros [(d & D1 & D2) (e & E1 & E2)]; (split; [exists d|exists e]; split; auto); try (apply in_dims_spec; auto); rewrite negb_true_iff, not_in_dims in *; auto.
Qed.
Lemma left_positions (cd dims : list nat) : exists l, StronglySorted lt l /\ (forall k, In k l <-> exists d, nth_error cd k = Some d /\ ~ In d dims) /\ Forall2 (fun k d => nth_error cd k = Some d) l (filter (fun d => negb (in_dims dims d)) cd).
Proof.
  assert (G : forall cd off, exists l, StronglySorted lt l /\ (forall k, In k l <-> off <= k /\ exists d, nth_error cd (k - off) = Some d /\ ~ In d dims) /\ Forall2 (fun k d => nth_error cd (k - off) = Some d) l (filter (fun d => negb (in_dims dims d)) cd)).
  { induction cd0 as [|d cd0 IH]; intros off; [exists []; split; [constructor|]; split; [|constructor]; intros k; split; [contradiction|intros (_ & d & H & _); destruct (k - off); discriminate]|].
    destruct (IH (S off)) as (l & S1 & M & F).
    assert (F' : Forall2 (fun k d0 => nth_error (d :: cd0) (k - off) = Some d0) l (filter (fun d0 => negb (in_dims dims d0)) cd0)).
    { assert (GE : forall k, In k l -> S off <= k) by (intros k Hk; apply M in Hk; tauto). clear - F GE. induction F as [|k x l m H F IH]; constructor; [|apply IH; intros; apply GE; right; auto]. specialize (GE k (or_introl eq_refl)). replace (k - off) with (S (k - S off)) by lia. auto. }
    cbn [filter]. destruct (in_dims dims d) eqn:E; cbn [negb].
    - exists l. split; auto. split; auto. intros k. rewrite M. apply in_dims_spec in E. split; intros (L & e & H & N).
      + split; [lia|]. exists e. replace (k - off) with (S (k - S off)) by lia. auto.
      + destruct (Nat.eq_dec k off) as [->|NE]; [rewrite Nat.sub_diag in H; injection H as <-; contradiction|]. split; [lia|]. exists e. replace (k - off) with (S (k - S off)) in H by lia. auto.
    - apply not_in_dims in E. exists (off :: l). split; [constructor; auto; apply Forall_forall; intros k Hk; apply M in Hk; lia|]. split; [|constructor; auto; rewrite Nat.sub_diag; reflexivity]. intros k. cbn [In]. rewrite M. split.
      + intros [<-|(L & e & H & N)]; [split; [lia|]; exists d; rewrite Nat.sub_diag; auto|]. split; [lia|]. exists e. replace (k - off) with (S (k - S off)) by lia. auto.
      + intros (L & e & H & N). destruct (Nat.eq_dec k off) as [->|NE]; auto. right. split; [lia|]. exists e. replace (k - off) with (S (k - S off)) in H by lia. auto. }
  destruct (G cd 0) as (l & S1 & M & F). exists l. split; auto. split.
  - intros k. rewrite M, Nat.sub_0_r. split; [tauto|intros; split; [lia|auto]].
  - clear - F. induction F as [|k x l m H F IH]; constructor; auto. rewrite Nat.sub_0_r in H. auto.
Qed.
Lemma Forall2_compose {A B C} (R : A -> B -> Prop) (S : B -> C -> Prop) l m n : Forall2 R l m -> Forall2 S m n -> Forall2 (fun a c => exists b, R a b /\ S b c) l n.
Proof. intros H. revert n. induction H as [|a b l m Hab H IH]; intros n HS; inversion HS; subst; constructor; eauto. Qed.

Section Whole.
Context {A B : Type} (da : A) (db : B) (kernel : list A -> B) (c : cube A) (coords : list nat).
Hypothesis (HC : right_cube c).
Let n := length (a_shape (cb_data c)).
Let dims := dims_to_collapse c coords.
Hypothesis (HP : Forall (same_places dims) (cb_coords c)).

Lemma fold_min_least l : forall x, (exists p, In p (x :: l) /\ (p == fold_left Qmin l x)%Q) /\ forall p, In p (x :: l) -> (fold_left Qmin l x <= p)%Q.
Proof.
  induction l as [|y l IH]; intros x; cbn [fold_left]; [split; [exists x; split; [left; auto|reflexivity]|intros p [<-|[]]; apply Qle_refl]|].
  destruct (IH (Qmin x y)) as [(p & I & E) L]. split.
  - destruct I as [<-|I]; [|exists p; split; [right; right; exact I|exact E]]. destruct (Q.min_spec x y) as [[_ H]|[_ H]]; [exists x|exists y]; (split; [cbn; auto|rewrite <- E; symmetry; exact H]).
  - assert (M := L (Qmin x y) (or_introl eq_refl)). intros q [<-|[<-|J]]; [eapply Qle_trans; [exact M|apply Q.le_min_l]|eapply Qle_trans; [exact M|apply Q.le_min_r]|apply L; right; exact J].
Qed.
Lemma fold_max_largest l : forall x, (exists p, In p (x :: l) /\ (p == fold_left Qmax l x)%Q) /\ forall p, In p (x :: l) -> (p <= fold_left Qmax l x)%Q.
Proof.
  induction l as [|y l IH]; intros x; cbn [fold_left]; [split; [exists x; split; [left; auto|reflexivity]|intros p [<-|[]]; apply Qle_refl]|].
  destruct (IH (Qmax x y)) as [(p & I & E) L]. split.
  - destruct I as [<-|I]; [|exists p; split; [right; right; exact I|exact E]]. destruct (Q.max_spec x y) as [[_ H]|[_ H]]; [exists y|exists x]; (split; [cbn; auto|rewrite <- E; symmetry; exact H]).
  - assert (M := L (Qmax x y) (or_introl eq_refl)). intros q [<-|[<-|J]]; [eapply Qle_trans; [apply Q.le_max_l|exact M]|eapply Qle_trans; [apply Q.le_max_r|exact M]|apply L; right; exact J].
Qed.
Lemma scalar_halfway a : a_flat a <> [] -> exists v, a_flat (scalar a) = [v] /\ halfway (a_flat a) v.
Proof.
  unfold scalar. destruct (a_flat a) as [|x r]; [contradiction|]. intros _. eexists. split; [reflexivity|]. destruct (fold_min_least r x) as [M1 M2], (fold_max_largest r x) as [N1 N2].
  exists (fold_left Qmin r x), (fold_left Qmax r x). split; [intros p I; split; auto|]. split; [exact M1|]. split; [exact N1|]. reflexivity.
Qed.
Lemma mean_of_average : average mean_of.
Proof.
  intros l N. unfold mean_of. field. destruct l as [|x l]; [contradiction|]. cbn [length]. rewrite Nat2Z.inj_succ. intros H. unfold Qeq, inject_Z in H. cbn in H. lia.
Qed.
Lemma untouched_coord k : In k (cb_coords c) -> is_partial dims k = false -> right_coord n dims k (collapsed_coord dims k).
Proof.
  intros Hk NP. unfold collapsed_coord. destruct (existsb (in_dims dims) (gc_dims k)) eqn:E.
  - assert (T : touched k dims) by (apply existsb_exists in E; destruct E as (d & D1 & D2); exists d; split; auto; apply in_dims_spec; auto).
    split; [reflexivity|]. split; [contradiction|]. split; [intros _ _; split; [reflexivity|]; split; [cbn; unfold scalar; destruct (a_flat (gc_points k)); reflexivity|apply scalar_halfway]|]. intros _ S. exfalso. assert (is_partial dims k = true) by (apply partial_spec; auto). congruence.
  - assert (T : ~ touched k dims) by (intros (d & D1 & D2); assert (X : existsb (in_dims dims) (gc_dims k) = true) by (apply existsb_exists; exists d; split; auto; apply in_dims_spec; auto); congruence).
    split; [reflexivity|]. split; [|split; intros; contradiction]. intros _. split; [reflexivity|]. cbn [gc_dims]. destruct HC as [_ HF]. rewrite Forall_forall in HF. destruct (HF k Hk) as (_ & _ & L & _). clear - L T.
    assert (N : forall d, In d (gc_dims k) -> ~ In d dims) by (intros d D1 D2; apply T; exists d; auto). clear T. induction (gc_dims k) as [|d l IH]; cbn [map]; constructor.
    + exists (untouched n dims). split; [apply untouched_left|]. apply rank_position; [inversion L; auto|apply N; left; auto].
    + apply IH; [inversion L; auto|intros; apply N; right; auto].
Qed.
Lemma partial_coord k : In k (cb_coords c) -> is_partial dims k = true -> exists p, collapse_array 0%Q mean_of (gc_points k) dims = Ok p /\
  right_coord n dims k (mkGC (gc_name k) (calc_new_dims (gc_dims k) dims) p) /\ a_shape p = map (fun d => nth d (a_shape (cb_data c)) 0) (filter (fun d => negb (in_dims dims d)) (gc_dims k)).
Proof.
  intros Hk P. apply partial_spec in P. destruct P as [T S]. pose proof HC as [_ HF]. rewrite Forall_forall in HF. destruct (HF k Hk) as (W & ND & L & SH).
  rewrite Forall_forall in HP. specialize (HP k Hk T S). destruct (dims_sorted c coords) as [SD _]. fold dims in SD. pose proof (sorted_nodup_nat _ SD) as NDD.
  assert (IN : Forall (fun d => d < length (a_shape (gc_points k))) dims) by (apply Forall_forall; intros d Hd; rewrite SH, map_length; apply nth_error_Some; rewrite (HP d Hd); discriminate).
  destruct (collapse_array_spec 0%Q 0%Q mean_of (gc_points k) dims NDD IN) as (p & E & R & SP). exists p. split; auto.
  destruct (left_positions (gc_dims k) dims) as (l & S1 & M & F).
  assert (OWN : forall j, In j dims <-> exists d, nth_error (gc_dims k) j = Some d /\ In d dims).
  { intros j. split; [intros Hj; exists j; split; auto|]. intros (d & Hj & Hd). assert (j = d); [|congruence]. apply (proj1 (NoDup_nth_error (gc_dims k)) ND); [apply nth_error_Some; congruence|]. rewrite Hj, (HP d Hd). reflexivity. }
  assert (LU : l = untouched (length (a_shape (gc_points k))) dims).
  { apply sorted_unique; auto; [apply untouched_left|]. intros j. rewrite M. destruct (untouched_left (length (a_shape (gc_points k))) dims) as [_ H]. rewrite H, SH, map_length. split.
    - intros (d & Hj & Nd). split; [apply nth_error_Some; congruence|]. rewrite OWN. intros (d' & Hj' & Hd'). congruence.
    - intros [Lj Nj]. destruct (nth_error (gc_dims k) j) as [d|] eqn:Ej; [|apply nth_error_None in Ej; lia]. exists d. split; auto. intros Hd. apply Nj, OWN. eauto. }
  split; [|].
  - split; [reflexivity|]. split; [contradiction|]. split; [contradiction|]. intros _ _. cbn [gc_dims gc_points]. split.
    + exists l. split; auto. split; auto. pose proof (calc_new_dims_spec n dims (gc_dims k) NDD L) as FN. eapply Forall2_compose; eauto.
    + exists dims, mean_of. split; [split; auto|]. split; [exact mean_of_average|exact R].
  - rewrite SP, <- LU, SH. clear - F. induction F as [|j d l m H F IH]; [reflexivity|]. cbn [map]. rewrite IH. f_equal. apply nth_of_nth_error. rewrite nth_error_map, H. reflexivity.
Qed.
Theorem full_collapse_spec : exists out, full_collapse da kernel c coords = Ok out /\ right_collapse da db kernel c dims out.
Proof.
  unfold full_collapse. fold dims. pose proof HC as [W HF].
  destruct (dims_sorted c coords) as [SD MD]. fold dims in SD, MD. pose proof (sorted_nodup_nat _ SD) as NDD.
  assert (IN : Forall (fun d => d < length (a_shape (cb_data c))) dims) by (apply Forall_forall; intros d Hd; apply MD in Hd; tauto).
  destruct (collapse_array_spec da db kernel (cb_data c) dims NDD IN) as (b & E & R & SB). rewrite E. cbn [bind].
  assert (G : forall ks (out : cube B), (forall k, In k ks -> In k (cb_coords c) /\ is_partial dims k = true) -> a_shape (cb_data out) = a_shape b ->
    exists out', fold_left (fun out k => bind out (fun out => bind (collapse_array 0%Q mean_of (gc_points k) dims) (fun p => add_aux_coord out (mkGC (gc_name k) (calc_new_dims (gc_dims k) dims) p)))) ks (Ok out) = Ok out' /\
      cb_data out' = cb_data out /\ exists l, cb_coords out' = cb_coords out ++ l /\ Forall2 (right_coord n dims) ks l).
  { induction ks as [|k ks IH]; intros out HK SO; [exists out; split; [reflexivity|]; split; auto; exists []; rewrite app_nil_r; split; auto|].
    cbn [fold_left bind]. destruct (HK k (or_introl eq_refl)) as [K1 K2]. destruct (partial_coord k K1 K2) as (p & EP & RP & SP). rewrite EP. cbn [bind].
    assert (RN : Forall2 (renumbered n dims) (filter (fun d => negb (in_dims dims d)) (gc_dims k)) (calc_new_dims (gc_dims k) dims)).
    { apply calc_new_dims_spec; auto. rewrite Forall_forall in HF. destruct (HF k K1) as (_ & _ & L & _). exact L. }
    assert (RNN : Forall2 (fun d new => nth_error (untouched n dims) new = Some d) (filter (fun d => negb (in_dims dims d)) (gc_dims k)) (calc_new_dims (gc_dims k) dims)).
    { clear - RN. induction RN as [|x y l m (r & L & H) RN IH]; constructor; auto. rewrite <- (left_over_unique _ _ _ L). auto. }
    unfold add_aux_coord at 2. cbn [gc_points gc_dims]. rewrite SO, SB. fold n.
    assert (E1 : a_shape p = map (fun d => nth d (map (fun d0 => nth d0 (a_shape (cb_data c)) 0) (untouched n dims)) 0) (calc_new_dims (gc_dims k) dims)).
    { rewrite SP. clear - RNN. induction RNN as [|x y l m H RNN IH]; [reflexivity|]. cbn [map]. rewrite IH. f_equal. symmetry. apply nth_of_nth_error. rewrite nth_error_map, H. reflexivity. }
    assert (E2 : forallb (fun d => d <? length (map (fun d0 => nth d0 (a_shape (cb_data c)) 0) (untouched n dims))) (calc_new_dims (gc_dims k) dims) = true).
    { clear - RNN. induction RNN as [|x y l m H RNN IH]; [reflexivity|]. cbn [forallb]. rewrite IH, andb_true_r. apply Nat.ltb_lt. rewrite map_length. apply nth_error_Some. congruence. }
    rewrite E2. destruct (list_eq_dec Nat.eq_dec _ _) as [_|NEQ]; [|contradiction]. cbn [andb].
    destruct (IH (mkCube (A := B) (cb_data out) (cb_coords out ++ [mkGC (gc_name k) (calc_new_dims (gc_dims k) dims) p]))) as (out' & EO & DO & l & CO & FO); [intros; apply HK; right; auto|exact SO|].
    exists out'. split; auto. split; auto. exists (mkGC (gc_name k) (calc_new_dims (gc_dims k) dims) p :: l). cbn [cb_coords] in CO. rewrite CO, <- app_assoc. split; [reflexivity|constructor; auto]. }
  destruct (G (filter (is_partial dims) (cb_coords c)) (mkCube b (map (collapsed_coord dims) (filter (fun k => negb (is_partial dims k)) (cb_coords c))))) as (out & EO & DO & l & CO & FO); [intros k Hk; apply filter_In in Hk; auto|reflexivity|].
  exists out. split; auto. split; [rewrite DO; exact R|]. cbn [cb_coords] in CO. rewrite CO. fold n.
  assert (FU : forall k, In k (cb_coords c) -> is_partial dims k = false -> right_coord n dims k (collapsed_coord dims k)) by apply untouched_coord.
  clear - FO FU. revert l FO. induction (cb_coords c) as [|k ks IH]; intros l FO.
  - inversion FO. exists []. split; constructor.
  - cbn [filter] in *. destruct (is_partial dims k) eqn:P; cbn [negb map app] in *.
    + inversion FO as [|? x ? l' H1 H2]; subst. destruct (IH (fun k Hk => FU k (or_intror Hk)) l' H2) as (m & PM & FM). exists (x :: m). split; [|constructor; auto]. rewrite <- Permutation_middle. constructor. auto.
    + destruct (IH (fun k Hk => FU k (or_intror Hk)) l FO) as (m & PM & FM). exists (collapsed_coord dims k :: m). split; [constructor; auto|]. constructor; auto. apply FU; [left; auto|auto].
Qed.
End Whole.
Theorem collapse_right {A B} (da : A) (db : B) kernel c coords dims : right_cube c -> collapse_dims c coords dims -> Forall (same_places dims) (cb_coords c) ->
  exists out, full_collapse da kernel c coords = Ok out /\ right_collapse da db kernel c dims out.
Proof. intros HC HD HP. assert (dims = dims_to_collapse c coords) by (eapply collapse_dims_unique; [exact HD|apply dims_sorted]). subst dims. apply full_collapse_spec; auto. Qed.
Theorem collapse_each {A B} (da : A) (db : B) kernels c coords dims : right_cube c -> collapse_dims c coords dims -> Forall (same_places dims) (cb_coords c) ->
  exists outs, collapse_kernels da kernels c coords = Ok outs /\ Forall2 (fun f out => right_collapse da db f c dims out) kernels outs.
Proof.
  intros HC HD HP. induction kernels as [|f ks (outs & E & F)]; [exists []; split; constructor|]. destruct (collapse_right da db f c coords dims HC HD HP) as (o & EO & R). exists (o :: outs). split; [cbn; rewrite EO; cbn; rewrite E; reflexivity|constructor; auto].
Qed.
Theorem new_dims n dims cd : NoDup dims -> Forall (fun d => d < n) cd -> exists left, StronglySorted lt left /\ (forall k, In k left <-> exists d, nth_error cd k = Some d /\ ~ In d dims) /\
  Forall2 (fun k new => exists d, nth_error cd k = Some d /\ renumbered n dims d new) left (calc_new_dims cd dims).
Proof. intros ND L. destruct (left_positions cd dims) as (l & S & M & F). exists l. split; auto. split; auto. eapply Forall2_compose; [exact F|]. apply calc_new_dims_spec; auto. Qed.
