From Verif Require Import Base IndexModel IndexSpec.

Definition unravel (i : nat) (shape : list nat) : list nat := rev (unravel_rev i (rev shape)).

Lemma unravel_snoc i s n : unravel i (s ++ [n]) = unravel (i / n) s ++ [i mod n].
Proof. unfold unravel. rewrite rev_app_distr. simpl. reflexivity. Qed.

Lemma unravel_rev_length rs : forall i, length (unravel_rev i rs) = length rs.
Proof. induction rs; intros; simpl; auto. Qed.

Lemma unravel_length i s : length (unravel i s) = length s.
Proof. unfold unravel. rewrite rev_length, unravel_rev_length, rev_length. reflexivity. Qed.

Lemma fold_mul s : forall a, fold_left (fun n k => n * k) s a = a * cells s.
Proof.
  induction s as [|n s IH]; intros a; simpl; [lia|]. rewrite IH. lia.
Qed.

Lemma num_cells s : num_iterations s = cells s.
Proof. unfold num_iterations. rewrite fold_mul. lia. Qed.

Lemma cells_app s1 s2 : cells (s1 ++ s2) = cells s1 * cells s2.
Proof. induction s1; simpl; [lia|]. rewrite IHs1. lia. Qed.

Lemma set_nth_app {A} (l1 l2 : list A) v j : j < length l1 ->
  set_nth j v (l1 ++ l2) = set_nth j v l1 ++ l2.
Proof.
  revert j. induction l1 as [|x l1 IH]; intros j H; simpl in *; [lia|].
  destruct j; simpl; auto. rewrite IH by lia. auto.
Qed.

Lemma set_nth_app_here {A} (l1 : list A) x v l2 : set_nth (length l1) v (l1 ++ x :: l2) = l1 ++ v :: l2.
Proof. induction l1; simpl; auto. rewrite IHl1. auto. Qed.

Lemma set_nth_length {A} (l : list A) v : forall j, length (set_nth j v l) = length l.
Proof. induction l; intros [|j]; simpl; auto. Qed.

Lemma advance_app j : forall a s b t, j <= length a -> length a = length s ->
  advance j (a ++ b) (s ++ t) = advance j a s ++ b.
Proof.
  induction j as [|j IH]; intros a s b t Hj E; simpl; auto.
  rewrite !app_nth1 by lia.
  destruct (nth j a 0 + 1 <? nth j s 0).
  - apply set_nth_app; lia.
  - rewrite !set_nth_app by (rewrite ?set_nth_length; lia).
    apply IH; rewrite ?set_nth_length; lia.
Qed.

Lemma advance_snoc a s x n : length a = length s ->
  advance (length (s ++ [n])) (a ++ [x]) (s ++ [n]) =
  if x + 1 <? n then a ++ [x + 1] else advance (length s) a s ++ [0].
Proof.
  intros E. rewrite app_length. simpl. replace (length s + 1) with (S (length s)) by lia.
  cbn [advance]. rewrite (nth_middle s [] n 0).
  replace (nth (length s) (a ++ [x]) 0) with x by (rewrite <- E; rewrite nth_middle; auto).
  replace (set_nth (length s) (x + 1) (a ++ [x])) with (a ++ [x + 1]) by (rewrite <- E, set_nth_app_here; auto).
  destruct (x + 1 <? n).
  - reflexivity.
  - replace (set_nth (length s) 0 (a ++ [x + 1])) with (a ++ [0]) by (rewrite <- E, set_nth_app_here; auto).
    apply advance_app; lia.
Qed.

Lemma cells_pos s : 0 < cells s <-> Forall (fun n => 0 < n) s.
Proof.
  induction s as [|n s IH]; simpl; [split; auto; lia|].
  rewrite Forall_cons_iff, <- IH. destruct n, (cells s); simpl; split; intros; try lia.
Qed.

Lemma advance_unravel s : Forall (fun n => 0 < n) s -> forall i,
  advance (length s) (unravel i s) s = unravel (S i) s.
Proof.
  induction s as [|n s IH] using rev_ind; intros HF i; [reflexivity|].
  apply Forall_app in HF. destruct HF as [HF Hn]. inversion Hn as [|? ? Hn0 _]; subst.
  rewrite !unravel_snoc. rewrite advance_snoc by apply unravel_length.
  pose proof (Nat.div_mod i n ltac:(lia)) as D.
  pose proof (Nat.mod_upper_bound i n ltac:(lia)) as U.
  destruct (Nat.ltb_spec (i mod n + 1) n) as [H|H].
  - assert (S i / n = i / n) by (symmetry; apply Nat.div_unique with (r := i mod n + 1); lia).
    assert (S i mod n = i mod n + 1) by (symmetry; apply Nat.mod_unique with (q := i / n); lia).
    congruence.
  - rewrite IH by auto.
    assert (S i / n = S (i / n)) as -> by (symmetry; apply Nat.div_unique with (r := 0); nia).
    assert (S i mod n = 0) as -> by (symmetry; apply Nat.mod_unique with (q := S (i / n)); nia).
    reflexivity.
Qed.

Lemma iterate_unravel s : Forall (fun n => 0 < n) s -> forall k i,
  iterate k (unravel i s) s = map (fun j => unravel j s) (seq i k).
Proof.
  intros HF k. induction k as [|k IH]; intros i; simpl; auto.
  rewrite advance_unravel by auto. rewrite IH. reflexivity.
Qed.

Lemma unravel_zero s : Forall (fun n => 0 < n) s -> unravel 0 s = repeat 0 (length s).
Proof.
  induction s as [|n s IH] using rev_ind; intros HF; [reflexivity|].
  apply Forall_app in HF. destruct HF as [HF Hn]. inversion Hn; subst.
  rewrite unravel_snoc, Nat.div_0_l, Nat.mod_0_l, IH by (auto; lia).
  rewrite app_length. simpl. rewrite Nat.add_1_r.
  rewrite <- repeat_cons. reflexivity.
Qed.

Lemma index_iterator_unravel s :
  index_iterator s = map (fun j => unravel j s) (seq 0 (cells s)).
Proof.
  unfold index_iterator. rewrite num_cells.
  destruct (Nat.eq_dec (cells s) 0) as [E|E].
  - rewrite E. reflexivity.
  - assert (HF : Forall (fun n => 0 < n) s) by (apply cells_pos; lia).
    rewrite <- unravel_zero by auto. apply iterate_unravel; auto.
Qed.

Lemma Forall2_length {A B} (R : A -> B -> Prop) l m : Forall2 R l m -> length l = length m.
Proof. induction 1; simpl; auto. Qed.

Lemma valid_snoc s n a x : valid_index (s ++ [n]) (a ++ [x]) <-> valid_index s a /\ x < n.
Proof.
  unfold valid_index. split.
  - intros H. assert (length a = length s).
    { apply Forall2_length in H. rewrite !app_length in H; simpl in H; lia. }
    rename H0 into HL.
    apply Forall2_app_inv_r in H. destruct H as (l1 & l2 & H1 & H2 & E).
    pose proof (Forall2_length _ _ _ H1) as L1.
    assert (a = l1 /\ [x] = l2) as [-> <-].
    { assert (La : length a = length l1) by lia. clear -E La. revert l1 E La.
      induction a as [|y a IH]; intros [|z l1] E L; simpl in *; try discriminate; auto.
      injection E as -> E. destruct (IH _ E) as [-> ->]; auto. }
    inversion H2; subst. auto.
  - intros [H1 H2]. apply Forall2_app; auto.
Qed.

Lemma unravel_valid s : forall i, i < cells s -> valid_index s (unravel i s).
Proof.
  induction s as [|n s IH] using rev_ind; intros i H; [constructor|].
  rewrite cells_app in H. simpl in H. rewrite unravel_snoc. apply valid_snoc.
  assert (n <> 0) by nia.
  split; [apply IH; apply Nat.div_lt_upper_bound; nia | apply Nat.mod_upper_bound; auto].
Qed.

Lemma valid_unravel s : forall idx, valid_index s idx -> exists i, i < cells s /\ unravel i s = idx.
Proof.
  induction s as [|n s IH] using rev_ind; intros idx H.
  - inversion H. exists 0. split; [simpl; lia|reflexivity].
  - destruct idx as [|y idx] using rev_ind.
    { apply Forall2_length in H. rewrite app_length in H. simpl in H. lia. }
    clear IHidx. apply valid_snoc in H. destruct H as [H1 H2].
    destruct (IH _ H1) as (i & Hi & E). exists (i * n + y). split.
    + rewrite cells_app. simpl. nia.
    + rewrite unravel_snoc.
      replace ((i * n + y) / n) with i by (apply Nat.div_unique with (r := y); lia).
      replace ((i * n + y) mod n) with y by (apply Nat.mod_unique with (q := i); lia).
      rewrite E. reflexivity.
Qed.

Lemma lex_app_l a b x y : lex_lt a b -> lex_lt (a ++ [x]) (b ++ [y]).
Proof.
  induction 1; simpl.
  - apply lex_here; auto. rewrite !app_length; simpl; lia.
  - apply lex_there; auto.
Qed.
Lemma lex_app_r a x y : x < y -> lex_lt (a ++ [x]) (a ++ [y]).
Proof. intros; induction a; simpl; [apply lex_here; auto|apply lex_there; auto]. Qed.

Lemma unravel_mono s : forall i j, j < cells s -> i < j -> lex_lt (unravel i s) (unravel j s).
Proof.
  induction s as [|n s IH] using rev_ind; intros i j Hj Hij; [simpl in Hj; lia|].
  rewrite cells_app in Hj. simpl in Hj. assert (n <> 0) by nia.
  rewrite !unravel_snoc.
  pose proof (Nat.div_le_mono i j n ltac:(auto) ltac:(lia)) as D.
  destruct (Nat.eq_dec (i / n) (j / n)) as [E|E].
  - rewrite E. apply lex_app_r.
    pose proof (Nat.div_mod i n ltac:(lia)). pose proof (Nat.div_mod j n ltac:(lia)). nia.
  - apply lex_app_l. apply IH; [apply Nat.div_lt_upper_bound; nia | lia].
Qed.

Lemma sorted_seq_map (f : nat -> list nat) n : forall k,
  (forall i j, k <= i -> i < j -> j < k + n -> lex_lt (f i) (f j)) ->
  StronglySorted lex_lt (map f (seq k n)).
Proof.
  induction n as [|n IH]; intros k H; simpl; constructor.
  - apply IH. intros; apply H; lia.
  - apply Forall_forall. intros x Hx. apply in_map_iff in Hx. destruct Hx as (j & <- & Hj).
    apply in_seq in Hj. apply H; lia.
Qed.

Lemma index_iterator_sorted s : StronglySorted lex_lt (index_iterator s).
Proof.
  rewrite index_iterator_unravel. apply sorted_seq_map. intros; apply unravel_mono; lia.
Qed.

Lemma index_iterator_in s idx : In idx (index_iterator s) <-> valid_index s idx.
Proof.
  rewrite index_iterator_unravel, in_map_iff. split.
  - intros (i & <- & H). apply in_seq in H. apply unravel_valid; lia.
  - intros H. destruct (valid_unravel _ _ H) as (i & Hi & E). exists i. split; auto. apply in_seq; lia.
Qed.

Lemma lex_irrefl a : ~ lex_lt a a.
Proof. induction a; intros H; inversion H; subst; [lia|auto]. Qed.

Lemma sorted_nodup l : StronglySorted lex_lt l -> NoDup l.
Proof.
  induction 1; constructor; auto. intros Hin. rewrite Forall_forall in H0.
  apply H0 in Hin. apply lex_irrefl in Hin. auto.
Qed.

Lemma index_iterator_spec s :
  (forall idx, In idx (index_iterator s) <-> valid_index s idx)
  /\ NoDup (index_iterator s) /\ StronglySorted lex_lt (index_iterator s)
  /\ length (index_iterator s) = cells s.
Proof.
  split; [apply index_iterator_in|]. split; [apply sorted_nodup, index_iterator_sorted|].
  split; [apply index_iterator_sorted|]. rewrite index_iterator_unravel, map_length, seq_length. auto.
Qed.

(** row-major position *)
Lemma flat_pos_app s : forall a n x, length a = length s ->
  flat_pos (s ++ [n]) (a ++ [x]) = flat_pos s a * n + x.
Proof.
  induction s as [|m s IH]; intros [|y a] n x E; simpl in *; try discriminate; [lia|].
  rewrite IH by lia. rewrite cells_app. simpl. lia.
Qed.

Lemma flat_pos_unravel s : forall i, i < cells s -> flat_pos s (unravel i s) = i.
Proof.
  induction s as [|n s IH] using rev_ind; intros i H; [simpl in *; lia|].
  rewrite cells_app in H. simpl in H. assert (n <> 0) by nia.
  rewrite unravel_snoc, flat_pos_app by apply unravel_length.
  rewrite IH by (apply Nat.div_lt_upper_bound; nia).
  pose proof (Nat.div_mod i n ltac:(lia)). lia.
Qed.

Lemma unravel_index_spec s i :
  match unravel_index i s with
  | Ok idx => valid_index s idx /\ flat_pos s idx = i
  | Raises e => e = ValueError /\ ~ exists idx, valid_index s idx /\ flat_pos s idx = i
  end.
Proof.
  unfold unravel_index. rewrite num_cells. destruct (Nat.ltb_spec i (cells s)) as [H|H].
  - fold (unravel i s). split; [apply unravel_valid|apply flat_pos_unravel]; auto.
  - split; auto. intros (idx & Hv & E). destruct (valid_unravel _ _ Hv) as (k & Hk & <-).
    rewrite flat_pos_unravel in E by auto. lia.
Qed.

Lemma nth_index_iterator s i idx : nth_error (index_iterator s) i = Some idx -> flat_pos s idx = i.
Proof.
  rewrite index_iterator_unravel. intros H.
  assert (i < cells s).
  { rewrite <- (seq_length (cells s) 0), <- (map_length (fun j => unravel j s)).
    apply nth_error_Some. congruence. }
  rewrite nth_error_map in H. rewrite nth_error_nth' with (d := 0) in H by (rewrite seq_length; auto).
  simpl in H. injection H as <-. rewrite seq_nth by auto. apply flat_pos_unravel. lia.
Qed.
