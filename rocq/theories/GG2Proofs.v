(** Proofs for C70, part 2: the dimensions of the result and their order. *)
From Coq Require Import String.
From Verif Require Import Base PyStr QBase LonModel DateModel UngrModel AggModel Agg2Proofs CollapseProofs InterpModel InterpSpec GUModel GUSpec GU3Proofs GGModel GGSpec GGProofs.
From Coq Require Import List Lia Arith QArith Permutation Sorting.Sorted.
Import ListNotations.
Open Scope string_scope. Open Scope list_scope. Open Scope nat_scope. Notation length := List.length.

Lemma named_eq n d : named n d = true <-> gd_name d = n.
Proof. unfold named. apply str_eqb_eq. Qed.
Lemma coords_fst s : map fst (sample_coords s) = coords_of s.
Proof. unfold sample_coords, coords_of. rewrite map_app, map_map. f_equal. apply map_id. Qed.
Lemma names_index ds : different_names ds -> forall i j a b, nth_error ds i = Some a -> nth_error ds j = Some b -> gd_name a = gd_name b -> i = j.
Proof.
  intros H i j a b Ha Hb E. unfold different_names in H. rewrite NoDup_nth_error in H. apply H.
  - rewrite map_length. apply nth_error_Some. congruence.
  - rewrite (map_nth_error gd_name _ _ Ha), (map_nth_error gd_name _ _ Hb). congruence.
Qed.
Lemma among_nth n ds : is_among n ds <-> exists j d, nth_error ds j = Some d /\ gd_name d = n.
Proof. split; [intros (d & H & E); apply In_nth_error in H; destruct H as (j & H); eauto|intros (j & d & H & E); exists d; split; auto; eapply nth_error_In; eauto]. Qed.
Lemma among_map n ds : is_among n ds <-> In n (map gd_name ds).
Proof. rewrite in_map_iff. split; [intros (d & H & E); exists d; auto|intros (d & E & H); exists d; auto]. Qed.
Lemma index_where_names {A} (f : A -> gdim) l n : match index_where (fun c => named n (f c)) l with
  | Some j => exists c, nth_error l j = Some c /\ gd_name (f c) = n | None => forall c, In c l -> gd_name (f c) <> n end.
Proof.
  pose proof (index_where_spec (fun c => named n (f c)) l) as H. destruct (index_where _ l) as [j|].
  - destruct H as (pre & x & post & -> & <- & H & _). exists x. split; [rewrite nth_error_app2, Nat.sub_diag by lia; reflexivity|apply named_eq; auto].
  - intros c Hc E. rewrite Forall_forall in H. specialize (H c Hc). apply named_eq in E. congruence.
Qed.
Lemma lookup_some s n j : different_names (coords_of s) -> (lookup_name s n = Some j <-> exists c, nth_error (coords_of s) j = Some c /\ gd_name c = n).
Proof.
  intros HD. unfold lookup_name. pose proof (index_where_names (@fst gdim bool) (sample_coords s) n) as H. rewrite <- coords_fst in *. split.
  - intros E. rewrite E in H. destruct H as (c & Hc & En). exists (fst c). split; auto. apply map_nth_error. auto.
  - intros (c & Hc & En). destruct (index_where _ _) as [k|].
    + destruct H as (c' & Hc' & En'). f_equal. apply (map_nth_error fst) in Hc'. eapply names_index; eauto. congruence.
    + apply nth_error_In in Hc. apply in_map_iff in Hc. destruct Hc as (x & <- & Hx). exfalso. eapply H; eauto.
Qed.
Lemma lookup_none s n : lookup_name s n = None <-> ~ is_among n (coords_of s).
Proof.
  unfold lookup_name. pose proof (index_where_names (@fst gdim bool) (sample_coords s) n) as H. rewrite <- coords_fst. split.
  - intros E. rewrite E in H. intros (d & Hd & En). apply in_map_iff in Hd. destruct Hd as (x & <- & Hx). eapply H; eauto.
  - intros HN. destruct (index_where _ _) as [k|]; auto. exfalso. destruct H as (c & Hc & En). apply HN. exists (fst c). split; auto. apply in_map. eapply nth_error_In; eauto.
Qed.
Lemma in_pairs s D j i : different_names (coords_of s) -> (In (j, i) (shared_pairs s D) <-> exists c d, nth_error (coords_of s) j = Some c /\ nth_error D i = Some d /\ gd_name c = gd_name d).
Proof.
  intros HD. unfold shared_pairs. rewrite in_flat_map. split.
  - intros (i' & Hi & H). apply in_seq in Hi. destruct (lookup_name s (gd_name (nth i' D no_dim))) as [j'|] eqn:E; [|contradiction]. destruct H as [[= -> ->]|[]]. apply lookup_some in E; auto. destruct E as (c & Hc & En).
    exists c, (nth i D no_dim). split; auto. split; auto. apply nth_error_nth'. lia.
  - intros (c & d & Hc & Hd & E). exists i. split; [apply in_seq; assert (i < length D) by (apply nth_error_Some; congruence); lia|]. rewrite (nth_error_nth _ _ no_dim Hd).
    assert (L : lookup_name s (gd_name d) = Some j) by (apply lookup_some; eauto). rewrite L. left. auto.
Qed.
Lemma pairs_snd s D : StronglySorted lt (map snd (shared_pairs s D)) /\ forall x, In x (map snd (shared_pairs s D)) -> x < length D.
Proof.
  unfold shared_pairs. set (f := fun i => match lookup_name s (gd_name (nth i D no_dim)) with Some j => [(j, i)] | None => [] end).
  assert (G : forall n k, StronglySorted lt (map snd (flat_map f (seq k n))) /\ forall x, In x (map snd (flat_map f (seq k n))) -> k <= x < k + n).
  { induction n as [|n IH]; intros k; cbn [seq flat_map]; [split; [constructor|intros x []]|]. destruct (IH (S k)) as [H1 H2]. unfold f at 1 3. destruct (lookup_name s (gd_name (nth k D no_dim))) as [j|]; cbn [app map].
    - split; [constructor; auto; apply Forall_forall; intros x Hx; apply H2 in Hx; cbn; lia|]. intros x [<-|Hx]; [cbn; lia|apply H2 in Hx; lia].
    - split; auto. intros x Hx. apply H2 in Hx. lia. }
  destruct (G (length D) 0) as [H1 H2]. split; auto. intros x Hx. apply H2 in Hx. lia.
Qed.
Lemma pairs_fst_nodup s D : different_names (coords_of s) -> different_names D -> NoDup (map fst (shared_pairs s D)).
Proof.
  intros HC HD. destruct (pairs_snd s D) as [H _]. apply sorted_nodup_nat in H.
  assert (I : forall a b, In a (shared_pairs s D) -> In b (shared_pairs s D) -> fst a = fst b -> a = b).
  { intros [j i] [j' i'] Ha Hb E. cbn in E. subst j'. apply in_pairs in Ha, Hb; auto. destruct Ha as (c & d & A1 & A2 & A3), Hb as (c' & d' & B1 & B2 & B3). f_equal. apply (names_index D HD i i' d d'); auto. congruence. }
  apply nodup_map_in; auto. clear -H. induction (shared_pairs s D); constructor; inversion H; subst; auto. intros X. apply H2. apply in_map. auto.
Qed.

(** ** selecting *)
Lemma filter_map_comm {A B} (f : A -> B) p l : filter p (map f l) = map f (filter (fun x => p (f x)) l).
Proof. induction l as [|x l IH]; [reflexivity|]. cbn. destruct (p (f x)); cbn; rewrite IH; reflexivity. Qed.
Lemma filter_nth {A} (p : A -> bool) (l : list A) d : map (fun j => nth j l d) (filter (fun j => p (nth j l d)) (seq 0 (length l))) = filter p l.
Proof.
  induction l as [|x l IH]; [reflexivity|]. cbn [length seq]. rewrite <- seq_shift. change (filter (fun j => p (nth j (x :: l) d)) (0 :: map S (seq 0 (length l)))) with (if p x then 0 :: filter (fun j => p (nth j (x :: l) d)) (map S (seq 0 (length l))) else filter (fun j => p (nth j (x :: l) d)) (map S (seq 0 (length l)))).
  change (filter p (x :: l)) with (if p x then x :: filter p l else filter p l).
  assert (E : map (fun j => nth j (x :: l) d) (filter (fun j => p (nth j (x :: l) d)) (map S (seq 0 (length l)))) = filter p l).
  { rewrite filter_map_comm, map_map. exact IH. }
  destruct (p x); [rewrite map_cons|]; rewrite E; reflexivity.
Qed.
Lemma selected_filter {A} (P : A -> Prop) (p : A -> bool) l : (forall x, In x l -> (p x = true <-> P x)) -> selected P l (filter p l).
Proof.
  induction l as [|x l IH]; intros H; cbn; [constructor|]. destruct (p x) eqn:E; [apply sel_yes|apply sel_no]; try (apply IH; intros; apply H; right; auto).
  - apply H; [left|]; auto.
  - intros X. apply H in X; [congruence|left; auto].
Qed.
Lemma selected_in {A} (P : A -> Prop) l r : selected P l r -> forall x, In x r <-> In x l /\ P x.
Proof. induction 1 as [|x l r HP H IH|x l r HP H IH]; intros y; cbn; [tauto| |]; rewrite IH; intuition (subst; auto). contradiction. Qed.
Lemma selected_unique {A} (P : A -> Prop) l r : selected P l r -> forall r', selected P l r' -> r = r'.
Proof. induction 1; intros r' H'; inversion H'; subst; auto; try contradiction. f_equal. auto. Qed.
Lemma selected_app {A} (P : A -> Prop) l1 : forall l2 r, selected P (l1 ++ l2) r -> exists r1 r2, r = r1 ++ r2 /\ selected P l1 r1 /\ selected P l2 r2.
Proof.
  induction l1 as [|x l1 IH]; intros l2 r H; [exists [], r; split; auto; split; auto; constructor|]. cbn in H. inversion H as [|? ? r' HP HS|? ? ? HP HS]; subst; destruct (IH _ _ HS) as (r1 & r2 & -> & H1 & H2).
  - exists (x :: r1), r2. split; auto. split; auto. constructor; auto.
  - exists r1, r2. split; auto. split; auto. apply sel_no; auto.
Qed.
Lemma selected_all {A} (P : A -> Prop) l r : selected P l r -> (forall x, In x l -> P x) -> r = l.
Proof. induction 1 as [|x l r HP H IH|x l r HP H IH]; intros HA; auto; [f_equal; apply IH; intros; apply HA; right; auto|exfalso; apply HP, HA; left; auto]. Qed.
Lemma selected_length {A} (P : A -> Prop) l r : selected P l r -> length r <= length l.
Proof. induction 1; cbn; lia. Qed.
Lemma selected_nodup {A B} (f : A -> B) (P : A -> Prop) l r : selected P l r -> NoDup (map f l) -> NoDup (map f r).
Proof.
  intros H. induction H as [|x l r HP H IH|x l r HP H IH]; intros N; cbn in *; auto; inversion N as [|? ? Hx N']; subst; auto. constructor; auto. rewrite in_map_iff in *. intros (y & E & Hy). apply Hx. exists y. split; auto. apply (selected_in _ _ _ H) in Hy. tauto.
Qed.

(** ** the layout *)
Definition among_b (n : str) (ds : list gdim) : bool := existsb (fun d => named n d) ds.
Lemma among_b_spec n ds : among_b n ds = true <-> is_among n ds.
Proof. unfold among_b. rewrite existsb_exists. split; intros (d & H & E); exists d; split; auto; apply named_eq; auto. Qed.
Definition own_of (s : sample) (D : list gdim) : list gdim := filter (fun c => among_b (gd_name c) D) (coords_of s).
Definition rest_of (s : sample) (D : list gdim) : list gdim := filter (fun d => negb (among_b (gd_name d) (coords_of s))) D.
Lemma own_selected s D : selected (fun c => is_among (gd_name c) D) (coords_of s) (own_of s D).
Proof. apply selected_filter. intros x _. apply among_b_spec. Qed.
Lemma rest_selected s D : selected (fun d => ~ is_among (gd_name d) (coords_of s)) D (rest_of s D).
Proof. apply selected_filter. intros x _. rewrite negb_true_iff, <- not_true_iff_false, among_b_spec. tauto. Qed.
Lemma sorted_positions s D : different_names (coords_of s) -> different_names D ->
  map fst (sort_by (shared_pairs s D)) = filter (fun j => among_b (gd_name (nth j (coords_of s) no_dim)) D) (seq 0 (length (coords_of s))).
Proof.
  intros HC HD. pose proof (sort_perm (shared_pairs s D)) as PM. apply sorted_unique.
  - apply sorted_strict; [apply sort_sorted|]. apply (Permutation_NoDup (Permutation_map fst (Permutation_sym PM))). apply pairs_fst_nodup; auto.
  - apply sorted_filter, sorted_seq.
  - intros j. rewrite filter_In, in_seq, among_b_spec. split.
    + intros H. apply (Permutation_in _ (Permutation_map fst PM)) in H. apply in_map_iff in H. destruct H as ([j' i] & <- & H). apply in_pairs in H; auto. cbn. destruct H as (c & d & Hc & Hd & E).
      rewrite (nth_error_nth _ _ no_dim Hc). split; [assert (j' < length (coords_of s)) by (apply nth_error_Some; congruence); lia|]. exists d. split; auto. eapply nth_error_In; eauto.
    + intros [[_ L] (d & Hd & E)]. apply (Permutation_in _ (Permutation_map fst (Permutation_sym PM))). apply In_nth_error in Hd. destruct Hd as (i & Hd). apply in_map_iff. exists (j, i). split; auto. apply in_pairs; auto.
      exists (nth j (coords_of s) no_dim), d. split; [apply nth_error_nth'; lia|]. auto.
Qed.
Lemma sample_points_nth s j : sample_points s j = points_of (nth j (coords_of s) no_dim).
Proof. unfold sample_points. rewrite <- coords_fst. change no_dim with (fst (no_dim, false)) at 2. rewrite map_nth. reflexivity. Qed.
Lemma own_positions s D : different_names (coords_of s) -> different_names D -> map (fun ji => nth (fst ji) (coords_of s) no_dim) (sort_by (shared_pairs s D)) = own_of s D.
Proof. intros HC HD. rewrite <- (map_map fst (fun j => nth j (coords_of s) no_dim)), sorted_positions by auto. apply (filter_nth (fun c => among_b (gd_name c) D)). Qed.
Lemma sorted_names s D : different_names (coords_of s) -> different_names D -> forall ji, In ji (sort_by (shared_pairs s D)) -> gd_name (nth (snd ji) D no_dim) = gd_name (nth (fst ji) (coords_of s) no_dim).
Proof.
  intros HC HD [j i] H. apply (Permutation_in _ (sort_perm _)) in H. apply in_pairs in H; auto. destruct H as (c & d & Hc & Hd & E). cbn. rewrite (nth_error_nth _ _ no_dim Hc), (nth_error_nth _ _ no_dim Hd). auto.
Qed.
Lemma others_nth s D : map (fun i => nth i D no_dim) (other_dims s D) = rest_of s D.
Proof.
  unfold other_dims, rest_of. rewrite <- (filter_nth (fun d => negb (among_b (gd_name d) (coords_of s))) D no_dim). f_equal. apply filter_ext. intros i.
  destruct (lookup_name s (gd_name (nth i D no_dim))) as [j|] eqn:E; symmetry.
  - rewrite negb_false_iff, among_b_spec. destruct (among_b (gd_name (nth i D no_dim)) (coords_of s)) eqn:A; [apply among_b_spec; auto|]. exfalso. assert (X : lookup_name s (gd_name (nth i D no_dim)) = None) by (apply lookup_none; rewrite <- among_b_spec; congruence). congruence.
  - rewrite negb_true_iff, <- not_true_iff_false, among_b_spec. apply lookup_none. auto.
Qed.
Definition labelled (d : gdim) : str * list Q := (gd_name d, points_of d).
Theorem layout s D : different_names (coords_of s) -> different_names D ->
  let sorted := sort_by (shared_pairs s D) in let others := other_dims s D in
  map (fun ji => (gd_name (nth (snd ji) D no_dim), sample_points s (fst ji))) sorted = map labelled (own_of s D) /\
  map (fun ji => gd_name (nth (snd ji) D no_dim)) sorted ++ map (fun i => gd_name (nth i D no_dim)) others = map gd_name (own_of s D ++ rest_of s D) /\
  map (fun ji => length (sample_points s (fst ji))) sorted ++ map (fun i => length (points_of (nth i D no_dim))) others = map (fun d => length (points_of d)) (own_of s D ++ rest_of s D) /\
  map (fun i => length (points_of (nth i D no_dim))) others = map (fun d => length (points_of d)) (rest_of s D) /\ length sorted = length (own_of s D) /\ NoDup (map fst sorted).
Proof.
  intros HC HD sorted others. pose proof (own_positions s D HC HD) as EO. pose proof (others_nth s D) as ER. pose proof (sorted_names s D HC HD) as SN. fold sorted in EO, SN. fold others in ER.
  assert (E1 : map (fun ji => (gd_name (nth (snd ji) D no_dim), sample_points s (fst ji))) sorted = map labelled (own_of s D)).
  { rewrite <- EO, map_map. apply map_ext_in. intros ji Hj. unfold labelled. rewrite (SN _ Hj), sample_points_nth. reflexivity. }
  split; auto. split; [|split; [|split; [|split]]].
  - rewrite map_app. f_equal.
    + transitivity (map fst (map labelled (own_of s D))); [rewrite <- E1, map_map; reflexivity|rewrite map_map; reflexivity].
    + rewrite <- ER, map_map. reflexivity.
  - rewrite map_app. f_equal.
    + transitivity (map (fun x : str * list Q => length (snd x)) (map labelled (own_of s D))); [rewrite <- E1, map_map; reflexivity|rewrite map_map; reflexivity].
    + rewrite <- ER, map_map. reflexivity.
  - rewrite <- ER, map_map. reflexivity.
  - rewrite <- EO, map_length. reflexivity.
  - unfold sorted. rewrite sorted_positions by auto. apply NoDup_filter, seq_NoDup.
Qed.
