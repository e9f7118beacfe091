(** Proofs for C38, C40, C46, C47. *)
From Verif Require Import Base PyStr QBase DateModel DateProofs UngrModel UngrSpec.
Open Scope nat_scope.

(** ** Masks and compression *)
Definition kept_indices (mask : list bool) : list nat := filter (fun i => negb (nth i mask false)) (seq 0 (length mask)).
Lemma compress_indices {A} (d : A) : forall mask l, length mask = length l -> compress mask l = map (fun i => nth i l d) (kept_indices mask).
Proof.
  assert (G : forall mask l s (f : nat -> A) (m : nat -> bool), length mask = length l -> (forall i, i < length mask -> f (s + i) = nth i l d /\ m (s + i) = nth i mask false) ->
    compress mask l = map f (filter (fun i => negb (m i)) (seq s (length mask)))).
  { induction mask as [|b mask IH]; intros [|x l] s f m L H; try discriminate; [reflexivity|]. unfold compress in *. cbn [combine filter fst snd length seq].
    destruct (H 0%nat) as [F0 M0]; [simpl; lia|]. rewrite Nat.add_0_r in F0, M0. cbn [nth] in F0, M0. rewrite M0.
    assert (R : map snd (filter (fun mx : bool * A => negb (fst mx)) (combine mask l)) = map f (filter (fun i => negb (m i)) (seq (S s) (length mask)))).
    { apply IH; [injection L; auto|]. intros i Hi. replace (S s + i) with (s + S i) by lia. apply (H (S i)). simpl; lia. }
    destruct b; cbn [negb map snd]; rewrite R; [reflexivity|]. rewrite F0. reflexivity. }
  intros mask l L. unfold kept_indices. apply (G mask l 0 (fun i => nth i l d) (fun i => nth i mask false) L). intros i Hi. split; reflexivity.
Qed.
Lemma compress_length {A} mask (l : list A) : length mask = length l -> length (compress mask l) = length (kept_indices mask).
Proof. intros L. destruct l as [|x l]; [destruct mask; [reflexivity|discriminate]|]. rewrite (compress_indices x) by auto. apply map_length. Qed.
Lemma compress_nth {A} (d : A) mask l j : length mask = length l -> j < length (kept_indices mask) -> nth j (compress mask l) d = nth (nth j (kept_indices mask) 0) l d.
Proof.
  intros L Hj. rewrite (compress_indices d) by auto. erewrite nth_indep by (rewrite map_length; auto). rewrite (map_nth (fun i => nth i l d)). reflexivity.
Qed.
Lemma nth_or_masks i a b : length a = length b -> nth i (or_masks a b) false = nth i a false || nth i b false.
Proof. revert i b. induction a as [|x a IH]; intros i [|y b] L; try discriminate; [destruct i; reflexivity|]. destruct i; [reflexivity|]. cbn. apply IH. injection L; auto. Qed.
Lemma or_masks_length a b : length a = length b -> length (or_masks a b) = length a.
Proof. intros L. unfold or_masks. rewrite map_length, combine_length, L. lia. Qed.
Lemma missing_mask_spec n cs : Forall (fun c => length (c_points c) = n) cs ->
  exists mask, missing_mask n cs = Ok mask /\ length mask = n /\ forall i, i < n -> nth i mask false = existsb (fun c => is_missing (nth i (c_points c) None)) cs.
Proof.
  intros H. unfold missing_mask. assert (G : forall m0, length m0 = n -> exists mask, fold_left (fun m c => bind m (fun m => if (length (c_points c) =? n)%nat then Ok (or_masks m (map is_missing (c_points c))) else Raises ValueError)) cs (Ok m0) = Ok mask /\
    length mask = n /\ forall i, i < n -> nth i mask false = nth i m0 false || existsb (fun c => is_missing (nth i (c_points c) None)) cs).
  { induction H as [|c cs Hc H IH]; intros m0 L0; [exists m0; repeat split; auto; intros; simpl; rewrite orb_false_r; auto|]. cbn [fold_left bind]. rewrite Hc, Nat.eqb_refl.
    assert (LM : length m0 = length (map is_missing (c_points c))) by (rewrite map_length; lia).
    destruct (IH (or_masks m0 (map is_missing (c_points c)))) as (mask & E & L & N); [rewrite or_masks_length; auto|]. exists mask. repeat split; auto. intros i Hi. rewrite N, nth_or_masks by auto. cbn [existsb]. rewrite orb_assoc. f_equal. f_equal.
    rewrite (nth_indep _ false true) by (rewrite map_length; lia). change true with (is_missing (@None Q)). rewrite map_nth. reflexivity. }
  destruct (G (repeat false n)) as (mask & E & L & N); [apply repeat_length|]. exists mask. split; [exact E|]. split; auto. intros i Hi. rewrite N by auto. rewrite nth_repeat. reflexivity.
Qed.
Lemma existsb_nth mask : existsb (fun b => b) mask = true <-> exists i, i < length mask /\ nth i mask false = true.
Proof.
  rewrite existsb_exists. split.
  - intros (b & Hb & E). subst b. destruct (In_nth mask true false Hb) as (i & Hi & E). exists i. auto.
  - intros (i & Hi & E). exists true. split; auto. rewrite <- E. apply nth_In. auto.
Qed.
Lemma located_row d i : located (row_at d i) = negb (existsb (fun c => is_missing (nth i (c_points c) None)) (u_coords d)).
Proof. unfold located, row_at. cbn [fst]. induction (u_coords d) as [|c cs IH]; [reflexivity|]. cbn [map forallb existsb]. rewrite IH. destruct (nth i (c_points c) None); reflexivity. Qed.
Lemma filter_all {A} (f : A -> bool) l : (forall x, In x l -> f x = true) -> filter f l = l.
Proof. induction l as [|x l IH]; intros H; [reflexivity|]. simpl. rewrite (H x) by (left; auto). f_equal. apply IH. intros; apply H; right; auto. Qed.
Lemma filter_map {A B} (f : B -> bool) (g : A -> B) l : filter f (map g l) = map g (filter (fun x => f (g x)) l).
Proof. induction l as [|x l IH]; [reflexivity|]. simpl. destruct (f (g x)); simpl; rewrite IH; reflexivity. Qed.
Lemma map_seq_nth {A} (g : nat -> A) (l : list nat) : map (fun j => g (nth j l 0)) (seq 0 (length l)) = map g l.
Proof.
  assert (G : forall pre, map (fun j => g (nth j (pre ++ l) 0)) (seq (length pre) (length l)) = map g l).
  { induction l as [|x l IH]; intros pre; [reflexivity|]. cbn [length seq map]. rewrite app_nth2, Nat.sub_diag by lia. cbn [nth]. f_equal.
    specialize (IH (pre ++ [x])). rewrite app_length, <- app_assoc in IH. cbn [length app] in IH. rewrite Nat.add_1_r in IH. exact IH. }
  apply (G []).
Qed.
(** compressing data and coordinates with the same mask selects rows *)
Lemma compress_rows mask cs v shape : length mask = length v -> Forall (fun c => length (c_points c) = length v) cs ->
  let d := mkU cs shape v in
  let d' := mkU (map (fun c => let p := compress mask (c_points c) in set_points c [length p] p) cs) [length (compress mask v)] (compress mask v) in
  aligned d' /\ rows d' = map (row_at d) (kept_indices mask) /\ map identity_of (u_coords d') = map identity_of cs.
Proof.
  intros L H d d'. assert (AL : aligned d').
  { unfold aligned, d'. cbn [u_coords u_values]. rewrite Forall_map. eapply Forall_impl; [|exact H]. intros c Hc. cbn beta. cbn [set_points c_points]. rewrite !compress_length by congruence. reflexivity. }
  split; auto. split.
  - unfold rows, d' at 2. cbn [u_values]. rewrite compress_length by auto. rewrite <- (map_seq_nth (row_at d)). apply map_ext_in. intros j Hj. apply in_seq in Hj.
    unfold row_at, d', d. cbn [u_coords u_values]. f_equal.
    + rewrite map_map. apply map_ext_in. intros c Hc. cbn [set_points c_points]. apply compress_nth; [|lia]. rewrite Forall_forall in H. rewrite (H c Hc). auto.
    + apply compress_nth; [auto|lia].
  - unfold d'. cbn [u_coords]. rewrite map_map. reflexivity.
Qed.
(** ** C38 *)
Theorem post_process_spec d : aligned d -> exists d', post_process d = Ok d' /\ aligned d' /\ rows d' = filter located (rows d) /\ map identity_of (u_coords d') = map identity_of (u_coords d).
Proof.
  intros HA. unfold post_process. destruct (missing_mask_spec _ _ HA) as (mask & E & L & N). rewrite E. cbn [bind].
  assert (F : filter located (rows d) = map (row_at d) (kept_indices mask)).
  { unfold rows, kept_indices. rewrite filter_map, L. f_equal. apply filter_ext_in. intros i Hi. apply in_seq in Hi. rewrite located_row, N by lia. reflexivity. }
  destruct (existsb (fun b => b) mask) eqn:X.
  - eexists. split; [reflexivity|]. destruct (compress_rows mask (u_coords d) (u_values d) (u_shape d) L HA) as (A & B & C). split; [exact A|]. split; [|exact C]. rewrite F. destruct d. exact B.
  - exists d. split; auto. split; auto. split; auto. rewrite F. unfold rows, kept_indices. rewrite L, filter_all; auto. intros i Hi. apply in_seq in Hi. destruct (nth i mask false) eqn:Z; auto.
    rewrite (proj2 (existsb_nth mask)) in X; [discriminate|]. exists i. split; [lia|auto].
Qed.
Lemma rows_length d : length (rows d) = length (u_values d).
Proof. unfold rows. rewrite map_length, seq_length. reflexivity. Qed.
Lemma aligned_complete d : aligned d -> (forall r, In r (rows d) -> located r = true) -> post_process d = Ok d.
Proof.
  intros HA H. unfold post_process. destruct (missing_mask_spec _ _ HA) as (mask & E & L & N). rewrite E. cbn [bind]. destruct (existsb (fun b => b) mask) eqn:X; auto. apply existsb_nth in X. destruct X as (i & Hi & X).
  assert (HL : located (row_at d i) = true) by (apply H; unfold rows; apply in_map, in_seq; lia). rewrite located_row, <- N, X in HL by lia. discriminate.
Qed.
Theorem post_process_twice d d' : aligned d -> post_process d = Ok d' -> post_process d' = Ok d'.
Proof.
  intros HA E. destruct (post_process_spec d HA) as (d1 & E1 & A & R & _). rewrite E1 in E. injection E as ->. apply aligned_complete; auto. intros r Hr. rewrite R in Hr. apply filter_In in Hr. tauto.
Qed.
Theorem coordinates_only cs c0 : In c0 cs -> Forall (fun c => length (c_points c) = length (c_points c0)) cs ->
  exists cs', post_process_coords cs = Ok cs' /\ let d := mkU cs [] (repeat None (length (c_points c0))) in let d' := mkU cs' [] (repeat None (length (filter located (rows d)))) in
    aligned d' /\ rows d' = filter located (rows d) /\ map identity_of cs' = map identity_of cs.
Proof.
  intros Hin HF. destruct cs as [|c cs]; [contradiction|]. assert (Lc : length (c_points c) = length (c_points c0)) by (inversion HF; auto).
  unfold post_process_coords. rewrite Lc. set (n := length (c_points c0)) in *. set (d := mkU (c :: cs) [] (repeat None n)).
  assert (HA : aligned d) by (unfold aligned, d; cbn [u_coords u_values]; rewrite repeat_length; auto).
  destruct (missing_mask_spec n (c :: cs) HF) as (mask & E & L & N). rewrite E. cbn [bind].
  assert (F : filter located (rows d) = map (row_at d) (kept_indices mask)).
  { unfold rows, kept_indices. rewrite filter_map, L. unfold d at 3. cbn [u_values]. rewrite repeat_length. f_equal. apply filter_ext_in. intros i Hi. apply in_seq in Hi. rewrite located_row, N by lia. reflexivity. }
  assert (LR : length mask = length (repeat (@None Q) n)) by (rewrite repeat_length; auto).
  assert (KN : forall m, compress mask (repeat (@None Q) n) = repeat None m -> length (kept_indices mask) = m) by (intros m Hm; rewrite <- (compress_length mask (repeat (@None Q) n) LR), Hm, repeat_length; auto).
  destruct (existsb (fun b => b) mask) eqn:X.
  - eexists. split; [reflexivity|]. cbv zeta. fold d. rewrite F, map_length. destruct (compress_rows mask (c :: cs) (repeat None n) [] LR) as (A & B & C); [rewrite repeat_length; auto|].
    assert (R : compress mask (repeat (@None Q) n) = repeat None (length (kept_indices mask))).
    { rewrite (compress_indices None) by auto. clear. induction (kept_indices mask) as [|i l IH]; [reflexivity|]. cbn [map length repeat]. rewrite nth_repeat, IH. reflexivity. }
    rewrite R in A, B. unfold aligned, rows, row_at in *. cbn [u_values u_coords] in *. repeat split; auto.
  - exists (c :: cs). split; auto. cbv zeta. fold d. rewrite F, map_length. assert (K : kept_indices mask = seq 0 n).
    { unfold kept_indices. rewrite L. apply filter_all. intros i Hi. apply in_seq in Hi. destruct (nth i mask false) eqn:Z; auto. rewrite (proj2 (existsb_nth mask)) in X; [discriminate|]. exists i. split; [lia|auto]. }
    rewrite K, seq_length. split; [exact HA|]. split; [|reflexivity]. unfold rows, d. cbn [u_values]. rewrite repeat_length. reflexivity.
Qed.

(** ** C47 *)
Lemma str_eqb_eq a b : str_eqb a b = true <-> a = b.
Proof. unfold str_eqb. destruct (str_eq_dec a b); split; congruence. Qed.
Lemma std_eqb_eq a b : std_eqb a b = true <-> a = b.
Proof. destruct a as [a|], b as [b|]; simpl; try (split; congruence). rewrite str_eqb_eq. split; congruence. Qed.
Lemma coord_eq_spec a b : coord_eq a b = true <-> c_std a = c_std b /\ c_std a <> Some [].
Proof. unfold coord_eq. rewrite andb_true_iff, std_eqb_eq, negb_true_iff. split; intros [H1 H2]; split; auto. - intros E. rewrite E in H2. discriminate. - destruct (std_eqb (c_std a) (Some [])) eqn:E; auto. apply std_eqb_eq in E. contradiction. Qed.
Lemma append_unique l c l' : unique_standard_names l -> coords_append l c = Ok l' -> unique_standard_names l'.
Proof.
  intros HU H. unfold coords_append in H. destruct (existsb (coord_eq c) l) eqn:E; [discriminate|]. injection H as <-.
  assert (NE : forall k x n, nth_error l k = Some x -> n <> [] -> c_std x = Some n -> c_std c = Some n -> False).
  { intros k x n Hk Hn Hx Hc. assert (T : existsb (coord_eq c) l = true); [|congruence]. apply existsb_exists. exists x. split; [eapply nth_error_In; eauto|]. apply coord_eq_spec. rewrite Hc, Hx. split; congruence. }
  assert (SN : forall k x, nth_error (l ++ [c]) k = Some x -> (k < length l /\ nth_error l k = Some x) \/ (k = length l /\ x = c)).
  { intros k x Hk. destruct (Nat.lt_ge_cases k (length l)) as [K|K]; [left; rewrite nth_error_app1 in Hk by auto; auto|]. right. rewrite nth_error_app2 in Hk by auto. destruct (k - length l) as [|m] eqn:M; [injection Hk as <-; split; [lia|auto]|]. simpl in Hk. destruct m; discriminate. }
  intros i j a b n Hi Hj Hn Ha Hb. destruct (SN i a Hi) as [[Li Hi']|[-> ->]], (SN j b Hj) as [[Lj Hj']|[-> ->]]; auto.
  - eapply HU; eauto.
  - exfalso. eapply NE; eauto.
  - exfalso. eapply NE; eauto.
Qed.
Lemma append_all_unique cs : forall l l', unique_standard_names l -> append_all l cs = Ok l' -> unique_standard_names l' /\ l' = l ++ cs.
Proof.
  induction cs as [|c cs IH]; intros l l' HU H; cbn [append_all] in H; [injection H as <-; rewrite app_nil_r; auto|]. destruct (coords_append l c) as [l1|] eqn:E; [|discriminate]. cbn [bind] in H.
  assert (l1 = l ++ [c]) as -> by (unfold coords_append in E; destruct (existsb _ l); [discriminate|]; injection E as <-; reflexivity).
  destruct (IH (l ++ [c]) l') as [A B]; auto; [eapply append_unique; eauto|]. split; auto. rewrite <- app_assoc in B. exact B.
Qed.
Lemma unique_nil : unique_standard_names [].
Proof. intros [|i] j a b n H; discriminate. Qed.
(** a rejected coordinate shares its standard name with one in the list *)
Lemma append_rejected l c e : coords_append l c = Raises e -> e = DuplicateCoordinateError /\ exists x, In x l /\ c_std x = c_std c /\ c_std c <> Some [].
Proof. unfold coords_append. destruct (existsb (coord_eq c) l) eqn:E; [|discriminate]. intros H. injection H as <-. split; auto. apply existsb_exists in E. destruct E as (x & Hx & Ex). apply coord_eq_spec in Ex. exists x. intuition congruence. Qed.
Lemma matches_std n c : matches (by_std n) c = true <-> has_std n c.
Proof. unfold matches, by_std, has_std. cbn [q_name q_std q_axis q_var]. rewrite !andb_true_r. cbn [andb]. apply std_eqb_eq. Qed.
Lemma filter_unique l n : unique_standard_names l -> n <> [] -> forall c, In c l -> has_std n c -> filter (matches (by_std n)) l = [c].
Proof.
  induction l as [|a l IH]; intros HU Hn c Hin Hc; [contradiction|]. assert (HU' : unique_standard_names l) by (intros i j x y m Hi Hj; intros; assert (S i = S j) by (eapply HU; eauto); lia).
  cbn [filter]. destruct (matches (by_std n) a) eqn:M.
  - apply matches_std in M. assert (ONLY : forall x, In x l -> ~ has_std n x).
    { intros x Hx Hs. destruct (In_nth_error _ _ Hx) as (k & Hk). assert (0%nat = S k) by (apply (HU 0%nat (S k) a x n); auto). lia. }
    destruct Hin as [->|Hin]; [|exfalso; eapply ONLY; eauto]. f_equal. clear -ONLY. induction l as [|x l IH]; [reflexivity|]. cbn [filter]. destruct (matches (by_std n) x) eqn:E; [apply matches_std in E; exfalso; apply (ONLY x); [left; auto|auto]|]. apply IH. intros; apply ONLY; right; auto.
  - destruct Hin as [->|Hin]; [apply matches_std in Hc; congruence|]. apply IH; auto.
Qed.
Theorem lookup_found l n c : unique_standard_names l -> n <> [] -> In c l -> has_std n c -> get_coord l (by_std n) = Ok c.
Proof. intros HU Hn Hin Hc. unfold get_coord, get_coords. rewrite (filter_unique l n HU Hn c Hin Hc). reflexivity. Qed.
Lemma no_criteria l : filter (matches (mkCrit None None None None)) l = l.
Proof. apply filter_all. reflexivity. Qed.
Theorem lookup_absent l n : length l <> 1 -> (forall c, In c l -> ~ has_std n c) -> get_coord l (by_std n) = Raises CoordinateNotFoundError.
Proof.
  intros HL HN. unfold get_coord, get_coords. assert (E : filter (matches (by_std n)) l = []).
  { clear HL. induction l as [|a l IH]; [reflexivity|]. cbn [filter]. destruct (matches (by_std n) a) eqn:M; [apply matches_std in M; exfalso; apply (HN a); [left; auto|auto]|]. apply IH. intros; apply HN; right; auto. }
  rewrite E. cbn [by_std q_name]. rewrite no_criteria. destruct l as [|a [|b l]]; auto. exfalso. apply HL. reflexivity.
Qed.
(** ** C46 *)
Lemma zip_differ_spec a b : zip_differ a b = false <-> same_up_to_rank a b.
Proof.
  unfold same_up_to_rank. revert b. induction a as [|x a IH]; intros b; [split; auto; intros _; exists b; right; reflexivity|]. destruct b as [|y b]; [split; auto; intros _; exists (x :: a); left; reflexivity|].
  unfold zip_differ in *. cbn [combine existsb fst snd]. rewrite orb_false_iff, negb_false_iff, Nat.eqb_eq, IH. split.
  - intros [-> (r & [->| ->])]; exists r; auto.
  - intros (r & [H|H]); injection H; intros; subst; split; auto; exists r; auto.
Qed.
Lemma shapes_check a : forall b, length a = length b -> existsb (fun ab : list nat * list nat => zip_differ (fst ab) (snd ab)) (combine a b) = false <-> Forall2 same_up_to_rank a b.
Proof.
  induction a as [|x a IH]; intros [|y b] L; try discriminate; [split; auto|]. cbn [combine existsb fst snd]. rewrite orb_false_iff, zip_differ_spec, IH by (injection L; auto). split; [intros [H1 H2]; constructor; auto|]. intros H; inversion H; auto.
Qed.
Lemma forall2_len {A B} (P : A -> B -> Prop) l m : Forall2 P l m -> length l = length m.
Proof. induction 1; simpl; auto. Qed.
Definition loose (gridded : bool) (l : list item) : Prop := match l with [] => True | first :: rest => Forall (loosely_compatible gridded first) rest /\ i_gridded first = gridded end.
Lemma list_append_spec gridded l x : loose gridded l ->
  (forall l', list_append gridded l x = Ok l' -> l' = l ++ [x] /\ loose gridded l') /\
  (i_gridded x = gridded -> match l with [] => True | first :: _ => Forall2 same_up_to_rank (i_shapes first) (i_shapes x) end -> list_append gridded l x = Ok (l ++ [x])).
Proof.
  intros HL. unfold list_append. split.
  - intros l' H. destruct (eqb (i_gridded x) gridded) eqn:G; cbn [negb] in H; [|discriminate]. apply eqb_prop in G. destruct l as [|first rest]; [injection H as <-; split; auto; simpl; auto|].
    destruct (Nat.eqb_spec (length (i_shapes first)) (length (i_shapes x))) as [L|L]; cbn [negb] in H; [|discriminate]. destruct (existsb _ _) eqn:X; [discriminate|]. injection H as <-. split; auto. apply shapes_check in X; auto.
    destruct HL as [H1 H2]. simpl. split; auto. apply Forall_app. split; auto. constructor; auto. split; auto.
  - intros G H. rewrite G, eqb_reflx. cbn [negb]. destruct l as [|first rest]; auto. pose proof (forall2_len _ _ _ H) as L. rewrite L, Nat.eqb_refl. cbn [negb]. rewrite (proj2 (shapes_check _ _ L) H). reflexivity.
Qed.
Lemma list_extend_loose gridded xs : forall l, loose gridded l -> loose gridded (fst (list_extend gridded l xs)) /\ exists k, fst (list_extend gridded l xs) = l ++ firstn k xs /\ (snd (list_extend gridded l xs) = None -> k = length xs).
Proof.
  induction xs as [|x xs IH]; intros l HL; [split; auto; exists 0; simpl; rewrite app_nil_r; auto|]. cbn [list_extend]. destruct (list_append gridded l x) as [l1|e] eqn:E; cbn [fst snd].
  - destruct (list_append_spec gridded l x HL) as [A _]. destruct (A l1 E) as [-> HL1]. destruct (IH (l ++ [x]) HL1) as (P & k & K1 & K2). split; auto. exists (S k). rewrite K1, <- app_assoc. split; [reflexivity|]. intros N. rewrite (K2 N). reflexivity.
  - split; auto. exists 0. simpl. rewrite app_nil_r. split; auto. discriminate.
Qed.
Lemma same_rank_same_shape a b : same_up_to_rank a b -> length a = length b -> a = b.
Proof. intros (r & [->| ->]) L; rewrite app_length in L; destruct r; simpl in *; try lia; rewrite app_nil_r; auto. Qed.
Lemma loose_strict gridded first x : loosely_compatible gridded first x -> same_ranks first x -> compatible gridded first x.
Proof.
  intros [G H] R. split; auto. unfold same_ranks in R. revert R. induction H as [|a b la lb Hab H IH]; intros R; auto. cbn [map] in R. injection R as R1 R2. f_equal; auto. symmetry. apply same_rank_same_shape; auto.
Qed.
(** ** C40 *)
Lemma std_field cs dat k n i shape v : unique_standard_names cs -> length cs <> 1 -> nth_error standard_names k = Some n -> n <> [] ->
  standard_value (mkU cs shape v) n i (coord_at (mkView (coords_flattened cs) dat) k i).
Proof.
  intros HU HL Hk Hn. unfold coord_at. cbn [w_coords]. assert (E : nth k (coords_flattened cs) None = option_map c_points (match get_coord cs (by_std n) with Ok c => Some c | Raises _ => None end)).
  { unfold coords_flattened, find_standard_coords. rewrite map_map. apply nth_error_nth. rewrite nth_error_map, Hk. reflexivity. }
  rewrite E. split; cbn [u_coords].
  - intros c Hin Hc. rewrite (lookup_found cs n c) by auto. reflexivity.
  - intros HN. rewrite lookup_absent by auto. reflexivity.
Qed.
Lemma nonempty_standard : forall n, In n standard_names -> n <> [].
Proof. intros n H. unfold standard_names in H. simpl in H. repeat (destruct H as [<-|H]; [discriminate|]). contradiction. Qed.
Lemma unique_identity cs cs' : map identity_of cs' = map identity_of cs -> unique_standard_names cs -> unique_standard_names cs'.
Proof.
  intros H HU i j a b n Hi Hj Hn Ha Hb. assert (G : forall k x, nth_error cs' k = Some x -> exists y, nth_error cs k = Some y /\ c_std y = c_std x).
  { intros k x Hk. assert (E : nth_error (map identity_of cs') k = Some (identity_of x)) by (rewrite nth_error_map, Hk; reflexivity). rewrite H, nth_error_map in E. destruct (nth_error cs k) as [y|]; [|discriminate]. exists y. split; auto. injection E. auto. }
  destruct (G i a Hi) as (a' & Hi' & Ea), (G j b Hj) as (b' & Hj' & Eb). apply (HU i j a' b' n); auto; congruence.
Qed.
Lemma map_res_filter {B} (f : nat -> res B) (g : nat -> B) l : (forall k, In k l -> f k = Ok (g k)) -> map_res f l = Ok (map g l).
Proof. induction l as [|k l IH]; intros H; [reflexivity|]. cbn [map_res]. rewrite (H k) by (left; auto). cbn [bind]. rewrite IH by (intros; apply H; right; auto). reflexivity. Qed.
Theorem all_points_spec d lat : aligned d -> unique_standard_names (u_coords d) -> length (u_coords d) <> 1 -> In lat (u_coords d) -> has_std (lit "latitude") lat ->
  exists d' w, post_process d = Ok d' /\ all_points d = Ok w /\ view_length w = Ok (length (u_values d')) /\
    (forall i, i < length (u_values d') -> exists p, view_get w (Z.of_nat i) = Ok p /\ point_of d' i p) /\
    (forall i, (i < 0 \/ Z.of_nat (length (u_values d')) <= i)%Z -> view_get w i = Raises IndexError) /\
    (exists ps, enumerate_non_masked w = Ok ps /\ map fst ps = filter (fun i => negb (is_missing (nth i (u_values d') None))) (seq 0 (length (u_values d'))) /\ Forall (fun ip => point_of d' (fst ip) (snd ip)) ps) /\
    (exists ps, enumerate_all w = Ok ps /\ map fst ps = seq 0 (length (u_values d')) /\ Forall (fun ip => point_of d' (fst ip) (snd ip)) ps).
Proof.
  intros HA HU HL Hin Hlat. destruct (post_process_spec d HA) as (d' & E & A' & _ & ID). assert (LC : length (u_coords d') = length (u_coords d)) by (rewrite <- (map_length identity_of (u_coords d')), ID, map_length; auto).
  assert (HU' : unique_standard_names (u_coords d')) by (eapply unique_identity; eauto).
  assert (exists lat', In lat' (u_coords d') /\ has_std (lit "latitude") lat') as (lat' & Hin' & Hlat').
  { assert (X : In (identity_of lat) (map identity_of (u_coords d'))) by (rewrite ID; apply in_map; auto). apply in_map_iff in X. destruct X as (y & Ey & Hy). exists y. split; auto. unfold has_std in *. injection Ey. intros. congruence. }
  exists d', (mkView (coords_flattened (u_coords d')) (Some (u_values d'))). split; auto. unfold all_points. rewrite E. cbn [bind]. split; [reflexivity|].
  assert (VL : view_length (mkView (coords_flattened (u_coords d')) (Some (u_values d'))) = Ok (length (u_values d'))).
  { unfold view_length. cbn [w_coords]. unfold coords_flattened, find_standard_coords, standard_names. cbn [map]. rewrite (lookup_found (u_coords d') (lit "latitude") lat') by (auto; discriminate). cbn [option_map]. unfold aligned in A'. rewrite Forall_forall in A'. rewrite A'; auto. }
  split; auto. set (w := mkView _ _) in *.
  set (P := fun k => mkHP (coord_at w 0 k) (coord_at w 1 k) (coord_at w 2 k) (coord_at w 3 k) (coord_at w 4 k) [nth k (u_values d') None]).
  assert (G : forall i, i < length (u_values d') -> view_get w (Z.of_nat i) = Ok (P i)).
  { intros i Hi. unfold view_get. rewrite VL. cbn [bind]. destruct (Z.ltb_spec (Z.of_nat i) 0); [lia|]. destruct (Z.leb_spec (Z.of_nat (length (u_values d'))) (Z.of_nat i)); [lia|]. cbn [orb]. rewrite Nat2Z.id. reflexivity. }
  assert (PO : forall i, point_of d' i (P i)).
  { intros i. destruct d' as [cs' sh v']. cbn [u_coords u_values] in *. unfold point_of, P, w. cbn [hp_lat hp_lon hp_alt hp_pres hp_time hp_val u_values].
    assert (HL' : length cs' <> 1) by lia.
    repeat split; try (apply (std_field cs' (Some v') 0 _ i sh v'); auto; discriminate); try (apply (std_field cs' (Some v') 1 _ i sh v'); auto; discriminate); try (apply (std_field cs' (Some v') 2 _ i sh v'); auto; discriminate); try (apply (std_field cs' (Some v') 3 _ i sh v'); auto; discriminate); try (apply (std_field cs' (Some v') 4 _ i sh v'); auto; discriminate). }
  split; [intros i Hi; exists (P i); auto|]. split.
  { intros i Hi. unfold view_get. rewrite VL. cbn [bind]. destruct (Z.ltb_spec i 0); [reflexivity|]. destruct (Z.leb_spec (Z.of_nat (length (u_values d'))) i); [reflexivity|lia]. }
  split.
  - unfold enumerate_non_masked. rewrite VL. cbn [bind]. rewrite (map_res_filter _ (fun k => (k, P k))).
    + eexists. split; [reflexivity|]. split; [rewrite map_map, map_id; reflexivity|]. rewrite Forall_map. apply Forall_forall. intros k _. apply PO.
    + intros k Hk. apply filter_In in Hk. destruct Hk as [Hk _]. apply in_seq in Hk. rewrite G by lia. reflexivity.
  - unfold enumerate_all. rewrite VL. cbn [bind]. rewrite (map_res_filter _ (fun k => (k, P k))).
    + eexists. split; [reflexivity|]. split; [rewrite map_map, map_id; reflexivity|]. rewrite Forall_map. apply Forall_forall. intros k _. apply PO.
    + intros k Hk. apply in_seq in Hk. rewrite G by lia. reflexivity.
Qed.
(** hyper_point: time and pressure exchanged *)
Lemma flat_at_nat {A} (l : list A) (d : A) i : i < length l -> flat_at l (Z.of_nat i) = Ok (nth i l d).
Proof.
  intros H. unfold flat_at. destruct (Z.ltb_spec (Z.of_nat i) 0); [lia|]. destruct (Z.ltb_spec (Z.of_nat i) 0); [lia|]. rewrite Nat2Z.id. destruct (nth_error l i) eqn:E; [erewrite (nth_error_nth l); eauto|]. apply nth_error_None in E. lia.
Qed.
Theorem hyper_point_spec d i : aligned d -> unique_standard_names (u_coords d) -> (forall n, In n standard_names -> exists c, In c (u_coords d) /\ has_std n c) ->
  exists d', post_process d = Ok d' /\ (i < length (u_values d') -> exists p, hyper_point d (Z.of_nat i) = Ok p /\
    standard_value d' (lit "latitude") i (hp_lat p) /\ standard_value d' (lit "longitude") i (hp_lon p) /\ standard_value d' (lit "altitude") i (hp_alt p) /\
    standard_value d' (lit "air_pressure") i (hp_time p) /\ standard_value d' (lit "time") i (hp_pres p) /\ hp_val p = [nth i (u_values d') None]).
Proof.
  intros HA HU HS. destruct (post_process_spec d HA) as (d' & E & A' & _ & ID). exists d'. split; auto. intros Hi. assert (HU' : unique_standard_names (u_coords d')) by (eapply unique_identity; eauto).
  assert (HS' : forall n, In n standard_names -> exists c, In c (u_coords d') /\ has_std n c).
  { intros n Hn. destruct (HS n Hn) as (c & Hc & Hs). assert (X : In (identity_of c) (map identity_of (u_coords d'))) by (rewrite ID; apply in_map; auto). apply in_map_iff in X. destruct X as (y & Ey & Hy). exists y. split; auto. unfold has_std in *. injection Ey. intros. congruence. }
  assert (V : forall n, In n standard_names -> exists v, bind (get_coord (u_coords d') (by_std n)) (fun c => flat_at (c_points c) (Z.of_nat i)) = Ok v /\ standard_value d' n i v).
  { intros n Hn. destruct (HS' n Hn) as (c & Hc & Hs). pose proof (nonempty_standard n Hn) as NE. rewrite (lookup_found _ n c) by auto. cbn [bind]. unfold aligned in A'. rewrite Forall_forall in A'. rewrite (flat_at_nat _ None) by (rewrite A'; auto). eexists. split; [reflexivity|].
    split; [|intros HN; exfalso; apply (HN c); auto]. intros c2 H2 Hs2. pose proof (lookup_found _ n c HU' NE Hc Hs) as L1. rewrite (lookup_found _ n c2 HU' NE H2 Hs2) in L1. injection L1 as ->. reflexivity. }
  unfold hyper_point. rewrite E. cbn [bind].
  destruct (V (lit "latitude")) as (v0 & E0 & S0); [simpl; auto|]. destruct (V (lit "longitude")) as (v1 & E1 & S1); [simpl; auto|]. destruct (V (lit "altitude")) as (v2 & E2 & S2); [simpl; auto|].
  destruct (V (lit "air_pressure")) as (v3 & E3 & S3); [simpl; auto|]. destruct (V (lit "time")) as (v4 & E4 & S4); [simpl; auto 6|].
  rewrite E0. cbn [bind]. rewrite E1. cbn [bind]. rewrite E2. cbn [bind]. rewrite E4. cbn [bind]. rewrite E3. cbn [bind]. rewrite (flat_at_nat (u_values d') None) by auto. cbn [bind]. eexists. split; [reflexivity|]. cbn [hp_lat hp_lon hp_alt hp_pres hp_time hp_val]. auto 10.
Qed.
