From Verif Require Import Base QBase KDModel KDSpec KDProofs KD2Proofs KD3Proofs KD4Proofs PqModel PqSpec PqProofs Pq2Proofs.
From Coq Require Import List Lia Sorted Lqa.
Import ListNotations.
Open Scope nat_scope.

(** ** Points within a distance of each of an array of points *)
Lemma map_points_spec f : forall xs ls c pre, Forall2 (fun x l => f x = Ok l) xs ls -> length pre = c -> map_points f xs c (pre ++ repeat [] (length xs)) = Ok (pre ++ ls).
Proof.
  intros xs ls c pre F. revert c pre. induction F as [|x l xs ls E F IH]; intros c pre P; cbn [map_points length repeat].
  - reflexivity.
  - rewrite E. cbn [bind]. rewrite set_at' by exact P. replace (pre ++ l :: repeat [] (length xs)) with ((pre ++ [l]) ++ repeat [] (length xs)) by (rewrite <- app_assoc; reflexivity).
    rewrite IH by (rewrite app_length; cbn [length]; lia). rewrite <- app_assoc. reflexivity.
Qed.
Section Near.
  Variables (data : list (list Q)) (m : nat) (ls : Z) (kd : kdtree).
  Hypothesis M : 0 < m.
  Hypothesis R : rows_of_length m data.
  Hypothesis K : KDTree data ls = Ok kd.
  Variables (r eps : Q) (p : pnorm).
  Lemma kd_width : length (kd_maxes kd) = m.
  Proof. destruct (built_ok data m ls kd M R K) as (_ & _ & _ & KM & _). exact KM. Qed.
  Lemma near_one x : length x = m -> exists l, query_ball_point kd x r p eps = Ok l /\ query_ball_array kd (alone m x) r p eps = Ok (NearOne l).
  Proof.
    intros X. unfold query_ball_array. cbn [alone p_width p_shape p_cells hd]. unfold query_ball_point. rewrite X, kd_width, Nat.eqb_refl. cbn [negb bind]. eauto.
  Qed.
  Theorem near_each x : well_shaped m x -> p_shape x <> [] -> exists lists, query_ball_array kd x r p eps = Ok (NearAll (p_shape x) lists) /\
    Forall2 (fun y l => query_ball_array kd (alone m y) r p eps = Ok (NearOne l)) (p_cells x) lists.
  Proof.
    intros (W & SZ & F) NS. assert (E : exists lists, Forall2 (fun y l => query_ball_point kd y r p eps = Ok l) (p_cells x) lists).
    { apply forall2_choice. eapply Forall_impl; [|exact F]. intros y Y. destruct (near_one y Y) as (l & E & _). eauto. }
    destruct E as (lists & E). exists lists. split.
    - unfold query_ball_array. rewrite W, kd_width, Nat.eqb_refl. cbn [negb]. destruct (p_shape x) as [|s0 sh] eqn:SH; [congruence|]. unfold cells_of. rewrite <- SZ.
      pose proof (map_points_spec _ _ _ 0 [] E eq_refl) as MS. cbn [app] in MS. rewrite MS. reflexivity.
    - clear NS SZ. revert F. induction E as [|y l ys ls0 Q E IH]; intros F; [constructor|]; pose proof (Forall_inv F) as Y; pose proof (Forall_inv_tail F) as FT; constructor; [|apply IH, FT]. destruct (near_one y Y) as (l' & Q' & S). rewrite Q in Q'. injection Q' as <-. exact S.
  Qed.
  Theorem near_refused x : p_width x <> m -> query_ball_array kd x r p eps = Raises ValueError.
  Proof. intros W. unfold query_ball_array. rewrite kd_width. apply Nat.eqb_neq in W. rewrite W. reflexivity. Qed.
End Near.
Theorem near_exact data m ls kd x r p : 0 < m -> rows_of_length m data -> KDTree data ls = Ok kd -> well_shaped m x -> p_shape x <> [] ->
  exists lists, query_ball_array kd x r p 0 = Ok (NearAll (p_shape x) lists) /\ Forall2 (fun y l => exact_list (fun i => i < length data /\ close p (nth i data []) y r) l) (p_cells x) lists.
Proof.
  intros M R K WS NS. destruct (near_each data m ls kd M R K r 0%Q p x WS NS) as (lists & E & F). exists lists. split; [exact E|]. destruct WS as (_ & _ & FX). clear E NS. revert FX.
  induction F as [|y l ys ls0 Q F IH]; intros FX; [constructor|]; pose proof (Forall_inv FX) as Y; pose proof (Forall_inv_tail FX) as FT; constructor; [|apply IH, FT]. destruct (query_ball_point_exact data m ls kd M R K y r p Y) as (hits & H & X).
  unfold query_ball_array in Q. cbn [alone p_width p_shape p_cells hd] in Q. destruct (negb _); [discriminate|]. rewrite H in Q. cbn [bind] in Q. injection Q as <-. exact X.
Qed.

(** ** the matrix of distances *)
Lemma set_nth_other {A} (l : list A) : forall i j v d, i <> j -> nth i (set_nth j v l) d = nth i l d.
Proof. induction l as [|x l IH]; intros [|i] [|j] v d H; cbn; auto; try congruence. Qed.
Lemma set_nth_same {A} (l : list A) : forall i v d, i < length l -> nth i (set_nth i v l) d = v.
Proof. induction l as [|x l IH]; intros [|i] v d H; cbn in *; auto; try lia. apply IH. lia. Qed.
Lemma set_nth_len {A} (l : list A) : forall i v, length (set_nth i v l) = length l.
Proof. induction l as [|x l IH]; intros [|i] v; cbn; auto. Qed.
Lemma zipw_length {A B C} (f : A -> B -> C) a b : length a = length b -> length (zipw f a b) = length b.
Proof. intros H. unfold zipw. rewrite map_length, combine_length. lia. Qed.
Lemma zipw_nth {A B C} (f : A -> B -> C) : forall a b i da db dc, length a = length b -> i < length a -> nth i (zipw f a b) dc = f (nth i a da) (nth i b db).
Proof. unfold zipw. induction a as [|x a IH]; intros [|y b] [|i] da db dc L H; cbn in *; try lia; auto. apply IH; lia. Qed.
Section Matrix.
  Variables (p : pnorm) (x y : list (list Q)).
  Let d i j := minkowski_p p (row x i) (row y j).
  Lemma rows_loop idx : forall M, (forall i, In i idx -> i < length M) ->
    let M' := fold_left (fun result i => set_nth i (map (fun b => minkowski_p p (row x i) b) y) result) idx M in
    length M' = length M /\ forall i, (In i idx -> nth i M' [] = map (fun b => minkowski_p p (row x i) b) y) /\ (~ In i idx -> nth i M' [] = nth i M []).
  Proof.
    induction idx as [|i0 idx IH]; intros M L; cbn [fold_left]; [split; [reflexivity|]; intros i; split; [intros []|auto]|].
    destruct (IH (set_nth i0 (map (fun b => minkowski_p p (row x i0) b) y) M)) as [LL C]. { intros i I. rewrite set_nth_len. apply L. right. exact I. }
    split; [rewrite LL; apply set_nth_len|]. intros i. destruct (C i) as [C1 C2]. destruct (in_dec Nat.eq_dec i idx) as [J|J].
    - split; [auto|]. intros N. destruct N. right. exact J.
    - rewrite C2 by exact J. split.
      + intros [->|I]; [|tauto]. apply set_nth_same. apply L. left. reflexivity.
      + intros N. apply set_nth_other. intros ->. apply N. left. reflexivity.
  Qed.
  Lemma columns_loop n idx : forall M, length M = length x -> Forall (fun line => length line = n) M -> (forall j, In j idx -> j < n) ->
    let M' := fold_left (fun result j => zipw (fun a line => set_nth j (minkowski_p p a (row y j)) line) x result) idx M in
    length M' = length x /\ Forall (fun line => length line = n) M' /\ forall i j, i < length x -> (In j idx -> nth j (nth i M' []) 0%Q = d i j) /\ (~ In j idx -> nth j (nth i M' []) 0%Q = nth j (nth i M []) 0%Q).
  Proof.
    induction idx as [|j0 idx IH]; intros M LM W L; cbn [fold_left]; [split; [exact LM|split; [exact W|]]; intros i j _; split; [intros []|auto]|].
    set (M1 := zipw (fun a line => set_nth j0 (minkowski_p p a (row y j0)) line) x M).
    assert (L1 : length M1 = length x) by (unfold M1; rewrite zipw_length; auto).
    assert (N1 : forall i, i < length x -> nth i M1 [] = set_nth j0 (d i j0) (nth i M [])).
    { intros i I. unfold M1. rewrite (zipw_nth _ x M i [] [] []) by auto. reflexivity. }
    assert (W1 : Forall (fun line => length line = n) M1).
    { rewrite Forall_forall in *. intros line I. destruct (In_nth _ _ [] I) as (i & I1 & <-). rewrite N1 by lia. rewrite set_nth_len. apply W. apply nth_In. lia. }
    destruct (IH M1 L1 W1) as (LL & WW & C). { intros j J. apply L. right. exact J. }
    split; [exact LL|]. split; [exact WW|]. intros i j I. destruct (C i j I) as [C1 C2]. destruct (in_dec Nat.eq_dec j idx) as [J|J].
    - split; [auto|]. intros N. destruct N. right. exact J.
    - rewrite C2 by exact J. rewrite N1 by exact I. split.
      + intros [->|Q]; [|tauto]. apply set_nth_same. rewrite Forall_forall in W. rewrite (W (nth i M [])) by (apply nth_In; lia). apply L. left. reflexivity.
      + intros N. apply set_nth_other. intros ->. apply N. left. reflexivity.
  Qed.
End Matrix.
Theorem matrix_entries x y p threshold junk : p <> PN 0 -> Forall (fun v => length v = m_columns x) (m_rows x) -> Forall (fun v => length v = m_columns y) (m_rows y) -> m_columns x = m_columns y ->
  length junk = length (m_rows x) -> Forall (fun line => length line = length (m_rows y)) junk ->
  exists M, distance_matrix x y p threshold junk = Ok M /\ entries (fun i j => distance_power p (nth i (m_rows x) []) (nth j (m_rows y) [])) (length (m_rows x)) (length (m_rows y)) M.
Proof.
  intros _ FX FY C LJ WJ. unfold distance_matrix. rewrite C, Nat.eqb_refl. cbn [negb].
  assert (D : forall i j, i < length (m_rows x) -> j < length (m_rows y) -> (minkowski_p p (row (m_rows x) i) (row (m_rows y) j) == distance_power p (nth i (m_rows x) []) (nth j (m_rows y) []))%Q).
  { intros i j I J. apply distance_power_eq. rewrite Forall_forall in FX, FY. unfold row. rewrite (FX (nth i (m_rows x) [])), (FY (nth j (m_rows y) [])) by (apply nth_In; auto). exact C. }
  assert (RW : forall i j, i < length (m_rows x) -> j < length (m_rows y) -> nth j (map (fun b => minkowski_p p (row (m_rows x) i) b) (m_rows y)) 0%Q = minkowski_p p (row (m_rows x) i) (row (m_rows y) j)).
  { intros i j I J. rewrite (nth_indep (map (fun b => minkowski_p p (row (m_rows x) i) b) (m_rows y)) 0%Q (minkowski_p p (row (m_rows x) i) [])) by (rewrite map_length; exact J). rewrite (map_nth (fun b => minkowski_p p (row (m_rows x) i) b)). reflexivity. }
  destruct (_ <=? threshold)%Z; [|destruct (_ <? _)].
  - eexists. split; [reflexivity|]. split; [apply map_length|]. intros i I.
    assert (E : nth i (map (fun a => map (fun b => minkowski_p p a b) (m_rows y)) (m_rows x)) [] = map (fun b => minkowski_p p (row (m_rows x) i) b) (m_rows y)).
    { rewrite (nth_indep (map (fun a => map (fun b => minkowski_p p a b) (m_rows y)) (m_rows x)) [] (map (fun b => minkowski_p p [] b) (m_rows y))) by (rewrite map_length; exact I). rewrite (map_nth (fun a => map (fun b => minkowski_p p a b) (m_rows y))). reflexivity. }
    rewrite E. split; [apply map_length|]. intros j J. rewrite RW by auto. apply D; auto.
  - eexists. split; [reflexivity|]. unfold by_rows. destruct (rows_loop p (m_rows x) (m_rows y) (seq 0 (length (m_rows x))) junk) as [LL CC]. { intros i I. apply in_seq in I. lia. }
    split; [rewrite LL; exact LJ|]. intros i I. destruct (CC i) as [C1 _]. rewrite C1 by (apply in_seq; lia). split; [apply map_length|]. intros j J. rewrite RW by auto. apply D; auto.
  - eexists. split; [reflexivity|]. unfold by_columns. destruct (columns_loop p (m_rows x) (m_rows y) (length (m_rows y)) (seq 0 (length (m_rows y))) junk LJ WJ) as (LL & WW & CC). { intros j J. apply in_seq in J. lia. }
    split; [exact LL|]. intros i I. split; [rewrite Forall_forall in WW; apply WW, nth_In; lia|]. intros j J. destruct (CC i j I) as [C1 _]. rewrite C1 by (apply in_seq; lia). apply D; auto.
Qed.
Theorem matrix_refused x y p threshold junk : m_columns x <> m_columns y -> distance_matrix x y p threshold junk = Raises ValueError.
Proof. intros C. unfold distance_matrix. apply Nat.eqb_neq in C. rewrite C. reflexivity. Qed.
