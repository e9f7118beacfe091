From Verif Require Import Base PyStr QBase DateModel UngrModel UngrSpec UngrProofs FrModel FrSpec.
From Coq Require Import Lia.
Open Scope list_scope. Open Scope nat_scope.

Notation cols_t := (list (option str * list (option Q))).
Lemma labels_eq ti c : labels ti c = ti && is_time c.
Proof. unfold labels, is_time. destruct ti; [|reflexivity]. cbn [andb]. destruct (c_std c) as [n|]; reflexivity. Qed.
Lemma fset_keys {V} (d : list (option str * V)) k v : ~ In k (map fst d) -> fset d k v = d ++ [(k, v)].
Proof.
  induction d as [|[k' v'] d IH]; intros H; [reflexivity|]. cbn [fset]. destruct (std_eqb k' k) eqn:E; [apply std_eqb_eq in E; exfalso; apply H; left; auto|].
  rewrite IH; [reflexivity|]. intros K. apply H. right. auto.
Qed.
Lemma fset_in {V} (d : list (option str * V)) k v : NoDup (map fst d) ->
  NoDup (map fst (fset d k v)) /\ (forall k' v', In (k', v') (fset d k v) <-> (k' = k /\ v' = v) \/ (k' <> k /\ In (k', v') d)).
Proof.
  induction d as [|[k1 v1] d IH]; intros ND.
  - split; [repeat constructor; auto|]. intros k' v'. cbn. split; [intros [[= <- <-]|[]]; auto|]. intros [[-> ->]|[_ []]]; auto.
  - cbn [map fst] in ND. inversion ND as [|? ? N1 N2]; subst. destruct (IH N2) as [I1 I2]. cbn [fset]. destruct (std_eqb k1 k) eqn:E.
    + apply std_eqb_eq in E. subst k1. split; [cbn [map fst]; constructor; auto|]. intros k' v'. cbn [In]. split.
      * intros [[= <- <-]|H]; auto. right. split; [|auto]. intros ->. apply N1. change k with (fst (k, v')). apply in_map. auto.
      * intros [[-> ->]|[H [[= <- <-]|K]]]; auto. congruence.
    + assert (NE : k1 <> k) by (intros ->; assert (X : std_eqb k k = true) by (apply std_eqb_eq; auto); congruence). split.
      * cbn [map fst]. constructor; auto. intros K. apply in_map_iff in K. destruct K as ([k2 v2] & K1 & K2). cbn [fst] in K1. subst k2. apply I2 in K2. destruct K2 as [[? _]|[_ K2]]; [congruence|].
        apply N1. change k1 with (fst (k1, v2)). apply in_map. auto.
      * intros k' v'. cbn [In]. rewrite I2. split; [intros [[= <- <-]|[?|[? ?]]]; auto|]. intros [[-> ->]|[H [[= <- <-]|K]]]; auto.
Qed.

(** ** What post-processing leaves *)
Definition taken (idx : list nat) (c c' : coord) : Prop := c_std c' = c_std c /\ c_points c' = take_rows idx None (c_points c).
Lemma take_all {A} (d : A) l : take_rows (seq 0 (length l)) d l = l.
Proof. unfold take_rows. apply (nth_ext _ _ d d); [rewrite map_length, seq_length; auto|]. intros i H. rewrite map_length, seq_length in H. rewrite (nth_indep _ d (nth 0 l d)) by (rewrite map_length, seq_length; auto).
  rewrite (map_nth (fun i => nth i l d)). rewrite seq_nth by auto. reflexivity. Qed.
Lemma compress_taken {A} (d : A) (keep : nat -> bool) l : compress (map (fun i => negb (keep i)) (seq 0 (length l))) l = take_rows (filter keep (seq 0 (length l))) d l.
Proof.
  assert (G : forall l s (f : nat -> A), (forall i, i < length l -> f (s + i) = nth i l d) -> compress (map (fun i => negb (keep i)) (seq s (length l))) l = map f (filter keep (seq s (length l)))).
  { clear l. induction l as [|x l IH]; intros s f H; [reflexivity|]. cbn [length seq map]. unfold compress. cbn [combine filter fst]. rewrite negb_involutive.
    assert (IHs := IH (S s) f). unfold compress in IHs. destruct (keep s); cbn [map snd]; [f_equal; [rewrite <- (Nat.add_0_r s), H by (cbn; lia); reflexivity|]|]; apply IHs; intros i Hi; change (nth i l d) with (nth (S i) (x :: l) d); rewrite <- H by (cbn [length]; lia); f_equal; lia. }
  apply G. reflexivity.
Qed.
Lemma located_missing i cs : forallb (fun c => match nth i (c_points c) None with Some _ => true | None => false end) cs = negb (existsb (fun c => is_missing (nth i (c_points c) None)) cs).
Proof. induction cs as [|c cs IH]; [reflexivity|]. cbn [forallb existsb]. rewrite IH. destruct (nth i (c_points c) None); reflexivity. Qed.
Lemma post_taken d : aligned d -> exists d', post_process d = Ok d' /\ Forall2 (taken (located_rows d)) (u_coords d) (u_coords d') /\ u_values d' = take_rows (located_rows d) None (u_values d).
Proof.
  intros HA. unfold post_process. destruct (missing_mask_spec _ _ HA) as (mask & E & L & N). rewrite E. cbn [bind].
  assert (LR : forall i, located_row d i = negb (existsb (fun c => is_missing (nth i (c_points c) None)) (u_coords d))) by (intros i; apply located_missing).
  assert (M : mask = map (fun i => negb (located_row d i)) (seq 0 (length (u_values d)))).
  { apply (nth_ext _ _ false (negb (located_row d 0))); [rewrite map_length, seq_length; auto|]. intros i Hi. rewrite L in Hi. rewrite N by auto. rewrite (map_nth (fun i => negb (located_row d i))), seq_nth by auto. rewrite LR, negb_involutive. reflexivity. }
  destruct (existsb (fun b => b) mask) eqn:X; eexists; (split; [reflexivity|]); cbn [u_coords u_values].
  - split; [|rewrite M; apply (compress_taken None)]. unfold aligned in HA. revert HA. generalize (u_coords d). intros cs HA. induction HA as [|c cs Hc HA IH]; cbn [map]; constructor; auto.
    split; [reflexivity|]. cbn [c_points set_points]. rewrite M. rewrite <- Hc at 1. rewrite (compress_taken None). rewrite Hc. reflexivity.
  - assert (F : located_rows d = seq 0 (length (u_values d))).
    { unfold located_rows. apply filter_all. intros i Hi. destruct (located_row d i) eqn:K; auto. rewrite <- X. apply existsb_exists. exists true. split; auto. rewrite M. apply in_map_iff. exists i. rewrite K. auto. }
    rewrite F. split; [|symmetry; apply take_all]. unfold aligned in HA. clear -HA. induction HA as [|c cs Hc HA IH]; constructor; auto. split; [reflexivity|]. rewrite <- Hc. symmetry. apply take_all.
Qed.
Lemma take_len {A} idx (d : A) l : length (take_rows idx d l) = length idx.
Proof. apply map_length. Qed.
Lemma take_nth {A} idx (d : A) l j : j < length idx -> nth j (take_rows idx d l) d = nth (nth j idx 0) l d.
Proof. intros H. unfold take_rows. rewrite (nth_indep _ d (nth 0 l d)) by (rewrite map_length; auto). rewrite (map_nth (fun i => nth i l d)). reflexivity. Qed.

(** ** The frame of the coordinates *)
Definition last_time (ti : bool) (u : time_unit) (cs : list coord) (t0 : option (list (option Q))) : option (list (option Q)) :=
  fold_left (fun t c => if labels ti c then Some (map (to_date u) (c_points c)) else t) cs t0.
Lemma collect_split ti u cs : forall cols t, collect ti u cs cols t = (fold_left (fun d c => fset d (c_std c) (c_points c)) (filter (fun c => negb (labels ti c)) cs) cols, last_time ti u cs t).
Proof.
  induction cs as [|c cs IH]; intros cols t; [reflexivity|]. cbn [collect filter]. unfold last_time. cbn [fold_left]. rewrite <- labels_eq. destruct (labels ti c); cbn [negb fold_left]; rewrite IH; reflexivity.
Qed.
Lemma fsets_nodup cs : forall cols : cols_t, NoDup (map fst cols) -> NoDup (map fst (fold_left (fun d c => fset d (c_std c) (c_points c)) cs cols)) /\
  forall k v, In (k, v) (fold_left (fun d c => fset d (c_std c) (c_points c)) cs cols) <->
    (exists c, last_with k cs c /\ v = c_points c) \/ ((forall c, In c cs -> c_std c <> k) /\ In (k, v) cols).
Proof.
  induction cs as [|c cs IH]; intros cols ND; cbn [fold_left].
  - split; auto. intros k v. split; [intros H; right; split; [intros c []|auto]|]. intros [(c & (pre & post & H & _) & _)|[_ H]]; auto. destruct pre; discriminate.
  - destruct (fset_in cols (c_std c) (c_points c) ND) as [N1 N2]. destruct (IH _ N1) as [I1 I2]. split; auto. intros k v. rewrite I2. split.
    + intros [(x & (pre & post & -> & X1 & X2) & ->)|[H1 H2]].
      * left. exists x. split; auto. exists (c :: pre), post. auto.
      * apply N2 in H2. destruct H2 as [[-> ->]|[H2 H3]].
        -- left. exists c. split; auto. exists [], cs. auto.
        -- right. split; auto. intros x [<-|Hx]; auto.
    + intros [(x & (pre & post & E & X1 & X2) & ->)|[H1 H2]].
      * destruct pre as [|y pre]; injection E as -> ->.
        -- right. split; auto. apply N2. left. auto.
        -- left. exists x. split; auto. exists pre, post. auto.
      * right. split; [intros x Hx; apply H1; right; auto|]. apply N2. right. split; auto. intros ->. apply (H1 c); [left; auto|auto].
Qed.
Lemma fsets_distinct cs : forall cols : cols_t, NoDup (map fst cols ++ map c_std cs) -> fold_left (fun d c => fset d (c_std c) (c_points c)) cs cols = cols ++ map (fun c => (c_std c, c_points c)) cs.
Proof.
  induction cs as [|c cs IH]; intros cols ND; cbn [fold_left map]; [rewrite app_nil_r; auto|]. cbn [map] in ND. rewrite fset_keys.
  - rewrite IH; [rewrite <- app_assoc; reflexivity|]. rewrite map_app, <- app_assoc. exact ND.
  - intros H. apply NoDup_remove_2 in ND. apply ND, in_or_app. auto.
Qed.
Lemma fsets_lengths n cs : Forall (fun c => length (c_points c) = n) cs -> forall cols : cols_t, Forall (fun c => length (snd c) = n) cols ->
  Forall (fun c => length (snd c) = n) (fold_left (fun d c => fset d (c_std c) (c_points c)) cs cols).
Proof.
  induction 1 as [|c cs Hc Hcs IH]; intros cols HC; [auto|]. cbn [fold_left]. apply IH. clear IH Hcs. induction HC as [|[k v] cols Hv HC IH]; cbn [fset]; [repeat constructor; auto|].
  destruct (std_eqb k (c_std c)); constructor; auto.
Qed.
Lemma fset_lengths n (cols : cols_t) k v : length v = n -> Forall (fun c => length (snd c) = n) cols -> Forall (fun c => length (snd c) = n) (fset cols k v).
Proof. intros Hv HC. induction HC as [|[k1 v1] cols H1 HC IH]; cbn [fset]; [repeat constructor; auto|]. destruct (std_eqb k1 k); constructor; auto. Qed.
Lemma last_time_len ti u n cs : Forall (fun c => length (c_points c) = n) cs -> forall t, match t with Some l => length l = n | None => True end -> match last_time ti u cs t with Some l => length l = n | None => True end.
Proof. unfold last_time. induction 1 as [|c cs Hc Hcs IH]; intros t Ht; [auto|]. cbn [fold_left]. apply IH. destruct (labels ti c); auto. rewrite map_length. auto. Qed.
Lemma data_frame_ok (cols : cols_t) index n : Forall (fun c => length (snd c) = n) cols -> match index with Some l => length l = n | None => True end ->
  data_frame cols index = Ok (mkFrame index cols) /\ (f_rows (mkFrame index cols) = n \/ (index = None /\ cols = [] /\ f_rows (mkFrame index cols) = 0)).
Proof.
  intros HC HI. assert (R : f_rows (mkFrame index cols) = n \/ (index = None /\ cols = [] /\ f_rows (mkFrame index cols) = 0)).
  { unfold f_rows. cbn. destruct index as [l|]; [left; auto|]. destruct cols as [|[k v] cols]; [right; auto|]. left. inversion HC; auto. }
  split; auto. unfold data_frame. destruct (forallb _ cols) eqn:F; auto. exfalso. assert (X : forallb (fun c : option str * list (option Q) => length (snd c) =? f_rows (mkFrame index cols)) cols = true).
  { apply forallb_forall. intros c Hc. apply Nat.eqb_eq. rewrite Forall_forall in HC. destruct R as [->|(_ & -> & _)]; [auto|contradiction]. }
  congruence.
Qed.
Lemma set_column_ok f k v n : rectangular f -> length v = n -> (f_rows f = n \/ f_rows f = 0 /\ (f_cols f = [] \/ n = 0)) -> exists f', set_column f k v = Ok f' /\ f_cols f' = fset (f_cols f) k v /\ rectangular f' /\ f_rows f' = n /\
  (n <> 0 -> f_rows f = n -> f_index f' = f_index f) /\ (f_rows f = 0 -> f_index f' = None).
Proof.
  intros HR Hv HN. unfold set_column. destruct (f_rows f =? 0) eqn:Z.
  - apply Nat.eqb_eq in Z. eexists. split; [reflexivity|]. cbn [f_cols f_index].
    assert (E : map (fun c : option str * list (option Q) => (fst c, repeat (@None Q) (length v))) (f_cols f) = f_cols f).
    { destruct HN as [HN|[_ [->|HN]]]; [|reflexivity|]; (assert (n = 0) by lia; subst n; rewrite H; unfold rectangular in HR; rewrite Z in HR; clear -HR; induction HR as [|[k1 v1] cols H1 HR IH]; [reflexivity|]; cbn [map fst repeat] in *; rewrite IH; destruct v1; [reflexivity|discriminate]). }
    rewrite E. assert (L : Forall (fun c : option str * list (option Q) => length (snd c) = n) (fset (f_cols f) k v)).
    { apply fset_lengths; auto. destruct HN as [HN|[_ [->|HN]]]; [rewrite <- HN; exact HR|constructor|rewrite HN, <- Z; exact HR]. }
    assert (RR : f_rows (mkFrame None (fset (f_cols f) k v)) = n).
    { unfold f_rows. cbn. destruct (fset (f_cols f) k v) as [|[k1 v1] r] eqn:Q; [destruct (f_cols f) as [|[a b] r]; cbn in Q; [discriminate|destruct (std_eqb a k); discriminate]|]. inversion L; auto. }
    split; auto. split; [unfold rectangular; rewrite RR; exact L|]. split; auto. split; [lia|auto].
  - apply Nat.eqb_neq in Z. destruct HN as [HN|[HN _]]; [|contradiction]. rewrite Hv, HN, Nat.eqb_refl. eexists. split; [reflexivity|]. cbn [f_cols f_index].
    assert (L : Forall (fun c : option str * list (option Q) => length (snd c) = n) (fset (f_cols f) k v)) by (apply fset_lengths; auto; rewrite <- HN; exact HR).
    assert (RR : f_rows (mkFrame (f_index f) (fset (f_cols f) k v)) = n).
    { unfold f_rows in *. cbn in *. destruct (f_index f); auto. destruct (fset (f_cols f) k v) as [|[k1 v1] r] eqn:Q; [destruct (f_cols f) as [|[a b] r]; cbn in Q; [discriminate|destruct (std_eqb a k); discriminate]|]. inversion L; auto. }
    split; auto. split; [unfold rectangular; rewrite RR; exact L|]. split; auto. split; [auto|lia].
Qed.
Lemma set_column_differs f k v : f_rows f <> 0 -> length v <> f_rows f -> set_column f k v = Raises ValueError.
Proof. intros A B. unfold set_column. destruct (Nat.eqb_spec (f_rows f) 0); [contradiction|]. destruct (Nat.eqb_spec (length v) (f_rows f)); [contradiction|reflexivity]. Qed.
