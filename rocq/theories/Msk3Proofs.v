From Verif Require Import Base QBase KDModel KDSpec HavModel HavSpec BallModel BallSpec MskModel MskSpec KDProofs KD2Proofs KD4Proofs Hav2Proofs Ball2Proofs MskProofs Msk2Proofs.
From Coq Require Import List Reals Lia Permutation.
Import ListNotations.
Open Scope nat_scope.

Definition load (q : list hentry) : nat := list_sum (map (fun e => nodes (he_node e)) q).
Lemma load_perm q q' : Permutation q q' -> load q = load q'.
Proof. intros H. unfold load. induction H; cbn [map list_sum fold_right] in *; unfold list_sum in *; cbn [fold_right] in *; lia. Qed.
Lemma load_cons e q : load (e :: q) = nodes (he_node e) + load q.
Proof. reflexivity. Qed.
Definition comes_from (L : list nat) (best : option (R * nat)) : Prop := match best with Some (_, i) => In i L | None => True end.
Lemma leaf_fold L data x idx : incl idx L -> forall best, comes_from L best -> comes_from L (fold_left (hleaf_step data x) idx best).
Proof.
  induction idx as [|i idx IH]; intros I best B; [exact B|]. cbn [fold_left]. apply IH; [intros j J; apply I; right; exact J|]. unfold hleaf_step. destruct (below _ _); [cbn; apply I; left; auto|exact B].
Qed.
Lemma hquery_loop_ok pop data x L : hpop_contract pop -> forall fuel q best, load q < fuel -> Forall (fun e => incl (leaves (he_node e)) L) q -> comes_from L best ->
  exists b, hquery_loop pop fuel data x q best = Ok b /\ comes_from L b.
Proof.
  intros [P0 PS]. induction fuel as [|fuel IH]; intros q best F Q B; [lia|]. cbn [hquery_loop]. destruct q as [|e0 q0]; [rewrite P0; eauto|].
  destruct (PS (e0 :: q0) ltac:(discriminate)) as (e & q & E & PM & _). rewrite E. rewrite (load_perm _ _ PM), load_cons in F.
  assert (Q' : Forall (fun e => incl (leaves (he_node e)) L) (e :: q)) by (eapply Permutation_Forall; eauto). inversion Q' as [|? ? HE HQ]; subst.
  destruct (he_node e) as [idx|d s less greater] eqn:N.
  - cbn [nodes] in F. apply IH; [lia|exact HQ|]. apply leaf_fold; auto.
  - cbn [nodes] in F. cbn [leaves] in HE. assert (HL : incl (leaves less) L /\ incl (leaves greater) L) by (split; intros i I; apply HE, in_or_app; auto).
    destruct (above (he_min e) (best_bound best)); [eauto|]. destruct (Qltb (nth d x 0%Q) s); cbv beta zeta; destruct (above _ _);
      (apply IH; [rewrite ?load_cons; cbn [he_node]; lia|repeat (constructor; [cbn [he_node]; tauto|]); exact HQ|exact B]).
Qed.
Lemma hquery_points pop kd x : hpop_contract pop -> exists i, hquery pop kd x = Ok i /\ (i = length (kd_data kd) \/ In i (leaves (kd_tree kd))).
Proof.
  intros HP. unfold hquery. cbv zeta. destruct (hquery_loop_ok pop (kd_data kd) x (leaves (kd_tree kd)) HP (S (nodes (kd_tree kd))) [mkHE (fold_right Rplus 0%R (hside kd x)) (hside kd x) (kd_tree kd)] None) as (b & E & C).
  - unfold load. cbn [map he_node list_sum fold_right]. unfold list_sum. cbn [fold_right]. lia.
  - constructor; [cbn [he_node]; apply incl_refl|constructor].
  - exact I.
  - rewrite E. cbn [bind]. destruct b as [[d i]|]; eexists; split; eauto.
Qed.

(** ** all at once *)
Lemma unmasked_rows mask (data : list (list Q)) (P : list Q -> Prop) : Forall P data -> Forall P (unmasked mask data).
Proof. revert mask. induction data as [|x data IH]; intros [|[] mask] H; cbn [unmasked]; try constructor; inversion H; subst; auto. Qed.
Theorem masked_partition mask data m ls : 0 < m -> rows_of_length m data -> length mask = length data -> unmasked mask data <> [] -> (1 <= ls)%Z ->
  exists kd, HaversineTree data ls (Some mask) = Ok kd /\ Permutation (concat (leaf_lists (kd_tree kd))) (unmasked mask (seq 0 (length data))) /\
    splits_ok data m (kd_tree kd) /\ Forall (fun l => length l <= Z.to_nat ls \/ share_a_coordinate data m l) (leaf_lists (kd_tree kd)).
Proof.
  intros M R H N L. destruct (build_partition (unmasked mask data) m ls M (unmasked_rows mask data _ R) N L) as (kd & E & P & S & F). exists (with_mask mask data kd). rewrite (masked_tree data ls mask H N), E. split; [reflexivity|].
  unfold with_mask. cbn [kd_tree]. rewrite leaf_lists_relabel. split; [|split].
  - rewrite <- H, <- number_seq, <- concat_map. rewrite <- (left_length mask data H). apply Permutation_map. exact P.
  - clear P F E. revert S. induction (kd_tree kd) as [idx|d s l IL g IG]; cbn [relabel splits_ok]; [tauto|]. intros (D & SL & SG & A & B). split; [exact D|]. rewrite !leaves_relabel. repeat split; auto.
    + intros i I. apply in_map_iff in I. destruct I as (j & <- & J). specialize (SL j J). change (nth (number mask j) data []) with (row data (number mask j)). rewrite number_row by auto. exact SL.
    + intros i I. apply in_map_iff in I. destruct I as (j & <- & J). specialize (SG j J). change (nth (number mask j) data []) with (row data (number mask j)). rewrite number_row by auto. exact SG.
  - rewrite Forall_map. eapply Forall_impl; [|exact F]. intros l [A|(d & D & A)]; [left; rewrite map_length; exact A|right]. exists d. split; auto. intros i j I J. apply in_map_iff in I, J.
    destruct I as (i' & <- & I), J as (j' & <- & J). specialize (A i' j' I J). pose proof (number_row mask data i' H) as E1. pose proof (number_row mask data j' H) as E2. unfold row in E1, E2. rewrite E1, E2. exact A.
Qed.
Theorem masked_within mask data x r : rows_of_length 2 data -> length mask = length data -> unmasked mask data <> [] ->
  Forall is_latitude (unmasked mask data) -> is_latitude x -> one_turn (unmasked mask data) -> not_far_east (unmasked mask data) x ->
  exists kd, HaversineTree data 10 (Some mask) = Ok kd /\ exact_list (fun i => shown mask i /\ (row_distance (nth i data []) x <= r)%R) (within_distance kd x r).
Proof.
  intros R H N HL LX OT NF. destruct (build_partition (unmasked mask data) 2 10 ltac:(lia) (unmasked_rows mask data _ R) N ltac:(lia)) as (kd & E & _). exists (with_mask mask data kd). rewrite (masked_tree data 10 mask H N), E. split; [reflexivity|].
  destruct (built_ok _ 2 10 kd ltac:(lia) (unmasked_rows mask data _ R) E) as (_ & _ & KD & _). rewrite within_mask by auto.
  apply (exact_renumbered (fun y => (row_distance y x <= r)%R)); auto. exact (within_exact _ _ _ _ (unmasked_rows mask data _ R) E HL LX OT NF).
Qed.
Theorem masked_pairs mask data m ls kd r p : 0 < m -> rows_of_length m data -> length mask = length data -> unmasked mask data <> [] -> HaversineTree data ls (Some mask) = Ok kd ->
  forall a b, In (a, b) (query_pairs kd r p 0) <-> a < b /\ shown mask a /\ shown mask b /\ close p (nth a data []) (nth b data []) r.
Proof.
  intros M R H N E a b. rewrite (masked_tree data ls mask H N) in E. destruct (KDTree (unmasked mask data) ls) as [k|] eqn:K; [|discriminate]. injection E as <-.
  destruct (built_ok _ m ls k M (unmasked_rows mask data _ R) K) as (_ & _ & KD & _). rewrite query_pairs_mask by auto. pose proof (query_pairs_exact _ m ls k M (unmasked_rows mask data _ R) K r p) as X.
  rewrite in_map_iff. split.
  - intros ([i j] & E & I). apply X in I. destruct I as ([L1 L2] & C). unfold numbers in E. cbn [fst snd] in E. injection E as <- <-. split; [apply number_lt; exact L1|].
    rewrite !number_shown. rewrite <- !(left_length mask data H). split; [exists i; split; auto; lia|]. split; [exists j; split; auto|].
    pose proof (number_row mask data i H) as E1. pose proof (number_row mask data j H) as E2. unfold row in E1, E2. rewrite E1, E2. exact C.
  - intros (L & SA & SB & C). destruct (renumbered_back mask data a H SA) as (i & I & <- & EI). destruct (renumbered_back mask data b H SB) as (j & J & <- & EJ). exists (i, j). split; [reflexivity|]. apply X. rewrite EI, EJ. split; auto.
    split; auto. destruct (Nat.lt_trichotomy i j) as [Q|[Q|Q]]; auto; [subst; lia|]. apply (number_lt mask) in Q. lia.
Qed.
Theorem masked_nearest mask data m ls kd pop x : 0 < m -> rows_of_length m data -> length mask = length data -> unmasked mask data <> [] -> HaversineTree data ls (Some mask) = Ok kd -> hpop_contract pop ->
  exists i, hquery pop kd x = Ok i /\ (i = length data \/ shown mask i).
Proof.
  intros M R H N E HP. rewrite (masked_tree data ls mask H N) in E. destruct (KDTree (unmasked mask data) ls) as [k|] eqn:K; [|discriminate]. injection E as <-.
  destruct (built_ok _ m ls k M (unmasked_rows mask data _ R) K) as (_ & _ & _ & _ & _ & _ & _ & _ & IN). destruct (hquery_points pop (with_mask mask data k) x HP) as (i & E & D). exists i. split; [exact E|]. destruct D as [D|D]; [left; exact D|right].
  unfold with_mask in D. cbn [kd_tree] in D. rewrite leaves_relabel in D. apply in_map_iff in D. destruct D as (j & <- & J). apply IN in J. apply number_shown. exists j. split; auto. rewrite <- (left_length mask data H). exact J.
Qed.
Theorem masked_answers m1 m2 d1 d2 ls1 ls2 : rows_of_length 2 d1 -> rows_of_length 2 d2 -> length m1 = length d1 -> length m2 = length d2 -> unmasked m1 d1 <> [] -> unmasked m2 d2 <> [] -> (1 <= ls1)%Z -> (1 <= ls2)%Z ->
  exists k1 k2 k1' k2', HaversineTree d1 ls1 (Some m1) = Ok k1 /\ HaversineTree d2 ls2 (Some m2) = Ok k2 /\ KDTree (unmasked m1 d1) ls1 = Ok k1' /\ KDTree (unmasked m2 d2) ls2 = Ok k2' /\
    (forall x r, within_distance k1 x r = map (number m1) (within_distance k1' x r)) /\
    (forall r, length (hquery_ball_tree k1 k2 r) = length d1 /\ (forall i, ~ shown m1 i -> nth i (hquery_ball_tree k1 k2 r) [] = []) /\
       (forall j, j < length (unmasked m1 d1) -> nth (number m1 j) (hquery_ball_tree k1 k2 r) [] = map (number m2) (nth j (hquery_ball_tree k1' k2' r) []))) /\
    (forall r p eps, query_pairs k1 r p eps = map (numbers m1) (query_pairs k1' r p eps)) /\
    (forall rs p, count_neighbors k1 k2 rs p = count_neighbors k1' k2' rs p) /\
    (forall r p, sparse_distance_matrix k1 k2 r p = map (fun e => ((number m1 (fst (fst e)), number m2 (snd (fst e))), snd e)) (sparse_distance_matrix k1' k2' r p)).
Proof.
  intros R1 R2 H1 H2 N1 N2 L1 L2. destruct (build_partition (unmasked m1 d1) 2 ls1 ltac:(lia) (unmasked_rows m1 d1 _ R1) N1 L1) as (k1 & E1 & _). destruct (build_partition (unmasked m2 d2) 2 ls2 ltac:(lia) (unmasked_rows m2 d2 _ R2) N2 L2) as (k2 & E2 & _).
  destruct (built_ok _ 2 ls1 k1 ltac:(lia) (unmasked_rows m1 d1 _ R1) E1) as (_ & _ & K1 & _ & _ & _ & _ & _ & IN1). destruct (built_ok _ 2 ls2 k2 ltac:(lia) (unmasked_rows m2 d2 _ R2) E2) as (_ & _ & K2 & _).
  exists (with_mask m1 d1 k1), (with_mask m2 d2 k2), k1, k2. rewrite (masked_tree d1 ls1 m1 H1 N1), E1, (masked_tree d2 ls2 m2 H2 N2), E2. do 4 (split; [reflexivity|]).
  split; [intros; apply within_mask; auto|]. split; [intros; apply ball_tree_mask; auto; intros i I; apply IN1; exact I|]. split; [intros; apply query_pairs_mask; auto|]. split; [intros; apply count_mask; auto|intros; apply sparse_mask; auto].
Qed.

(** everything masked *)
Lemma none_left_tree mask data ls : length mask = length data -> data <> [] -> unmasked mask data = [] -> (1 <= ls)%Z -> HaversineTree data ls (Some mask) = Ok (mkKD data [] [] (Leaf [])).
Proof.
  intros H N U L. unfold HaversineTree. destruct (Z.ltb_spec ls 1); [lia|]. destruct data as [|x0 data0] eqn:D; [congruence|]. rewrite <- D in *. rewrite (kept_some mask _ H). cbn [bind]. rewrite (rows_unmasked mask data H), U.
  assert (E : unmasked mask (seq 0 (length data)) = []). { pose proof (unmasked_length mask (seq 0 (length data)) data ltac:(rewrite seq_length; reflexivity)) as Q. rewrite U in Q. destruct (unmasked mask (seq 0 (length data))); [reflexivity|discriminate]. }
  rewrite E. reflexivity.
Qed.
Theorem none_left mask data ls : length mask = length data -> data <> [] -> unmasked mask data = [] -> (1 <= ls)%Z ->
  exists kd, HaversineTree data ls (Some mask) = Ok kd /\ (forall x r, within_distance kd x r = []) /\ (forall pop x, hpop_contract pop -> hquery pop kd x = Ok (length data)) /\
    (forall other r, hquery_ball_tree kd other r = repeat [] (length data)) /\ (forall r p eps, query_pairs kd r p eps = []).
Proof.
  intros H N U L. eexists. split; [apply none_left_tree; auto|]. split; [|split; [|split]].
  - intros x r. unfold within_distance. cbn [kd_data kd_tree hball_point leaves filter]. destruct (Rgtb _ _); [reflexivity|]. destruct (Rltb _ _); reflexivity.
  - intros pop x HP. destruct (hquery_points pop (mkKD data [] [] (Leaf [])) x HP) as (i & E & D). cbn [kd_data kd_tree leaves] in D. destruct D as [D|D]; [|destruct D]. rewrite E, D. reflexivity.
  - intros other r. unfold hquery_ball_tree. cbv zeta. cbn [kd_data kd_tree].
    assert (E : forall prune bulk near r1 t2 r2, htraverse prune bulk near (Leaf []) r1 t2 r2 = []).
    { intros prune bulk near r1 t2 r2. destruct (htraverse prune bulk near (Leaf []) r1 t2 r2) as [|ij l] eqn:E; [reflexivity|]. destruct (htraverse_fst prune bulk near (Leaf []) r1 t2 r2 ij). rewrite E. left. reflexivity. }
    rewrite E. cbn [filter map]. clear. generalize 0. induction (length data) as [|n IH]; intros k; cbn [seq map repeat]; [reflexivity|]. f_equal. apply IH.
  - intros r p eps. unfold query_pairs. cbn [kd_data kd_tree]. rewrite self_pairs_eq. destruct (negb _); [reflexivity|]. destruct (root_lt _ _ _); reflexivity.
Qed.
(** errors and the masks of one element *)
Theorem tree_rejects data ls mask : (ls < 1)%Z \/ data = [] -> HaversineTree data ls mask = Raises ValueError.
Proof. intros [H| ->]; unfold HaversineTree; [destruct (Z.ltb_spec ls 1); [reflexivity|lia]|destruct (ls <? 1)%Z; reflexivity]. Qed.
Theorem wrong_mask data ls m : (1 <= ls)%Z -> data <> [] -> length m <> length data -> length m <> 1 -> HaversineTree data ls (Some m) = Raises MaskError.
Proof.
  intros L N H H1. unfold HaversineTree. destruct (Z.ltb_spec ls 1); [lia|]. destruct data; [congruence|]. unfold kept_numbers. apply Nat.eqb_neq in H. rewrite H. destruct m as [|b [|]]; try reflexivity. cbn in H1. congruence.
Qed.
Lemma unmasked_repeat {A} b n (l : list A) : length l = n -> unmasked (repeat b n) l = if b then [] else l.
Proof. intros <-. induction l as [|x l IH]; cbn [length repeat unmasked]; [destruct b; reflexivity|]. rewrite IH. destruct b; reflexivity. Qed.
Theorem one_mask data ls b : HaversineTree data ls (Some [b]) = HaversineTree data ls (Some (repeat b (length data))).
Proof.
  unfold HaversineTree. destruct (ls <? 1)%Z; [reflexivity|]. destruct data as [|x data]; [reflexivity|]. rewrite (kept_some (repeat b (length (x :: data))) (length (x :: data))) by apply repeat_length. rewrite unmasked_repeat by apply seq_length.
  unfold kept_numbers. destruct data as [|y data]; [|reflexivity]. destruct b; reflexivity.
Qed.
Theorem no_mask data ls : HaversineTree data ls None = KDTree data ls.
Proof.
  unfold HaversineTree, KDTree. destruct (ls <? 1)%Z; [reflexivity|]. destruct data as [|x data]; [reflexivity|]. unfold kept_numbers. cbn [bind]. rewrite rows_seq, seq_length. reflexivity.
Qed.
Theorem nothing_masked data ls : HaversineTree data ls (Some [false]) = KDTree data ls.
Proof.
  rewrite <- no_mask. unfold HaversineTree. destruct (ls <? 1)%Z; [reflexivity|]. destruct data as [|x [|y data]]; reflexivity.
Qed.
