(** Proofs for C40, gridded data. *)
From Verif Require Import Base QBase DateModel DateProofs IndexModel IndexSpec IndexProofs UngrModel UngrProofs GViewModel GViewSpec.
Open Scope nat_scope.

Lemma nth_set_nth_same {A} k (v d : A) : forall l, k < length l -> nth k (set_nth k v l) d = v.
Proof. induction k as [|k IH]; intros [|x l] H; simpl in *; try lia; auto. apply IH. lia. Qed.
Lemma nth_set_nth_other {A} k j (v d : A) : j <> k -> forall l, nth j (set_nth k v l) d = nth j l d.
Proof. revert j. induction k as [|k IH]; intros j N [|x l]; destruct j; simpl; auto; try lia. Qed.
Lemma coord_values_spec : forall coords shape idx val,
  Forall2 (fun n c => exists k pts, c = Some (k, pts) /\ k < 5 /\ length pts = n) shape coords ->
  (forall d e k p q, nth_error coords d = Some (Some (k, p)) -> nth_error coords e = Some (Some (k, q)) -> d = e) ->
  valid_index shape idx -> length val = 5 ->
  exists val', coord_values coords idx val 0 = Ok (val', 0) /\ length val' = 5 /\
    (forall dim k pts, nth_error coords dim = Some (Some (k, pts)) -> nth k val' None = nth_error pts (nth dim idx 0)) /\
    (forall k, (forall dim pts, nth_error coords dim <> Some (Some (k, pts))) -> nth k val' None = nth k val None).
Proof.
  induction coords as [|c coords IH]; intros shape idx val HS HD HV HL.
  - inversion HS; subst. inversion HV; subst. exists val. split; [reflexivity|]. split; auto. split; auto. intros [|dim]; discriminate.
  - inversion HS as [|n ? shape' ? (k & pts & -> & K5 & LP) HS']; subst. inversion HV as [|i ? idx' ? Hi HV']; subst. cbn [coord_values].
    destruct (nth_error pts i) as [x|] eqn:EX; [|apply nth_error_None in EX; lia].
    destruct (IH shape' idx' (set_nth k (Some x) val) HS') as (val' & E & L & A & B); auto; [intros d e k0 p q H1 H2; assert (S d = S e) by (apply (HD (S d) (S e) k0 p q); auto); lia|rewrite set_nth_length; auto|].
    exists val'. split; auto. split; auto.
    assert (KN : forall dim p, nth_error coords dim <> Some (Some (k, p))) by (intros dim p Hp; assert (0 = S dim) by (apply (HD 0 (S dim) k pts p); auto); lia). split.
    + intros [|dim] k0 pts0 H; [|cbn [nth]; apply A; exact H]. injection H as <- <-. cbn [nth]. rewrite B by auto. rewrite nth_set_nth_same by lia. auto.
    + intros k0 Hk0. rewrite B by (intros dim p; apply (Hk0 (S dim) p)). apply nth_set_nth_other. intros ->. apply (Hk0 0 pts). reflexivity.
Qed.
Lemma valid_no_overflow shape idx : valid_index shape idx -> (length shape <? length idx) || existsb (fun b => b) (map (fun ij : nat * nat => snd ij <=? fst ij) (combine idx shape)) = false.
Proof.
  intros H. pose proof (Forall2_length _ _ _ H) as L. destruct (Nat.ltb_spec (length shape) (length idx)) as [Q1|Q1]; [lia|]. cbn [orb]. clear L Q1. induction H as [|i n idx shape Hi H IH]; [reflexivity|]. cbn [combine map existsb fst snd]. destruct (Nat.leb_spec n i); [lia|]. exact IH.
Qed.
Lemma g_get_spec g idx : standard_grid g -> valid_index (g_shape g) idx -> exists p, g_get g idx = Ok p /\ grid_point g idx p.
Proof.
  intros [HS HD] HV. destruct (coord_values_spec (g_coords g) (g_shape g) idx (repeat None 5) HS HD HV eq_refl) as (val & E & L & A & B). unfold g_get. rewrite E. cbn [bind fst snd]. rewrite valid_no_overflow by auto. cbn [Nat.ltb Nat.leb].
  eexists. split; [reflexivity|]. assert (F : forall k, k < 5 -> field k (mkHP (nth 0 val None) (nth 1 val None) (nth 2 val None) (nth 3 val None) (nth 4 val None) (data_values g idx)) = nth k val None) by (intros [|[|[|[|[|k]]]]] H; try lia; reflexivity).
  unfold grid_point. split; [|split].
  - intros dim k pts H. assert (K5 : k < 5).
    { clear -HS H. revert dim H. induction HS as [|n c ns cs (k1 & p1 & -> & K & _) HS IH]; intros [|dim] H; try discriminate; [injection H as <- <-; auto|]. apply (IH dim H). }
    rewrite F by auto. apply A; auto.
  - intros k Hk. destruct (Nat.lt_ge_cases k 5) as [K|K]; [|destruct k as [|[|[|[|[|k]]]]]; try lia; reflexivity]. rewrite F, B by auto. destruct k as [|[|[|[|[|k]]]]]; auto; lia.
  - cbn [hp_val]. unfold data_values. rewrite (Forall2_length _ _ _ HV), skipn_all. cbn. rewrite app_nil_r. reflexivity.
Qed.
Lemma map_res_each {A B} (f : A -> res B) (P : A -> B -> Prop) l : (forall a, In a l -> exists b, f a = Ok b /\ P a b) -> exists bs, map_res f l = Ok bs /\ Forall2 P l bs.
Proof.
  induction l as [|a l IH]; intros H; [exists []; split; [reflexivity|constructor]|]. destruct (H a) as (b & E & HP); [left; auto|]. destruct IH as (bs & E2 & F); [intros; apply H; right; auto|]. exists (b :: bs). cbn [map_res]. rewrite E. cbn [bind]. rewrite E2. split; [reflexivity|constructor; auto].
Qed.
Lemma in_iterator shape idx : In idx (index_iterator shape) -> valid_index shape idx.
Proof. apply index_iterator_spec. Qed.
Theorem gridded_points g : standard_grid g ->
  (forall idx, valid_index (g_shape g) idx -> exists p, g_get_flat g (flat_pos (g_shape g) idx) = Ok p /\ g_get g idx = Ok p /\ grid_point g idx p) /\
  (exists ps, g_iter_all g = Ok ps /\ Forall2 (grid_point g) (index_iterator (g_shape g)) ps) /\
  (exists ps, g_iter_non_masked g = Ok ps /\ Forall2 (grid_point g) (filter (fun idx => negb (is_missing (g_data g idx))) (index_iterator (g_shape g))) ps) /\
  (exists ps, g_enumerate_non_masked g = Ok ps /\
     Forall2 (fun idx ip => fst ip = flat_pos (g_shape g) idx /\ grid_point g idx (snd ip)) (filter (fun idx => negb (is_missing (g_data g idx))) (index_iterator (g_shape g))) ps).
Proof.
  intros HG. split; [|split; [|split]].
  - intros idx HV. destruct (g_get_spec g idx HG HV) as (p & E & HP). exists p. split; auto. unfold g_get_flat. pose proof (unravel_index_spec (g_shape g) (flat_pos (g_shape g) idx)) as U. destruct (unravel_index (flat_pos (g_shape g) idx) (g_shape g)) as [idx'|e].
    + destruct U as [V' F]. assert (idx' = idx) as ->; auto. destruct (valid_unravel _ _ HV) as (i & Hi & <-). destruct (valid_unravel _ _ V') as (j & Hj & <-).
      assert (FP : forall k, k < cells (g_shape g) -> flat_pos (g_shape g) (unravel k (g_shape g)) = k).
      { intros k Hk. apply (nth_index_iterator (g_shape g)). rewrite index_iterator_unravel, nth_error_map. rewrite (nth_error_nth' _ 0) by (rewrite seq_length; auto). rewrite seq_nth by auto. reflexivity. }
      rewrite !FP in F by auto. subst. reflexivity.
    + exfalso. apply (proj2 U). exists idx. auto.
  - apply map_res_each. intros idx Hi. apply g_get_spec; auto. apply in_iterator; auto.
  - apply map_res_each. intros idx Hi. apply filter_In in Hi. apply g_get_spec; auto. apply in_iterator; tauto.
  - unfold g_enumerate_non_masked. rewrite num_cells. rewrite index_iterator_unravel. set (sh := g_shape g) in *.
    assert (EF : filter (fun i => match unravel_index i sh with Ok idx => negb (is_missing (g_data g idx)) | Raises _ => true end) (seq 0 (cells sh)) = filter (fun i => negb (is_missing (g_data g (unravel i sh)))) (seq 0 (cells sh))).
    { apply filter_ext_in. intros i Hi. apply in_seq in Hi. unfold unravel_index. rewrite num_cells. destruct (Nat.ltb_spec i (cells sh)); [|lia]. reflexivity. }
    rewrite EF, filter_map. destruct (map_res_each (fun i => bind (g_get_flat g i) (fun p => Ok (i, p))) (fun i ip => fst ip = i /\ grid_point g (unravel i sh) (snd ip)) (filter (fun i => negb (is_missing (g_data g (unravel i sh)))) (seq 0 (cells sh)))) as (ps & E & F).
    { intros i Hi. apply filter_In in Hi. destruct Hi as [Hi _]. apply in_seq in Hi. unfold g_get_flat. fold sh. unfold unravel_index. rewrite num_cells. destruct (Nat.ltb_spec i (cells sh)); [|lia]. destruct (g_get_spec g (unravel i sh) HG) as (p & Ep & HP); [apply unravel_valid; lia|]. fold (unravel i sh). rewrite Ep. eexists. split; [reflexivity|]. auto. }
    exists ps. split; auto.
    assert (FP : forall k, k < cells sh -> flat_pos sh (unravel k sh) = k).
    { intros k Hk. apply (nth_index_iterator sh). rewrite index_iterator_unravel, nth_error_map. rewrite (nth_error_nth' _ 0) by (rewrite seq_length; auto). rewrite seq_nth by auto. reflexivity. }
    assert (HB : Forall (fun i => i < cells sh) (filter (fun i => negb (is_missing (g_data g (unravel i sh)))) (seq 0 (cells sh)))) by (apply Forall_forall; intros i Hi; apply filter_In in Hi; destruct Hi as [Hi _]; apply in_seq in Hi; lia).
    clear E EF. induction F as [|i ip l ps [E1 E2] F IH]; cbn [map]; constructor; [|inversion HB; auto]. inversion HB; subst. rewrite FP by auto. auto.
Qed.
(** a dimension without a standard coordinate: no point can be read *)
Lemma coord_values_extra : forall coords idx val extra ve, coord_values coords idx val extra = Ok ve -> extra <= snd ve /\ (length idx = length coords -> In None coords -> extra < snd ve).
Proof.
  induction coords as [|c coords IH]; intros [|i idx] val extra ve H; cbn [coord_values] in H; try discriminate; try (injection H as <-; split; [simpl; lia|intros L HI; try discriminate; destruct HI]).
  destruct c as [[k pts]|].
  - destruct (nth_error pts i); [|discriminate]. destruct (IH _ _ _ _ H) as [A B]. split; auto. intros L [HI|HI]; [discriminate|]. apply B; auto.
  - destruct (IH _ _ _ _ H) as [A B]. split; [lia|]. intros; lia.
Qed.
Theorem nonstandard_dimension g idx : length (g_coords g) = length (g_shape g) -> In None (g_coords g) -> length idx = length (g_shape g) -> exists e, g_get g idx = Raises e.
Proof.
  intros L HN LI. unfold g_get. destruct (coord_values (g_coords g) idx (repeat None 5) 0) as [ve|e] eqn:E; cbn [bind]; [|exists e; reflexivity]. destruct (_ || _); [eexists; reflexivity|]. destruct (coord_values_extra _ _ _ _ _ E) as [_ B]. specialize (B ltac:(lia) HN). destruct (Nat.ltb_spec 0 (snd ve)); [eexists; reflexivity|lia].
Qed.
