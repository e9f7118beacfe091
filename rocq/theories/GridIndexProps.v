(** C15, C16, C35: points are assigned to grid cells exactly once. *)
From Verif Require Import Base QBase GridIndexModel GridIndexSpec GridIndexProofs.
Open Scope Z_scope.

(** C15 for grids whose coordinates are all stored in increasing order: whatever permutation argsort returns,
    iterating the index yields each cell at most once, with exactly the unmasked points it contains, each once. *)
Theorem C15_binned_once_partial : forall axes pts order,
  Forall good_axis axes -> Forall (fun a => decreasing a = false) axes -> pts <> [] ->
  Forall (fun p => length (pt_coords p) = length axes) pts ->
  is_argsort (map (cell_number axes) pts) order ->
  exists ds, deliveries axes pts order = Ok ds /\ delivers_exactly pts (cell_contains axes) ds.
Proof. exact deliveries_increasing. Qed.
Print Assumptions C15_binned_once_partial.

(** and for every grid, exactly which points are delivered: all but those in the first cell of a decreasing coordinate *)
Theorem C15_binned_characterised : forall axes pts order,
  Forall good_axis axes -> pts <> [] -> Forall (fun p => length (pt_coords p) = length axes) pts ->
  is_argsort (map (cell_number axes) pts) order ->
  exists ds, deliveries axes pts order = Ok ds /\
    delivers_exactly pts (fun cell p => cell_contains axes cell p /\ not_first_of_decreasing axes cell) ds.
Proof. exact deliveries_spec. Qed.
Print Assumptions C15_binned_characterised.

(** the cell is unique *)
Theorem C15_one_cell_only : forall axes p c1 c2, Forall good_axis axes -> length (pt_coords p) = length axes ->
  cell_contains axes c1 p -> cell_contains axes c2 p -> c1 = c2.
Proof. exact cell_contains_unique. Qed.
Print Assumptions C15_one_cell_only.

Definition up2 : axis := mkAx [1; 3]%Q [(0, 2); (2, 4)]%Q.
Definition down2 : axis := mkAx [3; 1]%Q [(4, 2); (2, 0)]%Q.
Lemma up2_good : good_axis up2.
Proof. split; [discriminate|]. split; [reflexivity|]. cbn. repeat split; lra. Qed.
Lemma down2_good : good_axis down2.
Proof. split; [discriminate|]. split; [reflexivity|]. cbn. repeat split; lra. Qed.

(** C15 fails on decreasing coordinates: the only point is unmasked and lies in the cell [2, 4), yet nothing is delivered. *)
Theorem C15_decreasing_refuted : exists axes pts order p cell,
  Forall good_axis axes /\ Forall (fun p => length (pt_coords p) = length axes) pts /\
  is_argsort (map (cell_number axes) pts) order /\ In p pts /\ pt_masked p = false /\ cell_contains axes cell p /\
  deliveries axes pts order = Ok [].
Proof.
  exists [down2], [mkPt [3%Q] false], [0%nat], (mkPt [3%Q] false), [0].
  split; [constructor; [exact down2_good|constructor]|]. split; [repeat constructor|].
  split; [split; [apply Permutation_refl|repeat constructor]|]. split; [left; reflexivity|]. split; [reflexivity|]. split; [|reflexivity].
  split; [reflexivity|]. intros [|k] a i v; cbn; [|destruct k; discriminate]. intros [= <-] [= <-] [= <-].
  split; [lia|]. exists (4, 2)%Q. split; [reflexivity|]. cbn. split; discriminate || reflexivity.
Qed.
Print Assumptions C15_decreasing_refuted.

(** non-vacuity: a 2 x 2 grid and five points, one outside, one masked, two in the same cell *)
Definition ex_pts : list dpoint :=
  [mkPt [3; 1]%Q false; mkPt [0; 2]%Q false; mkPt [5; 1]%Q false; mkPt [3; 1]%Q true; mkPt [2; 0]%Q false].
Example C15_example_hyps : Forall good_axis [up2; up2] /\ Forall (fun a => decreasing a = false) [up2; up2] /\
  is_argsort (map (cell_number [up2; up2]) ex_pts) [2; 3; 4; 0; 1]%nat.
Proof.
  split; [repeat constructor; apply up2_good|]. split; [repeat constructor|].
  split.
  - apply NoDup_Permutation; [repeat constructor; cbn; lia|apply seq_NoDup|]. intros x. cbn. lia.
  - replace (map _ [2; 3; 4; 0; 1]%nat) with [-1; -1; 1; 1; 2] by reflexivity. repeat constructor; lia.
Qed.
Example C15_example : deliveries [up2; up2] ex_pts [2; 3; 4; 0; 1]%nat = Ok [([1; 0], [4; 0]%nat); ([0; 1], [1%nat])].
Proof. reflexivity. Qed.

(** no data points at all: the iterator raises *)
Theorem C15_no_points : forall axes order, is_argsort (map (cell_number axes) []) order -> deliveries axes [] order = Raises IndexError.
Proof. exact deliveries_empty. Qed.
Print Assumptions C15_no_points.

(** C16: looking up a cell in the other index gives, in data order, exactly the unmasked points it contains, in either direction of the coordinates *)
Theorem C16_lookup : forall axes pts cell,
  Forall good_axis axes -> Forall (fun p => length (pt_coords p) = length axes) pts ->
  match get_points_by_indices axes pts cell with
  | Some l => l <> [] /\ StronglySorted lt l /\
      forall i, In i l <-> exists p, nth_error pts i = Some p /\ pt_masked p = false /\ cell_contains axes cell p
  | None => forall i p, nth_error pts i = Some p -> pt_masked p = false -> ~ cell_contains axes cell p
  end.
Proof. exact bin_points_spec. Qed.
Print Assumptions C16_lookup.

(** C16: the two indexes agree on increasing coordinates *)
Theorem C16_agree_partial : forall axes pts order ds,
  Forall good_axis axes -> Forall (fun a => decreasing a = false) axes -> pts <> [] ->
  Forall (fun p => length (pt_coords p) = length axes) pts ->
  is_argsort (map (cell_number axes) pts) order -> deliveries axes pts order = Ok ds -> forall cell,
  match get_points_by_indices axes pts cell with
  | Some l => exists idxs, In (cell, idxs) ds /\ Permutation l idxs
  | None => ~ In cell (map fst ds)
  end.
Proof. exact indexes_agree. Qed.
Print Assumptions C16_agree_partial.
Example C16_example : get_points_by_indices [up2; up2] ex_pts [1; 0] = Some [0; 4]%nat /\ get_points_by_indices [up2; up2] ex_pts [1; 1] = None.
Proof. split; reflexivity. Qed.

(** and not on decreasing ones *)
Theorem C16_agree_refuted : exists axes pts order cell l,
  Forall good_axis axes /\ Forall (fun p => length (pt_coords p) = length axes) pts /\ is_argsort (map (cell_number axes) pts) order /\
  get_points_by_indices axes pts cell = Some l /\ deliveries axes pts order = Ok [].
Proof.
  exists [down2], [mkPt [3%Q] false], [0%nat], [0], [0%nat].
  split; [constructor; [exact down2_good|constructor]|]. split; [repeat constructor|].
  split; [split; [apply Permutation_refl|repeat constructor]|]. split; reflexivity.
Qed.
Print Assumptions C16_agree_refuted.

(** C35: nothing is counted twice or lost: the points handed over for all cells together are, in some order,
    the unmasked points lying in some cell; so the cell counts add up to their number. *)
Theorem C35_binned_conservation_partial : forall axes pts order ds (inside : nat -> bool),
  Forall good_axis axes -> Forall (fun a => decreasing a = false) axes -> pts <> [] ->
  Forall (fun p => length (pt_coords p) = length axes) pts ->
  is_argsort (map (cell_number axes) pts) order -> deliveries axes pts order = Ok ds ->
  (forall i, inside i = true <-> exists p cell, nth_error pts i = Some p /\ pt_masked p = false /\ cell_contains axes cell p) ->
  Permutation (concat (map snd ds)) (filter inside (seq 0 (length pts))) /\
  total_delivered ds = length (filter inside (seq 0 (length pts))).
Proof.
  intros axes pts order ds inside HG HD HN HL HA E HI.
  destruct (deliveries_increasing axes pts order HG HD HN HL HA) as (ds' & E' & [D1 D2 D3 D4]). rewrite E in E'. injection E' as <-.
  assert (P : Permutation (concat (map snd ds)) (filter inside (seq 0 (length pts)))).
  { apply NoDup_Permutation; [auto|apply NoDup_filter, seq_NoDup|]. intros i. rewrite filter_In, in_seq, HI. split.
    - intros H. apply in_concat in H. destruct H as (l & Hl & Hi). apply in_map_iff in Hl. destruct Hl as ([c l'] & <- & Hd).
      destruct (proj1 (D4 c i)) as (p & Hp & HM & HC); [eauto|]. split; [|eauto 6].
      assert (i < length pts)%nat by (apply nth_error_Some; congruence). lia.
    - intros (_ & p & cell & Hp & HM & HC). destruct (proj2 (D4 cell i)) as (l & Hd & Hi); [eauto|].
      apply in_concat. exists l. split; auto. apply in_map_iff. exists (cell, l). auto. }
  split; auto. rewrite total_delivered_concat. apply Permutation_length. auto.
Qed.
Print Assumptions C35_binned_conservation_partial.
Example C35_example : total_delivered [([1; 0], [4; 0]%nat); ([0; 1], [1%nat])] = 3%nat.
Proof. reflexivity. Qed.
