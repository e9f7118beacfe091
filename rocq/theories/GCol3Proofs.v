(** Proofs for C68: the whole operation. *)
From Coq Require Import String.
From Verif Require Import Base PyStr QBase LonModel LonSpec LonProofs DateModel FileListModel IndexModel UngrModel UngrSpec UngrProofs SubsetModel SubsetSpec SubsetProofs GridIndexModel GridIndexSpec GridIndexProofs AggModel AggSpec AggProofs Agg2Proofs GColModel GColSpec GColProofs GCol2Proofs.
From Coq Require Import List Lqa Lia.
Import ListNotations.
Open Scope string_scope. Open Scope list_scope. Open Scope nat_scope. Notation length := List.length.

Lemma served_up {V} (out : gcol (V := V)) sample d : upward_sample sample -> sample_dims sample d (gc_dims out) -> Forall2 (fun ci a => exists s, nth_error (cu_dims sample) ci = Some s /\ cells_of s a) (gc_dims out) (gc_axes out) ->
  forall cell, not_first_down out cell.
Proof.
  intros U [_ SD] F cell j a Ha (p & q & r & E & L) _.
  assert (X : exists ci s, nth_error (gc_dims out) j = Some ci /\ nth_error (cu_dims sample) ci = Some s /\ cells_of s a).
  { clear - F Ha. revert j Ha. induction F as [|ci a' l m (s & A & B) F IH]; intros [|j]; cbn; try discriminate; [intros [= ->]; eauto|apply IH]. }
  destruct X as (ci & s & H1 & H2 & (H3 & _)). apply nth_error_In in H1. apply SD in H1. destruct H1 as (s' & nm & (A & B & C & _)). assert (s' = s) by congruence. subst s'.
  pose proof (U s nm (nth_error_In _ _ H2) B C) as O. rewrite <- H3, E in O. specialize (O 0 1 p q ltac:(lia) eq_refl eq_refl). lra.
Qed.
Lemma bin_test how : bin_of how -> str_eqb how [] || str_eqb how (lit "bin") = true.
Proof. intros [->| ->]; reflexivity. Qed.
Section Whole.
Context {V : Type} (argsort : list Z -> list nat).
Hypothesis HP : forall l, is_argsort l (argsort l).
Theorem sampled_exact (k : list Q -> res (list (option V))) how mdfms sample d : bin_of how -> aligned d -> complete d -> unique_standard_names (u_coords d) -> usual_longitudes d -> has_latitude d -> 2 <= length (u_coords d) -> u_values d <> [] ->
  good_sample sample -> (mdfms = true -> all_shared sample d) -> only_value_error k ->
  exists out, sampled_from argsort how (OnValues k) mdfms sample d = Ok out /\ sample_dims sample d (gc_dims out) /\
    Forall2 (fun ci a => exists s, nth_error (cu_dims sample) ci = Some s /\ cells_of s a) (gc_dims out) (gc_axes out) /\ right_cells not_first_down k mdfms sample d out.
Proof.
  intros B A C U L LAT N2 NV G M K. destruct (collocate_bin_spec k argsort mdfms sample d HP A C U L LAT NV ltac:(lia) G M K) as (out & E & R). exists out. split; auto.
  unfold sampled_from. rewrite (bin_test how B), (aligned_complete d A C). cbn [bind]. rewrite E. reflexivity.
Qed.
Theorem sampled_bin (k : list Q -> res (list (option V))) how mdfms sample d : bin_of how -> aligned d -> complete d -> unique_standard_names (u_coords d) -> usual_longitudes d -> has_latitude d -> 2 <= length (u_coords d) -> u_values d <> [] ->
  good_sample sample -> upward_sample sample -> (mdfms = true -> all_shared sample d) -> only_value_error k ->
  exists out, sampled_from argsort how (OnValues k) mdfms sample d = Ok out /\ sample_dims sample d (gc_dims out) /\
    Forall2 (fun ci a => exists s, nth_error (cu_dims sample) ci = Some s /\ cells_of s a) (gc_dims out) (gc_axes out) /\ right_cells every k mdfms sample d out.
Proof.
  intros B A C U L LAT N2 NV G UP M K. destruct (sampled_exact k how mdfms sample d B A C U L LAT N2 NV G M K) as (out & E & SD & F & R). exists out. split; auto. split; auto. split; auto.
  intros cell CI. destruct (R cell CI) as (idxs & vs & R1 & R2 & R3 & R4 & R5). exists idxs, vs. split; auto. split; auto. split; auto. pose proof (served_up out sample d UP SD F cell) as S. split.
  - intros [H|[H|H]]; [apply R4; auto|apply R4; auto|exfalso; apply H; exact I].
  - intros H1 H2 _. apply R5; auto.
Qed.
End Whole.
Lemma sampled_missing {V} argsort (k : kernel (V := V)) how mdfms sample d : aligned d -> exists d', aligned d' /\ rows d' = filter located (rows d) /\ map identity_of (u_coords d') = map identity_of (u_coords d) /\
  sampled_from argsort how k mdfms sample d = sampled_from argsort how k mdfms sample d'.
Proof.
  intros A. destruct (post_process_spec d A) as (d' & E & A' & R & I). exists d'. split; auto. split; auto. split; auto. unfold sampled_from. rewrite E, (post_process_twice d d' A E). reflexivity.
Qed.
Lemma reported_map {A B} (f : A -> res B) l : reported (map_res f l) = map_res (fun x => reported (f x)) l.
Proof.
  induction l as [|x l IH]; [reflexivity|]. cbn [map_res]. destruct (f x) as [y|e]; cbn [bind reported]; [|destruct e; reflexivity]. rewrite <- IH. destruct (map_res f l) as [r|e]; cbn [bind reported]; [reflexivity|destruct e; reflexivity].
Qed.
Lemma sampled_list {V} argsort (k : kernel (V := V)) how mdfms sample ds : ds <> [] -> sampled_from_list argsort how k mdfms sample ds = map_res (sampled_from argsort how k mdfms sample) ds.
Proof.
  intros N. unfold sampled_from_list, sampled_from. destruct (str_eqb how [] || str_eqb how (lit "bin")); [apply reported_map|]. destruct (str_eqb how (lit "box")); [apply reported_map|]. destruct ds; [congruence|reflexivity].
Qed.
(** ** what never works *)
Lemma reported_ok {A} (r : res A) x : reported r = Ok x -> r = Ok x.
Proof. destruct r as [y|e]; cbn; [auto|destruct e; discriminate]. Qed.
Lemma box_never {V} argsort (k : kernel (V := V)) mdfms sample d out : sampled_from argsort (lit "box") k mdfms sample d <> Ok out.
Proof.
  intros H. change (reported (bind (post_process d) (collocate_box mdfms sample)) = Ok out) in H. apply reported_ok in H. destruct (post_process d) as [d'|]; [|discriminate]. cbn [bind] in H. unfold collocate_box in H.
  destruct (view_length _); cbn [bind] in H; [|discriminate]. destruct (coord_map _ _ _ _) as [m|]; cbn [bind] in H; [|discriminate]. destruct (mdfms && _); [discriminate|]. destruct (map_res _ _); cbn [bind] in H; [|discriminate]. destruct (sample_low _); discriminate.
Qed.
Lemma fill_points_none {V} mdfms shape masked ds (acc acc' : list Z -> option (list (option V))) : fill_points mdfms shape masked ds acc = Ok acc' -> acc' = acc.
Proof.
  revert acc. induction ds as [|[c i] ds IH]; intros acc; cbn [fill_points]; [intros [= <-]; auto|]. destruct (mdfms && _); [discriminate|]. destruct (mdfms && _); [apply IH|discriminate].
Qed.
Lemma points_never {V} argsort how mdfms sample d (out : gcol (V := V)) : sampled_from argsort how OnPoints mdfms sample d = Ok out -> forall cell, gc_value out cell = None.
Proof.
  intros H cell. destruct (str_eqb how [] || str_eqb how (lit "bin")) eqn:B.
  - unfold sampled_from in H. rewrite B in H. apply reported_ok in H. destruct (post_process d) as [d'|]; [|discriminate]. cbn [bind] in H. unfold collocate_bin in H.
    destruct (view_length _); cbn [bind] in H; [|discriminate]. destruct (coord_map _ _ _ _) as [m|]; cbn [bind] in H; [|discriminate]. destruct (mdfms && _); [discriminate|]. destruct (map_res _ _); cbn [bind] in H; [|discriminate]. destruct (sample_low _); cbn [bind] in H; [|discriminate].
    destruct (deliveries _ _ _) as [ds|]; cbn [bind] in H; [|discriminate]. destruct (fill_points _ _ _ ds _) as [acc|] eqn:E; cbn [bind] in H; [|discriminate]. injection H as <-. apply fill_points_none in E. subst acc. reflexivity.
  - destruct (str_eqb how (lit "box")) eqn:X; [apply str_eqb_eq in X; subst how; exfalso; exact (box_never _ _ _ _ _ _ H)|]. unfold sampled_from in H. rewrite B, X in H. discriminate.
Qed.
Lemma coord_map_bound stds names : NoDup names -> forall present hpi m, coord_map hpi names present stds = Ok m -> NoDup (map snd m) /\ forall h ci, In (h, ci) m -> exists n, In n names /\ has_name stds ci n.
Proof.
  induction names as [|n names IH]; intros ND present hpi m; cbn [coord_map]; [intros [= <-]; split; [constructor|contradiction]|]. apply NoDup_cons_iff in ND. destruct ND as [Nn ND].
  destruct present as [|p present]; [intros [= <-]; split; [constructor|contradiction]|].
  destruct (if p then _ else _) as [here|] eqn:H; cbn [bind]; [|discriminate]. destruct (coord_map (S hpi) names present stds) as [r|] eqn:E; cbn [bind]; [|discriminate]. intros [= <-]. destruct (IH ND _ _ _ E) as [NDr Hr].
  assert (HH : here = [] \/ exists ci, here = [(hpi, ci)] /\ has_name stds ci n).
  { destruct p; [|injection H as <-; auto]. destruct (positions n stds) as [|ci [|? ?]] eqn:P; [injection H as <-; auto| |discriminate]. injection H as <-. right. exists ci. split; auto. apply in_positions. rewrite P. left. auto. }
  destruct HH as [->|(ci & -> & Hn)].
  - split; auto. intros h c Hc. destruct (Hr h c Hc) as (x & X & Y). exists x. split; auto. right. auto.
  - cbn [app map snd]. split.
    + constructor; auto. intros C. apply in_map_iff in C. destruct C as ([h c] & Ec & Hc). cbn in Ec. subst c. destruct (Hr h ci Hc) as (x & X & Y). unfold has_name in *. assert (x = n) by congruence. subst. auto.
    + intros h c [[= <- <-]|Hc]; [exists n; split; [left; auto|auto]|]. destruct (Hr h c Hc) as (x & X & Y). exists x. split; auto. right. auto.
Qed.
Lemma scalar_never {V} argsort how (k : kernel (V := V)) sample d out : cu_aux sample <> [] -> sampled_from argsort how k true sample d <> Ok out.
Proof.
  intros NA H. destruct (str_eqb how [] || str_eqb how (lit "bin")) eqn:B.
  - unfold sampled_from in H. rewrite B in H. apply reported_ok in H. destruct (post_process d) as [d'|]; [|discriminate]. cbn [bind] in H. unfold collocate_bin in H.
    destruct (view_length _); cbn [bind] in H; [|discriminate]. destruct (coord_map _ _ _ _) as [m|] eqn:E; cbn [bind] in H; [|discriminate].
    apply coord_map_bound in E; [|repeat constructor; cbn; intuition discriminate]. destruct E as [ND HR].
    assert (LE : length m <= length (cu_dims sample)).
    { rewrite <- (map_length snd m), <- (seq_length (length (cu_dims sample)) 0). apply NoDup_incl_length; auto. intros ci Hc. apply in_map_iff in Hc. destruct Hc as ([h c] & <- & Hc). destruct (HR h c Hc) as (n & _ & Hn). cbn [snd]. apply in_seq. unfold has_name in Hn.
      assert (c < length (map sd_std (cu_dims sample))) by (apply nth_error_Some; congruence). rewrite map_length in *. lia. }
    assert (LL : (length m =? length (all_coords sample)) = false). { apply Nat.eqb_neq. unfold all_coords. rewrite app_length, map_length. destruct (cu_aux sample); [congruence|cbn; lia]. }
    rewrite LL in H. discriminate.
  - destruct (str_eqb how (lit "box")) eqn:X; [apply str_eqb_eq in X; subst how; exact (box_never _ _ _ _ _ _ H)|]. unfold sampled_from in H. rewrite B, X in H. discriminate.
Qed.
