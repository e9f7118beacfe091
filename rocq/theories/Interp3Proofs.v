(** Hybrid coordinates for all points (C57). *)
From Verif Require Import Base QBase DateModel DateProofs InterpModel InterpSpec InterpProofs Interp2Proofs.
From Coq Require Import Qabs.
Open Scope Q_scope.
Lemma hybrid_grid_cons m axes hybrid hd levels values extrapolate p ps rs r : hybrid_grid m axes hybrid hd levels values extrapolate [p] = Ok [r] -> hybrid_grid m axes hybrid hd levels values extrapolate ps = Ok rs ->
  hybrid_grid m axes hybrid hd levels values extrapolate (p :: ps) = Ok (r :: rs).
Proof.
  unfold hybrid_grid. destruct (forallb ascending axes); cbn [negb]; [|discriminate]. cbn [map_res]. intros H1 H2.
  match type of H1 with bind ?F _ = _ => destruct F as [y|] end; [|discriminate]. cbn [bind] in *. injection H1 as ->. rewrite H2. reflexivity.
Qed.
Lemma cells_snoc axes column z : forall x, length x = length axes -> cells (axes ++ [column]) (x ++ [z]) = cells axes x ++ [cell_index column z].
Proof. induction axes as [|a axes IH]; intros [|t x] L; try discriminate; [reflexivity|]. injection L as L. unfold cells, zip_with in *. cbn [app combine map fst snd]. rewrite IH by auto. reflexivity. Qed.
Lemma inside_snoc axes column x z : length x = length axes -> inside (axes ++ [column]) (x ++ [z]) <-> inside axes x /\ within column z.
Proof.
  intros L. unfold inside. split.
  - intros H. apply Forall2_app_inv_l in H. destruct H as (x1 & x2 & H1 & H2 & E). inversion H2 as [|? t ? l Ht Hl]; subst. inversion Hl; subst. apply app_inj_tail in E. destruct E as [-> ->]. auto.
  - intros [H1 H2]. apply Forall2_app; auto.
Qed.
Theorem hybrid_answers axes hybrid h levels values v extrapolate points : Forall good_axis axes -> Forall (fun xz : list Q * Q => length (fst xz) = length axes) points ->
  (forall e k, on_grid axes e -> (k < levels)%nat -> hybrid (e ++ [k]) = Some (h e k)) ->
  (forall e k, on_grid axes e -> (k < levels)%nat -> values (e ++ [k]) = Some (v (e ++ [k]))) ->
  exists results, hybrid_grid Lin axes hybrid (seq 0 (length axes)) levels values extrapolate points = Ok results /\ Forall2 (hybrid_answer axes h levels v extrapolate) points results.
Proof.
  intros HG HP HH HV. induction HP as [|[x z] points L HP IH].
  - exists []. split; [|constructor]. unfold hybrid_grid. replace (forallb ascending axes) with true; [reflexivity|]. symmetry. apply forallb_forall; intros a Ha; apply increasing_ascending; rewrite Forall_forall in HG; apply HG; auto.
  - cbn [fst] in L. destruct IH as (rs & E & F). destruct (hybrid_spec axes hybrid h levels values v x z extrapolate HG L HH HV) as (column & LC & HC & HA & HB).
    assert (EX : exists r, hybrid_grid Lin axes hybrid (seq 0 (length axes)) levels values extrapolate [(x, z)] = Ok [r]).
    { unfold hybrid_grid. replace (forallb ascending axes) with true. 2:{ symmetry. apply forallb_forall; intros a Ha; apply increasing_ascending; rewrite Forall_forall in HG; apply HG; auto. }
      cbn [negb map_res]. destruct (fold_right _ _ _) as [col|]; [|eexists; reflexivity]. destruct (find_index col z) as [vi vy]. destruct (negb extrapolate && _); eexists; reflexivity. }
    destruct EX as (r & Er). exists (r :: rs). split; [apply hybrid_grid_cons; auto|]. constructor; auto. unfold hybrid_answer. split.
    + intros EF HN. rewrite EF in *. rewrite HB in Er; [injection Er as <-; reflexivity|auto|]. rewrite inside_snoc by auto. tauto.
    + intros HI. exists (cells axes x), column. split; [apply inside_cell; auto|]. split; auto. split; auto. split.
      * intros EF HN. rewrite EF in *. rewrite HB in Er; [injection Er as <-; reflexivity|auto|]. rewrite inside_snoc by auto. tauto.
      * intros GC HW. destruct (HA GC) as (q & Eq & Q1); [right; apply inside_snoc; auto|]. rewrite Eq in Er. injection Er as <-. exists (cell_index column z), q. split; [apply cell_index_encloses; auto|]. split; auto. rewrite Q1, cells_snoc by auto. reflexivity.
Qed.
