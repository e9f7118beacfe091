(** Property C37: the statistics of a comparison use exactly the pairs valid in both data sets. *)
From Verif Require Import Base UtilModel UtilSpec StatsModel StatsSpec StatsProofs.
From Coq Require Import Reals Lra.
Open Scope R_scope.

(** The count, the means, standard deviations, differences, rank coefficient and regression are those of the valid pairs; the relative differences are those of the valid pairs
    whose quotient exists ([usable_pairs]) if one of the data sets is a masked array.  All are right if neither is masked or every valid pair has a quotient. *)
Theorem C37_statistics_partial : forall rank regr d1 d2 out, array_ok d1 -> array_ok d2 -> f_len d1 = f_len d2 -> analyze rank regr d1 d2 = Ok out ->
  exists ps, valid_pairs (elements_of d1) (elements_of d2) ps /\
    (exists rm rs us qs, usable_pairs ps us /\ (is_masked_array d1 = true \/ is_masked_array d2 = true -> Forall2 is_ratio us qs /\ is_mean qs rm /\ is_stddev qs rs) /\ rest_right rank regr ps out rm rs) /\
    ((is_masked_array d1 = false /\ is_masked_array d2 = false) \/ Forall usable ps -> right_statistics rank regr ps out).
Proof. intros rank regr d1 d2 out O1 O2 L. exact (statistics_ok d1 d2 O1 O2 L rank regr out). Qed.
Print Assumptions C37_statistics_partial.

(** The valid pairs are determined by the two data sets, there is such a list if they have the same size, and the comparison gives a result exactly if there are at least two of
    them (and the regression succeeds). *)
Theorem C37_defined : forall rank regr d1 d2, array_ok d1 -> array_ok d2 -> f_len d1 = f_len d2 ->
  (exists ps, valid_pairs (elements_of d1) (elements_of d2) ps) /\
  forall ps, valid_pairs (elements_of d1) (elements_of d2) ps ->
    (forall qs, valid_pairs (elements_of d1) (elements_of d2) qs -> ps = qs) /\
    ((length ps < 2)%nat /\ analyze rank regr d1 d2 = Raises ValueError \/
     (2 <= length ps)%nat /\ ((exists out, analyze rank regr d1 d2 = Ok out) <-> (exists x, regr ps = Ok x))).
Proof. intros rank regr d1 d2 O1 O2 L. split; [eexists; exact (ps_valid d1 d2 O1 O2 L)|]. intros ps V. split; [exact (valid_unique _ _ _ V)|exact (defined_ok d1 d2 O1 O2 L rank regr ps V)]. Qed.
Print Assumptions C37_defined.
Theorem C37_sizes : forall rank regr d1 d2, f_len d1 <> f_len d2 -> exists e, analyze rank regr d1 d2 = Raises e.
Proof. exact sizes. Qed.
Print Assumptions C37_sizes.

Definition no_regr : list (rv * rv) -> res (rv * rv * rv * rv) := fun _ => Ok (None, None, None, None).
Definition no_rank : list (rv * rv) -> rv := fun _ => None.
(** The full statement fails for masked arrays: a pair whose first value is zero is counted but left out of the relative differences. *)
Definition with_zero : farr := Masked [Some 0; Some 1; Some 2; Some 5] (Some [false; false; false; true]).
Definition other : farr := Plain [Some 1; Some 2; Some 3; Some 4].
Definition pairs : list (rv * rv) := [(Some 0, Some 1); (Some 1, Some 2); (Some 2, Some 3)].
Theorem C37_refuted : exists out, array_ok with_zero /\ array_ok other /\ f_len with_zero = f_len other /\ valid_pairs (elements_of with_zero) (elements_of other) pairs /\
  analyze no_rank no_regr with_zero other = Ok out /\ In (PointsCount 3) out /\ ~ right_statistics no_rank no_regr pairs out /\
  exists m, In (RelativeMean m) out /\ m = Some (3 / 4).
Proof.
  assert (V : valid_pairs (elements_of with_zero) (elements_of other) pairs) by (cbn; apply vp_both, vp_both, vp_both, vp_missing; [auto|constructor]).
  assert (O : array_ok with_zero) by reflexivity. assert (O' : array_ok other) by exact I.
  destruct (C37_defined no_rank no_regr with_zero other O O' eq_refl) as [_ D]. destruct (D _ V) as [U [[H _]|[_ H]]]; [cbn in H; lia|].
  destruct (proj2 H) as [out E]; [eexists; reflexivity|]. exists out. do 5 (split; [auto|]).
  destruct (C37_statistics_partial _ _ _ _ _ O O' eq_refl E) as (ps & V' & (rm & rs & us & qs & UP & R & (m1 & m2 & s1 & s2 & am & ad & g & i & r & e & -> & _)) & _).
  rewrite <- (U _ V') in *. clear ps V'. destruct (R (or_introl eq_refl)) as (F & M & _). clear R.
  assert (Q : us = [(Some 1, Some 2); (Some 2, Some 3)]).
  { assert (U0 : forall y, ~ usable (Some 0, y)) by (intros y (a & b & [= <- _] & N); lra). assert (U1 : forall x y, x <> 0 -> usable (Some x, Some y)) by (intros x y N; exists x, y; auto).
    unfold pairs in UP. inversion UP as [|? ? ? Z _|? ? ? _ UP1]; subst; [destruct (U0 _ Z)|]. inversion UP1 as [|? ? ? _ UP2|? ? ? Z _]; subst; [|destruct Z; apply U1; lra].
    inversion UP2 as [|? ? ? _ UP3|? ? ? Z _]; subst; [|destruct Z; apply U1; lra]. inversion UP3. reflexivity. }
  subst us. inversion F as [|? q1 ? ? R1 F1]; subst. inversion F1 as [|? q2 ? ? R2 F2]; subst. inversion F2; subst. destruct R1 as [[_ ->]|[Z _]]; [|lra]. destruct R2 as [[_ ->]|[Z _]]; [|lra].
  assert (RM : rm = Some (3 / 4)).
  { destruct M as [(l & EL & _ & ->)|[[H0|H0] _]]; [|cbn in H0; intuition discriminate|discriminate]. destruct l as [|a [|b [|]]]; try discriminate. injection EL as <- <-. f_equal. cbn. field. }
  split; [cbn; auto|]. split; [|exists rm; split; [cbn; tauto|exact RM]].
  intros (rm' & rs' & qs & G & M' & _ & (n1 & n2 & t1 & t2 & bm & bd & g' & i' & r' & e' & EQ & _)). injection EQ; intros; subst. clear EQ.
  inversion G as [|? q ? ? R1 _]; subst. destruct R1 as [[Z _]|[_ ->]]; [lra|]. destruct M' as [(l & EL & _)|[_ H0]]; [destruct l; discriminate|discriminate].
Qed.
Print Assumptions C37_refuted.

(** a case where all statistics are right *)
Example C37_example : exists out, analyze no_rank no_regr (Masked [Some 1; Some 2; Some 4] (Some [false; false; true])) (Plain [Some 3; Some 4; None]) = Ok out /\
  right_statistics no_rank no_regr [(Some 1, Some 3); (Some 2, Some 4)] out /\ In (PointsCount 2) out.
Proof.
  set (d1 := Masked _ _). set (d2 := Plain _). assert (O : array_ok d1) by reflexivity. assert (O' : array_ok d2) by exact I.
  assert (V : valid_pairs (elements_of d1) (elements_of d2) [(Some 1, Some 3); (Some 2, Some 4)]) by (cbn; apply vp_both, vp_both, vp_missing; [auto|constructor]).
  destruct (C37_defined no_rank no_regr d1 d2 O O' eq_refl) as [_ D]. destruct (D _ V) as [U [[H _]|[_ H]]]; [cbn in H; lia|].
  destruct (proj2 H) as [out E]; [eexists; reflexivity|]. exists out. split; [exact E|]. destruct (C37_statistics_partial _ _ _ _ _ O O' eq_refl E) as (ps & V' & _ & R). rewrite <- (U _ V') in *.
  assert (RR : right_statistics no_rank no_regr [(Some 1, Some 3); (Some 2, Some 4)] out) by (apply R; right; repeat constructor; [exists 1, 3|exists 2, 4]; split; auto; lra).
  split; [exact RR|]. destruct RR as (? & ? & ? & _ & _ & _ & (? & ? & ? & ? & ? & ? & ? & ? & ? & ? & -> & _)). cbn. auto.
Qed.
