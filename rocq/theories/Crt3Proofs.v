From Verif Require Import Base PyStr QBase UngrModel CrtModel CrtSpec CrtProofs Crt2Proofs.
From Coq Require Import List Bool. Import ListNotations. Open Scope list_scope.
(** Appending to the list that was given out whole (C106): one that has its standard name already is refused; any number may have the empty one *)
Theorem duplicate all c : forall r, get_coords all nothing_asked = Ok r ->
  (c_std (k_coord c) <> Some [] -> (exists x, In x all /\ c_std (k_coord x) = c_std (k_coord c)) -> append_to all r c = Raises DuplicateCoordinateError) /\
  (c_std (k_coord c) = Some [] -> append_to all r c = Ok (all ++ [c], all ++ [c])).
Proof.
  intros r H. assert (E : r = Itself) by (rewrite (proj2 (coords_itself all nothing_asked) eq_refl) in H; congruence). subst r. cbn [append_to].
  assert (K : forall x, same_coord c x = true <-> c_std (k_coord x) = c_std (k_coord c) /\ c_std (k_coord x) <> Some []).
  { intros x. unfold same_coord, coord_eq. rewrite andb_true_iff, negb_true_iff, std_eqb_iff. rewrite <- not_true_iff_false, std_eqb_iff. tauto. }
  split.
  - intros N (x & I & X). replace (existsb (same_coord c) all) with true; auto. symmetry. apply existsb_exists. exists x. split; auto. apply K. rewrite X. auto.
  - intros Z. replace (existsb (same_coord c) all) with false; auto. symmetry. apply not_true_is_false. intros X. apply existsb_exists in X. destruct X as (x & _ & X). apply K in X. destruct X as [X Y]. congruence.
Qed.
