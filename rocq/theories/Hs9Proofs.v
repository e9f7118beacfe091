From Coq Require Import Reals.
From Verif Require Import Base PyStr FileListModel StatsModel HsModel HsSpec HsProofs.
From Coq Require Import List Ascii String. Import ListNotations. Open Scope list_scope.
(** A keyword for which the data have no coordinate (C102): no subset at all *)
Theorem subset_unknown V (text : V -> str) coordinate lon lat constrain stamp kws n a b : In (Limit n a b) kws -> coordinate n = None ->
  subset_told text coordinate lon lat constrain stamp kws = Raises CoordinateNotFoundError.
Proof.
  intros I C. unfold subset_told, make_limits.
  assert (R : forall l e, fold_left (fun k kw => bind k (fun k => add_limit coordinate lon lat k kw)) l (Raises e) = Raises e) by (induction l; cbn; auto).
  assert (H : forall k, fold_left (fun k kw => bind k (fun k => add_limit coordinate lon lat k kw)) kws (Ok k) = Raises CoordinateNotFoundError).
  { induction kws as [|kw kws IH]; [destruct I|]. intros k. destruct I as [->|I].
    - cbn [fold_left bind add_limit]. rewrite C. apply R.
    - cbn [fold_left bind]. destruct kw as [n' a' b'|w x y x' y']; cbn [add_limit]; [|apply IH, I]. destruct (coordinate n') as [[c [lo hi]]|]; [apply IH, I|apply R]. }
  rewrite H. reflexivity.
Qed.
