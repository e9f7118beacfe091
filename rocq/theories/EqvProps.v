(** C107: equality of data and of coordinates. *)
From Coq Require Import QArith.
From Verif Require Import Base PyStr MtModel MtSpec EqvModel EqvSpec EqvProofs Eqv2Proofs.
From Coq Require Import List. Import ListNotations.
Open Scope list_scope.
Definition ex_meta (std : String.string) : meta := mkMeta (lit "v") (Some (lit std)) (lit "V") (UText (lit "1")) NoRange [].
Definition ex_read (s : str) : option unit := None.

(** two data are equal when their names and units are the same and their values agree, up to a tolerance and where neither is masked *)
Theorem C107_data : forall U all_masked i j m d m' d', length d = length d' -> comparable d d' -> (equal U all_masked (Data i m d) (Data j m' d') = Ok true <-> same_meta U m m' /\ agree d d').
Proof. exact data_equal. Qed.
Print Assumptions C107_data.
Example C107_data_example : comparable [Masked; Number 1; Number 2] [Number 5; Number 1; Masked] /\
  equal ex_read false (Data 0 (ex_meta "") [Masked; Number 1; Number 2]) (Data 1 (ex_meta "") [Number 5; Number 1; Masked]) = Ok true /\ equal ex_read false (Data 0 (ex_meta "") [Number 1]) (Data 1 (ex_meta "") [Number 2]) = Ok false.
Proof. split; [right; exists 1%nat, (Number 1), (Number 1); repeat split; discriminate|]. split; vm_compute; reflexivity. Qed.
Theorem C107_other_names : forall U all_masked i j m d m' d', meta_eq U m m' = Ok false -> equal U all_masked (Data i m d) (Data j m' d') = Ok false.
Proof. exact other_meta. Qed.
Print Assumptions C107_other_names.
(** data are equal to themselves and to a copy, unless there is a nan among them (or all are masked) *)
Theorem C107_itself_partial : forall U all_masked i j m d, no_nan d -> (d = [] \/ exists x, In x d /\ ~ masked x) -> equal U all_masked (Data i m d) (Data j m d) = Ok true.
Proof. exact reflexive. Qed.
Print Assumptions C107_itself_partial.
Theorem C107_itself_refuted : forall U all_masked i j m d, In NaN d -> equal U all_masked (Data i m d) (Data j m d) <> Ok true.
Proof. exact has_nan. Qed.
Print Assumptions C107_itself_refuted.
(** it is neither symmetric nor transitive *)
Theorem C107_symmetric_refuted : exists a b, equal ex_read false a b = Ok true /\ equal ex_read false b a = Ok false.
Proof. exists (Data 0 (ex_meta "") [Number (99998999 # 100000000)]), (Data 1 (ex_meta "") [Number 1]). split; vm_compute; reflexivity. Qed.
Print Assumptions C107_symmetric_refuted.
Theorem C107_transitive_refuted : exists a b c, equal ex_read false a b = Ok true /\ equal ex_read false b c = Ok true /\ equal ex_read false a c = Ok false.
Proof. exists (Data 0 (ex_meta "") [Number 1]), (Data 1 (ex_meta "") [Number (100001 # 100000)]), (Data 2 (ex_meta "") [Number (100002 # 100000)]). repeat split; vm_compute; reflexivity. Qed.
Print Assumptions C107_transitive_refuted.
(** data of different lengths cannot be compared; but a single value is equal to any number of copies of it *)
Theorem C107_lengths : forall U all_masked i j m d d' m', same_meta U m m' -> length d <> length d' -> length d <> 1%nat -> length d' <> 1%nat -> equal U all_masked (Data i m d) (Data j m' d') = Raises ValueError.
Proof. exact lengths_refused. Qed.
Print Assumptions C107_lengths.
Theorem C107_single : forall U all_masked i j m m' x d, length d <> 1%nat ->
  equal U all_masked (Data i m [x]) (Data j m' d) = equal U all_masked (Data i m (repeat x (length d))) (Data j m' d) /\
  equal U all_masked (Data i m d) (Data j m' [x]) = equal U all_masked (Data i m d) (Data j m' (repeat x (length d))).
Proof. exact single. Qed.
Print Assumptions C107_single.
Theorem C107_lengths_refuted : forall U all_masked m x d, d <> [] -> length d <> 1%nat -> x <> NaN -> x <> Masked -> Forall (fun y => y = x) d ->
  forall i j, equal U all_masked (Data i m [x]) (Data j m d) = Ok true /\ equal U all_masked (Data j m d) (Data i m [x]) = Ok true.
Proof. exact one_for_all. Qed.
Print Assumptions C107_lengths_refuted.
Example C107_lengths_example : forall U b i j m, equal U b (Data i m []) (Data j m [Number 1]) = equal U b (Data i m [Number 2]) (Data j m [Number 2]) /\ same_meta U m m.
Proof. intros. split; [cbn [equal]; unfold lazy_eq; rewrite (proj2 (Mt2Proofs.eq_true U m m) (same_refl U m)); reflexivity|apply same_refl]. Qed.
(** coordinates are equal when they have the same standard name, whatever their values; but those whose standard name is empty are not, not even to themselves *)
Theorem C107_coordinates : forall U all_masked i j m d m' d', exists r, equal U all_masked (Coordinate i m d) (Coordinate j m' d') = Ok r /\ (r = true <-> m_std m = m_std m' /\ m_std m <> Some []).
Proof. exact coords_equal. Qed.
Print Assumptions C107_coordinates.
Theorem C107_unnamed_refuted : forall U b i m d, m_std m = Some [] -> equal U b (Coordinate i m d) (Coordinate i m d) = Ok false.
Proof. intros U b i m d H. destruct (coords_equal U b i i m d m d) as (r & E & K). rewrite E. destruct r; [destruct (proj1 K eq_refl); contradiction|reflexivity]. Qed.
Print Assumptions C107_unnamed_refuted.
(** data and a coordinate: the left one decides which of the two is meant *)
Theorem C107_kinds : forall U all_masked i j m d m' d',
  (length d = length d' -> comparable d d' -> (equal U all_masked (Data i m d) (Coordinate j m' d') = Ok true <-> same_meta U m m' /\ agree d d')) /\
  exists r, equal U all_masked (Coordinate i m d) (Data j m' d') = Ok r /\ (r = true <-> m_std m = m_std m' /\ m_std m <> Some []).
Proof. exact (fun U b i j m d m' d' => conj (fun L C => data_equal U b i j m d m' d' L C) (coords_equal U b i j m d m' d')). Qed.
Print Assumptions C107_kinds.
(** a coordinate cannot be compared with something that is not data *)
Theorem C107_other_refuted : forall U b i m d j, equal U b (Coordinate i m d) (Other j) = Raises AttributeError /\ equal U b (Other j) (Coordinate i m d) = Raises AttributeError.
Proof. split; reflexivity. Qed.
Print Assumptions C107_other_refuted.
Theorem C107_other : forall U b i m d j, equal U b (Data i m d) (Other j) = Ok false /\ equal U b (Other j) (Data i m d) = Ok false.
Proof. split; reflexivity. Qed.
Print Assumptions C107_other.
(** not equal is the opposite of equal, and fails when that does *)
Theorem C107_differs : forall U all_masked a b, (forall r, equal U all_masked a b = Ok r -> differs U all_masked a b = Ok (negb r)) /\ (forall e, equal U all_masked a b = Raises e -> differs U all_masked a b = Raises e).
Proof. exact differs_not. Qed.
Print Assumptions C107_differs.
(** in a list: it is there itself, or there is one equal to it *)
Theorem C107_member : forall U all_masked a l, (forall b, In b l -> exists r, equal U all_masked b a = Ok r) ->
  exists r, is_in_list U all_masked a l = Ok r /\ (r = true <-> exists b, In b l /\ (identity b = identity a \/ equal U all_masked b a = Ok true)).
Proof. exact member. Qed.
Print Assumptions C107_member.
(** equal data may have different hashes, and a coordinate has none *)
Theorem C107_hash_refuted : (exists a b ha hb, equal ex_read false a b = Ok true /\ hash a = Ok ha /\ hash b = Ok hb /\ ha <> hb) /\ forall i m d, hash (Coordinate i m d) = Raises TypeError.
Proof. split; [|reflexivity]. exists (Data 0 (ex_meta "") [Number 1]), (Data 1 (ex_meta "") [Number 1]), 0%nat, 1%nat. repeat split; try discriminate. Qed.
Print Assumptions C107_hash_refuted.
