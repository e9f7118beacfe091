(** Exact rational arithmetic used for the floating point numbers of the code, and numpy contracts on lists. *)
From Verif Require Import Base.
From Coq Require Export QArith Qround Qminmax Lqa.
From Coq Require Export Sorting.Sorted Sorting.Permutation.
Open Scope Q_scope.

Definition Qltb (a b : Q) : bool := negb (Qle_bool b a).
Definition Qleb (a b : Q) : bool := Qle_bool a b.
Definition Qeqb (a b : Q) : bool := Qeq_bool a b.

Lemma Qleb_le a b : Qleb a b = true <-> a <= b.
Proof. apply Qle_bool_iff. Qed.
Lemma Qltb_lt a b : Qltb a b = true <-> a < b.
Proof.
  unfold Qltb. split; intros H.
  - apply negb_true_iff in H. apply Qnot_le_lt. intros C. apply Qle_bool_iff in C. congruence.
  - apply negb_true_iff. destruct (Qle_bool b a) eqn:E; auto. apply Qle_bool_iff in E. lra.
Qed.
Lemma Qleb_gt a b : Qleb a b = false <-> b < a.
Proof.
  split; intros H.
  - apply Qnot_le_lt. intros C. apply Qleb_le in C. congruence.
  - destruct (Qleb a b) eqn:E; auto. apply Qleb_le in E. lra.
Qed.
Lemma Qltb_ge a b : Qltb a b = false <-> b <= a.
Proof.
  split; intros H.
  - apply Qnot_lt_le. intros C. apply Qltb_lt in C. congruence.
  - destruct (Qltb a b) eqn:E; auto. apply Qltb_lt in E. lra.
Qed.
Lemma Qeqb_eq a b : Qeqb a b = true <-> a == b.
Proof. apply Qeq_bool_iff. Qed.
Lemma Qeqb_neq a b : Qeqb a b = false <-> ~ a == b.
Proof. rewrite <- Qeqb_eq. destruct (Qeqb a b); intuition congruence. Qed.

Lemma Qltb_spec a b : reflect (a < b) (Qltb a b).
Proof. destruct (Qltb a b) eqn:E; constructor; [apply Qltb_lt; auto|]. apply Qltb_ge in E. lra. Qed.
Lemma Qleb_spec a b : reflect (a <= b) (Qleb a b).
Proof. destruct (Qleb a b) eqn:E; constructor; [apply Qleb_le; auto|]. apply Qleb_gt in E. lra. Qed.
Lemma Qeqb_spec a b : reflect (a == b) (Qeqb a b).
Proof. destruct (Qeqb a b) eqn:E; constructor; [apply Qeqb_eq; auto|]. apply Qeqb_neq in E. auto. Qed.

(** Python / numpy float [a % m] for [m > 0]: [a - m*floor(a/m)]. *)
Definition Qmod (a m : Q) : Q := a - m * inject_Z (Qfloor (a / m)).

Lemma Qmod_range a m : 0 < m -> 0 <= Qmod a m < m.
Proof.
  intros Hm. unfold Qmod. pose proof (Qfloor_le (a / m)) as H1. pose proof (Qlt_floor (a / m)) as H2.
  rewrite inject_Z_plus in H2. set (f := inject_Z (Qfloor (a / m))) in *.
  assert (E : a == m * (a / m)) by (field; lra). split.
  - assert (m * f <= m * (a / m)) by (apply Qmult_le_l; auto). lra.
  - assert (m * (a / m) < m * (f + inject_Z 1)) by (apply Qmult_lt_l; auto).
    change (inject_Z 1) with 1 in H. lra.
Qed.
Lemma Qmod_shift a m : exists k : Z, Qmod a m == a + m * inject_Z k.
Proof. exists (- Qfloor (a / m))%Z. unfold Qmod. rewrite inject_Z_opp. ring. Qed.

(** two numbers of an interval of width m that differ by a multiple of m are equal *)
Lemma same_mod_unique m s x y (k : Z) : 0 < m -> s <= x < s + m -> s <= y < s + m -> x == y + m * inject_Z k -> x == y.
Proof.
  intros Hm Hx Hy E.
  assert (Hk : (-1 < k < 1)%Z).
  { split; apply Z.nle_gt; intros C.
    - assert (inject_Z k <= inject_Z (-1)) by (rewrite <- Zle_Qle; lia). change (inject_Z (-1)) with (-1) in H. nra.
    - assert (inject_Z 1 <= inject_Z k) by (rewrite <- Zle_Qle; lia). change (inject_Z 1) with 1 in H. nra. }
  assert (k = 0)%Z by lia. subst k. change (inject_Z 0) with 0 in E. lra.
Qed.

(** numpy contract: [np.searchsorted(l, v)] (side='left') on a sorted array: the first index whose element is not below v. *)
Fixpoint searchsorted_left (l : list Q) (v : Q) : nat :=
  match l with
  | [] => 0
  | x :: l' => if Qltb x v then S (searchsorted_left l' v) else 0
  end.
(** side='right': the first index whose element is above v. *)
Fixpoint searchsorted_right (l : list Q) (v : Q) : nat :=
  match l with
  | [] => 0
  | x :: l' => if Qleb x v then S (searchsorted_right l' v) else 0
  end.

(** [np.roll(l, shift)] along one axis: element i moves to (i + shift) mod n. *)
Definition roll {A} (l : list A) (shift : Z) : list A :=
  let n := length l in
  if Nat.eqb n 0 then l
  else let j := Z.to_nat ((- shift) mod Z.of_nat n) in skipn j l ++ firstn j l.

Definition increasing (l : list Q) : Prop := StronglySorted Qlt l.
Definition nondecreasing (l : list Q) : Prop := StronglySorted Qle l.

Lemma searchsorted_left_le l v : (searchsorted_left l v <= length l)%nat.
Proof. induction l as [|x l IH]; simpl; [lia|]. destruct (Qltb x v); lia. Qed.
Lemma searchsorted_right_le l v : (searchsorted_right l v <= length l)%nat.
Proof. induction l as [|x l IH]; simpl; [lia|]. destruct (Qleb x v); lia. Qed.

Lemma searchsorted_left_before l v : Forall (fun x => x < v) (firstn (searchsorted_left l v) l).
Proof.
  induction l as [|x l IH]; simpl; [constructor|]. destruct (Qltb x v) eqn:E; simpl; [|constructor].
  constructor; auto. apply Qltb_lt; auto.
Qed.
Lemma searchsorted_left_after l v : nondecreasing l -> Forall (fun x => v <= x) (skipn (searchsorted_left l v) l).
Proof.
  induction 1 as [|x l HS IH HF]; simpl; [constructor|]. destruct (Qltb x v) eqn:E; simpl; auto.
  apply Qltb_ge in E. constructor; auto. eapply Forall_impl; [|exact HF]. simpl. intros; lra.
Qed.
Lemma searchsorted_right_before l v : Forall (fun x => x <= v) (firstn (searchsorted_right l v) l).
Proof.
  induction l as [|x l IH]; simpl; [constructor|]. destruct (Qleb x v) eqn:E; simpl; [|constructor].
  constructor; auto. apply Qleb_le; auto.
Qed.
Lemma searchsorted_right_after l v : nondecreasing l -> Forall (fun x => v < x) (skipn (searchsorted_right l v) l).
Proof.
  induction 1 as [|x l HS IH HF]; simpl; [constructor|]. destruct (Qleb x v) eqn:E; simpl; auto.
  apply Qleb_gt in E. constructor; auto. eapply Forall_impl; [|exact HF]. simpl. intros; lra.
Qed.
Lemma increasing_nondecreasing l : increasing l -> nondecreasing l.
Proof.
  induction 1; constructor; auto. eapply Forall_impl; [|eassumption]. simpl. intros; lra.
Qed.
