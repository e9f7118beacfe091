(** Python strings as lists of characters, with the few [str] methods the modelled code uses. *)
From Verif Require Import Base.
From Coq Require Export Ascii.
From Coq Require Strings.String.
Export Strings.String.StringSyntax.
Delimit Scope string_scope with string.
Open Scope list_scope.

Definition str := list ascii.
(** literals: [s"..."] is written [lit "..."] *)
Definition lit (x : String.string) : str := String.list_ascii_of_string x.


Definition str_eq_dec : forall a b : str, {a = b} + {a <> b} := list_eq_dec ascii_dec.
Definition str_eqb (a b : str) : bool := if str_eq_dec a b then true else false.

(** [s.split(c)] for a one-character separator (Python library contract): cut at every occurrence of [c];
    always at least one piece. *)
Fixpoint split_on (c : ascii) (s : str) : list str :=
  match s with
  | [] => [[]]
  | a :: s' =>
      if ascii_dec a c then [] :: split_on c s'
      else match split_on c s' with
           | [] => [[a]]
           | p :: ps => (a :: p) :: ps
           end
  end.

(** [sep.join(pieces)] for a one-character separator. *)
Fixpoint join_on (c : ascii) (ps : list str) : str :=
  match ps with
  | [] => []
  | [p] => p
  | p :: ps' => p ++ c :: join_on c ps'
  end.

(** membership of a character: [c in s] *)
Definition has_char (c : ascii) (s : str) : bool := existsb (fun a => if ascii_dec a c then true else false) s.

(** Python's order on strings (code point by code point) as used by [list.sort]. *)
Fixpoint str_leb (a b : str) : bool :=
  match a, b with
  | [], _ => true
  | _ :: _, [] => false
  | x :: a', y :: b' =>
      let nx := nat_of_ascii x in let ny := nat_of_ascii y in
      if nx <? ny then true else if ny <? nx then false else str_leb a' b'
  end.

(** [l.sort()] / [sorted(l)] on strings: a stable insertion sort. *)
Fixpoint str_insert (x : str) (l : list str) : list str :=
  match l with
  | [] => [x]
  | y :: l' => if str_leb x y then x :: y :: l' else y :: str_insert x l'
  end.
Definition str_sort (l : list str) : list str := fold_right str_insert [] l.

(** ASCII [str.lower()] and [str.upper()]. *)
Definition lower_char (c : ascii) : ascii :=
  let n := nat_of_ascii c in if (65 <=? n) && (n <=? 90) then ascii_of_nat (n + 32) else c.
Definition upper_char (c : ascii) : ascii :=
  let n := nat_of_ascii c in if (97 <=? n) && (n <=? 122) then ascii_of_nat (n - 32) else c.
Definition lower (s : str) : str := map lower_char s.
Definition upper (s : str) : str := map upper_char s.

(** ** Facts *)

Lemma str_eqb_eq a b : str_eqb a b = true <-> a = b.
Proof. unfold str_eqb. destruct (str_eq_dec a b); split; congruence. Qed.
Lemma str_eqb_neq a b : str_eqb a b = false <-> a <> b.
Proof. unfold str_eqb. destruct (str_eq_dec a b); split; congruence. Qed.
Lemma str_eqb_refl a : str_eqb a a = true.
Proof. apply str_eqb_eq. reflexivity. Qed.

Lemma split_on_nonnil c s : split_on c s <> [].
Proof. destruct s as [|a s]; simpl; [congruence|]. destruct (ascii_dec a c); [congruence|]. destruct (split_on c s); congruence. Qed.

Lemma join_split c s : join_on c (split_on c s) = s.
Proof.
  induction s as [|a s IH]; simpl; auto.
  pose proof (split_on_nonnil c s) as NN.
  destruct (ascii_dec a c) as [->|n].
  - simpl. destruct (split_on c s) as [|p ps]; [congruence|]. simpl in *. rewrite <- IH. reflexivity.
  - destruct (split_on c s) as [|p ps]; [congruence|]. destruct ps; simpl in *; rewrite <- IH; reflexivity.
Qed.

Lemma has_char_false c s : has_char c s = false <-> ~ In c s.
Proof.
  unfold has_char. induction s as [|a s IH]; simpl; [tauto|].
  destruct (ascii_dec a c); simpl.
  - split; [congruence|]. intros H. exfalso. apply H. auto.
  - rewrite IH. intuition congruence.
Qed.
Lemma has_char_true c s : has_char c s = true <-> In c s.
Proof.
  destruct (has_char c s) eqn:E; [|apply has_char_false in E; intuition congruence].
  split; auto. intros _. unfold has_char in E. apply existsb_exists in E. destruct E as (x & Hx & H).
  destruct (ascii_dec x c); subst; auto; discriminate.
Qed.

Lemma split_pieces c s p : In p (split_on c s) -> ~ In c p.
Proof.
  revert p. induction s as [|a s IH]; simpl; intros p H.
  - destruct H as [<-|[]]. intros [].
  - pose proof (split_on_nonnil c s) as NN. destruct (ascii_dec a c) as [->|n].
    + destruct H as [<-|H]; [intros []|auto].
    + destruct (split_on c s) as [|q qs]; [congruence|]. destruct H as [<-|H].
      * intros [E|E]; [congruence|]. apply (IH q); simpl; auto.
      * apply IH. simpl; auto.
Qed.

(** uniqueness: a non-empty list of separator-free pieces is recovered from its join *)
Lemma split_app_sep c p s : ~ In c p -> split_on c (p ++ c :: s) = p :: split_on c s.
Proof.
  induction p as [|a p IH]; intros H; simpl.
  - destruct (ascii_dec c c); congruence.
  - destruct (ascii_dec a c); [subst; simpl in H; tauto|]. rewrite IH; [reflexivity|simpl in H; tauto].
Qed.
Lemma split_nosep c p : ~ In c p -> split_on c p = [p].
Proof.
  induction p as [|a p IH]; intros H; simpl; auto.
  destruct (ascii_dec a c); [subst; simpl in H; tauto|]. rewrite IH; [reflexivity|simpl in H; tauto].
Qed.
Lemma split_join c ps : ps <> [] -> (forall p, In p ps -> ~ In c p) -> split_on c (join_on c ps) = ps.
Proof.
  induction ps as [|p ps IH]; intros NN H; [congruence|].
  destruct ps as [|q ps].
  - simpl. apply split_nosep. apply H. simpl; auto.
  - change (join_on c (p :: q :: ps)) with (p ++ c :: join_on c (q :: ps)).
    rewrite split_app_sep by (apply H; simpl; auto). f_equal. apply IH; [congruence|].
    intros r Hr. apply H. simpl in *; auto.
Qed.

From Coq Require Export Sorting.Permutation Sorting.Sorted.

Lemma str_insert_perm x l : Permutation (x :: l) (str_insert x l).
Proof.
  induction l as [|y l IH]; simpl; auto. destruct (str_leb x y); auto.
  rewrite perm_swap. constructor. auto.
Qed.
Lemma str_sort_perm l : Permutation l (str_sort l).
Proof.
  induction l as [|x l IH]; simpl; auto.
  rewrite <- str_insert_perm. constructor. auto.
Qed.
Lemma str_leb_total a : forall b, str_leb a b = true \/ str_leb b a = true.
Proof.
  induction a as [|x a IH]; intros [|y b]; simpl; auto.
  destruct (Nat.ltb_spec (nat_of_ascii x) (nat_of_ascii y)); auto.
  destruct (Nat.ltb_spec (nat_of_ascii y) (nat_of_ascii x)); auto.
Qed.
Lemma str_leb_trans a : forall b c, str_leb a b = true -> str_leb b c = true -> str_leb a c = true.
Proof.
  induction a as [|x a IH]; intros [|y b] [|z c]; simpl; auto; try discriminate.
  destruct (Nat.ltb_spec (nat_of_ascii x) (nat_of_ascii y));
  destruct (Nat.ltb_spec (nat_of_ascii y) (nat_of_ascii x));
  destruct (Nat.ltb_spec (nat_of_ascii y) (nat_of_ascii z));
  destruct (Nat.ltb_spec (nat_of_ascii z) (nat_of_ascii y));
  destruct (Nat.ltb_spec (nat_of_ascii x) (nat_of_ascii z));
  destruct (Nat.ltb_spec (nat_of_ascii z) (nat_of_ascii x)); intros; try lia; try congruence; eauto.
Qed.
Lemma str_leb_antisym a : forall b, str_leb a b = true -> str_leb b a = true -> a = b.
Proof.
  induction a as [|x a IH]; intros [|y b]; simpl; auto; try discriminate.
  destruct (Nat.ltb_spec (nat_of_ascii x) (nat_of_ascii y));
  destruct (Nat.ltb_spec (nat_of_ascii y) (nat_of_ascii x)); intros; try lia; try congruence.
  f_equal; auto.
  rewrite <- (ascii_nat_embedding x), <- (ascii_nat_embedding y). f_equal. lia.
Qed.
Lemma str_sort_sorted l : StronglySorted (fun a b => str_leb a b = true) (str_sort l).
Proof.
  induction l as [|x l IH]; simpl; [constructor|].
  induction IH as [|y l' Hs IH2 HF]; simpl; [repeat constructor|].
  destruct (str_leb x y) eqn:E.
  - constructor; [constructor; auto|]. constructor; auto. eapply Forall_impl; [|apply HF].
    intros z Hz. eapply str_leb_trans; eauto.
  - constructor; auto. assert (str_leb y x = true) by (destruct (str_leb_total x y); congruence).
    apply Forall_forall. intros z Hz.
    apply Permutation_in with (l' := x :: l') in Hz; [|symmetry; apply str_insert_perm].
    destruct Hz as [<-|Hz]; auto. rewrite Forall_forall in HF. auto.
Qed.
