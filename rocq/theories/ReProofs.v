(** The backtracking matcher: soundness, completeness, and what a greedy run gives. *)
From Verif Require Import Base PyStr ReModel.
From Coq Require Import List.
Import ListNotations.
Open Scope nat_scope.

Inductive accepts : re -> str -> str -> groups -> groups -> Prop :=
| ac_chr (p : ascii -> bool) c rest g : p c = true -> accepts (Chr p) [c] rest g g
| ac_plus (p : ascii -> bool) w rest g : w <> [] -> Forall (fun c => p c = true) w -> accepts (Plus p) w rest g g
| ac_seq a b w1 w2 rest g g1 g2 : accepts a w1 (w2 ++ rest) g g1 -> accepts b w2 rest g1 g2 -> accepts (Seq a b) (w1 ++ w2) rest g g2
| ac_opt a w rest g g' : accepts a w rest g g' -> accepts (Opt a) w rest g g'
| ac_skip a rest g : accepts (Opt a) [] rest g g
| ac_group n a w rest g g' : accepts a w rest g g' -> accepts (Group n a) w rest g ((n, w) :: g')
| ac_end rest g : rest = [] \/ rest = ["010"%char] -> accepts End [] rest g g.

Lemma run_sound p s g k x : run_greedy p s g k = Some x -> exists w rest, s = w ++ rest /\ Forall (fun c => p c = true) w /\ k rest g = Some x.
Proof.
  induction s as [|c s IH]; simpl; intros H.
  - exists [], []. auto.
  - destruct (p c) eqn:P.
    + destruct (run_greedy p s g k) eqn:R.
      * inversion H; subst. destruct (IH eq_refl) as (w & rest & -> & F & K). exists (c :: w), rest. auto.
      * exists [], (c :: s). auto.
    + exists [], (c :: s). auto.
Qed.
Lemma matching_sound r : forall s g k x, matching r s g k = Some x -> exists w rest g', s = w ++ rest /\ accepts r w rest g g' /\ k rest g' = Some x.
Proof.
  induction r as [p|p|a IHa b IHb|a IH|n a IH|]; simpl; intros s g k x H.
  - destruct s as [|c s]; [discriminate|]. destruct (p c) eqn:P; [|discriminate]. exists [c], s, g. repeat split; auto. constructor; auto.
  - destruct s as [|c s]; [discriminate|]. destruct (p c) eqn:P; [|discriminate]. apply run_sound in H. destruct H as (w & rest & -> & F & K).
    exists (c :: w), rest, g. repeat split; auto. constructor; [congruence|constructor; auto].
  - apply IHa in H. destruct H as (w1 & r1 & g1 & -> & A & H). apply IHb in H. destruct H as (w2 & r2 & g2 & -> & B & H).
    exists (w1 ++ w2), r2, g2. rewrite app_assoc. repeat split; auto. econstructor; eauto.
  - destruct (matching a s g k) eqn:M.
    + inversion H; subst. apply IH in M. destruct M as (w & r & g' & -> & A & K). exists w, r, g'. repeat split; auto. constructor; auto.
    + exists [], s, g. repeat split; auto. apply ac_skip.
  - apply IH in H. destruct H as (w & r & g' & -> & A & K).
    exists w, r, ((n, w) :: g'). repeat split; auto; [constructor; auto|].
    assert (Ew : firstn (length (w ++ r) - length r) (w ++ r) = w).
    { rewrite app_length, Nat.add_sub. rewrite firstn_app, Nat.sub_diag, firstn_all. simpl. apply app_nil_r. }
    rewrite Ew in K. exact K.
  - destruct s as [|c [|c' s]]; [|destruct (ascii_dec c "010"); [subst|discriminate]|discriminate]; eexists [], _, g; repeat split; eauto; constructor; auto.
Qed.
Lemma run_complete p w rest g k : Forall (fun c => p c = true) w -> k rest g <> None -> run_greedy p (w ++ rest) g k <> None.
Proof.
  intros F K. induction F as [|c w P F IH]; simpl.
  - destruct rest as [|c rest]; simpl; auto. destruct (p c); auto. destruct (run_greedy p rest g k); [congruence|auto].
  - rewrite P. destruct (run_greedy p (w ++ rest) g k); congruence.
Qed.
Lemma matching_complete r w rest g g' : accepts r w rest g g' -> forall k, k rest g' <> None -> matching r (w ++ rest) g k <> None.
Proof.
  induction 1 as [p c rest g P|p w rest g NN F|a b w1 w2 rest g g1 g2 A IHa B IHb|a w rest g g' A IH|a rest g|n a w rest g g' A IH|rest g E]; intros k K.
  - simpl. rewrite P. auto.
  - destruct w as [|c w]; [congruence|]. inversion F; subst. simpl. rewrite H1. apply run_complete; auto.
  - simpl. rewrite <- app_assoc. apply IHa. apply IHb. auto.
  - simpl. destruct (matching a (w ++ rest) g k) eqn:M; [congruence|]. destruct (IH k K). auto.
  - simpl. destruct (matching a rest g k); congruence.
  - simpl. apply IH. rewrite app_length, Nat.add_sub, firstn_app, Nat.sub_diag, firstn_all. simpl. rewrite app_nil_r. auto.
  - simpl. destruct E as [->| ->]; auto.
Qed.

(** a greedy run takes all it can if that leads to a match *)
Definition stops (p : ascii -> bool) (s : str) : Prop := match s with [] => True | c :: _ => p c = false end.
Lemma run_greedy_max p w rest g k x : Forall (fun c => p c = true) w -> stops p rest -> k rest g = Some x -> run_greedy p (w ++ rest) g k = Some x.
Proof.
  intros F S K. induction F as [|c w P F IH]; simpl.
  - destruct rest as [|c rest]; simpl; auto. simpl in S. rewrite S. auto.
  - rewrite P, IH. auto.
Qed.
(** and it gives what the longest run gives if no shorter one leads to a match *)
Lemma run_greedy_only p w rest g k : Forall (fun c => p c = true) w -> stops p rest ->
  (forall u v, w = u ++ v -> v <> [] -> k (v ++ rest) g = None) -> run_greedy p (w ++ rest) g k = k rest g.
Proof.
  intros F S. induction F as [|c w P F IH]; simpl; intros Sh.
  - destruct rest as [|c rest]; simpl; auto. simpl in S. rewrite S. auto.
  - rewrite P, IH. 2: { intros u v E NN. apply (Sh (c :: u) v); [rewrite E; auto|auto]. }
    destruct (k rest g); auto. apply (Sh [] (c :: w)); [auto|congruence].
Qed.
