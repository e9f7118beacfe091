From Coq Require Import String.
From Verif Require Import Base PyStr FileListModel ProdModel AeroModel AeroSpec AeroProofs RafModel RafSpec RafProofs WhModel WhSpec.
From Coq Require Import List Ascii ZArith Lia Bool.
Import ListNotations.
Open Scope string_scope. Open Scope list_scope. Open Scope nat_scope. Notation length := List.length.

(** *** characters *)
Definition all_chars : list ascii := map ascii_of_nat (seq 0 256).
Lemma in_all c : In c all_chars.
Proof. rewrite <- (ascii_nat_embedding c). apply in_map. apply in_seq. pose proof (nat_ascii_bounded c). lia. Qed.
Lemma for_all (P : ascii -> bool) : forallb P all_chars = true -> forall c, P c = true.
Proof. intros H c. rewrite forallb_forall in H. apply H, in_all. Qed.
Lemma is_iff c d : is c d = true <-> c = d.
Proof. unfold is. destruct (ascii_dec c d); split; congruence. Qed.
Definition same_char (c d : ascii) : bool := if ascii_dec (lower_char d) (lower_char c) then true else false.
Lemma any_case_same_b : forallb (fun c => forallb (fun d => Bool.eqb (any_case (is c) d) (same_char c d)) all_chars) all_chars = true.
Proof. vm_compute. reflexivity. Qed.
Lemma any_case_same c d : any_case (is c) d = true <-> lower_char d = lower_char c.
Proof.
  pose proof (for_all _ any_case_same_b c) as H. cbv beta in H. pose proof (for_all _ H d) as K. cbv beta in K. apply Bool.eqb_prop in K. rewrite K. unfold same_char.
  destruct (ascii_dec _ _); split; congruence.
Qed.

(** *** pieces *)
Lemma one_line_app u v : one_line (u ++ v) <-> one_line u /\ one_line v.
Proof. unfold one_line. rewrite in_app_iff. tauto. Qed.
Lemma one_line_cons c v : one_line (c :: v) -> one_line v.
Proof. unfold one_line. cbn [In]. tauto. Qed.
Lemma dot_line c s : one_line (c :: s) -> dot c = true.
Proof. intros H. unfold dot. destruct (is newline c) eqn:E; [|reflexivity]. apply is_iff in E. exfalso. apply H. left. symmetry. exact E. Qed.
Lemma any_text ts : forall s, one_line s -> (matches (Rep 0 None dot :: ts) s = true <-> exists u v, s = u ++ v /\ matches ts v = true).
Proof.
  intros s. cbn [matches at_least]. induction s as [|c s IH]; intros L; cbn [star].
  - rewrite orb_false_r. split; [intros H; exists [], []; auto|intros (u & v & E & H)]. symmetry in E. apply app_eq_nil in E. destruct E as [-> ->]. exact H.
  - rewrite (dot_line c s L), andb_true_l, orb_true_iff. rewrite (IH (one_line_cons c s L)). split.
    + intros [H|(u & v & -> & H)]; [exists [], (c :: s); auto|exists (c :: u), v; auto].
    + intros ([|d u] & v & E & H); [left; rewrite E; exact H|right]. injection E as <- ->. exists u, v. auto.
Qed.
Lemma exactly n p ts : forall s, matches (Rep n (Some 0) p :: ts) s = true <-> exists u v, s = u ++ v /\ length u = n /\ Forall (fun c => p c = true) u /\ matches ts v = true.
Proof.
  cbn [matches]. assert (U : forall v, up_to 0 p v (matches ts) = matches ts v) by (intros v; cbn; apply orb_false_r).
  assert (A : forall k, (forall v, k v = up_to 0 p v (matches ts)) -> forall n s, at_least n p s k = true <-> exists u v, s = u ++ v /\ length u = n /\ Forall (fun c => p c = true) u /\ matches ts v = true).
  { intros k K. clear n. induction n as [|n IH]; intros s; cbn [at_least].
    - rewrite K, U. split; [intros H; exists [], s; auto|intros ([|? ?] & v & -> & L & _ & H); [exact H|discriminate]].
    - destruct s as [|c s]; [split; [discriminate|intros ([|? ?] & v & E & L & _); discriminate]|]. rewrite andb_true_iff, IH. split.
      + intros (P & u & v & -> & <- & F & H). exists (c :: u), v. repeat split; auto.
      + intros ([|d u] & v & E & L & F & H); [discriminate|]. injection E as <- ->. inversion F; subst. split; [assumption|]. exists u, v. auto. }
  intros s. apply A. reflexivity.
Qed.
Lemma up_to_iff ts p : forall n s, up_to n p s (matches ts) = true <-> exists u v, s = u ++ v /\ length u <= n /\ Forall (fun c => p c = true) u /\ matches ts v = true.
Proof.
  induction n as [|n IH]; intros s; cbn [up_to].
  - destruct s as [|c s]; rewrite orb_false_r; (split; [intros H; exists []; eexists; split; [reflexivity|]; auto|intros ([|? ?] & v & E & L & _ & H); [rewrite E; exact H|cbn in L; lia]]).
  - destruct s as [|c s].
    + rewrite orb_false_r. split; [intros H; exists [], []; repeat split; auto; cbn; lia|intros ([|? ?] & v & E & L & _ & H); [rewrite E; exact H|discriminate]].
    + rewrite orb_true_iff, andb_true_iff, IH. split.
      * intros [H|(P & u & v & -> & L & F & H)]; [exists [], (c :: s); repeat split; auto; cbn; lia|exists (c :: u), v; repeat split; auto; cbn; lia].
      * intros ([|d u] & v & E & L & F & H); [left; rewrite E; exact H|right]. injection E as <- ->. inversion F; subst. split; [assumption|]. exists u, v. cbn in L. repeat split; auto; lia.
Qed.
Lemma at_least_iff p k n : forall s, at_least n p s k = true <-> exists u v, s = u ++ v /\ length u = n /\ Forall (fun c => p c = true) u /\ k v = true.
Proof.
  induction n as [|n IH]; intros s; cbn [at_least].
  - split; [intros H; exists [], s; auto|intros ([|? ?] & v & -> & L & _ & H); [exact H|discriminate]].
  - destruct s as [|c s]; [split; [discriminate|intros ([|? ?] & v & E & L & _); discriminate]|]. rewrite andb_true_iff, IH. split.
    + intros (P & u & v & -> & <- & F & H). exists (c :: u), v. repeat split; auto.
    + intros ([|d u] & v & E & L & F & H); [discriminate|]. injection E as <- ->. inversion F; subst. split; [assumption|]. exists u, v. auto.
Qed.
Definition lits (w : str) : list tok := map (fun c => Rep 1 (Some 0) (any_case (is c))) w.
Lemma text_matches w ts : forall s, matches (lits w ++ ts) s = true <-> exists x v, s = x ++ v /\ same x w /\ matches ts v = true.
Proof.
  induction w as [|c w IH]; intros s; cbn [lits map app].
  - split; [intros H; exists [], s; split; [reflexivity|]; split; [reflexivity|exact H]|]. intros ([|? ?] & v & -> & S1 & H); [exact H|discriminate].
  - change (map _ w ++ ts) with (lits w ++ ts). rewrite exactly. split.
    + intros (u & v & -> & L & F & H). destruct u as [|d [|? ?]]; try discriminate. apply IH in H. destruct H as (x & v' & -> & S1 & H). exists (d :: x), v'. split; [reflexivity|]. split; [|exact H].
      unfold same, lower in *. cbn [map]. f_equal; [|exact S1]. inversion F; subst. apply any_case_same. assumption.
    + intros ([|d x] & v & -> & S1 & H); [discriminate|]. exists [d], (x ++ v). unfold same, lower in S1. cbn [map] in S1. inversion S1. split; [reflexivity|]. split; [reflexivity|]. split.
      * constructor; [|constructor]. apply any_case_same. assumption.
      * apply IH. exists x, v. auto.
Qed.
Lemma end_iff ts s : one_line s -> (matches (End :: ts) s = true <-> s = [] /\ matches ts s = true).
Proof.
  intros L. cbn [matches]. rewrite andb_true_iff. destruct s as [|c [|d s]]; [tauto| |split; [intros [? _]|intros [? _]]; discriminate].
  destruct (ascii_dec c newline) as [->|N]; [exfalso; apply L; left; reflexivity|]. split; intros [? _]; discriminate.
Qed.
Lemma ends_matches e s : one_line s -> (matches (Rep 0 None dot :: lits (lit e) ++ [End]) s = true <-> ends_in e s).
Proof.
  intros L. rewrite any_text by exact L. unfold ends_in. split.
  - intros (u & v & -> & H). apply text_matches in H. destruct H as (x & v' & -> & S1 & H). apply end_iff in H; [|apply one_line_app in L; destruct L as [_ L]; apply one_line_app in L; tauto]. destruct H as [-> _].
    exists u, x. rewrite app_nil_r. auto.
  - intros (u & x & -> & S1). exists u, x. split; [reflexivity|]. apply text_matches. exists x, []. rewrite app_nil_r. auto.
Qed.
Lemma has_matches w ts s : one_line s -> (matches (Rep 0 None dot :: lits (lit w) ++ ts) s = true <-> exists u x v, s = u ++ x ++ v /\ same x (lit w) /\ matches ts v = true).
Proof.
  intros L. rewrite any_text by exact L. split.
  - intros (u & v & -> & H). apply text_matches in H. destruct H as (x & v' & -> & S1 & H). exists u, x, v'. auto.
  - intros (u & x & v & -> & S1 & H). exists u, (x ++ v). split; [reflexivity|]. apply text_matches. exists x, v. auto.
Qed.
Lemma one_line_mid u x v : one_line (u ++ x ++ v) -> one_line v.
Proof. intros L. apply one_line_app in L. destruct L as [_ L]. apply one_line_app in L. tauto. Qed.
Lemma mentions_ends_matches w e s : one_line s -> (matches (Rep 0 None dot :: lits (lit w) ++ Rep 0 None dot :: lits (lit e) ++ [End]) s = true <-> mentions_and_ends w e s).
Proof.
  intros L. rewrite has_matches by exact L. unfold mentions_and_ends. split; intros (u & x & v & -> & S1 & H); exists u, x, v; (split; [reflexivity|]); (split; [exact S1|]); apply (ends_matches e v (one_line_mid _ _ _ L)); exact H.
Qed.
Lemma begins_ends_matches w e s : one_line s -> (matches (lits (lit w) ++ Rep 0 None dot :: lits (lit e) ++ [End]) s = true <-> begins_and_ends w e s).
Proof.
  intros L. rewrite text_matches. unfold begins_and_ends. split; intros (x & v & -> & S1 & H); exists x, v; (split; [reflexivity|]); (split; [exact S1|]); apply (ends_matches e v (proj2 (proj1 (one_line_app _ _) L))); exact H.
Qed.
Lemma mentions_matches w s : one_line s -> (matches (Rep 0 None dot :: lits (lit w) ++ [Rep 0 None dot; End]) s = true <-> mentions w s).
Proof.
  intros L. rewrite has_matches by exact L. unfold mentions. split; [intros (u & x & v & -> & S1 & H); exists u, x, v; auto|]. intros (u & x & v & -> & S1). exists u, x, v. split; [reflexivity|]. split; [exact S1|].
  apply any_text; [exact (one_line_mid _ _ _ L)|]. exists v, []. rewrite app_nil_r. auto.
Qed.
Lemma one_line_mid2 u x c v : one_line (u ++ x ++ c :: v) -> dot c = true /\ one_line v.
Proof. intros L. apply one_line_mid in L. split; [exact (dot_line c v L)|exact (one_line_cons c v L)]. Qed.
Lemma ends_later e s : one_line s -> (matches (Rep 0 None dot :: Rep 1 (Some 0) dot :: lits (lit e) ++ [End]) s = true <-> exists c v, s = c :: v /\ ends_in e v).
Proof.
  intros L. rewrite any_text by exact L. split.
  - intros (u & v & -> & H). apply exactly in H. destruct H as (c & r & -> & Lc & _ & H). destruct c as [|c [|? ?]]; try discriminate. apply text_matches in H. destruct H as (x & r' & -> & S1 & H).
    apply end_iff in H; [|apply one_line_app in L; destruct L as [_ L]; cbn [app] in L; apply one_line_cons in L; apply one_line_app in L; tauto]. destruct H as [-> _]. rewrite app_nil_r.
    destruct u as [|d u]; [exists c, x; split; [reflexivity|exists [], x; auto]|exists d, (u ++ c :: x); split; [reflexivity|]]. exists (u ++ [c]), x. rewrite <- app_assoc. auto.
  - intros (c & v & -> & u & x & -> & S1). destruct u as [|d u] using rev_ind.
    + exists [], (c :: x). split; [reflexivity|]. apply exactly. exists [c], x. repeat split; auto; [constructor; [exact (dot_line _ _ L)|constructor]|]. apply text_matches. exists x, []. rewrite app_nil_r. auto.
    + exists (c :: u), (d :: x). rewrite <- app_assoc. split; [reflexivity|]. apply exactly. exists [d], x. repeat split; auto.
      * constructor; [|constructor]. apply one_line_cons in L. rewrite <- app_assoc in L. apply one_line_app in L. destruct L as [_ L]. exact (dot_line _ _ L).
      * apply text_matches. exists x, []. rewrite app_nil_r. auto.
Qed.
Lemma later_matches w e s : one_line s -> (matches (Rep 0 None dot :: lits (lit w) ++ Rep 0 None dot :: Rep 1 (Some 0) dot :: lits (lit e) ++ [End]) s = true <-> mentions_and_ends_later w e s).
Proof.
  intros L. rewrite has_matches by exact L. unfold mentions_and_ends_later. split.
  - intros (u & x & v & -> & S1 & H). apply (ends_later e v (one_line_mid _ _ _ L)) in H. destruct H as (c & v' & -> & H). exists u, x, c, v'. auto.
  - intros (u & x & c & v & -> & S1 & H). exists u, x, (c :: v). split; [reflexivity|]. split; [exact S1|]. apply (ends_later e _ (one_line_mid _ _ _ L)). exists c, v. auto.
Qed.
