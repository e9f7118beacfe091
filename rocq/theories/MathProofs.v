(** Proofs for C49: broadcasting. *)
From Coq Require Import String.
From Verif Require Import Base PyStr QBase LonModel HeapModel HeapSpec MathModel MathSpec.
From Coq Require Import List Lia Arith.
Import ListNotations.
Open Scope string_scope. Open Scope list_scope. Open Scope nat_scope. Notation length := List.length.

Lemma size_volume s : size s = volume s. Proof. induction s as [|n s IH]; cbn; auto. Qed.
Lemma chunks_length {A} n k (l : list A) : length (chunks n k l) = n.
Proof. revert l. induction n as [|n IH]; intros l; cbn; auto. Qed.
Lemma flat_map_nth {A B} (f : A -> list B) k ls i j : Forall (fun x => length (f x) = k) ls -> i < length ls -> j < k ->
  nth_error (flat_map f ls) (i * k + j) = match nth_error ls i with Some x => nth_error (f x) j | None => None end.
Proof.
  revert i. induction ls as [|x ls IH]; intros i F Hi Hj; cbn [length] in *; [lia|]. apply Forall_cons_iff in F. destruct F as [F1 F]. cbn [flat_map]. destruct i as [|i]; cbn [nth_error].
  - rewrite nth_error_app1; [reflexivity|lia].
  - rewrite nth_error_app2 by lia. replace (S i * k + j - length (f x)) with (i * k + j) by lia. apply IH; auto. lia.
Qed.
Lemma skipn_skipn' {A} j k (l : list A) : skipn j (skipn k l) = skipn (k + j) l.
Proof. revert l. induction k as [|k IH]; intros [|x l]; cbn; auto. apply skipn_nil. Qed.
Lemma chunks_nth {A} n k (l : list A) i : i < n -> nth_error (chunks n k l) i = Some (firstn k (skipn (i * k) l)).
Proof.
  revert l i. induction n as [|n IH]; intros l i H; [lia|]. cbn [chunks]. destruct i as [|i]; cbn [nth_error]; [reflexivity|]. rewrite IH by lia. do 2 f_equal. rewrite skipn_skipn'. reflexivity.
Qed.
Lemma nth_error_firstn' {A} (l : list A) k j : j < k -> nth_error (firstn k l) j = nth_error l j.
Proof. revert l j. induction k as [|k IH]; intros [|x l] [|j] H; cbn; auto; try lia. apply IH. lia. Qed.
Lemma nth_error_skipn' {A} (l : list A) k j : nth_error (skipn k l) j = nth_error l (k + j).
Proof. revert k. induction l as [|x l IH]; intros [|k]; cbn; auto. destruct j; auto. Qed.
Lemma chunk_length {A} n k (l : list A) i : length l = n * k -> i < n -> length (firstn k (skipn (i * k) l)) = k.
Proof. intros H Hi. rewrite firstn_length, skipn_length, H. apply Nat.min_l. assert (n * k = (n - i) * k + i * k) by (rewrite <- Nat.mul_add_distr_r; f_equal; lia). assert (1 * k <= (n - i) * k) by (apply Nat.mul_le_mono_r; lia). lia. Qed.
Lemma chunks_all {A} n k (l : list A) : length l = n * k -> Forall (fun c => length c = k) (chunks n k l).
Proof.
  intros H. apply Forall_forall. intros c Hc. apply In_nth_error in Hc. destruct Hc as (i & Hi). assert (i < n). { rewrite <- (chunks_length n k l). apply nth_error_Some. congruence. } rewrite chunks_nth in Hi by auto. injection Hi as <-. eapply chunk_length; eauto.
Qed.
Lemma position_bound s : forall idx, inside s idx -> position s idx < volume s.
Proof.
  induction s as [|n s IH]; intros idx H; inversion H; subst; cbn [position volume fold_right]; [lia|]. match goal with H0 : Forall2 _ ?l _ |- _ => apply IH in H0 end. fold (volume s). assert (x * volume s + volume s <= n * volume s) by (replace (x * volume s + volume s) with (S x * volume s) by lia; apply Nat.mul_le_mono_r; lia). lia.
Qed.
(** axes of the same number *)
Lemma stretch_axes_length {A} t : forall s (l : list A), Forall2 (fun m n => m = n \/ m = 1) s t -> length l = volume s -> length (stretch_axes t s l) = volume t.
Proof.
  induction t as [|n t IH]; intros s l F L; inversion F as [|m n' s' t' H F']; subst; cbn [stretch_axes]; [auto|]. cbn [volume fold_right] in L. fold (volume s') in L. rewrite size_volume. destruct (m =? n) eqn:E.
  - apply Nat.eqb_eq in E. subst m. assert (G : forall ls, Forall (fun c : list A => length c = volume s') ls -> length (flat_map (stretch_axes t s') ls) = length ls * volume t). { induction ls as [|c ls IH']; intros Fc; [reflexivity|]. apply Forall_cons_iff in Fc. destruct Fc as [Fc1 Fc]. cbn [flat_map]. rewrite app_length, IH' by auto. rewrite IH by auto. cbn [length]. lia. }
    rewrite G by (apply chunks_all; auto). rewrite chunks_length. reflexivity.
  - apply Nat.eqb_neq in E. destruct H as [->| ->]; [lia|]. cbn [volume fold_right]. fold (volume t). assert (G : forall k, length (List.concat (repeat (stretch_axes t s' l) k)) = k * volume t). { induction k as [|k IHk]; [reflexivity|]. cbn [repeat List.concat]. rewrite app_length, IHk, IH; auto. lia. } apply G.
Qed.
Definition zeroed (shape idx : list nat) : list nat := map (fun ni : nat * nat => if fst ni =? 1 then 0 else snd ni) (combine shape idx).
Lemma concat_repeat_nth {A} (l : list A) n i j : i < n -> j < length l -> nth_error (List.concat (repeat l n)) (i * length l + j) = nth_error l j.
Proof. revert i. induction n as [|n IH]; intros i Hi Hj; [lia|]. cbn [repeat List.concat]. destruct i as [|i]; [rewrite nth_error_app1 by (cbn; lia); f_equal; lia|]. rewrite nth_error_app2 by lia. replace (S i * length l + j - length l) with (i * length l + j) by lia. apply IH; lia. Qed.
Lemma stretch_axes_nth {A} t : forall s (l : list A) idx, Forall2 (fun m n => m = n \/ m = 1) s t -> length l = volume s -> inside t idx -> nth_error (stretch_axes t s l) (position t idx) = nth_error l (position s (zeroed s idx)).
Proof.
  induction t as [|n t IH]; intros s l idx F L I; inversion F as [|m n' s' t' H F']; subst; inversion I as [|i n' idx' t' Hi I']; subst; cbn [stretch_axes position]; [auto|]. cbn [volume fold_right] in L. fold (volume s') in L. rewrite size_volume. pose proof (position_bound _ _ I') as B. destruct (m =? n) eqn:E.
  - apply Nat.eqb_eq in E. subst m. rewrite flat_map_nth; auto; [|eapply Forall_impl; [|apply chunks_all; exact L]; cbn; intros c Hc; apply stretch_axes_length; auto|rewrite chunks_length; auto].
    rewrite chunks_nth by auto. rewrite IH; auto; [|eapply chunk_length; eauto]. unfold zeroed. cbn [combine map position fst snd]. fold (zeroed s' idx'). destruct (n =? 1) eqn:E1.
    + apply Nat.eqb_eq in E1. assert (i = 0) by lia. subst i. cbn [Nat.mul skipn Nat.add]. rewrite nth_error_firstn'; [reflexivity|]. assert (Z : inside s' (zeroed s' idx')). { clear - F' I'. revert idx' I'. induction F' as [|m n s t H F IH]; intros idx I; inversion I; subst; unfold zeroed; cbn; [constructor|]. constructor; [|apply IH; auto]. destruct (m =? 1) eqn:E; [apply Nat.eqb_eq in E; lia|]. apply Nat.eqb_neq in E. destruct H; subst; auto; lia. } apply position_bound; auto.
    + rewrite nth_error_firstn'; [rewrite nth_error_skipn'; reflexivity|]. assert (Z : inside s' (zeroed s' idx')). { clear - F' I'. revert idx' I'. induction F' as [|m n s t H F IH]; intros idx I; inversion I; subst; unfold zeroed; cbn; [constructor|]. constructor; [|apply IH; auto]. destruct (m =? 1) eqn:E; [apply Nat.eqb_eq in E; lia|]. apply Nat.eqb_neq in E. destruct H; subst; auto; lia. } apply position_bound; auto.
  - apply Nat.eqb_neq in E. destruct H as [->| ->]; [lia|]. rewrite Nat.mul_1_l in L. rewrite <- (stretch_axes_length t s' l F') by lia. rewrite concat_repeat_nth; [|auto|rewrite stretch_axes_length; auto; lia]. rewrite IH by (auto; lia). unfold zeroed. cbn. reflexivity.
Qed.
(** padding with axes of length 1 *)
Lemma volume_pad k s : volume (repeat 1 k ++ s) = volume s.
Proof. induction k as [|k IH]; cbn [repeat app volume fold_right]; auto. fold (volume (repeat 1 k ++ s)). lia. Qed.
Lemma zeroed_pad k s idx : length idx = k + length s -> position (repeat 1 k ++ s) (zeroed (repeat 1 k ++ s) idx) = position s (zeroed s (skipn k idx)).
Proof. revert idx. induction k as [|k IH]; intros idx H; [reflexivity|]. destruct idx as [|i idx]; cbn in H; [lia|]. cbn [repeat app skipn]. unfold zeroed. cbn [combine map position fst snd]. cbn [Nat.eqb Nat.mul Nat.add]. apply IH. lia. Qed.
Lemma pad_fits s t : fits s t -> Forall2 (fun m n => m = n \/ m = 1) (repeat 1 (length t - length s) ++ s) t.
Proof.
  intros [L F]. rewrite <- (firstn_skipn (length t - length s) t) at 2. apply Forall2_app; auto. assert (G : forall u, Forall2 (fun m n => m = n \/ m = 1) (repeat 1 (length u)) u) by (induction u as [|x u IH]; cbn; constructor; auto).
  pose proof (G (firstn (length t - length s) t)) as G1. rewrite firstn_length in G1. rewrite Nat.min_l in G1 by lia. exact G1.
Qed.
Lemma inside_length s idx : inside s idx -> length idx = length s.
Proof. unfold inside. induction 1; cbn; auto. Qed.
Lemma stretch_length {A} s t (l : list A) : fits s t -> length l = volume s -> length (stretch t s l) = volume t.
Proof. intros F L. unfold stretch. apply stretch_axes_length; [apply pad_fits; auto|rewrite volume_pad; auto]. Qed.
Lemma stretch_nth {A} s t (l : list A) idx : fits s t -> length l = volume s -> inside t idx -> nth_error (stretch t s l) (position t idx) = nth_error l (position s (against s idx)).
Proof.
  intros F L I. unfold stretch. rewrite stretch_axes_nth; [|apply pad_fits; auto|rewrite volume_pad; auto|auto]. pose proof (inside_length _ _ I) as Li. destruct F as [Lf F]. rewrite zeroed_pad by lia. unfold against. rewrite Li. reflexivity.
Qed.
Lemma fits_refl s : fits s s.
Proof. split; [lia|]. rewrite Nat.sub_diag. cbn. induction s; constructor; auto. Qed.
Lemma against_self s idx : inside s idx -> against s idx = idx.
Proof. intros I. unfold against. rewrite (inside_length _ _ I), Nat.sub_diag. cbn [skipn]. induction I as [|i n idx s H I IH]; cbn; auto. rewrite IH. destruct (n =? 1) eqn:E; auto. apply Nat.eqb_eq in E. f_equal. lia. Qed.
(** the common shape is that of the data exactly if the other fits *)
Lemma broadcast_rev_left a : forall b, broadcast_rev a b = Some a <-> length b <= length a /\ Forall2 (fun m n => m = n \/ m = 1) b (firstn (length b) a).
Proof.
  induction a as [|x a IH]; intros [|y b]; cbn [broadcast_rev length firstn]; try (split; [intros _; split; [lia|constructor]|reflexivity]); [split; [discriminate|intros [H _]; lia]|].
  split.
  - destruct (broadcast_rev a b) as [s|] eqn:E; [|discriminate]. destruct (x =? y) eqn:E1; [|destruct (x =? 1) eqn:E2; [|destruct (y =? 1) eqn:E3; [|discriminate]]].
    + intros H. injection H as ->. apply Nat.eqb_eq in E1. apply IH in E. destruct E as [E F]. split; [lia|]. constructor; auto.
    + intros H. injection H as -> ->. apply Nat.eqb_neq in E1. lia.
    + intros H. injection H as ->. apply Nat.eqb_eq in E3. apply IH in E. destruct E as [E F]. split; [lia|]. constructor; auto.
  - intros [L F]. inversion F as [|? ? ? ? H F']; subst. assert (E : broadcast_rev a b = Some a) by (apply IH; split; auto; lia). rewrite E. destruct H as [->| ->]; [rewrite Nat.eqb_refl; reflexivity|]. destruct (x =? 1) eqn:E1; [reflexivity|]. reflexivity.
Qed.
Lemma forall2_rev {A B} (R : A -> B -> Prop) a b : Forall2 R a b -> Forall2 R (rev a) (rev b).
Proof. induction 1; cbn; [constructor|]. apply Forall2_app; auto. Qed.
Lemma broadcast_fits s o : broadcast_shape s o = Some s <-> fits o s.
Proof.
  unfold broadcast_shape, fits. transitivity (broadcast_rev (rev s) (rev o) = Some (rev s)).
  - destruct (broadcast_rev (rev s) (rev o)) as [r|]; cbn; [|split; discriminate]. split; intros H; injection H as H; [rewrite <- H, rev_involutive; reflexivity|rewrite H, rev_involutive; reflexivity].
  - rewrite broadcast_rev_left, !rev_length. assert (E : firstn (length o) (rev s) = rev (skipn (length s - length o) s)) by apply firstn_rev. rewrite E. split; intros [L F]; split; auto.
    + apply forall2_rev in F. rewrite !rev_involutive in F. exact F.
    + apply forall2_rev. exact F.
Qed.
Lemma shape_eqb_eq a b : shape_eqb a b = true <-> a = b.
Proof. unfold shape_eqb. destruct (list_eq_dec Nat.eq_dec a b); split; congruence. Qed.
Lemma nth_error_combine {A B} (a : list A) (b : list B) i : nth_error (combine a b) i = match nth_error a i, nth_error b i with Some x, Some y => Some (x, y) | _, _ => None end.
Proof. revert b i. induction a as [|x a IH]; intros [|y b] [|i]; cbn; auto. destruct (nth_error a i); auto. Qed.
Lemma nth_error_lt {A} (l : list A) i : i < length l -> exists x, nth_error l i = Some x.
Proof. intros H. apply nth_error_Some in H. destruct (nth_error l i); [eauto|congruence]. Qed.
Lemma zeroed_inside s t idx : fits s t -> inside t idx -> inside s (against s idx).
Proof.
  intros [L F] I. unfold against. rewrite (inside_length _ _ I). assert (I2 : inside (skipn (length t - length s) t) (skipn (length t - length s) idx)). { clear - I. remember (length t - length s) as k. clear Heqk. revert t idx I. induction k as [|k IH]; intros t idx I; auto. inversion I; subst; cbn; [constructor|]. apply IH; auto. }
  revert F I2. generalize (skipn (length t - length s) t) (skipn (length t - length s) idx). clear. intros t idx F. revert idx. induction F as [|m n s t H F IH]; intros idx I; inversion I; subst; cbn; [constructor|]. constructor; [|apply IH; auto]. destruct (m =? 1) eqn:E; [apply Nat.eqb_eq in E; lia|]. apply Nat.eqb_neq in E. destruct H; subst; auto; lia.
Qed.
Theorem elementwise_ok op s o a : whole a -> whole o -> fits (fst o) (fst a) -> s = fst a -> exists r, elementwise op s o a = Ok r /\ combined op a o r.
Proof.
  intros Wa Wo F ->. unfold elementwise. apply broadcast_fits in F as F'. rewrite F'. assert (E : shape_eqb (fst a) (fst a) = true) by (apply shape_eqb_eq; auto). rewrite E. eexists. split; [reflexivity|].
  pose proof (stretch_length (fst a) (fst a) (snd a) (fits_refl _) Wa) as L1. pose proof (stretch_length (fst o) (fst a) (snd o) F Wo) as L2. split; [reflexivity|]. split.
  - unfold whole. cbn [fst snd]. rewrite map_length, combine_length, L1, L2. lia.
  - intros idx I. pose proof (position_bound _ _ I) as B. unfold element. cbn [fst snd]. rewrite nth_error_map, nth_error_combine. rewrite (stretch_nth (fst a) (fst a)), (stretch_nth (fst o) (fst a)) by (auto using fits_refl). rewrite (against_self (fst a)) by auto.
    destruct (nth_error_lt (snd a) (position (fst a) idx)) as (x & Ex); [rewrite Wa; auto|]. destruct (nth_error_lt (snd o) (position (fst o) (against (fst o) idx))) as (y & Ey); [rewrite Wo; apply position_bound, (zeroed_inside _ (fst a)); auto|]. exists x, y. rewrite Ex, Ey. auto.
Qed.
Theorem elementwise_refused op o a : ~ fits (fst o) (fst a) -> elementwise op (fst a) o a = Raises ValueError.
Proof.
  intros N. unfold elementwise. destruct (broadcast_shape (fst a) (fst o)) as [s|] eqn:E; [|reflexivity]. destruct (shape_eqb (fst a) s) eqn:E2; [|reflexivity]. apply shape_eqb_eq in E2. subst s. apply broadcast_fits in E. contradiction.
Qed.
Lemma elementwise_shape op s o a r : elementwise op s o a = Ok r -> fst r = s.
Proof. unfold elementwise. destruct (broadcast_shape (fst a) (fst o)); [|discriminate]. destruct (shape_eqb s l) eqn:E; [|discriminate]. apply shape_eqb_eq in E. subst l. intros H. injection H as <-. reflexivity. Qed.
(** an operation on equal shapes, or with a number, is elementwise in the plain sense *)
