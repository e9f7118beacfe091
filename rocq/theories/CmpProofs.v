(** Proofs for C88. *)
From Coq Require Import String.
From Verif Require Import Base PyStr QBase UtilModel CmpModel CmpSpec.
From Coq Require Import List Lia.
Import ListNotations.
Open Scope string_scope. Open Scope list_scope. Open Scope Q_scope. Notation length := List.length.

(** *** elements *)
Lemma nth_error_combine {A B} (l : list A) (m : list B) : forall i a b, nth_error (combine l m) i = Some (a, b) <-> nth_error l i = Some a /\ nth_error m i = Some b.
Proof.
  revert m. induction l as [|x l IH]; intros m i a b; [destruct i; cbn; split; [discriminate|intros [H _]; discriminate H|discriminate|intros [H _]; discriminate H]|].
  destruct m as [|y m]; [cbn [combine]; split; [destruct i; discriminate|intros [_ H]; destruct i; discriminate H]|]. destruct i as [|i]; cbn [combine nth_error]; [|apply IH]. split; [intros [= <- <-]; auto|intros [[= <-] [= <-]]; reflexivity].
Qed.
Lemma holds_iff a i v : holds a i v <-> nth_error (cells a) i = Some v.
Proof.
  unfold cells. rewrite nth_error_map. split.
  - intros [x H M|x H M]; rewrite (proj2 (nth_error_combine _ _ _ _ _) (conj H M)); reflexivity.
  - destruct (nth_error (combine _ _) i) as [[x m]|] eqn:E; [|discriminate]. apply nth_error_combine in E. destruct E as [H M]. cbn [option_map fst snd]. intros [= <-]. destruct m; econstructor; eassumption.
Qed.
Lemma cells_length a : good a -> length (cells a) = length (an_data (n_arr a)).
Proof. intros [_ H]. unfold cells. rewrite map_length, combine_length, H. apply Nat.min_id. Qed.
Lemma scatter_ok x d : good x -> good d ->
  (length (an_data (n_arr x)) = length (an_data (n_arr d)) -> exists l, scatter_plot x d = Ok l /\ length l = length (an_data (n_arr d)) /\ forall i u v, nth_error l i = Some (u, v) <-> holds x i u /\ holds d i v) /\
  (length (an_data (n_arr x)) <> length (an_data (n_arr d)) -> scatter_plot x d = Raises ValueError).
Proof.
  intros G H. unfold scatter_plot, points_drawn. rewrite (cells_length x G), (cells_length d H). split; intros E.
  - rewrite E, Nat.eqb_refl. eexists. split; [reflexivity|]. split; [rewrite combine_length, (cells_length x G), (cells_length d H), E; apply Nat.min_id|]. intros i u v. rewrite nth_error_combine, !holds_iff. reflexivity.
  - apply Nat.eqb_neq in E. rewrite E. reflexivity.
Qed.
Lemma coordinate_refused a y : good a -> (1 < length (an_data (n_arr a)))%nat -> comparative_scatter (XCoord a) y = Raises ValueError /\ comparative_scatter (XIris a) y = Raises ValueError.
Proof.
  intros G H. rewrite <- (cells_length a G) in H. assert (T : truth a = Raises ValueError). { unfold truth. destruct (cells a) as [|c [|c' l]]; cbn in H; try lia. destruct c; reflexivity. } unfold comparative_scatter, x_values. rewrite T. split; reflexivity.
Qed.
Lemma transposed x y n m : (2 <= n)%nat -> (2 <= m)%nat -> good x -> good y -> n_shape x = [n; m] -> n_shape y = [m; n] ->
  exists l u v, comparative_scatter (XData x) y = Ok l /\ nth_error l 1 = Some (u, v) /\ holds x (0 * m + 1) u /\ holds y (0 * n + 1) v.
Proof.
  intros N M G H E F. destruct (scatter_ok x y G H) as [A _]. destruct G as [G1 G2], H as [H1 H2]. rewrite E in G1. rewrite F in H1. cbn in G1, H1. rewrite !Nat.mul_1_r in G1, H1.
  destruct A as (l & S1 & L & P); [rewrite G1, H1; apply Nat.mul_comm|]. destruct (nth_error l 1) as [[u v]|] eqn:K; [|apply nth_error_None in K; rewrite L, H1 in K; nia]. exists l, u, v. split; [exact S1|]. split; [exact K|]. apply P. exact K.
Qed.
(** *** the diagonal *)
Lemma min2_spec a b : min2 a b <= a /\ min2 a b <= b /\ (min2 a b = a \/ min2 a b = b).
Proof. unfold min2. destruct (Qleb_spec a b); repeat split; auto; lra. Qed.
Lemma max2_spec a b : a <= max2 a b /\ b <= max2 a b /\ (max2 a b = a \/ max2 a b = b).
Proof. unfold max2. destruct (Qleb_spec a b); repeat split; auto; lra. Qed.
Lemma diagonal_ok ax p q ax' : plot_xy_line ax = (p, q, ax') -> x_lim ax' = x_lim ax /\ y_lim ax' = y_lim ax /\ fst p = snd p /\ fst q = snd q /\ (forall v, between (x_lim ax) v \/ between (y_lim ax) v -> fst p <= v <= fst q) /\
  (forall v, v = fst p \/ v = fst q -> between (x_lim ax) v \/ between (y_lim ax) v).
Proof.
  unfold plot_xy_line. cbn [set_autoscale_on x_lim y_lim autoscale plot_segment]. destruct ax as [[a b] [c d] s]. cbn [x_lim y_lim fst snd]. intros [= <- <- <-]. cbn [x_lim y_lim fst snd set_autoscale_on plot_segment autoscale].
  do 4 (split; [reflexivity|]). unfold between. cbn [fst snd].
  pose proof (min2_spec a b) as (A1 & A2 & A3). pose proof (min2_spec c d) as (B1 & B2 & B3). pose proof (min2_spec (min2 a b) (min2 c d)) as (C1 & C2 & C3). pose proof (max2_spec a b) as (D1 & D2 & D3). pose proof (max2_spec c d) as (E1 & E2 & E3). pose proof (max2_spec (max2 a b) (max2 c d)) as (F1 & F2 & F3).
  split; [intros v [[H|H]|[H|H]]; lra|]. intros v [-> | ->].
  - destruct C3 as [-> | ->]; [left; destruct A3 as [-> | ->]|right; destruct B3 as [-> | ->]]; lra.
  - destruct F3 as [-> | ->]; [left; destruct D3 as [-> | ->]|right; destruct E3 as [-> | ->]]; lra.
Qed.
(** *** bins *)
Definition edge (lo hi : Q) (n i : nat) : Q := lo + inject_Z (Z.of_nat i) * ((hi - lo) / inject_Z (Z.of_nat n)).
Lemma nat_pos n : (0 < n)%nat -> 0 < inject_Z (Z.of_nat n).
Proof. intros H. change 0 with (inject_Z 0). rewrite <- Zlt_Qlt. lia. Qed.
Lemma edge_part lo hi n i : (0 < n)%nat -> edge lo hi n i == part_edge lo hi n i.
Proof. intros H. apply nat_pos in H. unfold edge, part_edge. field. lra. Qed.
Lemma edge_0 lo hi n : edge lo hi n 0 == lo.
Proof. unfold edge. change (inject_Z (Z.of_nat 0)) with 0. ring. Qed.
Lemma edge_n lo hi n : (0 < n)%nat -> edge lo hi n n == hi.
Proof. intros H. apply nat_pos in H. unfold edge. field. lra. Qed.
Lemma edge_mono lo hi n i j : (0 < n)%nat -> lo < hi -> (i < j)%nat -> edge lo hi n i < edge lo hi n j.
Proof.
  intros H L IJ. unfold edge. assert (W : 0 < (hi - lo) / inject_Z (Z.of_nat n)) by (apply Qlt_shift_div_l; [apply nat_pos; exact H|lra]). replace (Z.of_nat j) with (Z.of_nat i + Z.of_nat (j - i))%Z by lia. rewrite inject_Z_plus.
  assert (0 < inject_Z (Z.of_nat (j - i)) * ((hi - lo) / inject_Z (Z.of_nat n))) by (apply Qmult_lt_0_compat; [apply nat_pos; lia|exact W]). lra.
Qed.
Lemma edge_mono_le lo hi n i j : (0 < n)%nat -> lo < hi -> (i <= j)%nat -> edge lo hi n i <= edge lo hi n j.
Proof. intros H L IJ. destruct (Nat.eq_dec i j) as [->|N]; [lra|]. apply Qlt_le_weak. apply edge_mono; auto. lia. Qed.
Lemma ssr (f : nat -> Q) x : forall m j, let k := searchsorted_right (map f (seq j m)) x in (k <= m)%nat /\ (forall i, (i < k)%nat -> f (j + i)%nat <= x) /\ ((k < m)%nat -> x < f (j + k)%nat).
Proof.
  induction m as [|m IH]; intros j; cbn [seq map searchsorted_right]; [split; [lia|split; intros; lia]|]. destruct (Qleb_spec (f j) x) as [H|H].
  - destruct (IH (S j)) as (A & B & C). split; [lia|]. split.
    + intros [|i] I; [rewrite Nat.add_0_r; exact H|]. replace (j + S i)%nat with (S j + i)%nat by lia. apply B. lia.
    + intros I. match goal with |- x < f ?z => replace z with (S j + searchsorted_right (map f (seq (S j) m)) x)%nat by lia end. apply C. lia.
  - split; [lia|]. split; [intros; lia|]. intros _. rewrite Nat.add_0_r. lra.
Qed.
Lemma bin_spec lo hi n x : (0 < n)%nat -> lo < hi -> lo <= x <= hi -> in_part lo hi n (bin_of (edges n (lo, hi)) hi x) x.
Proof.
  intros N L X. unfold bin_of, edges. cbn [fst snd]. change (fun i => lo + inject_Z (Z.of_nat i) * ((hi - lo) / inject_Z (Z.of_nat n))) with (edge lo hi n). pose proof (ssr (edge lo hi n) x (S n) 0) as (A & B & C). cbn [Nat.add] in *. set (k := searchsorted_right _ x) in *.
  pose proof (edge_n lo hi n N) as EN. pose proof (edge_0 lo hi n) as E0.
  assert (K : (1 <= k)%nat). { destruct (Nat.eq_dec k 0) as [Z|Z]; [|lia]. rewrite Z in C. specialize (C ltac:(lia)). lra. }
  unfold in_part. destruct (Qeqb_spec x hi) as [E|E].
  - assert (K2 : k = S n). { destruct (Nat.eq_dec k (S n)) as [Z|Z]; [exact Z|]. specialize (C ltac:(lia)). pose proof (edge_mono_le lo hi n k n N L ltac:(lia)). lra. }
    rewrite K2. replace (S n - 2)%nat with (n - 1)%nat by lia. split; [lia|]. split; [|right; split; [lia|exact E]]. rewrite <- edge_part by exact N. pose proof (edge_mono_le lo hi n (n - 1) n N L ltac:(lia)). lra.
  - assert (K2 : (k <= n)%nat). { destruct (Nat.le_gt_cases k n) as [Z|Z]; [exact Z|]. specialize (B n Z). lra. }
    split; [lia|]. rewrite <- !edge_part by exact N. split; [apply B; lia|]. left. replace (S (k - 1))%nat with k by lia. apply C. lia.
Qed.
Lemma in_part_fun lo hi n i j x : (0 < n)%nat -> lo < hi -> in_part lo hi n i x -> in_part lo hi n j x -> i = j.
Proof.
  intros N L. assert (G : forall i j, (i < j)%nat -> in_part lo hi n i x -> in_part lo hi n j x -> False).
  { clear i j. intros i j IJ (I1 & I2 & I3) (J1 & J2 & J3). rewrite <- edge_part in * by exact N. pose proof (edge_mono_le lo hi n (S i) j N L ltac:(lia)) as M. destruct I3 as [I3|[I3 _]]; [|lia]. lra. }
  intros A B. destruct (Nat.lt_trichotomy i j) as [C|[C|C]]; [exfalso; eauto|exact C|exfalso; eauto].
Qed.
Lemma fold_min2 l : forall x, fold_left min2 l x <= x /\ (forall y, In y l -> fold_left min2 l x <= y) /\ In (fold_left min2 l x) (x :: l).
Proof.
  induction l as [|a l IH]; intros x; cbn [fold_left]; [split; [lra|split; [intros y []|left; reflexivity]]|]. destruct (IH (min2 x a)) as (A & B & C). destruct (min2_spec x a) as (M1 & M2 & M3).
  split; [lra|]. split; [intros y [<-|Hy]; [lra|auto]|]. destruct C as [C|C]; [destruct M3 as [M3|M3]; rewrite <- C, M3; cbn; auto|right; right; exact C].
Qed.
Lemma fold_max2 l : forall x, x <= fold_left max2 l x /\ (forall y, In y l -> y <= fold_left max2 l x) /\ In (fold_left max2 l x) (x :: l).
Proof.
  induction l as [|a l IH]; intros x; cbn [fold_left]; [split; [lra|split; [intros y []|left; reflexivity]]|]. destruct (IH (max2 x a)) as (A & B & C). destruct (max2_spec x a) as (M1 & M2 & M3).
  split; [lra|]. split; [intros y [<-|Hy]; [lra|auto]|]. destruct C as [C|C]; [destruct M3 as [M3|M3]; rewrite <- C, M3; cbn; auto|right; right; exact C].
Qed.
Lemma range_ext (P R : Q -> Prop) lo hi : (forall x, P x <-> R x) -> range_of P lo hi -> range_of R lo hi.
Proof. intros E (A & B & C). split; [exact A|]. split; [intros x H; apply B, E, H|]. intros (x & y & X & Y & L). rewrite <- !E. apply C. exists x, y. rewrite !E. auto. Qed.
Lemma outer_ok l : range_of (fun x => In x l) (fst (outer l)) (snd (outer l)).
Proof.
  unfold outer, lowest, highest. destruct l as [|a l]; [cbn; split; [reflexivity|split; [intros x []|intros (x & y & [] & _)]]|]. destruct (fold_min2 l a) as (A & B & C). destruct (fold_max2 l a) as (D & E & F). set (lo := fold_left min2 l a) in *. set (hi := fold_left max2 l a) in *.
  assert (AB : forall x, In x (a :: l) -> lo <= x <= hi). { intros x [<-|H]; [lra|]. specialize (B x H). specialize (E x H). lra. }
  destruct (Qeqb_spec lo hi) as [EQ|NE]; cbn [fst snd]; split; [lra|split|lra|split; [exact AB|auto]].
  - intros x H. specialize (AB x H). lra.
  - intros (x & y & X & Y & L). apply AB in X, Y. lra.
Qed.
(** *** counting *)
Lemma counted_filter {A} (P : A -> Prop) f l : (forall a, In a l -> (f a = true <-> P a)) -> counted P l (count_if f l).
Proof.
  unfold count_if. induction l as [|a l IH]; intros H; [constructor|]. cbn [filter]. destruct (f a) eqn:E; [cbn [length]; apply counted_yes; [apply H; cbn; auto|apply IH; intros; apply H; cbn; auto]|].
  apply counted_no; [intros C; apply H in C; [congruence|cbn; auto]|apply IH; intros; apply H; cbn; auto].
Qed.
Lemma counted_ext {A} (P R : A -> Prop) l n : (forall a, In a l -> (P a <-> R a)) -> counted P l n -> counted R l n.
Proof.
  intros H C. induction C as [|a l n Y C IH|a l n N C IH]; [constructor|apply counted_yes; [apply H; cbn; auto|apply IH; intros; apply H; cbn; auto]|apply counted_no; [rewrite <- H; cbn; auto|apply IH; intros; apply H; cbn; auto]].
Qed.
Lemma counted_map {A B} (g : A -> B) (P : B -> Prop) l n : counted (fun a => P (g a)) l n -> counted P (map g l) n.
Proof. induction 1; cbn [map]; [constructor|apply counted_yes; auto|apply counted_no; auto]. Qed.
Lemma counted_places {A} (P : A -> Prop) (l : list A) n : counted P l n -> counted (fun i => exists a, nth_error l i = Some a /\ P a) (seq 0 (length l)) n.
Proof.
  induction 1 as [|a l n Y C IH|a l n N C IH]; cbn [length seq]; [constructor| |]; rewrite <- seq_shift.
  - apply counted_yes; [exists a; auto|]. apply counted_map. exact IH.
  - apply counted_no; [intros (b & [= <-] & H); contradiction|]. apply counted_map. exact IH.
Qed.
Lemma counted_flat {A B} (g : A -> list B) (P : B -> Prop) (R : A -> Prop) : (forall a, (g a = [] /\ ~ R a) \/ exists b, g a = [b] /\ (R a <-> P b)) -> forall l n, counted P (flat_map g l) n -> counted R l n.
Proof.
  intros H. induction l as [|a l IH]; intros n C; cbn [flat_map] in C; [inversion C; constructor|]. destruct (H a) as [[E N]|(b & E & I)]; rewrite E in C; cbn [app] in C; [apply counted_no; auto|].
  inversion C; subst; [apply counted_yes; [apply I; assumption|auto]|apply counted_no; [rewrite I; assumption|auto]].
Qed.
Lemma count_cons {A} (f : A -> bool) a l : count_if f (a :: l) = ((if f a then 1 else 0) + count_if f l)%nat.
Proof. unfold count_if. cbn [filter]. destruct (f a); reflexivity. Qed.
Lemma total_cons a l : total (a :: l) = (a + total l)%nat.
Proof. reflexivity. Qed.
Lemma total_plus {A} (f g : A -> nat) l : total (map (fun i => f i + g i)%nat l) = (total (map f l) + total (map g l))%nat.
Proof. induction l as [|a l IH]; [reflexivity|]. unfold total in *. cbn [map fold_right]. rewrite IH. lia. Qed.
Lemma total_one (b : bool) k n : forall j, (j <= k < j + n)%nat -> total (map (fun i => if (k =? i)%nat && b then 1 else 0)%nat (seq j n)) = (if b then 1 else 0)%nat.
Proof.
  assert (Z : forall n j, (k < j)%nat -> total (map (fun i => if (k =? i)%nat && b then 1 else 0)%nat (seq j n)) = 0%nat).
  { clear n. induction n as [|n IH]; intros j H; [reflexivity|]. cbn [seq map]. rewrite total_cons. replace (k =? j)%nat with false by (symmetry; apply Nat.eqb_neq; lia). cbn [andb]. apply IH. lia. }
  induction n as [|n IH]; intros j H; [lia|]. cbn [seq map]. rewrite total_cons. destruct (Nat.eqb_spec k j) as [->|N].
  - rewrite (Z n (S j)) by lia. cbn [andb]. lia.
  - cbn [andb]. apply IH. lia.
Qed.
Lemma total_zero {A} (l : list A) : total (map (fun _ => 0%nat) l) = 0%nat.
Proof. induction l as [|a l IH]; [reflexivity|exact IH]. Qed.
Lemma count_split {A} (f : A -> nat) (g : A -> bool) (l : list A) n : (forall a, In a l -> (f a < n)%nat) -> total (map (fun i => count_if (fun a => (f a =? i)%nat && g a) l) (seq 0 n)) = count_if g l.
Proof.
  induction l as [|a l IH]; intros H; [apply total_zero|]. rewrite (map_ext _ _ (fun i => count_cons (fun a => (f a =? i)%nat && g a) a l)), total_plus, count_cons, IH by (intros; apply H; cbn; auto). f_equal. apply total_one. specialize (H a ltac:(cbn; auto)). lia.
Qed.
Lemma count_all {A} (l : list A) : count_if (fun _ => true) l = length l.
Proof. unfold count_if. induction l as [|a l IH]; [reflexivity|]. cbn. f_equal. exact IH. Qed.
Lemma count_ext {A} (f g : A -> bool) l : (forall a, In a l -> f a = g a) -> count_if f l = count_if g l.
Proof. intros H. unfold count_if. f_equal. apply filter_ext_in. exact H. Qed.
(** *** histograms *)
Definition takes (c : option Q) : list Q := match c with Some q => [q] | None => [] end.
Lemma compressed_in a x : In x (compressed a) <-> exists i, holds a i (Some x).
Proof.
  unfold compressed. rewrite in_flat_map. split.
  - intros (c & H & I). destruct c as [q|]; [|destruct I]. destruct I as [->|[]]. apply In_nth_error in H. destruct H as (i & H). exists i. apply holds_iff. exact H.
  - intros (i & H). apply holds_iff in H. exists (Some x). split; [eapply nth_error_In; exact H|left; reflexivity].
Qed.
Lemma counted_compressed a (P : Q -> Prop) n : good a -> counted P (compressed a) n -> counted (fun i => exists x, holds a i (Some x) /\ P x) (places a) n.
Proof.
  intros G C. unfold compressed in C. apply (counted_flat _ P (fun c => exists x, c = Some x /\ P x)) in C.
  - apply counted_places in C. rewrite (cells_length a G) in C. eapply counted_ext; [|exact C]. intros i _. cbn beta. split.
    + intros (c & H & x & -> & X). exists x. split; [apply holds_iff; exact H|exact X].
    + intros (x & H & X). exists (Some x). split; [apply holds_iff; exact H|eauto].
  - intros [q|]; [right; exists q; split; [reflexivity|]; split; [intros (x & [= <-] & X); exact X|eauto]|left; split; [reflexivity|intros (x & E & _); discriminate E]].
Qed.
Lemma edges_nth n lo hi i : (i <= n)%nat -> nth_error (edges n (lo, hi)) i = Some (edge lo hi n i).
Proof.
  intros H. unfold edges. cbn [fst snd]. rewrite nth_error_map, (nth_error_nth' _ 0%nat) by (rewrite seq_length; lia). rewrite seq_nth by lia. reflexivity.
Qed.
Lemma bin_iff n l x i : (0 < n)%nat -> In x l -> ((bin_in n l x =? i)%nat = true <-> in_part (fst (outer l)) (snd (outer l)) n i x).
Proof.
  intros N H. destruct (outer_ok l) as (L & B & _). specialize (B x H). unfold bin_in. destruct (outer l) as [lo hi]. cbn [fst snd] in *. pose proof (bin_spec lo hi n x N L B) as S1. rewrite Nat.eqb_eq. split; [intros <-; exact S1|]. intros S2. eapply in_part_fun; eassumption.
Qed.
Lemma bin_lt n l x : (0 < n)%nat -> In x l -> (bin_in n l x < n)%nat.
Proof. intros N H. pose proof (proj1 (bin_iff n l x _ N H) (Nat.eqb_refl _)) as (A & _). exact A. Qed.
Lemma histogram_ok n a : (0 < n)%nat -> good a -> exists h es lo hi, histogram (Z.of_nat n) a = Ok (h, es) /\ range_of (fun x => exists i, holds a i (Some x)) lo hi /\
  length h = n /\ length es = S n /\ (forall i, (i <= n)%nat -> exists e, nth_error es i = Some e /\ e == part_edge lo hi n i) /\
  (forall i c, nth_error h i = Some c -> counted (fun p => exists x, holds a p (Some x) /\ in_part lo hi n i x) (places a) c) /\
  (forall p x, holds a p (Some x) -> exists! i, in_part lo hi n i x) /\ counted (fun p => exists x, holds a p (Some x)) (places a) (total h).
Proof.
  intros N G. unfold histogram. destruct (Z.leb_spec (Z.of_nat n) 0) as [Z|Z]; [lia|]. rewrite Nat2Z.id. set (l := compressed a). pose proof (outer_ok l) as RO. destruct (outer l) as [lo hi] eqn:EO. cbn [fst snd] in RO. eexists _, _, lo, hi. split; [reflexivity|].
  assert (R' : range_of (fun x => exists i, holds a i (Some x)) lo hi). { eapply range_ext; [|exact RO]. intros x. apply compressed_in. }
  split; [exact R'|]. split; [rewrite map_length, seq_length; reflexivity|]. split; [unfold edges; rewrite map_length, seq_length; reflexivity|].
  split; [intros i I; exists (edge lo hi n i); split; [apply edges_nth; exact I|apply edge_part; exact N]|]. split; [|split].
  - intros i c H. rewrite nth_error_map in H. destruct (nth_error (seq 0 n) i) as [j|] eqn:E; [|discriminate]. injection H as <-.
    assert (j = i) as ->. { assert (I : (i < n)%nat) by (rewrite <- (seq_length n 0); apply nth_error_Some; congruence). rewrite (nth_error_nth' _ 0%nat) in E by (rewrite seq_length; exact I). rewrite seq_nth in E by exact I. injection E as <-. reflexivity. }
    apply counted_compressed; [exact G|]. apply counted_filter. intros x H. fold l in H. rewrite (bin_iff n l x i N H), EO. reflexivity.
  - intros p x H. assert (I : In x l) by (apply compressed_in; eauto). exists (bin_in n l x). split; [pose proof (proj1 (bin_iff n l x _ N I) (Nat.eqb_refl _)) as S1; rewrite EO in S1; exact S1|].
    intros j J. assert (S2 : (bin_in n l x =? j)%nat = true) by (apply bin_iff; [exact N|exact I|rewrite EO; exact J]). apply Nat.eqb_eq. exact S2.
  - rewrite (map_ext _ (fun i => count_if (fun x => (bin_in n l x =? i)%nat && true) l)) by (intros i; apply count_ext; intros x _; rewrite andb_true_r; reflexivity).
    rewrite count_split by (intros x H; apply bin_lt; auto). eapply counted_ext; [|apply counted_compressed; [exact G|]; apply (counted_filter (fun _ => True)); intros; split; auto]. intros i _. split; [intros (x & H & _); eauto|intros (x & H); eauto].
Qed.
Lemma bar_styles s : (In s [lit "bar"; lit "step"; lit "stepfilled"] -> histogram_style (Some s) = Ok (Some s)) /\ (s <> [] -> ~ In s [lit "bar"; lit "step"; lit "stepfilled"] -> histogram_style (Some s) = Raises InvalidHistogramStyleError).
Proof.
  split; [intros [<-|[<-|[<-|[]]]]; reflexivity|]. intros N H. unfold histogram_style. destruct s as [|c s]; [contradiction|]. destruct (existsb _ _) eqn:E; [|reflexivity]. apply existsb_exists in E. destruct E as (t & I & E). apply str_eqb_eq in E. subst t. contradiction.
Qed.
Lemma line_styles s : (In s [lit "solid"; lit "dashed"; lit "dashdot"; lit "dotted"] -> line_style (Some s) = Ok (Some s)) /\ (s <> [] -> ~ In s [lit "solid"; lit "dashed"; lit "dashdot"; lit "dotted"] -> line_style (Some s) = Raises InvalidLineStyleError).
Proof.
  split; [intros [<-|[<-|[<-|[<-|[]]]]]; reflexivity|]. intros N H. unfold line_style. destruct s as [|c s]; [contradiction|]. destruct (existsb _ _) eqn:E; [|reflexivity]. apply existsb_exists in E. destruct E as (t & I & E). apply str_eqb_eq in E. subst t. contradiction.
Qed.
(** *** two-dimensional histograms *)
Definition sel (p : Q * bool) : option Q := if snd p then None else Some (fst p).
Definition none (c : option Q) : bool := match c with None => true | Some _ => false end.
Definition pr (p : option Q * option Q) : list (Q * Q) := match p with (Some u, Some v) => [(u, v)] | _ => [] end.
Lemma cells_mask d : forall k, length k = length d -> map none (map sel (combine d k)) = k.
Proof. induction d as [|x d IH]; intros [|b k] H; cbn in H; try discriminate; [reflexivity|]. cbn [combine map]. rewrite IH by lia. unfold sel. cbn [snd fst]. destruct b; reflexivity. Qed.
Lemma getmask_cells a : good a -> map none (cells a) = getmaskarray (n_arr a).
Proof. intros [_ H]. apply cells_mask. exact H. Qed.
Lemma masked_l : forall d k cy, length k = length d -> length cy = length d ->
  flat_map takes (map sel (combine d (orl k (map none cy)))) = map fst (flat_map pr (combine (map sel (combine d k)) cy)).
Proof.
  unfold orl. induction d as [|x d IH]; intros [|b k] [|c cy] H1 H2; cbn in H1, H2; try discriminate; [reflexivity|]. cbn [combine map flat_map fst snd]. rewrite map_app, IH by lia. f_equal. destruct b, c; reflexivity.
Qed.
Lemma masked_r : forall d k cx, length k = length d -> length cx = length d ->
  flat_map takes (map sel (combine d (orl k (map none cx)))) = map snd (flat_map pr (combine cx (map sel (combine d k)))).
Proof.
  unfold orl. induction d as [|x d IH]; intros [|b k] [|c cx] H1 H2; cbn in H1, H2; try discriminate; [reflexivity|]. cbn [combine map flat_map fst snd]. rewrite map_app, IH by lia. f_equal. destruct b, c; reflexivity.
Qed.
Definition pairs (x y : nd) : list (Q * Q) := flat_map pr (combine (cells x) (cells y)).
Lemma intersection_ok x y : good x -> good y -> length (an_data (n_arr x)) = length (an_data (n_arr y)) -> exists a b, intersection_mask x y = Ok (a, b) /\ compressed a = map fst (pairs x y) /\ compressed b = map snd (pairs x y).
Proof.
  intros G H E. unfold intersection_mask, remasked, size. pose proof (getmask_cells x G) as MX. pose proof (getmask_cells y H) as MY. pose proof (cells_length x G) as CX. pose proof (cells_length y H) as CY. destruct G as [_ G2], H as [_ H2].
  rewrite H2, G2, E, Nat.eqb_refl. cbn [bind]. eexists _, _. split; [reflexivity|]. unfold compressed. cbn [n_arr fst snd]. split.
  - unfold cells at 1. cbn [n_arr masked_array an_data getmaskarray]. rewrite <- MY. apply masked_l; lia.
  - unfold cells at 1. cbn [n_arr masked_array an_data getmaskarray]. rewrite <- MX. apply masked_r; lia.
Qed.
Lemma sizes_refused x y nx ny : good x -> good y -> length (an_data (n_arr x)) <> length (an_data (n_arr y)) -> histogram2d (XData x) y nx ny = Raises MaskError.
Proof.
  intros [_ G] [_ H] N. unfold histogram2d. cbn [x_values bind]. unfold intersection_mask, remasked, size. rewrite H, G. rewrite (proj2 (Nat.eqb_neq _ _)) by (intros C; apply N; symmetry; exact C).
  destruct (getmaskarray (n_arr y)) as [|m [|m' l]] eqn:E; cbn [bind]; try reflexivity. cbn in H. rewrite (proj2 (Nat.eqb_neq _ _)) by exact N. destruct (getmaskarray (n_arr x)) as [|k [|k' l']] eqn:F; try reflexivity. cbn in G. congruence.
Qed.
Lemma pairs_in x y u v : In (u, v) (pairs x y) <-> exists i, both x y i u v.
Proof.
  unfold pairs, both. rewrite in_flat_map. split.
  - intros ([c d] & H & I). apply In_nth_error in H. destruct H as (i & H). apply nth_error_combine in H. destruct H as [H1 H2]. destruct c as [c|], d as [d|]; cbn in I; try contradiction. destruct I as [[= -> ->]|[]]. exists i. split; apply holds_iff; assumption.
  - intros (i & H1 & H2). apply holds_iff in H1, H2. exists (Some u, Some v). split; [|left; reflexivity]. eapply nth_error_In. apply nth_error_combine. split; eassumption.
Qed.
Lemma counted_pairs x y (P : Q * Q -> Prop) n : good x -> good y -> length (an_data (n_arr x)) = length (an_data (n_arr y)) -> counted P (pairs x y) n -> counted (fun i => exists u v, both x y i u v /\ P (u, v)) (places x) n.
Proof.
  intros G H E C. unfold pairs in C. apply (counted_flat _ P (fun c => exists u v, c = (Some u, Some v) /\ P (u, v))) in C.
  - apply counted_places in C. rewrite combine_length, (cells_length x G), (cells_length y H), E, Nat.min_id, <- E in C. eapply counted_ext; [|exact C]. intros i _. cbn beta. split.
    + intros (c & K & u & v & -> & X). apply nth_error_combine in K. exists u, v. split; [split; apply holds_iff; apply K|exact X].
    + intros (u & v & [K1 K2] & X). exists (Some u, Some v). split; [apply nth_error_combine; split; apply holds_iff; assumption|eauto].
  - intros [[u|] [v|]]; cbn [pr]; try (left; split; [reflexivity|intros (u' & v' & K & _); discriminate K]). right. exists (u, v). split; [reflexivity|]. split; [intros (u' & v' & [= <- <-] & X); exact X|eauto].
Qed.
Lemma combine_fst_snd {A B} (l : list (A * B)) : combine (map fst l) (map snd l) = l.
Proof. induction l as [|[a b] l IH]; [reflexivity|]. cbn. rewrite IH. reflexivity. Qed.
Lemma nth_map_seq {A} (f : nat -> A) d n j : (j < n)%nat -> nth j (map f (seq 0 n)) d = f j.
Proof. intros H. erewrite nth_indep by (rewrite map_length, seq_length; exact H). rewrite map_nth, seq_nth by exact H. reflexivity. Unshelve. exact 0%nat. Qed.
Lemma transpose_ok (F : nat -> nat -> nat) mx my : transpose my (map (fun i => map (F i) (seq 0 my)) (seq 0 mx)) = map (fun j => map (fun i => F i j) (seq 0 mx)) (seq 0 my).
Proof. unfold transpose. apply map_ext_in. intros j H. apply in_seq in H. rewrite map_map. apply map_ext. intros i. apply nth_map_seq. lia. Qed.
Lemma combine_seq_in {A} (l : list A) j a : In (j, a) (combine (seq 0 (length l)) l) <-> nth_error l j = Some a.
Proof.
  split.
  - intros H. apply In_nth_error in H. destruct H as (k & H). apply nth_error_combine in H. destruct H as [H1 H2]. assert (K : (k < length l)%nat) by (apply nth_error_Some; congruence). rewrite (nth_error_nth' _ 0%nat) in H1 by (rewrite seq_length; exact K). rewrite seq_nth in H1 by exact K. injection H1 as <-. exact H2.
  - intros H. assert (K : (j < length l)%nat) by (apply nth_error_Some; congruence). eapply nth_error_In with (n := j). apply nth_error_combine. split; [|exact H]. rewrite (nth_error_nth' _ 0%nat) by (rewrite seq_length; exact K). rewrite seq_nth by exact K. reflexivity.
Qed.
Lemma pcolor_in x y c p : In p (pcolor x y c) <-> exists j row i v, nth_error c j = Some row /\ nth_error row i = Some v /\ v <> 0%nat /\ p = mkPatch (nth i x 0) (nth (S i) x 0) (nth j y 0) (nth (S j) y 0) v.
Proof.
  unfold pcolor. rewrite in_flat_map. split.
  - intros ([j row] & H & I). apply combine_seq_in in H. apply in_flat_map in I. destruct I as ([i v] & I & K). cbn [fst snd] in *. apply combine_seq_in in I. destruct (Nat.eqb_spec v 0) as [Z|Z]; [destruct K|]. destruct K as [K|[]]. exists j, row, i, v. auto.
  - intros (j & row & i & v & H & I & Z & ->). exists (j, row). split; [apply combine_seq_in; exact H|]. apply in_flat_map. exists (i, v). split; [apply combine_seq_in; exact I|]. cbn [fst snd]. apply Nat.eqb_neq in Z. rewrite Z. left. reflexivity.
Qed.
Lemma total_app l m : total (l ++ m) = (total l + total m)%nat.
Proof. induction l as [|a l IH]; [reflexivity|]. cbn [app]. rewrite !total_cons, IH. lia. Qed.
Lemma total_flat {A B} (f : B -> nat) (g : A -> list B) l : total (map f (flat_map g l)) = total (map (fun a => total (map f (g a))) l).
Proof. induction l as [|a l IH]; [reflexivity|]. cbn [flat_map map]. rewrite map_app, total_app, total_cons, IH. reflexivity. Qed.
Lemma map_snd_combine {A B C} (f : B -> C) (l : list B) : forall m : list A, length m = length l -> map (fun p : A * B => f (snd p)) (combine m l) = map f l.
Proof. induction l as [|b l IH]; intros [|a m] H; cbn in H; try discriminate; [reflexivity|]. cbn. rewrite IH by lia. reflexivity. Qed.
Lemma pcolor_total x y c : total (map p_count (pcolor x y c)) = total (map total c).
Proof.
  unfold pcolor. rewrite total_flat. rewrite (map_ext _ (fun jr : nat * list nat => total (snd jr))); [rewrite (map_snd_combine total c (seq 0 (length c)) (seq_length _ _)); reflexivity|]. intros [j row]. cbn [snd fst]. rewrite total_flat.
  rewrite (map_ext _ (fun iv : nat * nat => id (snd iv))); [rewrite (map_snd_combine id row (seq 0 (length row)) (seq_length _ _)), map_id; reflexivity|]. intros [i v]. cbn [snd fst]. destruct (Nat.eqb_spec v 0) as [->|Z]; [reflexivity|]. cbn [map p_count]. rewrite total_cons. unfold id. cbn [total fold_right]. lia.
Qed.
Lemma nth_edges n lo hi i : (i <= n)%nat -> nth i (edges n (lo, hi)) 0 = edge lo hi n i.
Proof. intros H. apply nth_error_nth. apply edges_nth. exact H. Qed.
Lemma nth_error_map_seq {A} (f : nat -> A) n j a : nth_error (map f (seq 0 n)) j = Some a <-> (j < n)%nat /\ a = f j.
Proof.
  rewrite nth_error_map. split.
  - destruct (nth_error (seq 0 n) j) as [k|] eqn:E; [|discriminate]. intros [= <-]. assert (K : (j < n)%nat) by (rewrite <- (seq_length n 0); apply nth_error_Some; congruence). rewrite (nth_error_nth' _ 0%nat) in E by (rewrite seq_length; exact K). rewrite seq_nth in E by exact K. injection E as <-. auto.
  - intros [K ->]. rewrite (nth_error_nth' _ 0%nat) by (rewrite seq_length; exact K). rewrite seq_nth by exact K. reflexivity.
Qed.
Lemma histogram2d_ok x y nx ny : (0 < nx)%nat -> (0 < ny)%nat -> good x -> good y -> length (an_data (n_arr x)) = length (an_data (n_arr y)) ->
  exists ps xlo xhi ylo yhi, histogram2d (XData x) y (Z.of_nat nx) (Z.of_nat ny) = Ok ps /\
  range_of (fun u => exists i v, both x y i u v) xlo xhi /\ range_of (fun v => exists i u, both x y i u v) ylo yhi /\
  (forall p, In p ps -> exists i j, patch_at xlo xhi nx ylo yhi ny i j p /\ (0 < p_count p)%nat /\ counted (fun k => exists u v, both x y k u v /\ in_part xlo xhi nx i u /\ in_part ylo yhi ny j v) (places x) (p_count p)) /\
  (forall k u v, both x y k u v -> exists p i j, In p ps /\ patch_at xlo xhi nx ylo yhi ny i j p /\ in_part xlo xhi nx i u /\ in_part ylo yhi ny j v) /\
  counted (fun k => exists u v, both x y k u v) (places x) (total (map p_count ps)).
Proof.
  intros NX NY G H E. destruct (intersection_ok x y G H E) as (a & b & I & CA & CB). unfold histogram2d. cbn [x_values bind]. rewrite I. cbn [bind fst snd]. rewrite CA, CB. set (xs := map fst (pairs x y)). set (ys := map snd (pairs x y)).
  destruct (Z.leb_spec (Z.of_nat nx) 0) as [Z|_]; [lia|]. destruct (Z.leb_spec (Z.of_nat ny) 0) as [Z|_]; [lia|]. cbn [orb]. rewrite !Nat2Z.id. unfold histogram2d_counts. rewrite transpose_ok. replace (combine xs ys) with (pairs x y) by (symmetry; apply combine_fst_snd).
  set (F := fun i j => count_if (fun p : Q * Q => (bin_in nx xs (fst p) =? i)%nat && (bin_in ny ys (snd p) =? j)%nat) (pairs x y)).
  pose proof (outer_ok xs) as OX. pose proof (outer_ok ys) as OY. destruct (outer xs) as [xlo xhi] eqn:EX. destruct (outer ys) as [ylo yhi] eqn:EY. cbn [fst snd] in OX, OY.
  assert (BX : forall p i, In p (pairs x y) -> ((bin_in nx xs (fst p) =? i)%nat = true <-> in_part xlo xhi nx i (fst p))). { intros p i P. rewrite (bin_iff nx xs) by (auto; apply in_map; exact P). rewrite EX. reflexivity. }
  assert (BY : forall p i, In p (pairs x y) -> ((bin_in ny ys (snd p) =? i)%nat = true <-> in_part ylo yhi ny i (snd p))). { intros p i P. rewrite (bin_iff ny ys) by (auto; apply in_map; exact P). rewrite EY. reflexivity. }
  eexists _, xlo, xhi, ylo, yhi. split; [reflexivity|].
  split. { eapply range_ext; [|exact OX]. intros u. unfold xs. rewrite in_map_iff. split; [intros ([u' v] & <- & P); apply pairs_in in P; destruct P as (i & P); exists i, v; exact P|intros (i & v & P); exists (u, v); split; [reflexivity|apply pairs_in; eauto]]. }
  split. { eapply range_ext; [|exact OY]. intros v. unfold ys. rewrite in_map_iff. split; [intros ([u v'] & <- & P); apply pairs_in in P; destruct P as (i & P); exists i, u; exact P|intros (i & u & P); exists (u, v); split; [reflexivity|apply pairs_in; eauto]]. }
  assert (CF : forall i j, counted (fun k => exists u v, both x y k u v /\ in_part xlo xhi nx i u /\ in_part ylo yhi ny j v) (places x) (F i j)).
  { intros i j. eapply counted_ext; [|apply (counted_pairs x y (fun p => in_part xlo xhi nx i (fst p) /\ in_part ylo yhi ny j (snd p)) (F i j) G H E)]; [intros k _; cbn [fst snd]; reflexivity|]. apply counted_filter. intros p P. rewrite andb_true_iff, BX, BY by exact P. reflexivity. }
  split; [|split].
  - intros p P. apply pcolor_in in P. destruct P as (j & row & i & v & R1 & R2 & Z & ->). apply nth_error_map_seq in R1. destruct R1 as [J ->]. apply nth_error_map_seq in R2. destruct R2 as [K ->]. exists i, j. cbn [p_count]. split; [|split; [lia|apply CF]].
    unfold patch_at. cbn [p_x0 p_x1 p_y0 p_y1]. rewrite !nth_edges by lia. do 2 (split; [assumption|]). repeat split; apply edge_part; assumption.
  - intros k u v B. assert (P : In (u, v) (pairs x y)) by (apply pairs_in; eauto). set (i := bin_in nx xs u). set (j := bin_in ny ys v).
    assert (PI : in_part xlo xhi nx i u) by (apply (BX (u, v) i P); apply Nat.eqb_refl). assert (PJ : in_part ylo yhi ny j v) by (apply (BY (u, v) j P); apply Nat.eqb_refl).
    exists (mkPatch (nth i (edges nx (xlo, xhi)) 0) (nth (S i) (edges nx (xlo, xhi)) 0) (nth j (edges ny (ylo, yhi)) 0) (nth (S j) (edges ny (ylo, yhi)) 0) (F i j)), i, j. assert (I1 : (i < nx)%nat) by apply PI. assert (J1 : (j < ny)%nat) by apply PJ. split; [|split; [|split; assumption]].
    + apply pcolor_in. exists j, (map (fun i => F i j) (seq 0 nx)), i, (F i j). split; [apply nth_error_map_seq; auto|]. split; [apply nth_error_map_seq; auto|]. split; [|reflexivity].
      unfold F, count_if. intros Z. apply length_zero_iff_nil in Z. assert (Q1 : In (u, v) []); [|destruct Q1]. rewrite <- Z. apply filter_In. split; [exact P|]. cbn [fst snd]. fold i j. rewrite !Nat.eqb_refl. reflexivity.
    + unfold patch_at. cbn [p_x0 p_x1 p_y0 p_y1]. rewrite !nth_edges by lia. do 2 (split; [assumption|]). repeat split; apply edge_part; assumption.
  - rewrite pcolor_total, map_map.
    assert (T : total (map (fun j => total (map (fun i => F i j) (seq 0 nx))) (seq 0 ny)) = count_if (fun _ => true) (pairs x y)).
    { rewrite <- (count_split (fun p : Q * Q => bin_in ny ys (snd p)) (fun _ => true) (pairs x y) ny) by (intros p P; apply bin_lt; [exact NY|apply in_map; exact P]). f_equal. apply map_ext. intros j. unfold F.
      rewrite (count_split (fun p : Q * Q => bin_in nx xs (fst p)) (fun p : Q * Q => (bin_in ny ys (snd p) =? j)%nat) (pairs x y) nx) by (intros p P; apply bin_lt; [exact NX|apply in_map; exact P]). apply count_ext. intros p _. rewrite andb_true_r. reflexivity. }
    match goal with |- counted _ _ ?t => change t with (total (map (fun j => total (map (fun i => F i j) (seq 0 nx))) (seq 0 ny))) end. rewrite T. eapply counted_ext; [|apply (counted_pairs x y (fun _ => True) _ G H E); apply counted_filter; intros; split; auto]. intros i _. split; [intros (u & v & B & _); eauto|intros (u & v & B); eauto].
Qed.
(** *** lines *)
Lemma column_nth a c j n i v : (i < n)%nat -> good a -> (i * c + j < length (an_data (n_arr a)))%nat -> (nth_error (column a c j n) i = Some v <-> holds a (i * c + j) v).
Proof.
  intros I G L. unfold column. rewrite nth_error_map_seq, holds_iff. rewrite <- (cells_length a G) in L. split.
  - intros [_ ->]. apply nth_error_nth'. exact L.
  - intros H. split; [exact I|]. symmetry. apply nth_error_nth. exact H.
Qed.
Lemma column_length a c j n : length (column a c j n) = n.
Proof. unfold column. rewrite map_length, seq_length. reflexivity. Qed.
Lemma line_1d x d n : good x -> good d -> n_shape x = [n] -> n_shape d = [n] -> exists l, lines x d = Ok [l] /\ forall i u v, nth_error l i = Some (u, v) <-> holds x i u /\ holds d i v.
Proof.
  intros G H E F. unfold lines, columns. rewrite E, F, Nat.eqb_refl. cbn [negb Nat.ltb Nat.leb andb Nat.max seq map Nat.modulo Nat.divmod fst snd Nat.sub]. eexists. split; [reflexivity|]. intros i u v. rewrite nth_error_combine. pose proof G as [G1 _]. pose proof H as [H1 _]. rewrite E in G1. rewrite F in H1. cbn in G1, H1. rewrite Nat.mul_1_r in G1, H1.
  destruct (Nat.lt_ge_cases i n) as [L|L].
  - rewrite !column_nth by (auto; lia). rewrite Nat.mul_1_r, Nat.add_0_r. reflexivity.
  - split.
    + intros [A _]. assert (i < length (column x 1 0 n))%nat by (apply nth_error_Some; congruence). rewrite column_length in *. lia.
    + intros [A _]. apply holds_iff in A. assert (i < length (cells x))%nat by (apply nth_error_Some; congruence). rewrite (cells_length x G) in *. lia.
Qed.
Lemma line_2d x d n m : (0 < m)%nat -> good x -> good d -> n_shape x = [n] -> n_shape d = [n; m] -> exists ls, lines x d = Ok ls /\ length ls = m /\
  forall j l, nth_error ls j = Some l -> length l = n /\ forall i u v, (i < n)%nat -> (nth_error l i = Some (u, v) <-> holds x i u /\ holds d (i * m + j) v).
Proof.
  intros M G H E F. pose proof G as [G1 _]. pose proof H as [H1 _]. rewrite E in G1. rewrite F in H1. cbn in G1, H1. rewrite Nat.mul_1_r in G1, H1.
  unfold lines, columns. rewrite E, F, Nat.eqb_refl. cbn [negb]. change (1 <? 1)%nat with false. cbn [andb]. eexists. split; [reflexivity|]. split; [rewrite map_length, seq_length; lia|].
  intros j l L. apply nth_error_map_seq in L. destruct L as [J ->]. rewrite Nat.max_r in J by lia. split; [rewrite combine_length, !column_length; apply Nat.min_id|]. intros i u v I. rewrite nth_error_combine, Nat.mod_1_r, (Nat.mod_small j m) by exact J.
  rewrite !column_nth by (auto; nia). rewrite Nat.mul_1_r, Nat.add_0_r. reflexivity.
Qed.
Lemma line_tracks x d n m : (0 < m)%nat -> good x -> good d -> n_shape x = [n; m] -> n_shape d = [n; m] -> exists ls, lines x d = Ok ls /\ length ls = m /\
  forall j l, nth_error ls j = Some l -> length l = n /\ forall i u v, (i < n)%nat -> (nth_error l i = Some (u, v) <-> holds x (i * m + j) u /\ holds d (i * m + j) v).
Proof.
  intros M G H E F. pose proof G as [G1 _]. pose proof H as [H1 _]. rewrite E in G1. rewrite F in H1. cbn in G1, H1. rewrite Nat.mul_1_r in G1, H1.
  unfold lines, columns. rewrite E, F, !Nat.eqb_refl. cbn [negb]. rewrite andb_false_r. eexists. split; [reflexivity|]. split; [rewrite map_length, seq_length; lia|].
  intros j l L. apply nth_error_map_seq in L. destruct L as [J ->]. rewrite Nat.max_id in J. split; [rewrite combine_length, !column_length; apply Nat.min_id|]. intros i u v I. rewrite nth_error_combine, (Nat.mod_small j m) by exact J.
  rewrite !column_nth by (auto; nia). reflexivity.
Qed.
Lemma line_refused x d n n' rest : n <> n' -> n_shape x = [n'] -> n_shape d = n :: rest -> lines x d = Raises InvalidDimensionError.
Proof. intros N E F. unfold lines. rewrite E, F. apply not_eq_sym, Nat.eqb_neq in N. rewrite N. reflexivity. Qed.
Lemma line_styled s x d : line_plot s x d = match line_style s, lines x d with Ok st, Ok l => Ok (st, l) | Raises e, _ => Raises e | _, Raises e => Raises e end.
Proof. unfold line_plot. destruct (line_style s); [|reflexivity]. cbn [bind]. destruct (lines x d); reflexivity. Qed.
Lemma line_square x d n : (2 <= n)%nat -> good x -> good d -> n_shape x = [n] -> n_shape d = [n; n] -> exists ls l l' u u' v v', lines x d = Ok ls /\ nth_error ls 0 = Some l /\ nth_error ls 1 = Some l' /\
  nth_error l' 0 = Some (u, v) /\ holds x 0 u /\ holds d (0 * n + 1) v /\ nth_error l 1 = Some (u', v') /\ holds x 1 u' /\ holds d (1 * n + 0) v'.
Proof.
  intros N G H E F. destruct (line_2d x d n n ltac:(lia) G H E F) as (ls & L & LL & P). destruct (nth_error ls 0) as [l|] eqn:A; [|apply nth_error_None in A; lia]. destruct (nth_error ls 1) as [l'|] eqn:B; [|apply nth_error_None in B; lia].
  destruct (P _ _ A) as (LA & PA). destruct (P _ _ B) as (LB & PB). destruct (nth_error l' 0) as [[u v]|] eqn:C; [|apply nth_error_None in C; lia]. destruct (nth_error l 1) as [[u' v']|] eqn:D; [|apply nth_error_None in D; lia].
  exists ls, l, l', u, u', v, v'. destruct (proj1 (PB 0%nat u v ltac:(lia)) C) as [C1 C2]. destruct (proj1 (PA 1%nat u' v' ltac:(lia)) D) as [D1 D2]. do 4 (split; [assumption|]). split; [exact C1|]. split; [exact C2|]. auto.
Qed.
Lemma no_bins n a : (n <= 0)%Z -> histogram n a = Raises ValueError.
Proof. intros H. unfold histogram. apply Z.leb_le in H. rewrite H. reflexivity. Qed.
