From Coq Require Import QArith Qabs Lqa Lia.
From Verif Require Import Base PyStr QBase MtModel MtSpec Mt2Proofs EqvModel EqvSpec.
From Coq Require Import List. Import ListNotations.
Open Scope list_scope. Open Scope nat_scope.

Lemma close_iff a b : isclose a b = true <-> near a b.
Proof. unfold isclose, near. destruct (Qleb_spec (Qabs (a - b)) ((1 # 100000000) + (1 # 100000) * Qabs b)) as [H|H]; split; intros X; auto; try discriminate X; contradiction. Qed.
Lemma cell_false a b : cell_close a b = Some false <-> ~ masked a /\ ~ masked b /\ ~ exists p q, a = Number p /\ b = Number q /\ near p q.
Proof.
  unfold masked. destruct a as [| |p], b as [| |q]; cbn [cell_close]; try (split; [discriminate|intros (A & B & _); congruence]);
  try (split; [intros _; split; [discriminate|split; [discriminate|intros (p' & q' & A & B & _); congruence]]|reflexivity]).
  destruct (isclose p q) eqn:E.
  - split; [discriminate|]. intros (_ & _ & H). destruct H. exists p, q. repeat split; auto. apply close_iff; auto.
  - split; [|reflexivity]. intros _. split; [discriminate|]. split; [discriminate|]. intros (p' & q' & [= <-] & [= <-] & H). apply close_iff in H. congruence.
Qed.
Lemma cell_none a b : cell_close a b = None <-> masked a \/ masked b.
Proof. unfold masked. destruct a as [| |p], b as [| |q]; cbn [cell_close]; split; auto; try discriminate; intros [H|H]; discriminate. Qed.
Lemma near_dec p q : near p q \/ ~ near p q.
Proof. destruct (isclose p q) eqn:E; [left; apply close_iff; auto|right; rewrite <- close_iff; congruence]. Qed.
Lemma nth_combine {A B} (a : list A) (b : list B) i x y : length a = length b -> (nth_error (combine a b) i = Some (x, y) <-> nth_error a i = Some x /\ nth_error b i = Some y).
Proof.
  revert b i. induction a as [|u a IH]; intros [|v b] i L; try discriminate; [destruct i; cbn; split; [discriminate|intros []; discriminate|discriminate|intros []; discriminate]|].
  destruct i as [|i]; cbn [combine nth_error]; [split; [intros [= <- <-]; auto|intros [[= <-] [= <-]]; auto]|]. apply IH. cbn in L. lia.
Qed.
Section Eq.
Variable U : str -> option unit.
Variable all_masked : bool.
Lemma allclose_same d d' : length d = length d' -> comparable d d' -> exists r, allclose all_masked d d' = Ok r /\ (r = true <-> agree d d').
Proof.
  intros L C. unfold allclose, broadcast. apply Nat.eqb_eq in L as L2. rewrite L2. cbn [bind]. eexists. split; [reflexivity|].
  set (l := map (fun p : cell * cell => cell_close (fst p) (snd p)) (combine d d')).
  assert (NM : negb (length l =? 0) && forallb (fun o : option bool => match o with None => true | _ => false end) l = false).
  { destruct C as [->|(i & x & y & Hx & Hy & Nx & Ny)]; [reflexivity|]. apply andb_false_iff. right. apply Bool.not_true_is_false. intros F. rewrite forallb_forall in F.
    assert (I : In (cell_close x y) l). { unfold l. apply in_map_iff. exists (x, y). split; auto. apply (nth_error_In _ i). apply nth_combine; auto. }
    apply F in I. destruct (cell_close x y) eqn:E; [discriminate|]. apply cell_none in E. tauto. }
  rewrite NM. rewrite forallb_forall. unfold agree. split.
  - intros F. split; auto. intros i x y Hx Hy Nx Ny. assert (I : In (cell_close x y) l). { unfold l. apply in_map_iff. exists (x, y). split; auto. apply (nth_error_In _ i). apply nth_combine; auto. }
    apply F in I. destruct x as [| |p], y as [| |q]; unfold masked in *; try congruence; cbn [cell_close] in I; try discriminate I. exists p, q. split; auto. split; auto. apply close_iff. destruct (isclose p q); congruence.
  - intros [_ F] o I. unfold l in I. apply in_map_iff in I. destruct I as ([x y] & <- & I). cbn [fst snd]. apply In_nth_error in I. destruct I as [i I]. apply nth_combine in I; auto. destruct I as [Hx Hy].
    destruct (cell_close x y) as [[|]|] eqn:E; auto. apply cell_false in E. destruct E as (Nx & Ny & N). destruct (N (F i x y Hx Hy Nx Ny)).
Qed.
Lemma lazy_true m d m' d' : length d = length d' -> comparable d d' -> (lazy_eq U all_masked m d m' d' = Ok true <-> same_meta U m m' /\ agree d d').
Proof.
  intros L C. destruct (allclose_same d d' L C) as (r & E & Hr). unfold lazy_eq. rewrite <- eq_true. destruct (meta_eq U m m') as [[|]|e]; cbn [bind].
  - rewrite E. split; [intros [= ->]; split; [auto|apply Hr; auto]|intros [_ H]; apply Hr in H; congruence].
  - split; [discriminate|intros [H _]; discriminate].
  - split; [discriminate|intros [H _]; discriminate].
Qed.
Lemma differ_lengths d d' : length d <> length d' -> length d <> 1 -> length d' <> 1 -> allclose all_masked d d' = Raises ValueError.
Proof.
  intros L N N'. unfold allclose, broadcast. apply Nat.eqb_neq in L as L2. rewrite L2. destruct d as [|x [|x2 d]], d' as [|y [|y2 d']]; cbn [length] in *; try congruence; reflexivity.
Qed.
Lemma near_refl x : near x x.
Proof.
  unfold near. setoid_replace (x - x)%Q with 0%Q by ring. change (Qabs 0) with 0%Q. pose proof (Qabs_nonneg x). assert (0 <= (1 # 100000) * Qabs x)%Q by (apply Qmult_le_0_compat; [discriminate|auto]). lra.
Qed.
Lemma agree_refl d : no_nan d -> agree d d.
Proof.
  intros N. split; auto. intros i x y Hx Hy Nx _. assert (y = x) by congruence. subst y. destruct x as [| |p]; unfold masked in Nx; [congruence|apply nth_error_In in Hx; contradiction|]. exists p, p. repeat split. apply near_refl.
Qed.
Lemma same_refl m : same_meta U m m.
Proof. unfold same_meta, same_units, same_unit. destruct (m_units m); repeat split; auto; reflexivity. Qed.
Theorem reflexive i j m d : no_nan d -> (d = [] \/ exists x, In x d /\ ~ masked x) -> equal U all_masked (Data i m d) (Data j m d) = Ok true.
Proof.
  intros N C. cbn [equal]. apply lazy_true; auto; [|split; [apply same_refl|apply agree_refl; auto]]. destruct C as [->|(x & I & Nx)]; [left; auto|]. right. apply In_nth_error in I. destruct I as [k I]. exists k, x, x. auto.
Qed.
Theorem has_nan i j m d : In NaN d -> equal U all_masked (Data i m d) (Data j m d) <> Ok true.
Proof.
  intros I. cbn [equal]. apply In_nth_error in I. destruct I as [k I]. intros H. apply lazy_true in H; auto; [|right; exists k, NaN, NaN; unfold masked; repeat split; auto; discriminate].
  destruct H as [_ [_ F]]. destruct (F k NaN NaN I I) as (p & q & X & _); unfold masked; discriminate.
Qed.
Theorem one_for_all m x d : d <> [] -> length d <> 1 -> x <> NaN -> x <> Masked -> Forall (fun y => y = x) d -> forall i j, equal U all_masked (Data i m [x]) (Data j m d) = Ok true /\ equal U all_masked (Data j m d) (Data i m [x]) = Ok true.
Proof.
  intros N L NX MX F i j. cbn [equal]. unfold lazy_eq. rewrite (proj2 (eq_true U m m) (same_refl m)). cbn [bind]. unfold allclose, broadcast. cbn [length].
  assert (E1 : (1 =? length d) = false) by (apply Nat.eqb_neq; lia). assert (E2 : (length d =? 1) = false) by (apply Nat.eqb_neq; lia). rewrite E1, E2.
  destruct x as [| |p]; try congruence. destruct d as [|y [|y2 d]]; try (cbn in L; congruence). cbn [bind].
  assert (X : forall l, Forall (fun y => y = Number p) l -> forallb (fun o : option bool => match o with Some false => false | _ => true end) (map (fun q : cell * cell => cell_close (fst q) (snd q)) (map (fun z => (Number p, z)) l)) = true /\
     forallb (fun o : option bool => match o with Some false => false | _ => true end) (map (fun q : cell * cell => cell_close (fst q) (snd q)) (map (fun z => (z, Number p)) l)) = true).
  { assert (K : isclose p p = true) by (apply close_iff, near_refl). induction l as [|z l IH]; intros G; [auto|]. inversion G as [|? ? G1 G2]; subst. cbn [map fst snd cell_close forallb]. rewrite K. apply IH; auto. }
  destruct (X _ F) as [X1 X2]. assert (Y : y = Number p) by exact (Forall_inv F).
  split; f_equal; match goal with |- (if ?c then _ else _) = _ => replace c with false end; auto; subst y; cbn [map fst snd cell_close forallb andb]; rewrite andb_false_r; reflexivity.
Qed.
Theorem lengths_refused i j m d d' m' : same_meta U m m' -> length d <> length d' -> length d <> 1 -> length d' <> 1 -> equal U all_masked (Data i m d) (Data j m' d') = Raises ValueError.
Proof. intros M L N N'. cbn [equal]. unfold lazy_eq. rewrite (proj2 (eq_true U m m') M). cbn [bind]. apply differ_lengths; auto. Qed.
Theorem coords_equal i j m d m' d' : exists r, equal U all_masked (Coordinate i m d) (Coordinate j m' d') = Ok r /\ (r = true <-> m_std m = m_std m' /\ m_std m <> Some []).
Proof.
  cbn [equal]. eexists. split; [reflexivity|]. unfold coord_eq. assert (SE : forall a b, std_eq a b = true <-> a = b). { intros [a|] [b|]; cbn [std_eq]; try (split; congruence). rewrite str_eqb_eq. split; congruence. }
  rewrite andb_true_iff, negb_true_iff, SE, <- Bool.not_true_iff_false, SE. split; intros [A B]; split; congruence.
Qed.
Theorem data_equal i j m d m' d' : length d = length d' -> comparable d d' -> (equal U all_masked (Data i m d) (Data j m' d') = Ok true <-> same_meta U m m' /\ agree d d').
Proof. exact (lazy_true m d m' d'). Qed.
Theorem other_meta i j m d m' d' : meta_eq U m m' = Ok false -> equal U all_masked (Data i m d) (Data j m' d') = Ok false.
Proof. intros H. cbn [equal]. unfold lazy_eq. rewrite H. reflexivity. Qed.
Theorem member a l : (forall b, In b l -> exists r, equal U all_masked b a = Ok r) ->
  exists r, is_in_list U all_masked a l = Ok r /\ (r = true <-> exists b, In b l /\ (identity b = identity a \/ equal U all_masked b a = Ok true)).
Proof.
  induction l as [|b l IH]; intros H; cbn [is_in_list]; [exists false; split; auto; split; [discriminate|intros (b & [] & _)]|].
  destruct (Nat.eqb_spec (identity a) (identity b)) as [E|E]; [exists true; split; auto; split; auto; intros _; exists b; split; [left; auto|left; auto]|].
  destruct (H b (or_introl eq_refl)) as (r & Er). rewrite Er. cbn [bind]. destruct r; [exists true; split; auto; split; auto; intros _; exists b; split; [left; auto|auto]|].
  destruct IH as (r & E2 & Hr); [intros c Hc; apply H; right; auto|]. exists r. split; auto. rewrite Hr. split; intros (c & I & K); [exists c; split; [right|]; auto|].
  destruct I as [->|I]; [destruct K as [K|K]; [congruence|congruence]|exists c; auto].
Qed.
Theorem differs_not a b : (forall r, equal U all_masked a b = Ok r -> differs U all_masked a b = Ok (negb r)) /\ (forall e, equal U all_masked a b = Raises e -> differs U all_masked a b = Raises e).
Proof. unfold differs. split; intros x H; rewrite H; reflexivity. Qed.
End Eq.
