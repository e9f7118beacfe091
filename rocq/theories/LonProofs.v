From Verif Require Import Base QBase LonModel LonSpec.
Open Scope Q_scope.

(** ** C05 *)
Lemma wrap_lon_range s x : in_range s (wrap_lon s x).
Proof. unfold in_range, wrap_lon. pose proof (Qmod_range (x - s + 360 * 2) 360 ltac:(lra)). lra. Qed.
Lemma wrap_lon_same s x : same_meridian x (wrap_lon s x).
Proof.
  unfold same_meridian, wrap_lon. destruct (Qmod_shift (x - s + 360 * 2) 360) as [k E].
  exists (k + 2)%Z. rewrite inject_Z_plus. change (inject_Z 2) with 2. rewrite E. ring.
Qed.
Lemma in_range_unique s x y : in_range s x -> in_range s y -> same_meridian x y -> y == x.
Proof. intros Hx Hy [k E]. apply (same_mod_unique 360 s y x k); auto; lra. Qed.
Lemma wrap_lon_fixed s x : in_range s x -> wrap_lon s x == x.
Proof. intros H. apply in_range_unique with (s := s); auto using wrap_lon_range, wrap_lon_same. Qed.

Lemma view_wrap_range s x : s - 360 <= x < s + 720 -> in_range s (view_wrap_lon s x).
Proof.
  intros H. unfold view_wrap_lon, in_range. destruct (Qltb_spec x s).
  - destruct (Qleb_spec (s + 360) (x + 360)); lra.
  - destruct (Qleb_spec (s + 360) x); lra.
Qed.
Lemma view_wrap_same s x : same_meridian x (view_wrap_lon s x).
Proof.
  unfold view_wrap_lon, same_meridian. destruct (Qltb x s).
  - destruct (Qleb (s + 360) (x + 360)); [exists 0%Z; change (inject_Z 0) with 0; ring|exists 1%Z; change (inject_Z 1) with 1; ring].
  - destruct (Qleb (s + 360) x); [exists (-1)%Z; change (inject_Z (-1)) with (-1); ring|exists 0%Z; change (inject_Z 0) with 0; ring].
Qed.
Lemma view_wrap_fixed s x : in_range s x -> view_wrap_lon s x == x.
Proof. intros H. apply in_range_unique with (s := s); auto using view_wrap_same. apply view_wrap_range. unfold in_range in H. lra. Qed.
Lemma gview_wrap_range s x : s - 360 <= x < s + 720 -> in_range s (gridded_view_wrap_lon s x).
Proof.
  intros H. unfold gridded_view_wrap_lon, in_range. destruct (Qltb_spec x s); [lra|]. destruct (Qleb_spec (s + 360) x); lra.
Qed.
Lemma gview_wrap_same s x : same_meridian x (gridded_view_wrap_lon s x).
Proof.
  unfold gridded_view_wrap_lon, same_meridian. destruct (Qltb x s); [exists 1%Z; change (inject_Z 1) with 1; ring|].
  destruct (Qleb (s + 360) x); [exists (-1)%Z; change (inject_Z (-1)) with (-1); ring|exists 0%Z; change (inject_Z 0) with 0; ring].
Qed.

Lemma fix_longitude_range_nth lons s i x : nth_error lons i = Some x ->
  exists y, nth_error (fix_longitude_range lons s) i = Some y /\ in_range s y /\ same_meridian x y
    /\ (in_range s x -> y == x) /\ wrap_lon s y == y.
Proof.
  intros H. exists (wrap_lon s x). unfold fix_longitude_range. rewrite nth_error_map, H. simpl. split; auto.
  split; [apply wrap_lon_range|]. split; [apply wrap_lon_same|]. split; [apply wrap_lon_fixed|].
  apply wrap_lon_fixed, wrap_lon_range.
Qed.

Lemma find_longitude_range_contains pts s :
  find_longitude_range pts = Ok s -> (Forall (fun x => -(180) <= x < 180) pts \/ Forall (fun x => 0 <= x < 360) pts) ->
  (s = 0 \/ s = -(180)) /\ Forall (in_range s) pts.
Proof.
  destruct pts as [|p ps]; simpl; [discriminate|]. intros [= <-] H.
  set (m := fold_left Qmin ps p).
  assert (Hm : Forall (fun x => m <= x) (p :: ps) /\ exists x, In x (p :: ps) /\ m == x).
  { unfold m. clear. revert p. induction ps as [|q ps IH]; intros p; simpl.
    - split; [repeat constructor; lra|]. exists p. split; auto. reflexivity.
    - destruct (IH (Qmin p q)) as [H1 (x & H2 & H3)]. inversion H1 as [|? ? Ha Hb]; subst. split.
      + repeat constructor; auto.
        * eapply Qle_trans; [exact Ha|apply Q.le_min_l].
        * eapply Qle_trans; [exact Ha|apply Q.le_min_r].
      + destruct H2 as [<-|H2].
        * destruct (Q.min_spec p q) as [[_ E]|[_ E]]; [exists p|exists q]; split; auto; rewrite H3; auto.
        * exists x. auto. }
  destruct Hm as [Hm1 (x & Hx & Ex)].
  destruct (Qltb_spec m 0) as [L|L].
  - split; auto. destruct H as [H|H].
    + eapply Forall_impl; [|exact H]. unfold in_range. simpl. intros; lra.
    + rewrite Forall_forall in H. specialize (H x Hx). lra.
  - split; auto. apply Forall_forall. intros y Hy. rewrite Forall_forall in Hm1. specialize (Hm1 y Hy).
    unfold in_range. destruct H as [H|H]; rewrite Forall_forall in H; specialize (H y Hy); lra.
Qed.

Lemma fix_longitude_range_all lons s :
  length (fix_longitude_range lons s) = length lons
  /\ forall i x, nth_error lons i = Some x ->
       exists y, nth_error (fix_longitude_range lons s) i = Some y
         /\ in_range s y /\ same_meridian x y /\ (in_range s x -> y == x)
         /\ exists z, nth_error (fix_longitude_range (fix_longitude_range lons s) s) i = Some z /\ z == y.
Proof.
  split; [unfold fix_longitude_range; apply map_length|]. intros i x H.
  destruct (fix_longitude_range_nth lons s i x H) as (y & H1 & H2 & H3 & H4 & H5). exists y. repeat (split; auto); try apply H2.
  exists (wrap_lon s y). split; auto. unfold fix_longitude_range at 1. rewrite nth_error_map, H1. reflexivity.
Qed.
Lemma views_wrap s x :
  same_meridian x (view_wrap_lon s x) /\ same_meridian x (gridded_view_wrap_lon s x)
  /\ (s - 360 <= x < s + 720 -> in_range s (view_wrap_lon s x) /\ in_range s (gridded_view_wrap_lon s x))
  /\ (in_range s x -> view_wrap_lon s x == x /\ gridded_view_wrap_lon s x == x).
Proof.
  split; [apply view_wrap_same|]. split; [apply gview_wrap_same|]. split; [split; [apply view_wrap_range|apply gview_wrap_range]; auto|].
  intros H. split; [apply view_wrap_fixed; auto|]. apply in_range_unique with (s := s); auto using gview_wrap_same.
  apply gview_wrap_range. unfold in_range in H. lra.
Qed.
Lemma same_meridian_refl x : same_meridian x x.
Proof. exists 0%Z. change (inject_Z 0) with 0. ring. Qed.
Lemma wrap_pair a b :
  let '(a', b') := wrap_longitude_coordinate_values a b in
  same_meridian a a' /\ same_meridian b b' /\ (a - 360 <= b -> a' <= b') /\ (b < a -> b' - a' < 360) /\ (a <= b -> a' = a /\ b' = b).
Proof.
  unfold wrap_longitude_coordinate_values. destruct (Qltb_spec b a); [destruct (Qleb_spec 180 a)|];
    repeat split; auto using same_meridian_refl; try lra; intros; try lra.
  - exists (-1)%Z. change (inject_Z (-1)) with (-1). ring.
  - exists 1%Z. change (inject_Z 1) with 1. ring.
Qed.

(** ** C06 *)
Lemma roll_neg {A} (l : list A) i : (0 < i < length l)%nat -> roll l (- Z.of_nat i) = skipn i l ++ firstn i l.
Proof.
  intros H. unfold roll. destruct (Nat.eqb_spec (length l) 0) as [E|E]; [lia|].
  rewrite Z.opp_involutive, Z.mod_small by lia. rewrite Nat2Z.id. reflexivity.
Qed.
Lemma roll_pos {A} (l : list A) i : (0 < i < length l)%nat -> roll l (Z.of_nat (length l) - Z.of_nat i) = skipn i l ++ firstn i l.
Proof.
  intros H. unfold roll. destruct (Nat.eqb_spec (length l) 0) as [E|E]; [lia|].
  replace ((- (Z.of_nat (length l) - Z.of_nat i)) mod Z.of_nat (length l))%Z with (Z.of_nat i); [rewrite Nat2Z.id; auto|].
  replace (- (Z.of_nat (length l) - Z.of_nat i))%Z with (Z.of_nat i + (-1) * Z.of_nat (length l))%Z by lia.
  rewrite Z.mod_add by lia. rewrite Z.mod_small; lia.
Qed.
Lemma ss_app_inv (l1 l2 : list Q) : increasing (l1 ++ l2) -> increasing l1 /\ increasing l2 /\ forall x y, In x l1 -> In y l2 -> x < y.
Proof.
  unfold increasing. induction l1 as [|x l1 IH]; simpl; intros H.
  - split; [constructor|]. split; auto. intros ? ? [].
  - inversion H as [|? ? HS HF]; subst. destruct (IH HS) as (A & B & C). apply Forall_app in HF. destruct HF as [F1 F2].
    split; [constructor; auto|]. split; auto. intros a b [<-|Ha] Hb; auto. rewrite Forall_forall in F2. auto.
Qed.
Lemma ss_app (l1 l2 : list Q) : increasing l1 -> increasing l2 -> (forall x y, In x l1 -> In y l2 -> x < y) -> increasing (l1 ++ l2).
Proof.
  intros H1 H2. induction H1 as [|x l1 HS IH HF]; simpl; intros H; auto.
  constructor; [apply IH; intros; apply H; simpl; auto|]. apply Forall_app. split; auto.
  apply Forall_forall. intros y Hy. apply H; simpl; auto.
Qed.
Lemma ss_map (f : Q -> Q) l : (forall x y, x < y -> f x < f y) -> increasing l -> increasing (map f l).
Proof.
  intros Hf. induction 1 as [|x l HS IH HF]; simpl; constructor; auto.
  apply Forall_forall. intros y Hy. apply in_map_iff in Hy. destruct Hy as (z & <- & Hz). apply Hf. rewrite Forall_forall in HF. auto.
Qed.

Section Tab.
Context {A : Type}.
Local Notation col := (Q * option (Q * Q) * A)%type.
Definition shift_bounds (d : Q) (b : option (Q * Q)) : option (Q * Q) :=
  match b with Some (lo, hi) => Some (lo + d, hi + d) | None => None end.
Definition shift_col (d : Q) (c : col) : col := ((fst (fst c) + d, shift_bounds d (snd (fst c))), snd c).
Definition fix_col (p : Q -> bool) (d : Q) (c : col) : col := if p (fst (fst c)) then shift_col d c else c.

Definition tab (pts : list Q) (bnds : list (option (Q * Q))) (cols : list A) : list col := combine (combine pts bnds) cols.

Lemma tab_app p1 p2 b1 b2 c1 c2 : length p1 = length b1 -> length p1 = length c1 ->
  tab (p1 ++ p2) (b1 ++ b2) (c1 ++ c2) = tab p1 b1 c1 ++ tab p2 b2 c2.
Proof.
  revert b1 c1. induction p1 as [|x p1 IH]; intros [|b b1] [|c c1] H1 H2; simpl in *; try discriminate; auto.
  unfold tab in *. simpl. rewrite IH by lia. reflexivity.
Qed.
Lemma tab_split pts bnds cols i : length bnds = length pts -> length cols = length pts ->
  tab (skipn i pts ++ firstn i pts) (skipn i bnds ++ firstn i bnds) (skipn i cols ++ firstn i cols)
  = skipn i (tab pts bnds cols) ++ firstn i (tab pts bnds cols).
Proof.
  intros H1 H2. rewrite tab_app by (rewrite !skipn_length; lia). f_equal.
  - unfold tab. clear H1 H2. revert pts bnds cols. induction i; intros [|a p] [|b q] [|c r]; simpl; auto.
    all: rewrite ?combine_nil; auto.
  - unfold tab. clear H1 H2. revert pts bnds cols. induction i; intros [|a p] [|b q] [|c r]; simpl; auto.
    f_equal. apply IHi.
Qed.

Lemma tab_fix (p : Q -> bool) d pts bnds cols :
  tab (add_where (map p pts) d pts)
      (map (fun cb : bool * option (Q * Q) => if fst cb then shift_bounds d (snd cb) else snd cb) (combine (map p pts) bnds)) cols
  = map (fix_col p d) (tab pts bnds cols).
Proof.
  unfold tab, add_where. revert bnds cols. induction pts as [|x pts IH]; intros [|b bnds] [|c cols]; simpl; auto.
  rewrite IH. f_equal. unfold fix_col. simpl. destruct (p x); reflexivity.
Qed.
End Tab.

Lemma bounds_fix (cond : list bool) d (b : list (Q * Q)) :
  map Some (add_where2 cond d b) = map (fun cb : bool * option (Q * Q) => if fst cb then shift_bounds d (snd cb) else snd cb) (combine cond (map Some b)).
Proof.
  unfold add_where2. revert b. induction cond as [|c cond IH]; intros [|[lo hi] b]; simpl; auto. rewrite IH. destruct c; reflexivity.
Qed.
Lemma bounds_none_fix (cond : list bool) d n : length cond = n ->
  map (fun cb : bool * option (Q * Q) => if fst cb then shift_bounds d (snd cb) else snd cb) (combine cond (repeat None n)) = repeat None n.
Proof.
  revert n. induction cond as [|c cond IH]; intros [|n] H; simpl in *; try discriminate; auto.
  rewrite IH by lia. destruct c; reflexivity.
Qed.
Lemma add_where_length cond d l : length cond = length l -> length (add_where cond d l) = length l.
Proof. intros H. unfold add_where. rewrite map_length, combine_length. lia. Qed.
Lemma add_where2_length cond d l : length cond = length l -> length (add_where2 cond d l) = length l.
Proof. intros H. unfold add_where2. rewrite map_length, combine_length. lia. Qed.
Lemma roll_repeat {B} (x : B) n i : (i <= n)%nat -> skipn i (repeat x n) ++ firstn i (repeat x n) = repeat x n.
Proof.
  intros H. replace n with (i + (n - i))%nat by lia. rewrite repeat_app.
  rewrite skipn_app, firstn_app, repeat_length. rewrite Nat.sub_diag. simpl.
  rewrite skipn_all2, firstn_all2 by (rewrite repeat_length; lia). simpl. rewrite app_nil_r, <- !repeat_app. f_equal. lia.
Qed.

Section Rot.
Context {A : Type}.
Variable ax : lon_axis A.
Hypothesis WF : well_formed ax.

Definition rotated (p : Q -> bool) (d : Q) (shift : Z) : lon_axis A :=
  let new_points := roll (lon_points ax) shift in
  let cond := map p new_points in
  mkAxis (add_where cond d new_points)
         (option_map (fun b => add_where2 cond d (roll b shift)) (lon_bounds ax))
         (roll (lon_columns ax) shift).

Definition rolls_at (i : nat) (shift : Z) : Prop :=
  forall (B : Type) (l : list B), length l = length (lon_points ax) -> roll l shift = skipn i l ++ firstn i l.

Lemma rotated_table i p d shift : rolls_at i shift -> (i <= length (lon_points ax))%nat ->
  table (rotated p d shift) = map (fix_col p d) (skipn i (table ax) ++ firstn i (table ax))
  /\ well_formed (rotated p d shift).
Proof.
  intros HR Hi. destruct WF as [W1 W2].
  set (P := skipn i (lon_points ax) ++ firstn i (lon_points ax)).
  assert (L : length P = length (lon_points ax)) by (unfold P; rewrite app_length, skipn_length, firstn_length; lia).
  assert (LC : length (roll (lon_columns ax) shift) = length (lon_points ax)).
  { rewrite HR by auto. rewrite app_length, skipn_length, firstn_length. lia. }
  assert (B : bounds_list (rotated p d shift) =
     map (fun cb : bool * option (Q * Q) => if fst cb then shift_bounds d (snd cb) else snd cb) (combine (map p P) (skipn i (bounds_list ax) ++ firstn i (bounds_list ax)))).
  { unfold rotated, bounds_list in *. simpl. destruct (lon_bounds ax) as [b|]; simpl.
    - rewrite map_length in W1. rewrite bounds_fix. rewrite !HR by auto. fold P. rewrite (map_app Some), <- skipn_map, <- firstn_map. reflexivity.
    - rewrite roll_repeat by auto. rewrite HR by auto. fold P. rewrite add_where_length by (rewrite map_length; auto). rewrite L.
      symmetry. apply bounds_none_fix. rewrite map_length. auto. }
  split.
  - unfold table. rewrite B. simpl. rewrite !HR by auto. fold P.
    fold (@tab A (add_where (map p P) d P)
      (map (fun cb : bool * option (Q * Q) => if fst cb then shift_bounds d (snd cb) else snd cb) (combine (map p P) (skipn i (bounds_list ax) ++ firstn i (bounds_list ax))))
      (skipn i (lon_columns ax) ++ firstn i (lon_columns ax))).
    rewrite tab_fix. f_equal. unfold P. apply tab_split; auto.
  - unfold well_formed. rewrite B. rewrite map_length, combine_length, map_length. simpl.
    rewrite (HR _ (lon_points ax)) by auto. fold P. rewrite add_where_length by (rewrite map_length; auto).
    rewrite LC, app_length, skipn_length, firstn_length. lia.
Qed.
End Rot.

Lemma table_points {A} (ax : lon_axis A) : well_formed ax -> map (fun c => fst (fst c)) (table ax) = lon_points ax.
Proof.
  intros [W1 W2]. unfold table. revert W1 W2. generalize (bounds_list ax) (lon_columns ax). induction (lon_points ax) as [|x l IH];
    intros [|b bs] [|c cs] H1 H2; simpl in *; try discriminate; auto. rewrite IH; auto.
Qed.

Lemma moved_refl {A} (c : Q * option (Q * Q) * A) : moved c c.
Proof.
  split; auto. exists 0%Z. change (inject_Z 0) with 0. split; [ring|]. destruct c as [[x [[lo hi]|]] a]; simpl; auto. split; ring.
Qed.
Lemma moved_shift {A} (c : Q * option (Q * Q) * A) k d : d == 360 * inject_Z k -> moved c (shift_col d c).
Proof.
  intros E. split; auto. exists k. destruct c as [[x [[lo hi]|]] a]; simpl; repeat split; auto; rewrite E; reflexivity.
Qed.
Lemma Forall2_map_moved {A} p d k (l : list (Q * option (Q * Q) * A)) : d == 360 * inject_Z k -> Forall2 moved l (map (fix_col p d) l).
Proof.
  intros E. induction l as [|c l IH]; simpl; constructor; auto. unfold fix_col. destruct (p (fst (fst c))); [eapply moved_shift; eauto|apply moved_refl].
Qed.
Lemma Forall2_moved_refl {A} (l : list (Q * option (Q * Q) * A)) : Forall2 moved l l.
Proof. induction l; constructor; auto using moved_refl. Qed.

Lemma fix_points {A} p d (l : list (Q * option (Q * Q) * A)) :
  map (fun c => fst (fst c)) (map (fix_col p d) l) = map (fun x => if p x then x + d else x) (map (fun c => fst (fst c)) l).
Proof. rewrite !map_map. apply map_ext. intros c. unfold fix_col. destruct (p (fst (fst c))); reflexivity. Qed.

Lemma map_if_true (p : Q -> bool) d l : (forall x, In x l -> p x = true) -> map (fun x => if p x then x + d else x) l = map (fun x => x + d) l.
Proof. intros H. apply map_ext_in. intros x Hx. rewrite H; auto. Qed.
Lemma map_if_false (p : Q -> bool) d l : (forall x, In x l -> p x = false) -> map (fun x => if p x then x + d else x) l = l.
Proof. intros H. rewrite <- (map_id l) at 2. apply map_ext_in. intros x Hx. rewrite H; auto. Qed.

Lemma nth_head (l : list Q) i d : (i < length l)%nat -> exists r, skipn i l = nth i l d :: r.
Proof.
  revert i. induction l as [|x l IH]; intros i H; simpl in *; [lia|]. destruct i; simpl; [eauto|]. apply IH. lia.
Qed.

Lemma set_longitude_range_correct {A} (ax : lon_axis A) s :
  well_formed ax -> increasing (lon_points ax) -> spans_less_than_turn (lon_points ax) ->
  (exists x, In x (lon_points ax) /\ in_range s x) ->
  let ax' := set_longitude_range ax s in
  increasing (lon_points ax') /\ Forall (in_range s) (lon_points ax')
  /\ well_formed ax'
  /\ exists old, Permutation (table ax) old /\ Forall2 moved old (table ax').
Proof.
  intros WF HI HT (x0 & Hx0 & Rx0) ax'. unfold ax', set_longitude_range. clear ax'.
  set (pts := lon_points ax) in *. set (i1 := searchsorted_left pts s). set (i2 := searchsorted_left pts (s + 360)).
  pose proof (increasing_nondecreasing _ HI) as HN.
  pose proof (searchsorted_left_before pts s) as B1. pose proof (searchsorted_left_after pts s HN) as A1. fold i1 in B1, A1.
  pose proof (searchsorted_left_before pts (s + 360)) as B2. pose proof (searchsorted_left_after pts (s + 360) HN) as A2. fold i2 in B2, A2.
  rewrite Forall_forall in B1, A1, B2, A2.
  assert (Hin1 : forall x, In x (firstn i1 pts) -> In x pts) by (intros x; apply firstn_In || (intros Hx; rewrite <- (firstn_skipn i1 pts); apply in_app_iff; auto)).
  destruct (Nat.ltb_spec 0 i1) as [P1|P1]; cbn [andb].
  2: assert (E1 : i1 = 0%nat) by lia.
  1: destruct (Nat.ltb_spec i1 (length pts)) as [P2|P2].
  - (* rotate left *)
    set (p := fun x => Qltb x (nth i1 pts 0)).
    assert (HR : rolls_at ax i1 (- Z.of_nat i1)). { intros B l E. apply roll_neg. fold pts in E. lia. }
    pose proof (rotated_table ax WF i1 p 360 (- Z.of_nat i1) HR ltac:(fold pts; lia)) as [T W].
    unfold rotated in T, W. fold pts in T, W. unfold p in T, W at 1 2.
    match goal with |- context [lon_points ?a] => set (ax' := a) in * end.
    assert (EP : lon_points ax' = skipn i1 pts ++ map (fun x => x + 360) (firstn i1 pts)).
    { rewrite <- (table_points ax' W). change (table ax' = map (fix_col p 360) (skipn i1 (table ax) ++ firstn i1 (table ax))) in T.
      rewrite T, fix_points. rewrite map_app, <- skipn_map, <- firstn_map, (table_points ax WF). fold pts. rewrite map_app.
      pose proof (firstn_skipn i1 pts) as FS.
      rewrite <- FS in HI. apply ss_app_inv in HI. destruct HI as (I1 & I2 & I3).
      destruct (nth_head pts i1 0 P2) as [r Er]. f_equal.
      - apply map_if_false. intros x Hx. unfold p. apply Qltb_ge. rewrite Er in Hx, I2. inversion I2 as [|? ? _ HF]; subst.
        destruct Hx as [<-|Hx]; [lra|]. rewrite Forall_forall in HF. specialize (HF x Hx). lra.
      - apply map_if_true. intros x Hx. unfold p. apply Qltb_lt. apply I3; auto. rewrite Er. simpl. auto. }
    rewrite EP. pose proof (firstn_skipn i1 pts) as FS.
    assert (Hfirst : forall x, In x (firstn i1 pts) -> In x pts) by (intros x Hx; rewrite <- FS; apply in_app_iff; auto).
    assert (Hskip : forall x, In x (skipn i1 pts) -> In x pts) by (intros x Hx; rewrite <- FS; apply in_app_iff; auto).
    pose proof HI as HI'. rewrite <- FS in HI'. apply ss_app_inv in HI'. destruct HI' as (I1 & I2 & I3).
    destruct (firstn i1 pts) as [|f0 ft] eqn:EF.
    { exfalso. apply (f_equal (@length Q)) in EF. rewrite firstn_length in EF. simpl in EF. lia. }
    assert (Hf0 : f0 < s) by (apply B1; simpl; auto).
    split; [|split; [|split]].
    + apply ss_app; auto.
      * apply ss_map; auto. intros; lra.
      * intros x y Hx Hy. apply in_map_iff in Hy. destruct Hy as (z & <- & Hz). specialize (HT z x (Hfirst _ Hz) (Hskip _ Hx)). lra.
    + apply Forall_app. split; apply Forall_forall; intros x Hx; unfold in_range.
      * specialize (A1 x Hx). specialize (HT f0 x (Hfirst f0 ltac:(simpl; auto)) (Hskip x Hx)). lra.
      * apply in_map_iff in Hx. destruct Hx as (z & <- & Hz). specialize (B1 z Hz).
        destruct (nth_head pts i1 0 P2) as [r Er]. assert (Hn : In (nth i1 pts 0) (skipn i1 pts)) by (rewrite Er; simpl; auto).
        specialize (A1 _ Hn). specialize (HT z _ (Hfirst _ Hz) (Hskip _ Hn)). lra.
    + exact W.
    + exists (skipn i1 (table ax) ++ firstn i1 (table ax)). split.
      * rewrite <- (firstn_skipn i1 (table ax)) at 1. apply Permutation_app_comm.
      * change (table ax' = map (fix_col p 360) (skipn i1 (table ax) ++ firstn i1 (table ax))) in T. rewrite T.
        apply Forall2_map_moved with (k := 1%Z). reflexivity.
  - (* all below s: excluded *)
    exfalso. rewrite firstn_all2 in B1 by lia. specialize (B1 x0 Hx0). unfold in_range in Rx0. lra.
  - rewrite E1 in A1. simpl in A1.
    destruct (Nat.ltb_spec 0 i2) as [P3|P3]; cbn [andb].
    + destruct (Nat.ltb_spec i2 (length pts)) as [P4|P4].
      * (* rotate right *)
        set (p := fun x => Qleb (nth i2 pts 0) x).
        assert (HR : rolls_at ax i2 (Z.of_nat (length pts) - Z.of_nat i2)). { intros B l E. fold pts in E. rewrite <- E. apply roll_pos. lia. }
        pose proof (rotated_table ax WF i2 p (-(360)) _ HR ltac:(fold pts; lia)) as [T W].
        unfold rotated in T, W. fold pts in T, W. unfold p in T, W at 1 2.
        match goal with |- context [lon_points ?a] => set (ax' := a) in * end.
        change (table ax' = map (fix_col p (-(360))) (skipn i2 (table ax) ++ firstn i2 (table ax))) in T.
        pose proof (firstn_skipn i2 pts) as FS.
        assert (Hfirst : forall x, In x (firstn i2 pts) -> In x pts) by (intros x Hx; rewrite <- FS; apply in_app_iff; auto).
        assert (Hskip : forall x, In x (skipn i2 pts) -> In x pts) by (intros x Hx; rewrite <- FS; apply in_app_iff; auto).
        pose proof HI as HI'. rewrite <- FS in HI'. apply ss_app_inv in HI'. destruct HI' as (I1 & I2 & I3).
        destruct (nth_head pts i2 0 P4) as [r Er].
        assert (EP : lon_points ax' = map (fun x => x + -(360)) (skipn i2 pts) ++ firstn i2 pts).
        { rewrite <- (table_points ax' W). rewrite T, fix_points. rewrite map_app, <- skipn_map, <- firstn_map, (table_points ax WF). fold pts. rewrite map_app.
          f_equal.
          - apply map_if_true. intros x Hx. unfold p. apply Qleb_le. rewrite Er in Hx, I2. inversion I2 as [|? ? _ HF]; subst.
            destruct Hx as [<-|Hx]; [lra|]. rewrite Forall_forall in HF. specialize (HF x Hx). lra.
          - apply map_if_false. intros x Hx. unfold p. apply Qleb_gt. apply I3; auto. rewrite Er. simpl. auto. }
        rewrite EP.
        destruct (firstn i2 pts) as [|f0 ft] eqn:EF.
        { exfalso. apply (f_equal (@length Q)) in EF. rewrite firstn_length in EF. simpl in EF. lia. }
        split; [|split; [|split]].
        -- apply ss_app; auto.
           ++ apply ss_map; auto. intros; lra.
           ++ intros x y Hx Hy. apply in_map_iff in Hx. destruct Hx as (z & <- & Hz). specialize (HT y z (Hfirst _ Hy) (Hskip _ Hz)). lra.
        -- apply Forall_app. split; apply Forall_forall; intros x Hx; unfold in_range.
           ++ apply in_map_iff in Hx. destruct Hx as (z & <- & Hz). specialize (A2 z Hz).
              specialize (HT f0 z (Hfirst f0 ltac:(simpl; auto)) (Hskip _ Hz)). specialize (B2 f0 ltac:(simpl; auto)). lra.
           ++ specialize (A1 x (Hfirst x Hx)). specialize (B2 x Hx). lra.
        -- exact W.
        -- exists (skipn i2 (table ax) ++ firstn i2 (table ax)). split.
           ++ rewrite <- (firstn_skipn i2 (table ax)) at 1. apply Permutation_app_comm.
           ++ rewrite T. apply Forall2_map_moved with (k := (-1)%Z). reflexivity.
      * rewrite firstn_all2 in B2 by lia. split; auto. split.
        -- apply Forall_forall. intros x Hx. unfold in_range. specialize (A1 x Hx). specialize (B2 x Hx). lra.
        -- split; auto. exists (table ax). split; auto. apply Forall2_moved_refl.
    + exfalso. assert (i2 = 0%nat) as E2 by lia. rewrite E2 in A2. simpl in A2. specialize (A2 x0 Hx0). unfold in_range in Rx0. lra.
Qed.

(** no longitude in the range: nothing changes *)
Lemma set_longitude_range_unchanged {A} (ax : lon_axis A) s : increasing (lon_points ax) ->
  (forall x, In x (lon_points ax) -> x < s) \/ (forall x, In x (lon_points ax) -> s + 360 <= x) ->
  set_longitude_range ax s = ax.
Proof.
  intros HI H. unfold set_longitude_range.
  assert (forall v, (forall x, In x (lon_points ax) -> x < v) -> searchsorted_left (lon_points ax) v = length (lon_points ax)) as S1.
  { intros v. clear. induction (lon_points ax) as [|x l IH]; simpl; intros Hv; auto.
    replace (Qltb x v) with true by (symmetry; apply Qltb_lt; apply Hv; auto). rewrite IH; auto. }
  assert (forall v, (forall x, In x (lon_points ax) -> v <= x) -> searchsorted_left (lon_points ax) v = 0%nat) as S0.
  { intros v. clear. destruct (lon_points ax) as [|x l]; simpl; auto. intros Hv.
    replace (Qltb x v) with false by (symmetry; apply Qltb_ge; apply Hv; auto). auto. }
  destruct H as [H|H].
  - rewrite (S1 s) by auto. rewrite (S1 (s + 360)) by (intros x Hx; specialize (H x Hx); lra).
    rewrite Nat.ltb_irrefl, !andb_false_r. reflexivity.
  - rewrite (S0 s) by (intros x Hx; specialize (H x Hx); lra). rewrite (S0 (s + 360)) by auto. reflexivity.
Qed.
