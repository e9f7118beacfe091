From Verif Require Import Base QBase KDModel KDSpec.
From Coq Require Import Qpower.
Open Scope Q_scope.
Arguments Qabs : simpl never.
Arguments Qminus : simpl never.
Arguments Qplus : simpl never.
Arguments Qmult : simpl never.
Arguments Qmax : simpl never.
Arguments Qmin : simpl never.
Arguments Qpower : simpl never.

(** ** Powers and norms *)
Lemma qpow_power x n : qpow x n == Qpower x (Z.of_nat n).
Proof.
  induction n as [|n IH]; [reflexivity|]. cbn [qpow]. rewrite IH. rewrite Nat2Z.inj_succ.
  replace (Z.succ (Z.of_nat n)) with (1 + Z.of_nat n)%Z by lia. 
  rewrite Qpower_plus' by lia. reflexivity.
Qed.
Lemma qpow_comp n x y : x == y -> qpow x n == qpow y n.
Proof. intros E. induction n as [|n IH]; cbn [qpow]; [reflexivity|]. rewrite IH, E. reflexivity. Qed.
Global Instance qpow_proper : Proper (Qeq ==> eq ==> Qeq) qpow.
Proof. intros x y E n ? <-. apply qpow_comp. auto. Qed.
Lemma qpow_nonneg x n : 0 <= x -> 0 <= qpow x n.
Proof. intros H. induction n as [|n IH]; cbn [qpow]; [discriminate|]. apply Qmult_le_0_compat; auto. Qed.
Lemma qpow_mono x y n : 0 <= x -> x <= y -> qpow x n <= qpow y n.
Proof.
  intros H L. induction n as [|n IH]; cbn [qpow]; [apply Qle_refl|].
  apply Qle_trans with (x * qpow y n).
  - destruct (Qlt_le_dec 0 x); [apply Qmult_le_l; auto|]. assert (x == 0) by lra. rewrite H0. lra.
  - apply Qmult_le_compat_r; auto. apply qpow_nonneg. lra.
Qed.
Lemma pw_mono p x y : 0 <= x -> x <= y -> pw p x <= pw p y.
Proof. destruct p; simpl; auto. apply qpow_mono. Qed.
Lemma pw_nonneg p x : 0 <= x -> 0 <= pw p x.
Proof. destruct p; simpl; auto. apply qpow_nonneg. Qed.
Lemma pw_comp p x y : x == y -> pw p x == pw p y.
Proof. destruct p; simpl; auto. apply qpow_comp. Qed.

Lemma acc_mono p u v : Forall2 (fun a b => 0 <= a /\ a <= b) u v -> acc p u <= acc p v.
Proof.
  induction 1 as [|a b u v [H0 H1] HF IH]; [apply Qle_refl|]. destruct p as [n|]; simpl in *.
  - pose proof (qpow_mono a b n H0 H1). lra.
  - apply Q.max_le_compat; auto.
Qed.
Lemma acc_nonneg p u : Forall (fun a => 0 <= a) u -> 0 <= acc p u.
Proof.
  induction 1 as [|a u H HF IH]; [destruct p; apply Qle_refl|]. destruct p as [n|]; simpl in *.
  - pose proof (qpow_nonneg a n H). lra.
  - apply Qle_trans with a; auto. apply Q.le_max_l.
Qed.
Lemma acc_eq p u v : Forall2 Qeq u v -> acc p u == acc p v.
Proof.
  induction 1 as [|a b u v H HF IH]; [reflexivity|]. destruct p as [n|]; simpl in *.
  - rewrite (qpow_comp n _ _ H), IH. reflexivity.
  - rewrite H, IH. reflexivity.
Qed.

Definition in_rect (rc : rect) (y : list Q) : Prop := Forall2 (fun (b : Q * Q) y => fst b <= y /\ y <= snd b) rc y.

Lemma qmax_cases a b : (Qmax a b == a /\ b <= a) \/ (Qmax a b == b /\ a <= b).
Proof. destruct (Q.max_spec a b) as [[H1 H2]|[H1 H2]]; [right; split; [auto|lra]|left; auto]. Qed.
Lemma qmin_cases a b : (Qmin a b == a /\ a <= b) \/ (Qmin a b == b /\ b <= a).
Proof. destruct (Q.min_spec a b) as [[H1 H2]|[H1 H2]]; [left; split; [auto|lra]|right; auto]. Qed.
Lemma qabs_cases a : (Qabs a == a /\ 0 <= a) \/ (Qabs a == - a /\ a <= 0).
Proof. destruct (Qlt_le_dec a 0) as [H|H]; [right; split; [apply Qabs_neg; lra|lra]|left; split; [apply Qabs_pos; auto|auto]]. Qed.
Ltac qcase := repeat match goal with
  | |- context [Qabs ?a] => let E := fresh in destruct (qabs_cases a) as [[E ?]|[E ?]]; try rewrite E in *; clear E
  | |- context [Qmax ?a ?b] => let E := fresh in destruct (qmax_cases a b) as [[E ?]|[E ?]]; try rewrite E in *; clear E
  | |- context [Qmin ?a ?b] => let E := fresh in destruct (qmin_cases a b) as [[E ?]|[E ?]]; try rewrite E in *; clear E
  end; try lra.

Lemma minkowski_nonneg p x y : 0 <= minkowski_p p x y.
Proof. apply acc_nonneg. unfold zipw. apply Forall_map, Forall_forall. intros. apply Qabs_nonneg. Qed.
Lemma minkowski0_nonneg p x : 0 <= minkowski_p0 p x.
Proof. apply acc_nonneg. apply Forall_map, Forall_forall. intros. apply Qabs_nonneg. Qed.
Lemma minkowski_sym p x y : minkowski_p p x y == minkowski_p p y x.
Proof.
  unfold minkowski_p. apply acc_eq. revert y. induction x as [|a x IH]; intros [|b y]; unfold zipw; simpl; try constructor; [|apply IH].
  qcase.
Qed.

Lemma min_point_le p rc y x : in_rect rc y -> length x = length rc -> min_distance_point p rc x <= minkowski_p p y x.
Proof.
  intros H HL. unfold min_distance_point, minkowski_p0, minkowski_p. apply acc_mono. unfold zipw. rewrite map_map.
  revert x HL. induction H as [|b y rc ys [H1 H2] HF IH]; intros [|c x] HL; try discriminate; simpl; constructor; auto.
  cbn [fst snd] in *. split; [apply Qabs_nonneg|]. qcase.
Qed.
Lemma max_point_ge p rc y x : in_rect rc y -> length x = length rc -> minkowski_p p y x <= max_distance_point p rc x.
Proof.
  intros H HL. unfold max_distance_point, minkowski_p0, minkowski_p. apply acc_mono. unfold zipw. rewrite map_map.
  revert x HL. induction H as [|b y rc ys [H1 H2] HF IH]; intros [|c x] HL; try discriminate; simpl; constructor; auto.
  cbn [fst snd] in *. split; [apply Qabs_nonneg|]. qcase.
Qed.
Lemma min_rect_le p r1 r2 y z : in_rect r1 y -> in_rect r2 z -> length r1 = length r2 -> min_distance_rectangle p r1 r2 <= minkowski_p p z y.
Proof.
  intros H1 H2 HL. unfold min_distance_rectangle, minkowski_p0, minkowski_p. apply acc_mono. unfold zipw. rewrite map_map.
  revert r2 z H2 HL. induction H1 as [|b y r1 ys [A1 A2] HF IH]; intros r2 z H2 HL; destruct H2 as [|c z r2 zs [B1 B2] HG]; try discriminate; simpl; constructor; auto.
  cbn [fst snd] in *. split; [apply Qabs_nonneg|]. qcase.
Qed.
Lemma max_rect_ge p r1 r2 y z : in_rect r1 y -> in_rect r2 z -> length r1 = length r2 -> minkowski_p p z y <= max_distance_rectangle p r1 r2.
Proof.
  intros H1 H2 HL. unfold max_distance_rectangle, minkowski_p0, minkowski_p. apply acc_mono. unfold zipw. rewrite map_map.
  revert r2 z H2 HL. induction H1 as [|b y r1 ys [A1 A2] HF IH]; intros r2 z H2 HL; destruct H2 as [|c z r2 zs [B1 B2] HG]; try discriminate; simpl; constructor; auto.
  cbn [fst snd] in *. split; [apply Qabs_nonneg|]. qcase.
Qed.

Lemma set_nth_length {A} d (v : A) l : length (set_nth d v l) = length l.
Proof. revert d. induction l as [|x l IH]; intros [|d]; simpl; auto. Qed.
Lemma mk_rect_length a b : length a = length b -> length (mk_rect a b) = length a.
Proof. intros H. unfold mk_rect, zipw. rewrite map_length, combine_length. lia. Qed.
Lemma split_in rc y d s : in_rect rc y ->
  (nth d y 0 <= s -> in_rect (fst (rect_split rc d s)) y) /\ (s <= nth d y 0 -> in_rect (snd (rect_split rc d s)) y).
Proof.
  intros H. unfold rect_split, mk_rect, zipw. cbn [fst snd]. revert d. induction H as [|b y rc ys [A1 A2] HF IH]; intros d; [destruct d; split; constructor|].
  destruct d as [|d]; cbn [set_nth map combine nth].
  - assert (R : Forall2 (fun (b0 : Q * Q) (y0 : Q) => fst b0 <= y0 /\ y0 <= snd b0) (map (fun p : Q * Q => (Qmin (fst p) (snd p), Qmax (fst p) (snd p))) (combine (map fst rc) (map snd rc))) ys).
    { clear -HF. induction HF as [|b y rc ys [A1 A2] HF IH]; constructor; auto. cbn [fst snd]. split; qcase. }
    split; intros L; (constructor; [|exact R]); cbn [fst snd]; split; qcase.
  - destruct (IH d) as [I1 I2]. split; intros L; (constructor; [cbn [fst snd]; split; qcase|first [exact (I1 L)|exact (I2 L)]]).
Qed.
Lemma split_length rc d s : length (fst (rect_split rc d s)) = length rc /\ length (snd (rect_split rc d s)) = length rc.
Proof. unfold rect_split. cbn [fst snd]. rewrite !mk_rect_length; rewrite ?set_nth_length, ?map_length; auto. Qed.

(** ** Comparing roots *)
Lemma root_le_spec p s r : root_le p s r = true <-> 0 <= r /\ s <= pw p r.
Proof. unfold root_le. rewrite andb_true_iff, !Qleb_le. tauto. Qed.
Lemma root_lt_spec p s r : root_lt p s r = true <-> 0 < r /\ s < pw p r.
Proof. unfold root_lt. rewrite andb_true_iff, !Qltb_lt. tauto. Qed.
Lemma root_le_mono p s s' r r' : s' <= s -> r <= r' -> root_le p s r = true -> root_le p s' r' = true.
Proof. rewrite !root_le_spec. intros H1 H2 [H3 H4]. split; [lra|]. pose proof (pw_mono p r r' H3 H2). lra. Qed.
Lemma root_lt_le p s s' r : s' <= s -> root_lt p s r = true -> root_le p s' r = true.
Proof. rewrite root_lt_spec, root_le_spec. intros. split; lra. Qed.
Lemma root_le_neg p s r r' : r <= r' -> root_le p s r' = false -> root_le p s r = false.
Proof. intros H H'. destruct (root_le p s r) eqn:E; auto. rewrite (root_le_mono p s s r r') in H'; auto; lra. Qed.

Lemma distance_power_eq p x y : length x = length y -> minkowski_p p x y == distance_power p x y.
Proof.
  revert y. induction x as [|a x IH]; intros [|b y] HL; try discriminate; [destruct p; reflexivity|]. injection HL as HL. specialize (IH y HL).
  destruct p as [n|]; unfold minkowski_p, zipw in *; simpl in *.
  - rewrite IH, qpow_power. assert (Qabs (a - b) == Qabs (b - a)) as -> by qcase. reflexivity.
  - rewrite IH. assert (Qabs (a - b) == Qabs (b - a)) as -> by qcase. reflexivity.
Qed.
Lemma largest_le x : forall y r, 0 <= r -> (largest_difference x y <= r <-> Forall (fun ab : Q * Q => Qabs (fst ab - snd ab) <= r) (combine x y)).
Proof.
  induction x as [|a x IH]; intros y r H0; [simpl; split; [constructor|auto]|]. destruct y as [|b y]; [simpl; split; [constructor|auto]|].
  cbn [largest_difference combine]. split.
  - intros H. pose proof (Q.le_max_l (Qabs (a - b)) (largest_difference x y)). pose proof (Q.le_max_r (Qabs (a - b)) (largest_difference x y)).
    constructor; [cbn [fst snd]; lra|]. apply IH; auto. lra.
  - inversion 1 as [|? ? H1 H2]; subst. cbn [fst snd] in H1. apply Q.max_lub; auto. apply IH; auto.
Qed.
Lemma minkowski_close p x y r : length x = length y -> (root_le p (minkowski_p p x y) r = true <-> close p x y r).
Proof.
  intros HL. rewrite root_le_spec. unfold close. rewrite (distance_power_eq p x y HL). destruct p as [n|]; simpl.
  - rewrite qpow_power. tauto.
  - split; intros [H0 H]; split; auto; apply largest_le; auto.
Qed.

(** ** Radius queries *)
Lemma nodup_app_inv {A} (l1 l2 : list A) : NoDup (l1 ++ l2) -> NoDup l1 /\ NoDup l2 /\ forall x, In x l1 -> ~ In x l2.
Proof.
  induction l1 as [|a l1 IH]; cbn [app]; intros H; [split; [constructor|split; auto]|]. inversion H as [|? ? N H']; subst. destruct (IH H') as (A1 & A2 & A3).
  rewrite in_app_iff in N. split; [constructor; tauto|]. split; auto. intros x [<-|Hx]; auto.
Qed.
Lemma nodup_app {A} (l1 l2 : list A) : NoDup l1 -> NoDup l2 -> (forall x, In x l1 -> ~ In x l2) -> NoDup (l1 ++ l2).
Proof.
  induction l1 as [|a l1 IH]; cbn [app]; intros H1 H2 H; auto. inversion H1; subst. constructor.
  - rewrite in_app_iff. intros [C|C]; auto. apply (H a); simpl; auto.
  - apply IH; auto. intros x Hx. apply H. simpl; auto.
Qed.
Definition cell_ok (data : list (list Q)) (t : node) (rc : rect) : Prop := forall i, In i (leaves t) -> in_rect rc (row data i).
Lemma cell_ok_split data m d s l g rc : splits_ok data m (Inner d s l g) -> cell_ok data (Inner d s l g) rc ->
  cell_ok data l (fst (rect_split rc d s)) /\ cell_ok data g (snd (rect_split rc d s)).
Proof.
  intros (_ & HL & HG & _) HC. split; intros i Hi.
  - apply split_in; [apply HC; simpl; apply in_or_app; auto|]. apply HL. auto.
  - apply split_in; [apply HC; simpl; apply in_or_app; auto|]. apply HG. auto.
Qed.
Lemma eps_bounds r eps : 0 <= eps -> 0 <= r -> r / (1 + eps) <= r /\ r <= r * (1 + eps).
Proof. intros H H0. split; [apply Qle_shift_div_r; nra|nra]. Qed.

Definition pdist (data : list (list Q)) (p : pnorm) (x : list Q) (i : nat) : Q := minkowski_p p (row data i) x.
Lemma ball_point_spec data m p x r eps : 0 <= eps -> 0 <= r -> forall t rc, length x = length rc -> splits_ok data m t -> cell_ok data t rc -> NoDup (leaves t) ->
  (forall i, In i (ball_point data p x r eps t rc) -> In i (leaves t) /\ root_le p (pdist data p x i) (r * (1 + eps)) = true) /\
  (forall i, In i (leaves t) -> root_le p (pdist data p x i) (r / (1 + eps)) = true -> In i (ball_point data p x r eps t rc)) /\
  NoDup (ball_point data p x r eps t rc).
Proof.
  intros He Hr. destruct (eps_bounds r eps He Hr) as [EL EU].
  assert (PRUNE : forall t rc, length x = length rc -> cell_ok data t rc -> root_le p (min_distance_point p rc x) (r / (1 + eps)) = false ->
            forall i, In i (leaves t) -> root_le p (pdist data p x i) (r / (1 + eps)) = false).
  { intros t rc HL HC E i Hi. destruct (root_le p (pdist data p x i) (r / (1 + eps))) eqn:E'; auto.
    rewrite (root_le_mono p (pdist data p x i) _ (r / (1 + eps)) (r / (1 + eps))) in E; auto; [|lra]. apply min_point_le; auto. }
  assert (BULK : forall t rc, length x = length rc -> cell_ok data t rc -> root_lt p (max_distance_point p rc x) (r * (1 + eps)) = true ->
            forall i, In i (leaves t) -> root_le p (pdist data p x i) (r * (1 + eps)) = true).
  { intros t rc HL HC E i Hi. eapply root_lt_le; [|exact E]. apply max_point_ge; auto. }
  induction t as [idx|d s l IHl g IHg]; intros rc HL HS HC ND.
  - cbn [ball_point]. destruct (root_le p (min_distance_point p rc x) (r / (1 + eps))) eqn:E1; cbn [negb].
    + destruct (root_lt p (max_distance_point p rc x) (r * (1 + eps))) eqn:E2.
      * split; [|split; [auto|exact ND]]. intros i Hi. split; auto. eapply BULK; eauto.
      * split; [|split; [|apply NoDup_filter; auto]].
        -- intros i Hi. apply filter_In in Hi. destruct Hi as [Hi Hd]. split; auto. eapply root_le_mono; [apply Qle_refl|exact EU|exact Hd].
        -- intros i Hi Hd. apply filter_In. split; auto. eapply root_le_mono; [apply Qle_refl|exact EL|exact Hd].
    + split; [|split; [|constructor]]; [intros i []|]. intros i Hi Hd. rewrite (PRUNE (Leaf idx) rc) in Hd; auto. discriminate.
  - cbn [ball_point]. destruct (root_le p (min_distance_point p rc x) (r / (1 + eps))) eqn:E1; cbn [negb].
    + destruct (root_lt p (max_distance_point p rc x) (r * (1 + eps))) eqn:E2.
      * split; [|split; [auto|exact ND]]. intros i Hi. split; auto. eapply BULK; eauto.
      * destruct (cell_ok_split data m d s l g rc HS HC) as [Cl Cg]. destruct (split_length rc d s) as [Ll Lg].
        destruct (rect_split rc d s) as [rl rg]. cbn [fst snd] in *. destruct HS as (_ & _ & _ & Sl & Sg).
        cbn [leaves] in ND. destruct (nodup_app_inv _ _ ND) as (NDl & NDg & DIS).
        destruct (IHl rl ltac:(congruence) Sl Cl NDl) as (A1 & A2 & A3). destruct (IHg rg ltac:(congruence) Sg Cg NDg) as (B1 & B2 & B3).
        split; [|split].
        -- intros i Hi. apply in_app_or in Hi. destruct Hi as [Hi|Hi]; [apply A1 in Hi|apply B1 in Hi]; destruct Hi; split; auto; cbn [leaves]; apply in_or_app; auto.
        -- intros i Hi Hd. cbn [leaves] in Hi. apply in_app_or in Hi. apply in_or_app. destruct Hi; auto.
        -- apply nodup_app; auto. intros i H1 H2. apply (DIS i); [apply A1; auto|apply B1; auto].
    + split; [|split; [|constructor]]; [intros i []|]. intros i Hi Hd. rewrite (PRUNE (Inner d s l g) rc) in Hd; auto. discriminate.
Qed.

(** ** Building *)
Lemma fold_min_le l : forall x, fold_left Qmin l x <= x /\ Forall (fun y => fold_left Qmin l x <= y) l.
Proof.
  induction l as [|y l IH]; intros x; simpl; [split; [lra|constructor]|]. destruct (IH (Qmin x y)) as [H1 H2].
  pose proof (Q.le_min_l x y). pose proof (Q.le_min_r x y). split; [lra|]. constructor; [lra|auto].
Qed.
Lemma fold_max_ge l : forall x, x <= fold_left Qmax l x /\ Forall (fun y => y <= fold_left Qmax l x) l.
Proof.
  induction l as [|y l IH]; intros x; simpl; [split; [lra|constructor]|]. destruct (IH (Qmax x y)) as [H1 H2].
  pose proof (Q.le_max_l x y). pose proof (Q.le_max_r x y). split; [lra|]. constructor; [lra|auto].
Qed.
Lemma fold_min_in l : forall x, fold_left Qmin l x == x \/ Exists (fun y => fold_left Qmin l x == y) l.
Proof.
  induction l as [|y l IH]; intros x; simpl; [left; reflexivity|]. destruct (IH (Qmin x y)) as [H|H]; [|auto].
  destruct (qmin_cases x y) as [[E _]|[E _]]; [left|right; constructor]; rewrite H, E; reflexivity.
Qed.
Lemma fold_max_in l : forall x, fold_left Qmax l x == x \/ Exists (fun y => fold_left Qmax l x == y) l.
Proof.
  induction l as [|y l IH]; intros x; simpl; [left; reflexivity|]. destruct (IH (Qmax x y)) as [H|H]; [|auto].
  destruct (qmax_cases x y) as [[E _]|[E _]]; [left|right; constructor]; rewrite H, E; reflexivity.
Qed.
Lemma amin_spec l : l <> [] -> Forall (fun y => amin l <= y) l /\ Exists (fun y => amin l == y) l.
Proof. destruct l as [|x l]; [congruence|]. intros _. cbn [amin]. destruct (fold_min_le l x). split; [constructor; auto|]. destruct (fold_min_in l x); [left|right]; auto. Qed.
Lemma amax_spec l : l <> [] -> Forall (fun y => y <= amax l) l /\ Exists (fun y => amax l == y) l.
Proof. destruct l as [|x l]; [congruence|]. intros _. cbn [amax]. destruct (fold_max_ge l x). split; [constructor; auto|]. destruct (fold_max_in l x); [left|right]; auto. Qed.

Lemma argmax_from_spec l : forall k best bk, (bk < k)%nat ->
  let r := argmax_from l k best bk in (r = bk /\ Forall (fun x => x <= best) l) \/
   ((k <= r < k + length l)%nat /\ Forall (fun x => x <= nth (r - k) l 0) l /\ best <= nth (r - k) l 0).
Proof.
  induction l as [|x l IH]; intros k best bk H; cbn [argmax_from]; [left; auto|]. cbv zeta in IH |- *.
  destruct (Qltb_spec best x) as [E|E].
  - destruct (IH (S k) x k ltac:(lia)) as [[-> HF]|(HR & HF & HB)].
    + right. split; [simpl; lia|]. rewrite Nat.sub_diag. simpl. split; [constructor; [lra|auto]|lra].
    + right. split; [simpl; lia|]. replace (argmax_from l (S k) x k - k)%nat with (S (argmax_from l (S k) x k - S k)) by lia. simpl. split; [constructor; auto|lra].
  - destruct (IH (S k) best bk ltac:(lia)) as [[-> HF]|(HR & HF & HB)].
    + left. split; auto. constructor; [lra|auto].
    + right. split; [simpl; lia|]. replace (argmax_from l (S k) best bk - k)%nat with (S (argmax_from l (S k) best bk - S k)) by lia. simpl.
      split; [constructor; [lra|auto]|lra].
Qed.
Lemma argmax_lt l : l <> [] -> (argmax l < length l)%nat.
Proof.
  destruct l as [|x l]; [congruence|]. intros _. cbn [argmax length]. destruct (argmax_from_spec l 1 x 0 ltac:(lia)) as [[-> _]|(H & _)]; lia.
Qed.

Definition in_cell (maxes mins y : list Q) : Prop := Forall2 Qle mins y /\ Forall2 Qle y maxes.
Lemma forall2_nth_le a b : Forall2 Qle a b -> forall d, nth d a 0 <= nth d b 0.
Proof. induction 1 as [|x y a b H HF IH]; intros [|d]; simpl; auto; lra. Qed.
Lemma forall2_set_r a b d v : Forall2 Qle a b -> nth d a 0 <= v -> Forall2 Qle a (set_nth d v b).
Proof. intros H. revert d. induction H as [|x y a b H HF IH]; intros [|d] L; simpl in *; constructor; auto. Qed.
Lemma forall2_set_l a b d v : Forall2 Qle a b -> v <= nth d b 0 -> Forall2 Qle (set_nth d v a) b.
Proof. intros H. revert d. induction H as [|x y a b H HF IH]; intros [|d] L; simpl in *; constructor; auto. Qed.

Lemma filter_split_perm {A} (f : A -> bool) l : Permutation l (filter f l ++ filter (fun x => negb (f x)) l).
Proof.
  induction l as [|x l IH]; simpl; auto. destruct (f x); simpl; [constructor; auto|]. apply Permutation_cons_app. auto.
Qed.
Lemma filter_length_split {A} (f : A -> bool) l : (length (filter f l) + length (filter (fun x => negb (f x)) l) = length l)%nat.
Proof. rewrite (Permutation_length (filter_split_perm f l)), app_length. auto. Qed.
Lemma filter_nil {A} (f : A -> bool) l : filter f l = [] <-> forall x, In x l -> f x = false.
Proof.
  split.
  - intros E x Hx. destruct (f x) eqn:F; auto. assert (In x (filter f l)) by (apply filter_In; auto). rewrite E in H. destruct H.
  - intros H. induction l as [|x l IH]; simpl; auto. rewrite H by (simpl; auto). apply IH. intros; apply H; simpl; auto.
Qed.

Fixpoint no_empty (t : node) : Prop :=
  match t with Leaf _ => True | Inner _ _ l g => leaves l <> [] /\ leaves g <> [] /\ no_empty l /\ no_empty g end.
Record built (data : list (list Q)) (m leafsize : nat) (idx : list nat) (t : node) : Prop := {
  b_perm : Permutation (leaves t) idx;
  b_splits : splits_ok data m t;
  b_leaf : forall l, In l (leaf_lists t) -> (length l <= leafsize)%nat \/ share_a_coordinate data m l;
  b_nonempty : no_empty t
}.

Lemma build_spec data m leafsize : (0 < m)%nat -> forall fuel idx maxes mins, (length idx < fuel)%nat -> length maxes = m -> length mins = m ->
  (forall i, In i idx -> in_cell maxes mins (row data i)) -> exists t, build fuel leafsize data idx maxes mins = Ok t /\ built data m leafsize idx t.
Proof.
  intros Hm. induction fuel as [|fuel IH]; intros idx maxes mins HF LM Lm HC; [lia|]. cbn [build].
  destruct (Nat.leb_spec (length idx) leafsize) as [HL|HL].
  { eexists. split; [reflexivity|]. split; [apply Permutation_refl|exact I| |exact I]. intros l [<-|[]]. auto. }
  set (d := argmax (zipw Qminus maxes mins)).
  assert (Hd : (d < m)%nat).
  { unfold d. assert (LZ : length (zipw Qminus maxes mins) = m) by (unfold zipw; rewrite map_length, combine_length; lia).
    rewrite <- LZ. apply argmax_lt. intros C. rewrite C in LZ. simpl in LZ. lia. }
  assert (HB : forall i, In i idx -> nth d mins 0 <= at_ data d i <= nth d maxes 0).
  { intros i Hi. destruct (HC i Hi) as [H1 H2]. split; [apply (forall2_nth_le _ _ H1)|apply (forall2_nth_le _ _ H2)]. }
  destruct (Qeqb_spec (nth d maxes 0) (nth d mins 0)) as [EQ|NEQ].
  { eexists. split; [reflexivity|]. split; [apply Permutation_refl|exact I| |exact I]. intros l [<-|[]]. right. exists d. split; auto.
    intros i j Hi Hj. pose proof (HB i Hi). pose proof (HB j Hj). unfold at_, row in *. lra. }
  set (col := at_ data d) in *. set (vals := map col idx).
  assert (NE : idx <> []) by (destruct idx; [simpl in HL; lia|discriminate]).
  assert (NV : vals <> []) by (unfold vals; destruct idx; [congruence|discriminate]).
  destruct (amin_spec vals NV) as [MINA MINE]. destruct (amax_spec vals NV) as [MAXA MAXE].
  assert (MINA' : forall i, In i idx -> amin vals <= col i) by (intros i Hi; rewrite Forall_forall in MINA; apply MINA; apply in_map; auto).
  assert (MAXA' : forall i, In i idx -> col i <= amax vals) by (intros i Hi; rewrite Forall_forall in MAXA; apply MAXA; apply in_map; auto).
  assert (MINE' : exists i, In i idx /\ amin vals == col i) by (apply Exists_exists in MINE; destruct MINE as (v & Hv & E); apply in_map_iff in Hv; destruct Hv as (i & <- & Hi); eauto).
  assert (MAXE' : exists i, In i idx /\ amax vals == col i) by (apply Exists_exists in MAXE; destruct MAXE as (v & Hv & E); apply in_map_iff in Hv; destruct Hv as (i & <- & Hi); eauto).
  (* finishing an inner node *)
  assert (FIN : forall sp less greater, less <> [] -> greater <> [] -> Permutation idx (less ++ greater) ->
     (forall i, In i less -> col i <= sp) -> (forall i, In i greater -> sp <= col i) ->
     exists t, bind (build fuel leafsize data less (set_nth d sp maxes) mins) (fun l =>
          bind (build fuel leafsize data greater maxes (set_nth d sp mins)) (fun g => Ok (Inner d sp l g))) = Ok t /\ built data m leafsize idx t).
  { intros sp less greater N1 N2 P H1 H2.
    assert (LEN : (length less + length greater = length idx)%nat) by (rewrite (Permutation_length P), app_length; auto).
    assert (IL : forall i, In i less -> In i idx) by (intros i Hi; eapply Permutation_in; [apply Permutation_sym; exact P|]; apply in_or_app; auto).
    assert (IG : forall i, In i greater -> In i idx) by (intros i Hi; eapply Permutation_in; [apply Permutation_sym; exact P|]; apply in_or_app; auto).
    assert (0 < length less)%nat by (destruct less; [congruence|simpl; lia]). assert (0 < length greater)%nat by (destruct greater; [congruence|simpl; lia]).
    destruct (IH less (set_nth d sp maxes) mins) as (tl & El & [P1 S1 B1 E1]); [lia|rewrite set_nth_length; auto|auto| |].
    { intros i Hi. destruct (HC i (IL i Hi)) as [C1 C2]. split; auto. apply forall2_set_r; auto. apply H1. auto. }
    destruct (IH greater maxes (set_nth d sp mins)) as (tg & Eg & [P2 S2 B2 E2]); [lia|auto|rewrite set_nth_length; auto| |].
    { intros i Hi. destruct (HC i (IG i Hi)) as [C1 C2]. split; auto. apply forall2_set_l; auto. apply H2. auto. }
    rewrite El, Eg. cbn [bind]. eexists. split; [reflexivity|]. split.
    - cbn [leaves]. eapply Permutation_trans; [apply Permutation_app; eauto|]. apply Permutation_sym. auto.
    - cbn [splits_ok]. split; auto. split; [|split; [|auto]].
      + intros i Hi. apply H1. eapply Permutation_in; eauto.
      + intros i Hi. apply H2. eapply Permutation_in; eauto.
    - cbn [leaf_lists]. intros l Hl. apply in_app_or in Hl. destruct Hl; auto.
    - cbn [no_empty]. repeat split; auto; intros C; rewrite C in *; [apply Permutation_nil in P1|apply Permutation_nil in P2]; congruence. }
  assert (P1 : forall sp, Permutation idx (filter (fun i => Qleb (col i) sp) idx ++ filter (fun i => Qltb sp (col i)) idx)).
  { intros sp. eapply Permutation_trans; [apply (filter_split_perm (fun i => Qleb (col i) sp))|]. apply Permutation_app_head.
    erewrite filter_ext; [apply Permutation_refl|]. intros i. reflexivity. }
  assert (P2 : forall sp, Permutation idx (filter (fun i => Qltb (col i) sp) idx ++ filter (fun i => Qleb sp (col i)) idx)).
  { intros sp. eapply Permutation_trans; [apply (filter_split_perm (fun i => Qltb (col i) sp))|]. apply Permutation_app_head.
    erewrite filter_ext; [apply Permutation_refl|]. intros i. unfold Qltb. rewrite negb_involutive. reflexivity. }
  (* second adjustment: nothing above the split *)
  assert (SECOND : exists t, (let '(split, less, greater) := (amax vals, filter (fun i => Qltb (col i) (amax vals)) idx, filter (fun i => Qleb (amax vals) (col i)) idx) in
       if is_nil less then if forallb (fun v => Qeqb v (hd 0 vals)) vals then Ok (Leaf idx) else Raises ValueError
       else bind (build fuel leafsize data less (set_nth d split maxes) mins) (fun l =>
          bind (build fuel leafsize data greater maxes (set_nth d split mins)) (fun g => Ok (Inner d split l g)))) = Ok t /\ built data m leafsize idx t).
  { cbv beta iota zeta.
    destruct (filter (fun i => Qltb (col i) (amax vals)) idx) as [|i0 less] eqn:EF; cbn [is_nil].
    - assert (ALL : forall i, In i idx -> col i == amax vals).
      { intros i Hi. pose proof (proj1 (filter_nil _ _) EF i Hi) as E. apply Qltb_ge in E. specialize (MAXA' i Hi). lra. }
      assert (FA : forallb (fun v => Qeqb v (hd 0 vals)) vals = true).
      { apply forallb_forall. intros v Hv. apply Qeqb_eq. unfold vals in *. apply in_map_iff in Hv. destruct Hv as (i & <- & Hi).
        destruct idx as [|i1 idx']; [congruence|]. cbn [map hd]. rewrite (ALL i Hi), (ALL i1); [reflexivity|simpl; auto]. }
      rewrite FA. eexists. split; [reflexivity|]. split; [apply Permutation_refl|exact I| |exact I]. intros l [<-|[]]. right. exists d. split; auto.
      intros i j Hi Hj. fold (row data i) (row data j). fold (at_ data d i) (at_ data d j). fold col. rewrite (ALL i Hi), (ALL j Hj). reflexivity.
    - rewrite <- EF. apply FIN; auto.
      + rewrite EF. discriminate.
      + destruct MAXE' as (i & Hi & E). intros C. pose proof (proj1 (filter_nil _ _) C i Hi) as E'. apply Qleb_gt in E'. lra.
      + intros i Hi. apply filter_In in Hi. destruct Hi as [_ Hi]. apply Qltb_lt in Hi. lra.
      + intros i Hi. apply filter_In in Hi. destruct Hi as [_ Hi]. apply Qleb_le in Hi. lra. }
  assert (FIRST : forall sp, filter (fun i => Qleb (col i) sp) idx <> [] ->
     exists t, (let '(split, less, greater) :=
          if is_nil (filter (fun i => Qltb sp (col i)) idx) then
            (amax vals, filter (fun i => Qltb (col i) (amax vals)) idx, filter (fun i => Qleb (amax vals) (col i)) idx)
          else (sp, filter (fun i => Qleb (col i) sp) idx, filter (fun i => Qltb sp (col i)) idx) in
       if is_nil less then if forallb (fun v => Qeqb v (hd 0 vals)) vals then Ok (Leaf idx) else Raises ValueError
       else bind (build fuel leafsize data less (set_nth d split maxes) mins) (fun l =>
          bind (build fuel leafsize data greater maxes (set_nth d split mins)) (fun g => Ok (Inner d split l g)))) = Ok t /\ built data m leafsize idx t).
  { intros sp N. destruct (filter (fun i => Qltb sp (col i)) idx) as [|i0 gr] eqn:EG; cbn [is_nil].
    - exact SECOND.
    - rewrite <- EG. destruct (filter (fun i => Qleb (col i) sp) idx) as [|i1 le] eqn:EL; [congruence|]. cbn [is_nil]. rewrite <- EL. apply FIN; auto.
      + rewrite EL. discriminate.
      + rewrite EG. discriminate.
      + intros i Hi. apply filter_In in Hi. destruct Hi as [_ Hi]. apply Qleb_le in Hi. lra.
      + intros i Hi. apply filter_In in Hi. destruct Hi as [_ Hi]. apply Qltb_lt in Hi. lra. }
  set (sp := (nth d maxes 0 + nth d mins 0) / 2).
  destruct (filter (fun i => Qleb (col i) sp) idx) as [|i1 le] eqn:EL; cbn [is_nil].
  - apply FIRST. destruct MINE' as (i & Hi & E). intros C. pose proof (proj1 (filter_nil _ _) C i Hi) as E'. apply Qleb_gt in E'. lra.
  - rewrite <- EL. apply FIRST. rewrite EL. discriminate.
Qed.

Lemma fold_zip_spec (f : Q -> Q -> Q) (R : Q -> Q -> Prop) m : (forall a b, R a (f a b)) -> (forall a b, R b (f a b)) -> (forall a, R a a) -> (forall a b c, R a b -> R b c -> R a c) ->
  forall rows x, length x = m -> Forall (fun y => length y = m) rows ->
  length (fold_left (zipw f) rows x) = m /\ Forall2 R x (fold_left (zipw f) rows x) /\ Forall (fun y => Forall2 R y (fold_left (zipw f) rows x)) rows.
Proof.
  intros HL HR HRF HT rows. induction rows as [|y rows IH]; intros x Hx HF; simpl.
  - split; auto. split; [|constructor]. clear -HRF. induction x; constructor; auto.
  - inversion HF as [|? ? Hy HF']; subst.
    assert (LZ : length (zipw f x y) = length x) by (unfold zipw; rewrite map_length, combine_length; lia).
    destruct (IH (zipw f x y)) as (I1 & I2 & I3); [auto|auto|]. split; auto.
    assert (X : Forall2 R x (zipw f x y) /\ Forall2 R y (zipw f x y)).
    { clear -HL HR Hy. revert y Hy. induction x as [|a x IH]; intros [|b y] Hy; try discriminate; [split; constructor|]. simpl in Hy. injection Hy as Hy.
      destruct (IH y Hy). unfold zipw in *. simpl. split; constructor; auto. }
    assert (TR : forall a b c, Forall2 R a b -> Forall2 R b c -> Forall2 R a c).
    { clear -HT. intros a b c H. revert c. induction H; intros c H2; inversion H2; subst; constructor; eauto. }
    destruct X. split; [eapply TR; eauto|]. constructor; [eapply TR; eauto|auto].
Qed.
Lemma forall2_flip {A B} (R : A -> B -> Prop) a b : Forall2 R a b -> Forall2 (fun x y => R y x) b a.
Proof. induction 1; constructor; auto. Qed.

Theorem kdtree_spec data m leafsize : (0 < m)%nat -> data <> [] -> rows_of_length m data -> (1 <= leafsize)%Z ->
  exists k, KDTree data leafsize = Ok k /\ kd_data k = data /\ length (kd_maxes k) = m /\ length (kd_mins k) = m /\
    (forall i, (i < length data)%nat -> in_cell (kd_maxes k) (kd_mins k) (row data i)) /\ built data m (Z.to_nat leafsize) (seq 0 (length data)) (kd_tree k).
Proof.
  intros Hm HN HR HL. unfold KDTree. replace (leafsize <? 1)%Z with false by (symmetry; apply Z.ltb_ge; auto).
  destruct data as [|x rows]; [congruence|]. cbn [maxes_of mins_of bind]. inversion HR as [|? ? Hx HF]; subst.
  destruct (fold_zip_spec Qmax Qle (length x) Q.le_max_l Q.le_max_r Qle_refl Qle_trans rows x eq_refl HF) as (A1 & A2 & A3).
  destruct (fold_zip_spec Qmin (fun a b => b <= a) (length x) Q.le_min_l Q.le_min_r Qle_refl (fun a b c H1 H2 => Qle_trans c b a H2 H1) rows x eq_refl HF) as (B1 & B2 & B3).
  set (mx := fold_left (zipw Qmax) rows x) in *. set (mn := fold_left (zipw Qmin) rows x) in *.
  assert (C : forall i, (i < length (x :: rows))%nat -> in_cell mx mn (row (x :: rows) i)).
  { intros i Hi. assert (In (row (x :: rows) i) (x :: rows)) by (apply nth_In; auto). rewrite Forall_forall in A3, B3. destruct H as [<-|H].
    - split; [apply forall2_flip in B2; exact B2|auto].
    - split; [specialize (B3 _ H); apply forall2_flip in B3; exact B3|auto]. }
  destruct (build_spec (x :: rows) (length x) (Z.to_nat leafsize) Hm (S (length (x :: rows))) (seq 0 (length (x :: rows))) mx mn) as (t & E & B); auto.
  { rewrite seq_length. lia. }
  { intros i Hi. apply in_seq in Hi. apply C. lia. }
  rewrite E. cbn [bind]. eexists. split; [reflexivity|]. cbn. auto 10.
Qed.
