(** Separation constraints (C23). *)
From Verif Require Import Base QBase LonModel LonSpec LonProofs KDModel KDSpec HavModel HavSpec HavProofs Hav4Proofs DateModel DateProofs ColModel ColSpec.
From Coq Require Import Reals Qreals Lra Lqa.
Open Scope Q_scope.

(** ** Filtering *)
Lemma filter_kept {A} (P : A -> Prop) f l : (forall x, In x l -> f x = true <-> P x) -> kept P l (filter f l).
Proof.
  induction l as [|x l IH]; intros H; simpl; [constructor|]. destruct (f x) eqn:E.
  - constructor; [apply H; [left; auto|auto]|]. apply IH. intros; apply H; right; auto.
  - constructor; [intros C; apply H in C; [congruence|left; auto]|]. apply IH. intros; apply H; right; auto.
Qed.
Lemma filter_true {A} (l : list A) : filter (fun _ => true) l = l.
Proof. induction l; simpl; congruence. Qed.
Lemma filter_perm {A} (f : A -> bool) l l' : Permutation l l' -> Permutation (filter f l) (filter f l').
Proof.
  induction 1 as [|x l l' H IH|x y l|l l' l'' H1 IH1 H2 IH2]; simpl; auto.
  - destruct (f x); auto.
  - destruct (f x), (f y); auto. apply perm_swap.
  - eapply Permutation_trans; eauto.
Qed.
Lemma filter_filter {A} (f g : A -> bool) l : filter f (filter g l) = filter (fun x => g x && f x) l.
Proof. induction l as [|x l IH]; simpl; auto. destruct (g x); simpl; rewrite IH; auto. Qed.
Lemma filter_both_perm {A} (f g : A -> bool) l : (forall x, In x l -> f x = true -> g x = false) -> Permutation (filter f l ++ filter g l) (filter (fun x => f x || g x) l).
Proof.
  induction l as [|x l IH]; intros H; simpl; auto. specialize (IH ltac:(intros; apply H; auto; right; auto)). destruct (f x) eqn:F.
  - rewrite (H x (or_introl eq_refl) F). cbn [orb]. simpl. constructor. auto.
  - destruct (g x); cbn [orb]; auto. eapply Permutation_trans; [apply Permutation_sym, Permutation_middle|]. constructor. auto.
Qed.
Lemma nonzero_spec (l : list bool) : forall s, map fst (filter (fun ib : nat * bool => snd ib) (combine (seq s (length l)) l)) =
  map (fun i => (s + i)%nat) (np_nonzero l).
Proof.
  unfold np_nonzero. induction l as [|x l IH]; intros s; [reflexivity|]. cbn [length seq combine filter snd].
  destruct x; cbn [map fst]; rewrite (IH (S s)), (IH 1%nat); generalize (map fst (filter (fun ib : nat * bool => snd ib) (combine (seq 0 (length l)) l))) as Y; intros Y; rewrite map_map; [f_equal; [lia|]|]; apply map_ext; intros; lia.
Qed.
Lemma iloc_nonzero {A} (f : A -> bool) (l : list A) : iloc l (np_nonzero (map f l)) = filter f l.
Proof.
  induction l as [|x l IH]; [reflexivity|]. pose proof (nonzero_spec (map f l) 1) as N.
  assert (S : iloc (x :: l) (map (fun i => (1 + i)%nat) (np_nonzero (map f l))) = filter f l).
  { rewrite <- IH. unfold iloc. generalize (np_nonzero (map f l)) as idx. induction idx as [|i idx IH']; simpl; auto. f_equal. exact IH'. }
  unfold np_nonzero. cbn [map length seq combine filter snd]. destruct (f x); cbn [map fst]; rewrite N; [|exact S].
  change (x :: iloc (x :: l) (map (fun i => (1 + i)%nat) (np_nonzero (map f l))) = x :: filter f l). rewrite S. reflexivity.
Qed.
Lemma iloc_app {A} (l : list A) i j : iloc l (i ++ j) = iloc l i ++ iloc l j.
Proof. unfold iloc. apply flat_map_app. Qed.
Lemma iloc_perm {A} (l : list A) i j : Permutation i j -> Permutation (iloc l i) (iloc l j).
Proof. intros H. unfold iloc. apply Permutation_flat_map. auto. Qed.
Lemma iloc_filter {A} (l : list A) f : iloc l (filter f (seq 0 (length l))) = map snd (filter (fun ix : nat * A => f (fst ix)) (combine (seq 0 (length l)) l)).
Proof.
  assert (G : forall pre, iloc (pre ++ l) (filter f (seq (length pre) (length l))) = map snd (filter (fun ix : nat * A => f (fst ix)) (combine (seq (length pre) (length l)) l))).
  { induction l as [|x l IH]; intros pre; [reflexivity|]. cbn [length seq combine filter fst]. specialize (IH (pre ++ [x])). rewrite app_length in IH. simpl in IH. rewrite Nat.add_1_r in IH. rewrite <- app_assoc in IH. simpl in IH.
    destruct (f (length pre)); cbn [map snd]; [|exact IH]. unfold iloc in *. cbn [flat_map]. rewrite nth_error_app2, Nat.sub_diag by lia. cbn [nth_error app]. f_equal. exact IH. }
  apply (G []).
Qed.
Lemma kept_index {A} (P : A -> Prop) (f : nat -> bool) : forall l s, (forall i x, nth_error l i = Some x -> f (s + i)%nat = true <-> P x) ->
  kept P l (map snd (filter (fun ix : nat * A => f (fst ix)) (combine (seq s (length l)) l))).
Proof.
  induction l as [|x l IH]; intros s H; simpl; [constructor|]. pose proof (H 0%nat x eq_refl) as H0. rewrite Nat.add_0_r in H0.
  assert (K : kept P l (map snd (filter (fun ix : nat * A => f (fst ix)) (combine (seq (S s) (length l)) l)))).
  { apply IH. intros i y E. specialize (H (S i) y E). rewrite Nat.add_succ_r in H. exact H. }
  destruct (f s) eqn:E; cbn [map snd]; constructor; auto; [apply H0; auto|intros C; apply H0 in C; congruence].
Qed.
(** rows picked by an exact index list *)
Lemma iloc_exact {A} (P : A -> Prop) (l : list A) idx : NoDup idx -> (forall j, In j idx <-> exists x, nth_error l j = Some x /\ P x) ->
  exists r, kept P l r /\ Permutation (iloc l idx) r.
Proof.
  intros ND H. set (f := fun j => if in_dec Nat.eq_dec j idx then true else false).
  exists (iloc l (filter f (seq 0 (length l)))). split.
  - rewrite iloc_filter. apply kept_index. intros i x E. unfold f. simpl. destruct (in_dec Nat.eq_dec i idx) as [I|I]; split; auto; try discriminate.
    + intros _. apply H in I. destruct I as (y & Ey & Py). congruence.
    + intros Px. exfalso. apply I. apply H. eauto.
  - apply iloc_perm. apply NoDup_Permutation; auto; [apply NoDup_filter, seq_NoDup|]. intros j. rewrite filter_In, in_seq. unfold f.
    destruct (in_dec Nat.eq_dec j idx) as [I|I]; split; auto; [|tauto|intros [_ C]; discriminate]. intros _. split; auto. apply H in I. destruct I as (x & E & _). apply nth_error_Some_lt in E || (assert (nth_error l j <> None) by congruence; apply nth_error_Some in H0; lia).
Qed.
Lemma kept_in {A} (P : A -> Prop) l r x : kept P l r -> In x r <-> In x l /\ P x.
Proof.
  induction 1 as [|y l r Py H IH|y l r Py H IH]; simpl; [tauto| |].
  - rewrite IH. split; [intros [<-|[]]; auto; tauto|intros [[<-|Hx] Px]; auto].
  - rewrite IH. split; [tauto|]. intros [[<-|Hx] Px]; [contradiction|auto].
Qed.
Lemma kept_unique {A} (P : A -> Prop) l r r' : kept P l r -> kept P l r' -> r = r'.
Proof. intros H. revert r'. induction H; intros r' H'; inversion H'; subst; auto; try contradiction. f_equal; auto. Qed.
Lemma kept_kept {A} (P R : A -> Prop) l r f : (forall x, In x l -> f x = true <-> R x) -> kept P l r -> kept (fun x => P x /\ R x) l (filter f r).
Proof.
  intros HF H. induction H as [|x l r Px H IH|x l r Px H IH]; simpl; [constructor| |].
  - specialize (IH ltac:(intros; apply HF; right; auto)). destruct (f x) eqn:E; constructor; auto; [split; auto; apply HF; [left; auto|auto]|]. intros [_ C]. apply HF in C; [congruence|left; auto].
  - constructor; [tauto|]. apply IH. intros; apply HF; right; auto.
Qed.

(** ** Checks *)
Lemma pressure_ratio_gt p q : 0 < q -> q < p -> pressure_ratio p q == p / q.
Proof. intros Hq H. unfold pressure_ratio. apply Qdiv_comp; [apply Q.max_l; lra|apply Q.min_r; lra]. Qed.
Lemma pressure_ratio_le p q : 0 < p -> p <= q -> pressure_ratio p q == q / p.
Proof. intros Hp H. unfold pressure_ratio. apply Qdiv_comp; [apply Q.max_r; lra|apply Q.min_l; lra]. Qed.

Definition alt_b a (ref p : prow) := Qltb (Qabs (p_alt p - p_alt ref)) a.
Definition time_b t (ref p : prow) := Qltb (Qabs (p_time p - p_time ref)) t.
Definition pres_b s (ref p : prow) := Qltb (pres_sep p ref) s.
Definition limits_b (a_sep p_sep t_sep : option Q) (ref p : prow) : bool :=
  match a_sep with Some a => alt_b a ref p | None => true end && match p_sep with Some s => pres_b s ref p | None => true end && match t_sep with Some t => time_b t ref p | None => true end.
Lemma pres_b_spec s ref p : positive_pressure p -> positive_pressure ref -> pres_b s ref p = true <-> pressure_ratio (p_pres p) (p_pres ref) < s.
Proof.
  unfold positive_pressure, pres_b, pres_sep. intros H1 H2. destruct (Qltb_spec (p_pres ref) (p_pres p)) as [L|L]; rewrite Qltb_lt.
  - pose proof (pressure_ratio_gt _ _ H2 L). split; lra.
  - pose proof (pressure_ratio_le _ _ H1 (Qnot_lt_le _ _ L)). split; lra.
Qed.
Lemma limits_b_spec a_sep p_sep t_sep ref p : positive_pressure p -> positive_pressure ref -> limits_b a_sep p_sep t_sep ref p = true <-> meets_limits a_sep p_sep t_sep ref p.
Proof.
  intros H1 H2. unfold limits_b, meets_limits, alt_b, time_b. rewrite !andb_true_iff. split.
  - intros [[A B] C]. split; [|split]; intros x ->; [apply Qltb_lt in A; auto|apply pres_b_spec in B; auto|apply Qltb_lt in C; auto].
  - intros (A & B & C). split; [split|]; [destruct a_sep|destruct p_sep|destruct t_sep]; auto; [apply Qltb_lt; auto|apply pres_b_spec; auto|apply Qltb_lt; auto].
Qed.

Lemma fold_append {A} (f : A -> bool) l : forall acc, fold_left (fun c x => if f x then c ++ [x] else c) l acc = acc ++ filter f l.
Proof. induction l as [|x l IH]; intros acc; simpl; [rewrite app_nil_r; auto|]. rewrite IH. destruct (f x); [rewrite <- app_assoc; auto|auto]. Qed.
Theorem sep_constrain_spec h_sep a_sep p_sep t_sep ref data : positive_pressure ref -> Forall positive_pressure data ->
  kept (fun d => (forall h, h_sep = Some h -> (surface_distance d ref < Q2R h)%R) /\ meets_limits a_sep p_sep t_sep ref d) data (sep_constrain_points h_sep a_sep p_sep t_sep ref data).
Proof.
  intros HR HD. unfold sep_constrain_points. rewrite (fold_append (fun point => forallb (fun check : prow -> prow -> bool => check point ref) (sep_checks h_sep a_sep p_sep t_sep))).
  apply filter_kept. intros d Hd. rewrite Forall_forall in HD. specialize (HD d Hd). rewrite <- (limits_b_spec a_sep p_sep t_sep ref d HD HR).
  unfold sep_checks, limits_b, alt_b, time_b, pres_b. rewrite !forallb_app, !andb_true_iff.
  assert (H : forallb (fun check : prow -> prow -> bool => check d ref) (match h_sep with Some h => [fun point ref => Rltb (haversine_dist point ref) (Q2R h)] | None => [] end) = true <-> (forall h, h_sep = Some h -> (surface_distance d ref < Q2R h)%R)).
  { destruct h_sep as [h|]; simpl; [|split; auto; discriminate]. rewrite andb_true_r, Rltb_spec. unfold haversine_dist, hdist, row2. cbn [fst snd]. rewrite haversine_great_circle.
    split; [intros L x E; injection E as <-; exact L|auto]. }
  rewrite H. destruct a_sep, p_sep, t_sep; cbn [forallb]; rewrite ?andb_true_r; tauto.
Qed.

Lemma kept_ext {A} (P Q : A -> Prop) l r : (forall x, P x <-> Q x) -> kept P l r -> kept Q l r.
Proof. intros H. induction 1; constructor; auto; [apply H; auto|]. intros C. apply H in C. auto. Qed.
Lemma sep_constrain_both a_sep p_sep t_sep ref data : positive_pressure ref -> Forall positive_pressure data -> kept (meets_limits a_sep p_sep t_sep ref) data (sep_constrain_points None a_sep p_sep t_sep ref data).
Proof. intros HR HD. eapply kept_ext; [|apply sep_constrain_spec; auto]. intros x. cbv beta. split; [tauto|]. intros H. split; auto. discriminate. Qed.
Lemma has_in c cols : has c cols = true <-> In c cols.
Proof.
  unfold has. rewrite existsb_exists. split; [intros (x & Hx & E)|intros H; exists c; split; auto; destruct c; auto].
  assert (c = x) by (destruct c, x; auto; discriminate). subst; auto.
Qed.
Lemma alt_check_spec a pts ref : iloc pts (alt_constraint a pts ref) = filter (alt_b a ref) pts.
Proof. apply (iloc_nonzero (alt_b a ref)). Qed.
Lemma time_check_spec t pts ref : iloc pts (time_constraint t pts ref) = filter (time_b t ref) pts.
Proof. apply (iloc_nonzero (time_b t ref)). Qed.
Lemma pres_check_spec s pts ref : Permutation (iloc pts (pressure_constraint s pts ref)) (filter (pres_b s ref) pts).
Proof.
  unfold pressure_constraint. rewrite iloc_app, !iloc_nonzero. eapply Permutation_trans; [apply filter_both_perm|].
  - intros x _ E. apply andb_true_iff in E. destruct E as [_ E]. apply Qleb_le in E. apply andb_false_iff. right. apply Qltb_ge. auto.
  - erewrite filter_ext; [apply Permutation_refl|]. intros x. unfold pres_b, pres_sep. destruct (Qltb_spec (p_pres ref) (p_pres x)) as [L|L].
    + assert (Qleb (p_pres x) (p_pres ref) = false) by (apply Qleb_gt; auto). rewrite H. rewrite andb_false_r, andb_true_r. reflexivity.
    + assert (Qleb (p_pres x) (p_pres ref) = true) by (apply Qleb_le, Qnot_lt_le; auto). rewrite H. rewrite andb_false_r, andb_true_r, orb_false_r. reflexivity.
Qed.
Lemma apply_checks_spec dcols scols a_sep p_sep t_sep p pts : columns_for a_sep p_sep t_sep dcols -> columns_for a_sep p_sep t_sep scols ->
  exists d, apply_checks dcols scols (kd_checks a_sep p_sep t_sep) p pts = Ok d /\ Permutation d (filter (limits_b a_sep p_sep t_sep p) pts) /\
    (p_sep = None -> d = filter (limits_b a_sep p_sep t_sep p) pts).
Proof.
  intros (D1 & D2 & D3) (S1 & S2 & S3).
  assert (HAS : forall c, In c dcols -> In c scols -> has c dcols && has c scols = true) by (intros c I1 I2; apply has_in in I1, I2; rewrite I1, I2; auto).
  unfold kd_checks. set (rest := (match p_sep with Some s => [(PRES, pressure_constraint s)] | None => [] end) ++ (match t_sep with Some t => [(TIME, time_constraint t)] | None => [] end)).
  set (pts1 := match a_sep with Some a => filter (alt_b a p) pts | None => pts end).
  assert (E1 : apply_checks dcols scols ((match a_sep with Some a => [(ALT, alt_constraint a)] | None => [] end) ++ rest) p pts = apply_checks dcols scols rest p pts1).
  { unfold pts1. destruct a_sep as [a|]; [|reflexivity]. cbn [app apply_checks]. rewrite HAS, alt_check_spec by (try apply D1; try apply S1; discriminate). reflexivity. }
  rewrite E1. unfold rest. set (pts2 := match p_sep with Some s => iloc pts1 (pressure_constraint s pts1 p) | None => pts1 end).
  assert (E2 : apply_checks dcols scols ((match p_sep with Some s => [(PRES, pressure_constraint s)] | None => [] end) ++ (match t_sep with Some t => [(TIME, time_constraint t)] | None => [] end)) p pts1 =
               apply_checks dcols scols (match t_sep with Some t => [(TIME, time_constraint t)] | None => [] end) p pts2).
  { unfold pts2. destruct p_sep as [s|]; [|reflexivity]. cbn [app apply_checks]. rewrite HAS by (try apply D2; try apply S2; discriminate). reflexivity. }
  rewrite E2. exists (match t_sep with Some t => filter (time_b t p) pts2 | None => pts2 end). split.
  { destruct t_sep as [t|]; [|reflexivity]. cbn [apply_checks]. rewrite HAS, time_check_spec by (try apply D3; try apply S3; discriminate). reflexivity. }
  assert (P2 : Permutation pts2 (filter (fun x => match p_sep with Some s => pres_b s p x | None => true end) pts1)).
  { unfold pts2. destruct p_sep; [apply pres_check_spec|]. rewrite filter_true. auto. }
  assert (P1 : pts1 = filter (fun x => match a_sep with Some a => alt_b a p x | None => true end) pts).
  { unfold pts1. destruct a_sep; auto. rewrite filter_true. auto. }
  assert (L : filter (limits_b a_sep p_sep t_sep p) pts = filter (fun x => match t_sep with Some t => time_b t p x | None => true end) (filter (fun x => match p_sep with Some s => pres_b s p x | None => true end) pts1)).
  { rewrite P1, !filter_filter. apply filter_ext. intros x. unfold limits_b. rewrite !andb_assoc. reflexivity. }
  assert (T : forall l, match t_sep with Some t => filter (time_b t p) l | None => l end = filter (fun x => match t_sep with Some t => time_b t p x | None => true end) l).
  { intros l. destruct t_sep; auto. rewrite filter_true. auto. }
  rewrite L, !T. split; [apply filter_perm; auto|]. intros EP. f_equal. unfold pts2. rewrite EP, filter_true. auto.
Qed.

(** ** The iterator *)
Theorem kd_iterator_spec h_sep a_sep p_sep t_sep mdfms dcols scols data points indices : columns_for a_sep p_sep t_sep dcols -> columns_for a_sep p_sep t_sep scols ->
  (match h_sep with Some h => if Qeqb h 0 then indices = None else exists l, find_points_within_distance_sample (map position data) (map position points) (Q2R h) = Ok l /\ indices = Some l | None => indices = None end) ->
  exists it, kd_get_iterator h_sep a_sep p_sep t_sep mdfms dcols scols data points = Ok it /\
    Forall2 (fun ip e => fst e = ip /\ let near := match indices with Some ind => iloc data (nth (fst ip) ind []) | None => data end in
       Permutation (snd e) (filter (limits_b a_sep p_sep t_sep (snd ip)) near) /\ (p_sep = None -> snd e = filter (limits_b a_sep p_sep t_sep (snd ip)) near))
      (visited mdfms points) it.
Proof.
  intros HD HS HI. unfold kd_get_iterator.
  assert (EI : (match h_sep with
        | Some h => if Qeqb h 0 then Ok None else bind (find_points_within_distance_sample (map position data) (map position points) (Q2R h)) (fun l => Ok (Some l))
        | None => Ok None end) = Ok indices).
  { destruct h_sep as [h|]; [|congruence]. destruct (Qeqb h 0); [congruence|]. destruct HI as (l & -> & ->). reflexivity. }
  rewrite EI. cbn [bind]. unfold visited. generalize (combine (seq 0 (length points)) points) as ips. induction ips as [|[i p] ips IH].
  - exists []. cbn. split; auto.
  - destruct IH as (it & E & F). destruct (map_res _ ips) as [l|] eqn:EM; [|discriminate]. cbn [bind] in E. injection E as <-. cbn [map_res filter]. cbv beta iota. cbn [snd].
    destruct (mdfms && is_missing p) eqn:EK; cbn [negb].
    + rewrite EM. cbn [bind]. exists (concat l). split; auto.
    + destruct (apply_checks_spec dcols scols a_sep p_sep t_sep p (match indices with Some ind => iloc data (nth i ind []) | None => data end) HD HS) as (d & Ed & P & O).
      rewrite Ed. cbn [bind]. rewrite EM. cbn [bind]. eexists. split; [reflexivity|]. cbn [concat app]. constructor; auto.
Qed.
