From Verif Require Import Base PyStr QBase DateModel FileListModel UngrModel UngrSpec UngrProofs HavModel HavSpec HavProofs Hav3Proofs PtModel PtSpec.
From Coq Require Import Qabs Reals Lra Lqa Lia Sorted Permutation Qreals.
Open Scope list_scope. Open Scope Q_scope.

(** ** One point *)
Lemma std_time_ok d : days_since_1600 d (std_time_of d).
Proof.
  unfold days_since_1600, std_time_of, seconds_of_day, std_ref. rewrite !inject_Z_plus, !inject_Z_mult.
  change (inject_Z 86400) with 86400. field.
Qed.
Lemma pick_ok new old : changed new old (pick new old).
Proof. split; [intros x ->; reflexivity|intros ->; reflexivity]. Qed.
Lemma coord_eqb_iff a b : coord_eqb a b = true <-> same_coordinate a b.
Proof. destruct a, b; simpl; try tauto; try (split; [discriminate|tauto]). apply Qeq_bool_iff. Qed.
Lemma same_time_iff p q : same_point_in_time p q = true <-> same_coordinate (p_time p) (p_time q).
Proof. apply coord_eqb_iff. Qed.
Lemma same_space_iff p q : same_point_in_space p q = true <-> same_place p q.
Proof. unfold same_point_in_space, same_place. rewrite !andb_true_iff, !coord_eqb_iff. tauto. Qed.
Lemma same_both_iff p q : same_point_in_space_and_time p q = true <-> same_place p q /\ same_coordinate (p_time p) (p_time q).
Proof. unfold same_point_in_space_and_time. rewrite andb_true_iff, same_space_iff, same_time_iff. tauto. Qed.

Lemma insert_perm x l : Permutation (insert_by_name x l) (x :: l).
Proof. induction l as [|y l IH]; [auto|]. cbn [insert_by_name]. destruct (str_leb (fst x) (fst y)); auto. rewrite IH. apply perm_swap. Qed.
Lemma tuple_perm l : Permutation (fold_right insert_by_name [] l) l.
Proof. induction l as [|x l IH]; [auto|]. cbn [fold_right]. rewrite insert_perm. auto. Qed.
Lemma tuple_in p n x : In (n, x) (get_coord_tuple p) <-> names_coordinate p n (Some x).
Proof.
  unfold get_coord_tuple. assert (E : In (n, x) (fold_right insert_by_name [] (present (fields p))) <-> In (n, x) (present (fields p))).
  { split; apply Permutation_in; [|symmetry]; apply tuple_perm. }
  rewrite E. unfold present. rewrite in_flat_map. split.
  - intros ((m, o) & H & K). cbn [snd fst] in K. destruct o as [y|]; [|contradiction]. destruct K as [K|[]]. assert (m = n) by congruence. assert (y = x) by congruence. subst. clear K E.
    unfold fields in H. destruct H as [H|[H|[H|[H|[H|[]]]]]]; (assert (H1 := f_equal fst H); assert (H2 := f_equal snd H); cbn [fst snd] in H1, H2; rewrite <- H1, <- H2).
    + apply n_lat. + apply n_lon. + apply n_alt. + apply n_pres. + apply n_time.
  - intros H. exists (n, Some x). split; [|left; reflexivity]. unfold fields. remember (Some x) as o eqn:Eo. destruct H; [left|right; left|right; right; left|right; right; right; left|right; right; right; right; left]; reflexivity.
Qed.
Lemma tuple_sorted p : StronglySorted (fun a b : str * Q => str_leb (fst a) (fst b) = true /\ fst a <> fst b) (get_coord_tuple p).
Proof.
  unfold get_coord_tuple, fields. destruct p as [[?|] [?|] [?|] [?|] [?|] v]; cbn -[lit str_leb];
    repeat match goal with |- context [str_leb (lit ?a) (lit ?b)] => let r := eval vm_compute in (str_leb (lit a) (lit b)) in change (str_leb (lit a) (lit b)) with r; cbn -[lit str_leb] end;
    repeat (apply SSorted_cons; [|repeat (apply Forall_cons; [split; [vm_compute; reflexivity|cbn [fst]; discriminate]|]); apply Forall_nil]); apply SSorted_nil.
Qed.

(** ** Separations *)
Lemma ltb_iff a b : Qltb a b = true <-> a < b.
Proof. destruct (Qltb_spec a b); split; auto; discriminate. Qed.
Lemma sep_abs (f : point -> option Q) p q r : both (f p) (f q) (fun a b => Ok (Qabs (a - b))) = Ok r <-> exists a b, f p = Some a /\ f q = Some b /\ r = Qabs (a - b).
Proof.
  unfold both. destruct (f p) as [a|], (f q) as [b|]; split; try discriminate; try (intros (? & ? & ? & ? & ?); discriminate).
  - intros [= <-]. exists a, b. auto.
  - intros (a' & b' & [= <-] & [= <-] & ->). reflexivity.
Qed.
Lemma divide_ok a b : ~ b == 0 -> divide a b = Ok (a / b).
Proof. intros H. unfold divide. destruct (Qeq_bool b 0) eqn:E; auto. apply Qeq_bool_iff in E. contradiction. Qed.
Lemma pres_sep_ok p q a b : p_pres p = Some a -> p_pres q = Some b -> 0 < a -> 0 < b -> exists r, pres_sep p q = Ok r /\ pressure_ratio a b r.
Proof.
  intros Ha Hb A B. unfold pres_sep, both. rewrite Ha, Hb. destruct (Qltb b a) eqn:E.
  - apply ltb_iff in E. rewrite divide_ok by (intros K; rewrite K in B; apply (Qlt_irrefl 0 B)). eexists. split; [reflexivity|]. split.
    + apply Qle_shift_div_l; auto. rewrite Qmult_1_l. apply Qlt_le_weak; auto.
    + left. field. intros K; rewrite K in B; apply (Qlt_irrefl 0 B).
  - assert (L : a <= b) by (apply Qnot_lt_le; intros K; apply ltb_iff in K; congruence).
    rewrite divide_ok by (intros K; rewrite K in A; apply (Qlt_irrefl 0 A)). eexists. split; [reflexivity|]. split.
    + apply Qle_shift_div_l; auto. rewrite Qmult_1_l. auto.
    + right. field. intros K; rewrite K in A; apply (Qlt_irrefl 0 A).
Qed.
Lemma further_ok sep p p1 p2 d1 d2 : sep p p1 = Ok d1 -> sep p p2 = Ok d2 -> exists t, further sep p p1 p2 = Ok t /\ (t = true <-> d2 < d1).
Proof. intros E1 E2. unfold further. rewrite E1, E2. cbn [bind]. eexists. split; [reflexivity|]. apply ltb_iff. Qed.
Lemma dist_ok p q la1 lo1 la2 lo2 : at_position p la1 lo1 -> at_position q la2 lo2 -> haversine_dist p q = Ok (great_circle (Q2R la1) (Q2R lo1) (Q2R la2) (Q2R lo2)).
Proof. intros [A B] [C D]. unfold haversine_dist, both. rewrite A, B, C, D. rewrite haversine_great_circle. reflexivity. Qed.
Lemma compdist_ok p p1 p2 d1 d2 : haversine_dist p p1 = Ok d1 -> haversine_dist p p2 = Ok d2 -> exists t, compdist p p1 p2 = Ok t /\ (t = true <-> (d2 < d1)%R).
Proof. intros E1 E2. unfold compdist. rewrite E1, E2. cbn [bind]. eexists. split; [reflexivity|]. apply Rgtb_spec. Qed.
Lemma dist_needs p q r : haversine_dist p q = Ok r -> exists la1 lo1 la2 lo2, at_position p la1 lo1 /\ at_position q la2 lo2.
Proof.
  unfold haversine_dist, both, at_position. destruct (p_lat p) as [a|], (p_lat q) as [c|]; try discriminate. destruct (p_lon p) as [b|], (p_lon q) as [d|]; try discriminate.
  intros _. exists a, b, c, d. auto.
Qed.

(** ** The opposite point *)
Lemma dot_opposite la lo s : (s = 180 \/ s = -180)%R -> dotp la lo (- la) (lo + s) = (-1)%R.
Proof.
  intros Hs. rewrite dotp_diff. unfold radians. replace (lo + s - lo)%R with s by ring.
  assert (C : cos (s * PI / 180) = (-1)%R).
  { destruct Hs as [->| ->]; [replace (180 * PI / 180)%R with PI by field; apply cos_PI|]. replace (-180 * PI / 180)%R with (- PI)%R by field. rewrite cos_neg. apply cos_PI. }
  rewrite C. replace (- la - la)%R with (- (2 * la))%R by ring. replace (- (2 * la) * PI / 180)%R with (- (2 * (la * PI / 180)))%R by field. replace (- la * PI / 180)%R with (- (la * PI / 180))%R by field.
  rewrite !cos_neg. rewrite cos_2a_cos. ring.
Qed.
Lemma hav_opposite la lo s : (s = 180 \/ s = -180)%R -> haversine la lo (- la) (lo + s) = (PI * 6378)%R.
Proof. intros Hs. rewrite hav_dot, dot_opposite by auto. replace (acos (-1)) with PI; [ring|]. symmetry. replace (-1)%R with (- (1))%R by ring. rewrite acos_opp, acos_1. ring. Qed.
Theorem furthest_ok p la lo : at_position p la lo -> exists f lo', furthest_point_from p = Ok f /\ at_position f (- la) lo' /\ (lo' == lo + 180 \/ lo' == lo - 180) /\
  (0 <= lo <= 360 -> 0 <= lo' <= 360) /\ (-180 <= lo <= 180 -> 0 <= lo' <= 360) /\
  p_alt f = p_alt p /\ p_pres f = p_pres p /\ p_time f = p_time p /\ p_val f = p_val p /\
  haversine_dist p f = Ok (PI * 6378)%R /\ (forall q d, haversine_dist p q = Ok d -> (d <= PI * 6378)%R).
Proof.
  intros [A B]. unfold furthest_point_from. rewrite A, B. eexists. exists (if Qltb 180 lo then lo - 180 else lo + 180). split; [reflexivity|].
  assert (E : if Qltb 180 lo then 180 < lo else lo <= 180). { destruct (Qltb 180 lo) eqn:E; [apply ltb_iff; auto|apply Qnot_lt_le; intros K; apply ltb_iff in K; congruence]. }
  split; [split; reflexivity|]. split; [destruct (Qltb 180 lo); [right|left]; reflexivity|].
  split; [clear -E; revert E; destruct (Qltb 180 lo); intros E [H1 H2]; split; Lqa.lra|]. split; [clear -E; revert E; destruct (Qltb 180 lo); intros E [H1 H2]; split; Lqa.lra|]. do 4 (split; [reflexivity|]). split.
  - unfold haversine_dist. cbn [p_lat p_lon]. rewrite A, B. cbn [both]. f_equal. rewrite Q2R_opp.
    destruct (Qltb 180 lo); [rewrite Q2R_minus|rewrite Q2R_plus]; replace (Q2R 180) with 180%R by (unfold Q2R; cbn; Lra.lra); [apply (hav_opposite _ _ (-180)); right; reflexivity|apply hav_opposite; left; reflexivity].
  - intros q d H. unfold haversine_dist, both in H. destruct (p_lat p), (p_lat q), (p_lon p), (p_lon q); try discriminate. injection H as <-. apply hav_bounds.
Qed.
Lemma furthest_twice p la lo f g : at_position p la lo -> furthest_point_from p = Ok f -> furthest_point_from f = Ok g ->
  exists la' lo', at_position g la' lo' /\ la' == la /\ (lo' == lo \/ lo' == lo + 360 \/ lo' == lo - 360).
Proof.
  intros H Ef Eg. destruct (furthest_ok p la lo H) as (f' & lo1 & E1 & P1 & L1 & _). rewrite E1 in Ef. injection Ef as ->.
  destruct (furthest_ok f _ _ P1) as (g' & lo2 & E2 & P2 & L2 & _). rewrite E2 in Eg. injection Eg as ->. exists (- - la), lo2. split; auto. split; [Lqa.lra|]. destruct L1 as [L1|L1], L2 as [L2|L2]; rewrite L1 in L2; [right; left|left|left|right; right]; rewrite L2; Lqa.lra.
Qed.
Lemma furthest_needs p f : furthest_point_from p = Ok f -> exists la lo, at_position p la lo.
Proof. unfold furthest_point_from, at_position. destruct (p_lat p) as [a|], (p_lon p) as [b|]; try discriminate. intros _. exists a, b. auto. Qed.
Lemma new_ok lat lon alt pres t v : let p := new_point lat lon alt pres t v in
  p_lat p = lat /\ p_lon p = lon /\ p_alt p = alt /\ p_pres p = pres /\
  (t = NoTime -> p_time p = None) /\ (forall x, t = StdTime x -> p_time p = Some x) /\ (forall d, t = AtDate d -> exists x, p_time p = Some x /\ days_since_1600 d x) /\
  (v = NoValue -> p_val p = []) /\ (forall x, v = Number x -> p_val p = [One x]) /\ (forall l, v = Numbers l -> p_val p = map One l).
Proof.
  cbv zeta. do 4 (split; [reflexivity|]). split; [intros ->; reflexivity|]. split; [intros x ->; reflexivity|]. split; [intros d ->; eexists; split; [reflexivity|apply std_time_ok]|].
  split; [intros ->; reflexivity|]. split; intros x ->; reflexivity.
Qed.
Lemma modified_ok p lat lon alt pres t v : let q := modified p lat lon alt pres t v in
  changed lat (p_lat p) (p_lat q) /\ changed lon (p_lon p) (p_lon q) /\ changed alt (p_alt p) (p_alt q) /\ changed pres (p_pres p) (p_pres q) /\
  (t = NoTime -> p_time q = p_time p) /\ (forall d, t = AtDate d -> exists x, p_time q = Some x /\ days_since_1600 d x) /\
  (v = NoValue -> p_val q = p_val p) /\ (forall x, v = Number x -> p_val q = [One x]) /\ (v = Numbers [] -> p_val q = []).
Proof.
  cbv zeta. do 4 (split; [apply pick_ok|]). split; [intros ->; reflexivity|]. split; [intros d ->; eexists; split; [reflexivity|apply std_time_ok]|].
  split; [intros ->; reflexivity|]. split; [intros x ->; reflexivity|intros ->; reflexivity].
Qed.
Lemma modified_bad p x y r :
  p_time (modified p None None None None (StdTime x) NoValue) = p_time p /\
  p_val (modified p None None None None NoTime (Numbers (y :: r))) = [Many (y :: r)] /\
  p_val (modified p None None None None NoTime (Numbers (y :: r))) <> p_val (new_point None None None None NoTime (Numbers (y :: r))).
Proof. split; [reflexivity|]. split; [reflexivity|]. cbn. discriminate. Qed.
