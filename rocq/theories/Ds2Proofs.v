From Coq Require Import ZArith Lqa.
From Verif Require Import Base PyStr QBase LonModel LonSpec LonProofs DateModel DateSpec DateProofs FileListModel FileListProofs IndexModel UngrModel UngrSpec UngrProofs SubsetModel SubsetSpec SubsetProofs Subset2Proofs GridIndexModel AggModel DsModel DsSpec DsProofs.
Open Scope list_scope.

Lemma qinstant_le a b : (qinstant a <= qinstant b)%Q <-> (instant a <= instant b)%Z.
Proof. unfold qinstant. rewrite <- Zle_Qle. tauto. Qed.
Section Units.
Variable units : str -> res timeunit.
(** ** A period keeps the points whose date has its components *)
Theorem period_inside p a b n u x t : accepted p -> first_second p a -> last_second p b -> units n = Ok u -> valid_datetime t = true -> (t_read u x == qinstant t)%Q ->
  (inside units n (Dates a b) x <-> has_components p t).
Proof.
  intros HA HF HL U V E. destruct (period_spec p a b HA HF HL) as [_ H]. rewrite (H t V). cbn [inside]. destruct HF as (Va & _ & _). destruct HL as (Vb & _ & _).
  rewrite <- (instant_order a t Va V), <- (instant_order t b V Vb), <- !qinstant_le. split.
  - intros (u' & U' & H1 & H2). rewrite U in U'. injection U' as <-. rewrite E in H1, H2. auto.
  - intros [H1 H2]. exists u. split; auto. rewrite E. auto.
Qed.

(** ** What is refused *)
Lemma fill_plain v d x : d = Ok x -> plain v -> exists y, filled v d = Ok (Number y).
Proof. intros -> [->|(y & ->)]; eexists; reflexivity. Qed.
Lemma filled_ok v d x : d = Ok x -> exists w, filled v d = Ok w /\ (plain v -> exists y, w = Number y) /\ (~ plain v -> w = v).
Proof.
  intros ->. destruct v as [|y|t|p|s].
  - exists (Number x). split; [reflexivity|]. split; [eauto|]. intros H. exfalso. apply H. left. reflexivity.
  - exists (Number y). split; [reflexivity|]. split; [eauto|reflexivity].
  - exists (Date t). split; [reflexivity|]. split; [|reflexivity]. intros [H|(y & H)]; discriminate.
  - exists (Partial p). split; [reflexivity|]. split; [|reflexivity]. intros [H|(y & H)]; discriminate.
  - exists (Delta s). split; [reflexivity|]. split; [|reflexivity]. intros [H|(y & H)]; discriminate.
Qed.
Lemma plain_dec v : plain v \/ ~ plain v.
Proof. destruct v; [left; left; auto|left; right; eauto|right|right|right]; intros [H|(y & H)]; discriminate. Qed.
Lemma mixed_filled a b wa wb : mixed a b -> (plain a -> exists y, wa = Number y) -> (~ plain a -> wa = a) -> (plain b -> exists y, wb = Number y) -> (~ plain b -> wb = b) ->
  ~ numbers (wa, wb) /\ (forall c u, units (c_name c) = Ok u -> limit_mask units c (wa, wb) = Raises TypeError).
Proof.
  intros [M1 M2] Pa Na Pb Nb. assert (X : ~ numbers (wa, wb) /\ ~ (exists s t, wa = Date s /\ wb = Date t)).
  { split.
    - intros (x & y & E). injection E as -> ->. apply M1. split; [destruct (plain_dec a); auto; right; exists x; symmetry; auto|destruct (plain_dec b); auto; right; exists y; symmetry; auto].
    - intros (s & t & -> & ->). apply M2. destruct (plain_dec a) as [H|H]; [destruct (Pa H); discriminate|]. destruct (plain_dec b) as [H'|H']; [destruct (Pb H'); discriminate|]. rewrite <- (Na H), <- (Nb H'). eauto. }
  destruct X as [X1 X2]. split; auto. intros c u U. unfold limit_mask. cbn [fst snd]. destruct wa as [|x|s|p|s]; try reflexivity.
  - destruct wb; try reflexivity. exfalso. apply X1. eexists. eexists. reflexivity.
  - rewrite U. cbn [bind]. destruct wb; try reflexivity. exfalso. apply X2. eauto.
Qed.
Lemma bounds_mixed a b arg : arg = Range a b \/ arg = Several [a; b] -> bounds_of arg = Ok (a, b).
Proof. intros [->| ->]; [reflexivity|]. destruct a; reflexivity. Qed.
Theorem mixed_refused d n k a b arg u : proper d -> addresses (u_coords d) n k -> arg = Range a b \/ arg = Several [a; b] -> mixed a b -> units (coord_name d k) = Ok u -> located_rows d <> [] ->
  subset_dated units d [(n, arg)] = Raises TypeError.
Proof.
  intros HP HA HS HM HU HB. destruct (proper_processed d HP) as (d1 & E1 & A1 & C1 & R1 & I1 & N1 & O1). rewrite <- R1 in HB. apply (addresses_identity _ (u_coords d1)) in HA; auto. destruct (address_position _ _ _ HA) as (c & Hc).
  assert (NP : somes (c_points c) <> []) by (eapply somes_nonempty; eauto). destruct (qmin_of_some _ NP) as (mn & Emn). destruct (qmax_of_some _ NP) as (mx & Emx).
  unfold subset_dated. rewrite E1. cbn [bind make_dated fold_left]. unfold add_limit. cbn [fst snd]. rewrite (find_addressed _ n k c O1 HA Hc), (bounds_mixed a b arg HS). cbn [bind fst snd].
  destruct (filled_ok a _ _ Emn) as (wa & Ea & Pa & Na). destruct (filled_ok b _ _ Emx) as (wb & Eb & Pb & Nb). rewrite Ea, Eb. cbn [bind dict_set].
  destruct (mixed_filled a b wa wb HM Pa Na Pb Nb) as [X1 X2]. unfold constrain_dated, create_dated. rewrite (copy_same d1 A1 C1 O1). cbn [bind fold_left].
  assert (NM : units (c_name c) = Ok u). { rewrite <- HU. f_equal. unfold coord_name. destruct (nth_error (u_coords d) k) as [c'|] eqn:H; [|apply nth_error_None in H; assert (k < length (u_coords d1))%nat by (apply nth_error_Some; congruence); rewrite <- (map_length identity_of (u_coords d)), <- I1, map_length in H; lia].
    destruct (nth_identity (u_coords d) (u_coords d1) k c' I1 H) as (x & Hx & Ix). rewrite Hc in Hx. injection Hx as <-. apply identity_parts in Ix. tauto. }
  assert (P : prepare_dated (u_coords d1) (c_name c, (wa, wb)) = if is_longitude c then Raises TypeError else Ok (u_coords d1)).
  { unfold prepare_dated. cbn [fst snd]. rewrite (get_coord_by_name _ k c O1 Hc), Emn, Emx. cbn [bind]. destruct wa, wb; try reflexivity. exfalso. apply X1. eexists. eexists. reflexivity. }
  rewrite P. destruct (is_longitude c); [reflexivity|]. cbn [bind u_coords]. unfold dated_mask. destruct (u_coords d1) as [|c0 cs] eqn:EC; [congruence|]. rewrite <- EC in *. cbn [fold_left bind fst snd]. rewrite (get_coord_by_name _ k c O1 Hc). cbn [bind]. rewrite (X2 c u NM). reflexivity.
Qed.
Theorem no_limit_refused d n k arg e kws : proper d -> addresses (u_coords d) n k -> no_limit arg e -> subset_dated units d ((n, arg) :: kws) = Raises e.
Proof.
  intros HP HA HN. destruct (proper_processed d HP) as (d1 & E1 & A1 & C1 & R1 & I1 & N1 & O1). apply (addresses_identity _ (u_coords d1)) in HA; auto. destruct (address_position _ _ _ HA) as (c & Hc).
  unfold subset_dated. rewrite E1. cbn [bind]. unfold make_dated. cbn [fold_left bind]. unfold add_limit at 2. cbn [fst snd]. rewrite (find_addressed _ n k c O1 HA Hc).
  assert (B : bounds_of arg = Raises e).
  { destruct HN as [v H|l H H']; cbn [bounds_of]. - destruct v; try reflexivity. exfalso. eapply H. reflexivity.
    - destruct l as [|v [|w [|z l]]]; cbn in H; try congruence; destruct v; try reflexivity. exfalso. eapply H'. reflexivity. }
  rewrite B. cbn [bind]. rewrite fold_raises. reflexivity.
Qed.

(** ** Numbers are treated as before *)
Definition emb (l : limits) : dated_limits := map (fun nl : str * (Q * Q) => (fst nl, (Number (fst (snd nl)), Number (snd (snd nl))))) l.
Lemma emb_set l n a b : emb (dict_set l n (a, b)) = dict_set (emb l) n (Number a, Number b).
Proof. induction l as [|[m [x y]] l IH]; [reflexivity|]. cbn [dict_set emb map fst snd]. destruct (str_eq_dec m n); [reflexivity|]. cbn [map fst snd]. f_equal. exact IH. Qed.
Lemma same_bounds arg n a b : same_numbers (n, arg) (Limit n a b) -> exists va vb, bounds_of arg = Ok (va, vb) /\ number_of va a /\ number_of vb b.
Proof. intros H. inversion H; subst; [exists va, vb; auto|]. exists va, vb. split; auto. apply bounds_mixed. auto. Qed.
Lemma make_same cs kws kws' : Forall2 same_numbers kws kws' -> forall l,
  fold_left (fun k kw => bind k (fun k => add_limit cs k kw)) kws (Ok (emb l)) =
  bind (fold_left (fun k kw => bind k (fun k => add_kwarg cs k kw)) kws' (Ok (None, l))) (fun k => Ok (emb (snd k))) /\
  (forall k, fold_left (fun k kw => bind k (fun k => add_kwarg cs k kw)) kws' (Ok (None, l)) = Ok k -> fst k = None).
Proof.
  induction 1 as [|kw kw' kws kws' H _ IH]; intros l; [split; [reflexivity|intros k E; injection E as <-; reflexivity]|]. cbn [fold_left bind].
  assert (X : exists n arg a b, kw = (n, arg) /\ kw' = Limit n a b) by (destruct H; repeat eexists). destruct X as (n & arg & a & b & -> & ->). destruct (same_bounds arg n a b H) as (va & vb & EB & Ha & Hb).
  unfold add_limit at 2. cbn [fst snd add_kwarg]. destruct (find_coord cs n) as [c|]; [|cbn [bind]; rewrite !fold_raises; split; [reflexivity|discriminate]]. rewrite EB. cbn [bind fst snd]. rewrite (filled_number va a _ Ha), (filled_number vb b _ Hb).
  destruct (default_to a (qmin_of (somes (c_points c)))) as [a'|e]; cbn [bind]; [|rewrite !fold_raises; split; [reflexivity|discriminate]].
  destruct (default_to b (qmax_of (somes (c_points c)))) as [b'|e]; cbn [bind]; [|rewrite !fold_raises; split; [reflexivity|discriminate]].
  rewrite <- emb_set. apply IH.
Qed.
Lemma prepare_same cs l : fold_left (fun cs l => bind cs (fun cs => prepare_dated cs l)) (emb l) cs = fold_left (fun cs l => bind cs (fun cs => prepare_limit cs l)) l cs.
Proof. revert cs. induction l as [|[n [a b]] l IH]; intros cs; [reflexivity|]. cbn [emb map fold_left fst snd]. rewrite <- IH. reflexivity. Qed.
Lemma mask_same l cs : dated_mask units (emb l) cs = limits_mask l cs.
Proof.
  unfold dated_mask, limits_mask. destruct cs as [|c0 cs]; [reflexivity|]. generalize (Ok (repeat true (length (c_points c0)))). generalize (c0 :: cs). clear c0 cs. intros cs m. revert m.
  induction l as [|[n [a b]] l IH]; intros m; [reflexivity|]. cbn [emb map fold_left fst snd]. rewrite <- IH. reflexivity.
Qed.
Theorem numbers_same d kws kws' : Forall2 same_numbers kws kws' -> subset_dated units d kws = subset d kws'.
Proof.
  intros H. unfold subset_dated, subset. destruct (post_process d) as [d1|]; [|reflexivity]. cbn [bind]. destruct (make_same (u_coords d1) kws kws' H []) as [E N]. change (make_dated (u_coords d1) kws = bind (make_limits (u_coords d1) kws') (fun k => Ok (emb (snd k)))) in E. rewrite E. change (forall k, make_limits (u_coords d1) kws' = Ok k -> fst k = None) in N.
  destruct (make_limits (u_coords d1) kws') as [[g l]|]; [|reflexivity]. cbn [bind fst snd]. specialize (N _ eq_refl). cbn [fst] in N. subst g. unfold constrain_dated, constrain_one. cbn [k_limits k_mask k_region k_indices]. unfold create_dated, create_data.
  destruct (copy d1) as [d2|]; [|reflexivity]. cbn [bind]. rewrite prepare_same. destruct (fold_left _ l _) as [cs|]; [|reflexivity]. cbn [bind]. rewrite mask_same. destruct (limits_mask l _) as [m|]; [|reflexivity]. cbn [bind]. destruct (data_mask_get m _); reflexivity.
Qed.

(** ** Gridded data *)
Lemma map_res_map {A B} (f : A -> res B) g l : (forall x, In x l -> f x = Ok (g x)) -> map_res f l = Ok (map g l).
Proof. induction l as [|x l IH]; intros H; [reflexivity|]. cbn [map_res map]. rewrite (H x) by (left; auto). cbn [bind]. rewrite IH by (intros; apply H; right; auto). reflexivity. Qed.
Lemma filter_mask {A} (p : A -> bool) l : map snd (filter fst (combine (map p l) l)) = filter p l.
Proof. induction l as [|x l IH]; [reflexivity|]. cbn [map combine filter fst]. destruct (p x); cbn [map snd]; rewrite IH; reflexivity. Qed.
(** the bounds found for a limit of a dimension *)
Definition gentry (d : gdim) (s : span) (ab : value * value) : Prop :=
  match s with
  | Dates a b => ab = (Date a, Date b)
  | Numbers a b => exists a' b', ab = (Number a', Number b') /\ forall x, In x (gd_points d) -> (within (a, b) x = true <-> (a' <= x <= b')%Q)
  end.
Definition gtest (n : str) (ab : value * value) (x : Q) : bool :=
  match ab with
  | (Number a, Number b) => Qleb a x && Qleb x b
  | (Date a, Date b) => match units n with Ok u => Qleb (qinstant a) (t_read u x) && Qleb (t_read u x) (qinstant b) | Raises _ => false end
  | _ => false
  end.
Lemma contains_gtest n s d ab x : gentry d s ab -> suited units n s -> contains ab (cell_point units n x) = Ok (gtest n ab x).
Proof.
  unfold contains, cell_point. destruct s as [a b|a b]; cbn [gentry suited].
  - intros (a' & b' & -> & _) HS. destruct (units n) as [u|] eqn:U; [exfalso; eapply HS; eauto|]. cbn [fst snd at_most at_least bind gtest]. destruct (Qleb a' x); reflexivity.
  - intros -> (u & U). unfold gtest. rewrite U. cbn [fst snd at_most at_least bind]. destruct (Qleb (qinstant a) (t_read u x)); reflexivity.
Qed.
Lemma gtest_inside n s d ab x : gentry d s ab -> suited units n s -> In x (gd_points d) -> (gtest n ab x = true <-> inside units n s x).
Proof.
  destruct s as [a b|a b]; cbn [gentry suited inside].
  - intros (a' & b' & -> & H) _ HI. cbn [gtest]. rewrite (H x HI), andb_true_iff, !Qleb_le. tauto.
  - intros -> (u & U) _. unfold gtest. rewrite U, andb_true_iff, !Qleb_le. split; [intros H; exists u; auto|intros (u' & U' & H); congruence].
Qed.
Lemma spells_once a s s' : spells a s -> spells a s' -> s = s'.
Proof.
  intros H H'. destruct (bounds_spelled a s H) as (va & vb & E & M). destruct (bounds_spelled a s' H') as (va' & vb' & E' & M'). rewrite E in E'. injection E' as <- <-.
  assert (X : forall v o o', number_of v o -> number_of v o' -> o = o') by (intros v [x|] [y|]; cbn; congruence).
  destruct s as [x y|x y], s' as [x' y'|x' y']; destruct M as [M1 M2], M' as [M1' M2'].
  - f_equal; eauto. - destruct x; cbn in M1; congruence. - destruct x'; cbn in M1'; congruence. - congruence.
Qed.
Lemma add_glimit_spec ds k n a s d : NoDup (map gd_name ds) -> In d ds -> gd_name d = n -> gd_points d <> [] -> spells a s ->
  exists ab, add_glimit ds k (n, a) = Ok (dict_set k n ab) /\ gentry d s ab.
Proof.
  intros HN HI En HP HS. unfold add_glimit. cbn [fst snd].
  assert (F : find (fun d => str_eqb (gd_name d) n) ds = Some d).
  { clear -HN HI En. induction ds as [|x ds IH]; [contradiction|]. cbn [find map] in *. inversion HN as [|? ? NI N]; subst. destruct HI as [->|HI]; [rewrite str_eqb_refl; reflexivity|].
    destruct (str_eqb (gd_name x) (gd_name d)) eqn:E; [|auto]. apply str_eqb_eq in E. exfalso. apply NI. rewrite E. apply in_map. auto. }
  rewrite F, En. destruct (bounds_spelled a s HS) as (va & vb & EB & M). rewrite EB. cbn [bind fst snd]. destruct (qmin_of_some _ HP) as (mn & Emn). destruct (qmax_of_some _ HP) as (mx & Emx). destruct s as [x y|x y].
  - destruct M as [Ma Mb]. rewrite (filled_number va x _ Ma), (filled_number vb y _ Mb), Emn, Emx. pose proof (proj1 (qmin_spec _ _ Emn)) as Lo. pose proof (proj1 (qmax_spec _ _ Emx)) as Hi.
    exists (Number (match x with Some x => x | None => mn end), Number (match y with Some y => y | None => mx end)). split; [destruct x, y; reflexivity|]. eexists. eexists. split; [reflexivity|].
    intros z Hz. specialize (Lo z Hz). specialize (Hi z Hz). unfold within. cbn [fst snd]. rewrite andb_true_iff. destruct x, y; rewrite ?Qleb_le; intuition.
  - destruct M as [-> ->]. cbn [filled bind]. eexists. split; [reflexivity|]. reflexivity.
Qed.
Lemma dict_get_snoc {V} (l : list (str * V)) n v : ~ In n (map fst l) -> forall m, dict_get (l ++ [(n, v)]) m = match dict_get l m with Some w => Some w | None => if str_eq_dec n m then Some v else None end.
Proof. intros H m. induction l as [|[k w] l IH]; [reflexivity|]. cbn [app dict_get]. destruct (str_eq_dec k m); [reflexivity|]. apply IH. intros X. apply H. right. auto. Qed.
Lemma make_glimits ds kws : gridded_limits units ds kws -> exists lims, fold_left (fun k kw => bind k (fun k => add_glimit ds k kw)) kws (Ok []) = Ok lims /\
  (forall n a, In (n, a) kws -> exists d s ab, In d ds /\ gd_name d = n /\ spells a s /\ dict_get lims n = Some ab /\ gentry d s ab /\ suited units n s) /\
  (forall n, ~ In n (map fst kws) -> dict_get lims n = None).
Proof.
  intros (HN & HK & HP & HL).
  assert (G : forall kws0 l0, NoDup (map fst kws0 ++ map fst kws) -> map fst l0 = map fst kws0 -> (forall n a, In (n, a) kws0 -> exists d s ab, In d ds /\ gd_name d = n /\ spells a s /\ dict_get l0 n = Some ab /\ gentry d s ab /\ suited units n s) ->
    exists lims, fold_left (fun k kw => bind k (fun k => add_glimit ds k kw)) kws (Ok l0) = Ok lims /\ map fst lims = map fst (kws0 ++ kws) /\
    (forall n a, In (n, a) (kws0 ++ kws) -> exists d s ab, In d ds /\ gd_name d = n /\ spells a s /\ dict_get lims n = Some ab /\ gentry d s ab /\ suited units n s)).
  { clear HK. induction kws as [|[n a] kws IH]; intros kws0 l0 ND EF H0; [exists l0; rewrite app_nil_r; auto|]. cbn [fold_left bind map fst] in *.
    destruct (HL n a (or_introl eq_refl)) as [Hn (s & Hs & Hu)]. apply in_map_iff in Hn. destruct Hn as (d & En & Hd). destruct (add_glimit_spec ds l0 n a s d HN Hd En (HP d Hd) Hs) as (ab & E & HE). rewrite E.
    assert (NI : ~ In n (map fst l0)) by (rewrite EF; apply NoDup_remove_2 in ND; intros X; apply ND, in_or_app; auto). rewrite (dict_set_fresh l0 n ab NI).
    destruct (IH (fun n a H => HL n a (or_intror H)) (kws0 ++ [(n, a)]) (l0 ++ [(n, ab)])) as (lims & E' & F' & H').
    - rewrite map_app, <- app_assoc. exact ND.
    - rewrite !map_app. cbn. congruence.
    - intros m a' HI. apply in_app_or in HI. destruct HI as [HI|[HI|[]]].
      + destruct (H0 m a' HI) as (d' & s' & ab' & X1 & X2 & X3 & X4 & X5). exists d', s', ab'. rewrite (dict_get_snoc l0 n ab NI m), X4. auto.
      + injection HI as <- <-. exists d, s, ab. rewrite (dict_get_snoc l0 n ab NI n). destruct (dict_get l0 n) as [w|] eqn:G; [exfalso; apply NI; apply dict_get_in; congruence|]. destruct (str_eq_dec n n); [auto 8|congruence].
    - exists lims. rewrite <- app_assoc in F', H'. auto. }
  destruct (G [] [] HK eq_refl) as (lims & E & F & H); [intros n a []|]. exists lims. split; auto. split; auto. intros n NI. destruct (dict_get lims n) eqn:X; auto. exfalso. apply NI. cbn [app] in F. rewrite <- F. apply dict_get_in. congruence.
Qed.
Lemma in_key {A B} (l : list (A * B)) n : In n (map fst l) -> exists b, In (n, b) l.
Proof. intros H. apply in_map_iff in H. destruct H as ([n' b] & <- & H). eauto. Qed.
Lemma nodup_key {A B} (l : list (A * B)) n b b' : NoDup (map fst l) -> In (n, b) l -> In (n, b') l -> b = b'.
Proof.
  induction l as [|[m x] l IH]; intros N H H'; [contradiction|]. cbn [map fst] in N. inversion N as [|? ? NI N']; subst. destruct H as [H|H], H' as [H'|H']; auto.
  - congruence. - injection H as -> ->. exfalso. apply NI. apply in_map_iff. exists (n, b'). auto. - injection H' as -> ->. exfalso. apply NI. apply in_map_iff. exists (n, b). auto.
Qed.
Theorem subset_gridded_spec ds kws : gridded_limits units ds kws -> exists keeps, Forall2 (along units kws) ds keeps /\
  subset_gridded units ds kws = Ok (if existsb (fun p => (length p =? 0)%nat) keeps then None else Some (map (fun dp : gdim * list Q => mkGdim (gd_name (fst dp)) (snd dp)) (combine ds keeps))).
Proof.
  intros HG. destruct (make_glimits ds kws HG) as (lims & E & H1 & H2). destruct HG as (HN & HK & HP & HL). unfold subset_gridded. rewrite E. cbn [bind]. unfold extract.
  assert (G : forall d, In d ds -> exists ps, kept_cells units lims d = Ok ps /\ along units kws d ps).
  { intros d Hd. unfold kept_cells. destruct (in_dec str_eq_dec (gd_name d) (map fst kws)) as [HI|HI].
    - destruct (in_key kws _ HI) as (a & Ha). destruct (H1 _ _ Ha) as (d' & s & ab & Hd' & En & Hs & Hg & He & Hu). assert (d' = d) as -> by (apply In_nth_error in Hd; apply In_nth_error in Hd'; destruct Hd as (i & Hi), Hd' as (j & Hj); assert (i = j) by (eapply (nodup_nth gd_name); eauto); subst; congruence).
      rewrite Hg. erewrite map_res_map by (intros x _; apply (contains_gtest (gd_name d) s d ab x He Hu)). cbn [bind]. eexists. split; [reflexivity|]. rewrite filter_mask. exists (gtest (gd_name d) ab). split; auto.
      intros x Hx. rewrite (gtest_inside (gd_name d) s d ab x He Hu Hx). split.
      + intros HIn a' Ha'. rewrite (nodup_key kws _ a' a HK Ha' Ha). eauto. + intros X. destruct (X a Ha) as (s' & Hs' & Y). rewrite (spells_once a s s' Hs Hs'). exact Y.
    - rewrite (H2 _ HI). eexists. split; [reflexivity|]. exists (fun _ => true). split; [|symmetry; clear; induction (gd_points d) as [|x l IH]; [reflexivity|cbn; congruence]].
      intros x _. split; auto. intros _ a Ha. exfalso. apply HI. apply in_map_iff. exists (gd_name d, a). auto. }
  assert (M : exists keeps, map_res (kept_cells units lims) ds = Ok keeps /\ Forall2 (along units kws) ds keeps).
  { clear -G. induction ds as [|d ds IH]; [exists []; split; [reflexivity|constructor]|]. destruct (G d (or_introl eq_refl)) as (ps & E & A). destruct IH as (keeps & E' & F); [intros; apply G; right; auto|]. exists (ps :: keeps). cbn [map_res]. rewrite E. cbn [bind]. rewrite E'. split; [reflexivity|constructor; auto]. }
  destruct M as (keeps & EM & F). exists keeps. split; auto. rewrite EM. reflexivity.
Qed.
(** numbers do not limit a time *)
Theorem gridded_numbers_refused ds d a b va vb arg u : NoDup (map gd_name ds) -> In d ds -> gd_points d <> [] -> units (gd_name d) = Ok u -> number_of va a -> number_of vb b -> arg = Range va vb \/ arg = Several [va; vb] ->
  (forall d', In d' ds -> gd_points d' <> []) -> subset_gridded units ds [(gd_name d, arg)] = Raises TypeError.
Proof.
  intros HN Hd HP U Ha Hb HA _. assert (HS : spells arg (Numbers a b)) by (destruct HA as [->| ->]; constructor; auto).
  unfold subset_gridded. cbn [fold_left bind]. destruct (add_glimit_spec ds [] (gd_name d) arg (Numbers a b) d HN Hd eq_refl HP HS) as (ab & E & a' & b' & -> & _). rewrite E. cbn [bind dict_set]. unfold extract.
  assert (K : forall d', In d' ds -> kept_cells units [(gd_name d, (Number a', Number b'))] d' = if str_eq_dec (gd_name d) (gd_name d') then Raises TypeError else Ok (gd_points d')).
  { intros d' Hd'. unfold kept_cells. cbn [dict_get]. destruct (str_eq_dec (gd_name d) (gd_name d')) as [En|En]; [|reflexivity].
    assert (d' = d) as -> by (apply In_nth_error in Hd; apply In_nth_error in Hd'; destruct Hd as (i & Hi), Hd' as (j & Hj); assert (i = j) by (eapply (nodup_nth gd_name); eauto); subst; congruence).
    destruct (gd_points d) as [|x l]; [congruence|]. cbn [map_res]. unfold contains, cell_point. rewrite U. reflexivity. }
  assert (M : map_res (kept_cells units [(gd_name d, (Number a', Number b'))]) ds = Raises TypeError); [|rewrite M; reflexivity].
  clear -K Hd. induction ds as [|x ds IH]; [contradiction|]. cbn [map_res]. rewrite (K x) by (left; auto). destruct (str_eq_dec (gd_name d) (gd_name x)) as [En|En]; [reflexivity|]. cbn [bind].
  destruct Hd as [->|Hd]; [congruence|]. rewrite IH; auto. intros; apply K; right; auto.
Qed.

(** ** Grids *)
Lemma grid_spelled g a b s : spells_grid g a b s -> grid_of g = Ok (Date a, Date b, Delta s).
Proof. intros H. destruct H as [a b s|a b s|p a b s HA HF HL]; cbn [grid_of]; [reflexivity|reflexivity|]. destruct (period_spec p a b HA HF HL) as [-> _]. reflexivity. Qed.
Theorem grid_dates c g a b s u : spells_grid g a b s -> units (c_name c) = Ok u -> standard_days u ->
  exists r, grid_request units (Some c) g = Ok r /\ (t_read u (rq_stop r) == qinstant b)%Q /\ forall k : Q, (t_read u (rq_start r + k * rq_step r) == qinstant a + k * s)%Q.
Proof.
  intros HS U [HR HW]. unfold grid_request. rewrite (grid_spelled g a b s HS). cbn [bind fst snd]. unfold grid_end. cbn [filled bind]. rewrite U. cbn [bind grid_step]. eexists. split; [reflexivity|]. cbn [rq_start rq_stop rq_step]. split; [apply HW|].
  intros k. pose proof (HW a) as W. rewrite HR in *. assert (X : (86400 * (k * (s / (24 * 60 * 60))) == k * s)%Q) by (change (24 * 60 * 60)%Q with (86400%Q); field). lra.
Qed.
Theorem grid_hours c g a b s u : spells_grid g a b s -> units (c_name c) = Ok u -> standard_hours u ->
  exists r, grid_request units (Some c) g = Ok r /\ forall k : Q, (t_read u (rq_start r + k * rq_step r) == qinstant a + k * (s / 24))%Q.
Proof.
  intros HS U [HR HW]. unfold grid_request. rewrite (grid_spelled g a b s HS). cbn [bind fst snd]. unfold grid_end. cbn [filled bind]. rewrite U. cbn [bind grid_step]. eexists. split; [reflexivity|]. cbn [rq_start rq_stop rq_step].
  intros k. pose proof (HW a) as W. rewrite HR in *. assert (X : (3600 * (k * (s / (24 * 60 * 60))) == k * (s / 24))%Q) by (change (24 * 60 * 60)%Q with (86400%Q); field). lra.
Qed.
Theorem grid_numbers c g x y s : (exists vx vy, (g = Grid vx vy (Number s) \/ g = GSeveral [vx; vy; Number s]) /\ number_of vx x /\ number_of vy y) ->
  grid_request units (Some c) g = bind (default_to x (qmin_of (somes (c_points c)))) (fun a => bind (default_to y (qmax_of (somes (c_points c)))) (fun b => Ok (mkReq a b s))).
Proof.
  intros (vx & vy & HG & Hx & Hy). assert (E : grid_of g = Ok (vx, vy, Number s)) by (destruct HG as [->| ->]; [reflexivity|]; destruct x; cbn in Hx; subst vx; destruct vy; reflexivity).
  unfold grid_request. rewrite E. cbn [bind fst snd]. unfold grid_end. rewrite (filled_number vx x _ Hx), (filled_number vy y _ Hy).
  destruct (default_to x (qmin_of (somes (c_points c)))); cbn [bind]; [|reflexivity]. destruct (default_to y (qmax_of (somes (c_points c)))); reflexivity.
Qed.
End Units.
(** ** What is refused *)
Theorem gridded_unknown units ds n arg kws : ~ In n (map gd_name ds) -> subset_gridded units ds ((n, arg) :: kws) = Raises CoordinateNotFoundError.
Proof.
  intros N. unfold subset_gridded. cbn [fold_left bind]. unfold add_glimit at 2. cbn [fst]. destruct (find (fun d => str_eqb (gd_name d) n) ds) as [d|] eqn:F.
  - apply find_some in F. destruct F as [I E]. apply str_eqb_eq in E. destruct N. rewrite <- E. apply in_map. auto.
  - rewrite fold_raises. reflexivity.
Qed.
Theorem grid_refused units c l : List.length l <> 3%nat -> (forall p s, l <> [Partial p; s]) -> grid_request units c (GSeveral l) = Raises ValueError.
Proof.
  intros L P. unfold grid_request. replace (grid_of (GSeveral l)) with (@Raises (value * value * value) ValueError); [reflexivity|].
  destruct l as [|a [|b [|c' [|e l]]]]; cbn [grid_of]; try reflexivity; [destruct a; reflexivity|destruct a; try reflexivity; destruct (P p b); reflexivity|destruct L; reflexivity|destruct a; reflexivity].
Qed.
Theorem grid_single units c v : grid_request units c (GOne v) = Raises TypeError.
Proof. reflexivity. Qed.
Lemma some_min l : l <> [] -> exists x, qmin_of l = Ok x.
Proof. destruct l as [|x l]; [congruence|]. intros _. cbn. eauto. Qed.
Lemma some_max l : l <> [] -> exists x, qmax_of l = Ok x.
Proof. destruct l as [|x l]; [congruence|]. intros _. cbn. eauto. Qed.
Theorem grid_no_step units c g a b : g = Grid a b Nothing \/ g = GSeveral [a; b; Nothing] -> plain a -> plain b -> somes (c_points c) <> [] -> grid_request units (Some c) g = Raises ValueError.
Proof.
  intros HG Ha Hb N. assert (E : grid_of g = Ok (a, b, Nothing)). { destruct HG as [->| ->]; [reflexivity|]. destruct Ha as [->|[x ->]]; reflexivity. }
  destruct (some_min _ N) as [x Hx]. destruct (some_max _ N) as [y Hy]. destruct (fill_plain a _ x Hx Ha) as [xa Ea]. destruct (fill_plain b _ y Hy Hb) as [yb Eb].
  unfold grid_request. rewrite E. cbn [bind fst snd]. unfold grid_end. rewrite Ea, Eb. reflexivity.
Qed.
