(** Proofs for C30-C33: longitudes, lists, shapes. *)
From Verif Require Import Base PyStr QBase LonModel LonSpec LonProofs DateModel FileListModel FileListProofs IndexModel IndexProofs UngrModel UngrSpec UngrProofs SubsetModel SubsetSpec SubsetProofs Subset2Proofs.
From Coq Require Import Qminmax Lqa.
Open Scope string_scope. Open Scope list_scope. Open Scope nat_scope.

Lemma meridian_sym x y : same_meridian x y -> same_meridian y x.
Proof. intros [k E]. exists (- k)%Z. rewrite E, inject_Z_opp. ring. Qed.
Lemma meridian_trans x y z : same_meridian x y -> same_meridian y z -> same_meridian x z.
Proof. intros [k E] [j F]. exists (k + j)%Z. rewrite F, E, inject_Z_plus. ring. Qed.
Lemma meridian_eq x y : (x == y)%Q -> same_meridian x y.
Proof. intros E. exists 0%Z. rewrite E. change (inject_Z 0) with 0%Q. ring. Qed.
Lemma meridian_180 x : (x == -(180))%Q -> same_meridian x 180.
Proof. intros E. exists 1%Z. rewrite E. change (inject_Z 1) with 1%Q. ring. Qed.
(** ** C31: the decision is right off the seam *)
Lemma decision pts mn mx a b wd wl x : qmin_of pts = Ok mn -> qmax_of pts = Ok mx -> (forall x, In x pts -> convention x wd /\ ~ same_meridian x 180) -> convention a wl -> convention b wl -> In x pts ->
  ((a <= conversion (new_start mn mx a b) x /\ conversion (new_start mn mx a b) x <= b)%Q <-> exists y, same_meridian x y /\ (a <= y <= b)%Q).
Proof.
  intros Emn Emx HD Ha Hb Hx. destruct (qmin_spec _ _ Emn) as [Lmn (xm & Hxm & Exm)]. destruct (qmax_spec _ _ Emx) as [LmX (xM & HxM & ExM)].
  destruct (HD x Hx) as [Cx Nx]. destruct (HD xm Hxm) as [Cm _]. destruct (HD xM HxM) as [CM _]. pose proof (Lmn x Hx) as L1. pose proof (LmX x Hx) as L2.
  set (f := conversion (new_start mn mx a b)). assert (SM : same_meridian x (f x)) by (unfold f; destruct (new_start mn mx a b); cbn; [apply wrap_lon_same|apply same_meridian_refl]).
  assert (N1 : ~ (x == -(180))%Q) by (intros E; apply Nx, meridian_180, E). assert (N2 : ~ (x == 180)%Q) by (intros E; apply Nx, meridian_eq, E).
  split; [intros [H1 H2]; exists (f x); auto|]. intros (y & Hy & H1 & H2).
  assert (M1 : ~ (y == -(180))%Q) by (intros E; apply Nx; eapply meridian_trans; [exact Hy|apply meridian_180, E]). assert (M2 : ~ (y == 180)%Q) by (intros E; apply Nx; eapply meridian_trans; [exact Hy|apply meridian_eq, E]).
  assert (HY : same_meridian (f x) y) by (eapply meridian_trans; [apply meridian_sym; exact SM|exact Hy]).
  enough (E : (y == f x)%Q) by (rewrite <- E; auto).
  assert (GOAL : forall s, in_range s (f x) -> in_range s y -> (y == f x)%Q) by (intros s R1 R2; apply (in_range_unique s); auto).
  assert (LT : forall u v : Q, ~ (u == v)%Q -> (u <= v -> u < v)%Q) by (intros u v NE LE; apply Qle_lteq in LE; destruct LE; [auto|contradiction]).
  assert (xl : (-(180) <= x -> -(180) < x)%Q) by (intros Z; apply LT; auto; intros E; apply N1; symmetry; exact E). assert (xr : (x <= 180 -> x < 180)%Q) by (intros Z; apply LT; auto).
  assert (yl : (-(180) <= y -> -(180) < y)%Q) by (intros Z; apply LT; auto; intros E; apply M1; symmetry; exact E). assert (yr : (y <= 180 -> y < 180)%Q) by (intros Z; apply LT; auto).
  unfold convention in *. revert GOAL. unfold f, new_start.
  destruct (Qltb_spec mn 0), (Qltb_spec 180 mx), (Qltb_spec a 0), (Qltb_spec b 0), (Qltb_spec 180 a), (Qltb_spec 180 b); cbn [andb orb negb conversion]; intros GOAL; destruct wd, wl;
    try (exfalso; lra);
    first [ apply (GOAL 0%Q); [solve [apply wrap_lon_range | unfold in_range; lra]|unfold in_range; lra]
          | apply (GOAL (-(180))%Q); [solve [apply wrap_lon_range | unfold in_range; lra]|unfold in_range; lra] ].
Qed.
Lemma located_nth r k : located r = true -> k < length (fst r) -> exists x, nth k (fst r) None = Some x.
Proof.
  intros H L. unfold located in H. rewrite forallb_forall in H. specialize (H (nth k (fst r) None) (nth_In _ _ L)). destruct (nth k (fst r) None); [eauto|discriminate].
Qed.
Lemma nodup_fst {A} (ls : list (nat * A)) x y : NoDup (map fst ls) -> In x ls -> In y ls -> fst x = fst y -> x = y.
Proof. intros HN Hx Hy E. apply In_nth_error in Hx. destruct Hx as (i & Hi). apply In_nth_error in Hy. destruct Hy as (j & Hj). assert (i = j) by (eapply nodup_nth; eauto). subst j. congruence. Qed.
Lemma forallb_nodup (ls : list limit) kx ab p : NoDup (map fst ls) -> In (kx, ab) ls -> (forallb p ls = true <-> forallb p (filter (fun l => negb (fst l =? kx)) ls) = true /\ p (kx, ab) = true).
Proof.
  intros HN HI. rewrite !forallb_forall. split.
  - intros H. split; auto. intros l Hl. apply filter_In in Hl. apply H. tauto.
  - intros [H1 H2] l Hl. destruct (fst l =? kx) eqn:E; [|apply H1, filter_In; rewrite E; auto]. apply Nat.eqb_eq in E. rewrite (nodup_fst ls l (kx, ab)); auto.
Qed.
Lemma forall2_in_l {A B} (P : A -> B -> Prop) l m x : Forall2 P l m -> In x l -> exists y, In y m /\ P x y.
Proof. induction 1 as [|a b l m H F IH]; intros HI; [contradiction|]. destruct HI as [<-|HI]; [exists b; split; [left|]; auto|]. destruct (IH HI) as (y & Hy & HP). exists y. split; [right|]; auto. Qed.
Lemma row_width d x : In x (rows d) -> length (fst x) = length (u_coords d).
Proof. intros H. unfold rows in H. apply in_map_iff in H. destruct H as (i & <- & _). cbn. apply map_length. Qed.
Lemma qualifies_change (ls' : list limit) kx f x : (forall l, In l ls' -> fst l <> kx) -> qualifies ls' (change kx f x) = qualifies ls' x.
Proof. unfold qualifies. induction ls' as [|l ls' IH]; intros F; [reflexivity|]. cbn [forallb]. rewrite IH by (intros; apply F; right; auto). unfold change. cbn [fst]. rewrite nth_at_pos_other by (apply F; left; auto). reflexivity. Qed.
Theorem subset_off_seam d kws ls kx a b wd wl : proper d -> says d kws ls -> NoDup (map fst ls) -> located_rows d <> [] -> is_lon d kx -> In (kx, (Some a, Some b)) ls ->
  (forall r x, In r (located_rows d) -> nth kx (fst r) None = Some x -> convention x wd /\ ~ same_meridian x 180) -> convention a wl -> convention b wl ->
  exists r f p, subset d kws = Ok r /\ (forall x, same_meridian x (f x)) /\
    (forall x, In x (located_rows d) -> (p x = true <-> qualifies (filter (fun l => negb (fst l =? kx)) ls) x = true /\ exists lon y, nth kx (fst x) None = Some lon /\ same_meridian lon y /\ (a <= y <= b)%Q)) /\
    result_rows d (map (change kx f) (filter p (located_rows d))) r.
Proof.
  intros HP HS HN HR HX HI HD Ha Hb. assert (HO : own_names (u_coords d)) by (destruct HP as (_ & _ & HO); exact HO).
  assert (ONE : forall l, In l ls -> is_lon d (fst l) -> l = (kx, (Some a, Some b))).
  { intros l Hl (c & Hc & E). destruct HX as (c' & Hc' & E'). destruct HO as [_ U]. assert (K : fst l = kx) by (apply (U _ _ c c'); auto; [congruence|rewrite E; discriminate]). apply (nodup_fst ls); auto. }
  destruct (subset_limits d kws ls HP HS HN) as (d1 & es & k & f & r & E1 & I1 & R1 & A1 & C1 & O1 & F2 & HV & ES & RR); [intros l Hl X; rewrite (ONE l Hl X); split; discriminate|tauto|].
  assert (NE : NoDup (map fst es)) by (rewrite (fst_entries _ _ _ F2); auto).
  destruct (forall2_in_l _ _ _ _ F2 HI) as (e & He & HE). destruct HE as (E2 & _ & E3). cbn [fst snd] in *. assert (Ee : e = (kx, (a, b))) by (destruct e as [k' [a' b']]; cbn [fst snd] in *; specialize (E3 ltac:(split; discriminate)); congruence). subst e. clear E2 E3.
  assert (HX1 : is_lon d1 kx) by (apply (is_lon_identity d d1); auto). destruct HX1 as (c & Hc & Ec). assert (Lc : is_longitude c = true) by (apply is_longitude_spec; auto).
  destruct HV as [[HV _]|(l' & c' & s & He' & Hc' & HLc & HS' & Hf)]; [rewrite (HV _ c He Hc) in Lc; discriminate|].
  assert (k = kx) as ->.
  { apply is_longitude_spec in HLc. destruct O1 as [_ U]. apply (U _ _ c' c); auto; [congruence|rewrite HLc; discriminate]. }
  rewrite Hc in Hc'. injection Hc' as <-. assert (l' = (a, b)) as -> by (assert (X : (kx, l') = (kx, (a, b))) by (apply (nodup_fst es); auto); congruence).
  exists r, f, (fun x => qualifies ls (change kx f x)). split; [exact ES|]. split; [subst f; destruct s; cbn; intros; [apply wrap_lon_same|apply same_meridian_refl]|]. split.
  - intros x Hx. assert (Hx1 : In x (rows d1)) by (rewrite R1; auto). pose proof (row_width d1 x Hx1) as W. assert (Lk : kx < length (fst x)) by (rewrite W; apply nth_error_Some; congruence).
    destruct (located_nth x kx (C1 x Hx1) Lk) as (lon & El). unfold qualifies at 1. rewrite (forallb_nodup ls kx (Some a, Some b)) by auto. cbn [fst snd].
    assert (NC : nth kx (fst (change kx f x)) None = Some (f lon)) by (unfold change; cbn [fst]; rewrite nth_at_pos_same, El by auto; reflexivity). rewrite NC.
    change (forallb _ (filter (fun l => negb (fst l =? kx)) ls)) with (qualifies (filter (fun l => negb (fst l =? kx)) ls) (change kx f x)). rewrite qualifies_change.
    2:{ intros l Hl. apply filter_In in Hl. destruct Hl as [_ Hl]. destruct (Nat.eqb_spec (fst l) kx); [discriminate|auto]. }
    unfold within. cbn [fst snd]. rewrite andb_true_iff, !Qleb_le.
    unfold start_for in HS'. destruct (qmin_of (somes (c_points c))) as [mn|] eqn:Emn; [|discriminate]. destruct (qmax_of (somes (c_points c))) as [mx|] eqn:Emx; [|discriminate]. cbn [bind fst snd] in HS'. injection HS' as <-. subst f.
    assert (IN : In lon (somes (c_points c))). { apply in_somes. unfold rows in Hx1. apply in_map_iff in Hx1. destruct Hx1 as (i & <- & Hi). apply in_seq in Hi. rewrite <- El. apply in_row; auto. unfold aligned in A1. rewrite Forall_forall in A1. rewrite (A1 c (nth_error_In _ _ Hc)). lia. }
    rewrite (decision (somes (c_points c)) mn mx a b wd wl lon Emn Emx); auto.
    + split; intros [H1 H2]; split; auto; [destruct H2 as (y & H2); exists lon, y; auto|]. destruct H2 as (lon' & y & H2 & H3). assert (lon' = lon) by congruence. subst lon'. exists y. auto.
    + intros z Hz. apply in_somes in Hz. apply In_nth with (d := None) in Hz. destruct Hz as (i & Hi & Ez). unfold aligned in A1. rewrite Forall_forall in A1. rewrite (A1 c (nth_error_In _ _ Hc)) in Hi.
      apply (HD (row_at d1 i)); [rewrite <- R1; unfold rows; apply in_map, in_seq; lia|]. rewrite (row_coord d1 kx c i Hc). auto.
  - rewrite <- filter_map. exact RR.
Qed.
(** ** Shapes, one variable *)
Lemma qual_app a b r : qual (a ++ b) r = qual a r && qual b r.
Proof. apply forallb_app. Qed.
Lemma forall2_resolves_app cs kw1 es1 g kx ky lon lat kw2 es2 : Forall2 (fun kw e => resolves cs kw None [e]) kw1 es1 -> Forall2 (fun kw e => resolves cs kw None [e]) kw2 es2 ->
  nth_error cs kx = Some lon -> nth_error cs ky = Some lat -> c_std lon = Some (lit "longitude") -> c_std lat = Some (lit "latitude") ->
  Forall2 (fun kw ge => resolves cs kw (fst ge) (snd ge)) (kw1 ++ Shape g :: kw2)
    (combine (map (fun _ => None) es1 ++ Some g :: map (fun _ => None) es2) (map (fun e => [e]) es1 ++ [(kx, (r_xmin g, r_xmax g)); (ky, (r_ymin g, r_ymax g))] :: map (fun e => [e]) es2)).
Proof.
  intros H1 H2 Hx Hy Ex Ey. induction H1; cbn [app map combine]; constructor; auto.
  - cbn [fst snd]. econstructor; eauto. - apply entries_combine; auto.
Qed.
Lemma regions_shape {A B} (es1 : list A) (es2 : list B) g : forall g0, regions (map (fun _ => None) es1 ++ Some g :: map (fun _ => None) es2) g0 = Some g.
Proof. induction es1; cbn; auto. intros. apply regions_none. Qed.
Theorem subset_shape d g pre post ls1 ls2 kx ky : proper d -> boxed g -> is_lon d kx -> is_lat d ky -> says d pre ls1 -> says d post ls2 -> NoDup (kx :: ky :: map fst (ls1 ++ ls2)) -> located_rows d <> [] ->
  exists f, (forall x, same_meridian x (f x)) /\
    let rs := filter (in_shape g kx ky) (filter (qualifies (ls1 ++ ls2)) (map (change kx f) (located_rows d))) in
    match subset d (pre ++ Shape g :: post) with
    | Ok r => result_rows d rs r /\ rs <> []
    | Raises e => e = TypeError /\ rs = []
    end.
Proof.
  intros HP HB HX HY S1 S2 HN HR. destruct (proper_processed d HP) as (d1 & E1 & A1 & C1 & R1 & I1 & N1 & O1).
  destruct (says_entries d d1 pre ls1 A1 C1 I1 S1) as (es1 & F1 & G1); [rewrite R1; auto|]. destruct (says_entries d d1 post ls2 A1 C1 I1 S2) as (es2 & F2 & G2); [rewrite R1; auto|].
  assert (HX1 : is_lon d1 kx) by (apply (is_lon_identity d d1); auto). destruct HX1 as (lon & Hx & Ex).
  assert (HY1 : exists lat, nth_error (u_coords d1) ky = Some lat /\ c_std lat = Some (lit "latitude")). { destruct HY as (c & Hc & E). destruct (nth_identity _ (u_coords d1) ky c I1 Hc) as (c' & Hc' & I). apply identity_parts in I. exists c'. split; auto. intuition congruence. }
  destruct HY1 as (lat & Hy & Ey). set (box := [(kx, (r_xmin g, r_xmax g)); (ky, (r_ymin g, r_ymax g))]).
  pose proof (fst_entries _ _ _ G1) as FE1. pose proof (fst_entries _ _ _ G2) as FE2.
  assert (CC : concat (map (fun e => [e]) es1 ++ box :: map (fun e => [e]) es2) = es1 ++ box ++ es2) by (rewrite concat_app; cbn [concat]; rewrite !concat_singles; auto).
  assert (ND : NoDup (map fst (es1 ++ box ++ es2))).
  { rewrite !map_app, FE1, FE2. unfold box. cbn [map fst]. rewrite map_app in HN. eapply Permutation.Permutation_NoDup; [|exact HN]. change (kx :: ky :: map fst ls1 ++ map fst ls2) with ([kx; ky] ++ map fst ls1 ++ map fst ls2).
    apply Permutation.Permutation_app_swap_app. }
  destruct (make_limits_spec (u_coords d1) _ O1 _ _ (forall2_resolves_app _ _ _ g kx ky lon lat _ _ F1 F2 Hx Hy Ex Ey)) as [EM FM]; [rewrite !app_length; cbn; rewrite !map_length; auto|fold box; rewrite CC; auto|]. fold box in EM, FM. rewrite CC in *. rewrite regions_shape in EM.
  destruct (constrain_shape g d1 (es1 ++ box ++ es2) kx ky lon lat A1 C1 N1 O1 FM ND Hx Hy Ex Ey) as (k & f & HV & HC); [rewrite R1; auto|]. cbv zeta in HC.
  destruct HV as [[HV _]|(l' & c' & s & He' & Hc' & HLc & HS' & Hf)].
  { assert (X : is_longitude lon = false) by (apply (HV (kx, (r_xmin g, r_xmax g))); auto; apply in_or_app; right; left; auto). rewrite (proj2 (is_longitude_spec lon) Ex) in X. discriminate. }
  assert (k = kx) as -> by (apply is_longitude_spec in HLc; destruct O1 as [_ U]; apply (U _ _ c' lon); auto; [congruence|rewrite HLc; discriminate]).
  exists f. split; [subst f; destruct s; cbn; intros; [apply wrap_lon_same|apply same_meridian_refl]|]. cbv zeta.
  assert (Q : filter (in_shape g kx ky) (filter (qual (es1 ++ box ++ es2)) (map (change kx f) (rows d1))) = filter (in_shape g kx ky) (filter (qualifies (ls1 ++ ls2)) (map (change kx f) (located_rows d)))).
  { rewrite <- R1. assert (FF : forall l, filter (in_shape g kx ky) (filter (qual (es1 ++ box ++ es2)) l) = filter (in_shape g kx ky) (filter (qual (es1 ++ es2)) l)).
    { induction l as [|x l IH]; [reflexivity|]. cbn [filter]. rewrite !qual_app. destruct (in_shape g kx ky x) eqn:IS.
      - assert (QB : qual box x = true). { unfold in_shape in IS. unfold qual, box. cbn [forallb fst snd]. destruct (nth kx (fst x) None) as [u|]; [|discriminate]. destruct (nth ky (fst x) None) as [v|]; [|discriminate]. destruct (HB u v IS) as [[B1 B2] [B3 B4]]. unfold in_limits. cbn [fst snd]. rewrite !(proj2 (Qleb_le _ _)) by auto. reflexivity. }
        rewrite QB. cbn [andb]. destruct (qual es1 x && qual es2 x); cbn [filter]; rewrite ?IS, IH; reflexivity.
      - destruct (qual es1 x), (qual box x), (qual es2 x); cbn [andb filter]; rewrite ?IS; exact IH. }
    rewrite FF. f_equal. apply filter_ext_in. intros x Hx'. apply in_map_iff in Hx'. destruct Hx' as (x0 & <- & Hx0). apply (qual_qualifies d1); auto.
    - apply Forall2_app; auto.
    - rewrite !Forall_app in FM. rewrite Forall_app. tauto.
    - intros l Hl El. exfalso. apply NoDup_cons_iff in HN. destruct HN as [NI _]. apply NI. right. rewrite <- El. apply in_map. auto. }
  rewrite <- Q. unfold subset. rewrite E1. cbn [bind]. rewrite EM. cbn [bind fst snd]. destruct (constrain_one _ d1) as [[r k']|e]; cbn [bind fst]; [|exact HC].
  destruct HC as (NE & d' & -> & RW & AL & ID). split; auto. split; [auto|]. split; auto. split; auto. congruence.
Qed.

(** ** Lists of variables *)
Definition twin (d d' : udata) : Prop := u_coords d' = u_coords d /\ length (u_values d') = length (u_values d).
Definition twin_res (a b : res udata) : Prop := match a, b with Ok d, Ok d' => twin d d' | Raises e, Raises e' => e' = e | _, _ => False end.
Lemma twin_bind a b f g : twin_res a b -> (forall d d', twin d d' -> twin_res (f d) (g d')) -> twin_res (bind a f) (bind b g).
Proof. destruct a, b; cbn; intros H HF; try contradiction; auto. Qed.
Lemma twin_bind_same {A} (a : res A) f g : (forall x, twin_res (f x) (g x)) -> twin_res (bind a f) (bind a g).
Proof. destruct a; cbn; auto. Qed.
Lemma compress_len {A B} mask : forall (l : list A) (l' : list B), length l' = length l -> length (compress mask l') = length (compress mask l).
Proof.
  unfold compress. induction mask as [|b mask IH]; intros [|x l] [|y l'] L; try discriminate; try reflexivity. cbn [combine filter fst]. injection L as L. destruct (negb b); cbn [map length]; auto.
Qed.
Lemma twin_post d d' : twin d d' -> twin_res (post_process d) (post_process d').
Proof.
  intros [E L]. unfold post_process. rewrite E, L. apply twin_bind_same. intros mask. destruct (existsb (fun b => b) mask); cbn; [|split; auto]. split; [reflexivity|]. cbn. apply compress_len. auto.
Qed.
Lemma twin_copy d d' : twin d d' -> twin_res (copy d) (copy d').
Proof. intros T. unfold copy. apply twin_bind; [apply twin_post; auto|]. intros x x' [E L]. rewrite E. apply twin_bind_same. intros cs. apply twin_post. split; [reflexivity|]. cbn. apply T. Qed.
Lemma twin_create lims d d' : twin d d' -> twin_res (create_data lims d) (create_data lims d').
Proof. intros T. unfold create_data. apply twin_bind; [apply twin_copy; auto|]. intros x x' [E L]. rewrite E. apply twin_bind_same. intros cs. split; auto. Qed.
Lemma twin_mask_get m d d' : twin d d' -> twin_res (data_mask_get m d) (data_mask_get m d').
Proof.
  intros T. unfold data_mask_get. apply twin_bind; [apply twin_post; auto|]. intros x x' [E L]. rewrite E. apply twin_bind_same. intros cs. unfold mask_get. rewrite L. destruct (length m =? length (u_values x)); cbn; auto. apply twin_post. split; [reflexivity|]. cbn. apply compress_len. auto.
Qed.
(** with limits only, the second use of the constraint does what a new one would do *)
Lemma constrain_again lims d d' r k1 : twin d d' -> constrain_one (mkK None lims None None) d = Ok (r, k1) ->
  constrain_one k1 d' = constrain_one (mkK None lims None None) d' /\ (exists r', constrain_one (mkK None lims None None) d' = Ok (r', k1) /\ match r, r' with Some x, Some x' => twin x x' | None, None => True | _, _ => False end).
Proof.
  intros T. unfold constrain_one. cbn [k_limits k_mask k_region k_indices]. pose proof (twin_create lims d d' T) as TC. destruct (create_data lims d) as [x|]; [|discriminate]. destruct (create_data lims d') as [x'|] eqn:E'; [|contradiction]. cbn [bind]. destruct TC as [EC EL]. rewrite EC.
  destruct (limits_mask lims (u_coords x)) as [m|]; [|discriminate]. cbn [bind]. pose proof (twin_mask_get m x x' (conj EC EL)) as TM. destruct (data_mask_get m x) as [y|]; [|discriminate]. destruct (data_mask_get m x') as [y'|] eqn:E2; [|contradiction]. cbn [bind fst snd].
  intros H. injection H as <- <-. cbn [k_limits k_mask k_region k_indices]. rewrite E'. cbn [bind]. rewrite E2. cbn [bind fst snd]. split; [reflexivity|]. eexists. split; [reflexivity|]. destruct TM as [T1 T2]. rewrite T2. destruct (length (u_values y) =? 0); [auto|split; auto].
Qed.
Lemma same_rank_refl a : same_up_to_rank a a.
Proof. exists []. left. rewrite app_nil_r. auto. Qed.
Lemma append_twin out x y : In x out -> (forall z, In z out -> twin x z) -> twin x y -> append_result out (Some y) = Ok (out ++ [y]).
Proof.
  intros HI HA HT. unfold append_result. destruct out as [|z out]; [contradiction|]. cbn [map]. unfold list_append. cbn [item_of i_gridded negb eqb i_shapes]. assert (E : u_coords y = u_coords z) by (destruct (HA z (or_introl eq_refl)), HT; congruence). rewrite E, Nat.eqb_refl. cbn [negb].
  rewrite (proj2 (shapes_check _ _ eq_refl)); [reflexivity|]. generalize (map c_shape (u_coords z)). intros l. induction l; constructor; auto using same_rank_refl.
Qed.
Lemma constrain_list_twins lims d0 r0 k1 : constrain_one (mkK None lims None None) d0 = Ok (Some r0, k1) -> forall ds out, In r0 out -> (forall z, In z out -> twin r0 z) -> (forall d, In d ds -> twin d0 d) ->
  exists rs, constrain_list k1 out ds = Ok (out ++ rs) /\ Forall2 (fun d r => exists k, constrain_one (mkK None lims None None) d = Ok (Some r, k)) ds rs.
Proof.
  intros H0. induction ds as [|d ds IH]; intros out HI HA HD; [exists []; rewrite app_nil_r; split; [reflexivity|constructor]|]. cbn [constrain_list].
  destruct (constrain_again lims d0 d (Some r0) k1 (HD d (or_introl eq_refl)) H0) as [E (r' & E' & T)]. rewrite E, E'. cbn [bind fst snd]. destruct r' as [r'|]; [|contradiction]. rewrite (append_twin out r0 r' HI HA T). cbn [bind].
  destruct (IH (out ++ [r'])) as (rs & ER & FR); [apply in_or_app; auto|intros z Hz; apply in_app_or in Hz; destruct Hz as [Hz|[<-|[]]]; auto|intros; apply HD; right; auto|].
  exists (r' :: rs). rewrite ER, <- app_assoc. split; [reflexivity|]. constructor; eauto.
Qed.
Lemma make_limits_no_shape cs kws : limits_only kws -> forall k, fold_left (fun k kw => bind k (fun k => add_kwarg cs k kw)) kws (Ok (None, k)) = match fold_left (fun k kw => bind k (fun k => add_kwarg cs k kw)) kws (Ok (None, k)) with Ok (_, l) => Ok (None, l) | Raises e => Raises e end.
Proof.
  assert (R : forall kws e, fold_left (fun k kw => bind k (fun k => add_kwarg cs k kw)) kws (Raises e) = Raises e) by (induction kws0; cbn; auto).
  induction 1 as [|kw kws HK HF IH]; intros k; [reflexivity|]. cbn [fold_left bind]. destruct kw as [n a b|g]; [|contradiction]. cbn [add_kwarg fst snd]. destruct (find_coord cs n) as [c|]; [|rewrite R; auto]. destruct (default_to a _); cbn [bind]; [|rewrite R; auto]. destruct (default_to b _); cbn [bind]; [|rewrite R; auto]. apply IH.
Qed.
Lemma same_complete d0 d : same_coordinates d0 d -> aligned d0 -> complete d0 -> complete d.
Proof.
  intros [C L] HA HC r Hr. apply in_map_iff in Hr. destruct Hr as (i & <- & Hi). specialize (HC (row_at d0 i)). unfold located, row_at in *. cbn [fst] in *. rewrite C. apply HC. apply in_map_iff. exists i. split; [reflexivity|]. rewrite <- L. exact Hi.
Qed.
Theorem subset_list_each ds d0 kws : Forall (same_coordinates d0) ds -> aligned d0 -> complete d0 -> limits_only kws ->
  match subset d0 kws with
  | Ok (Some r0) => exists rs, subset_list (d0 :: ds) kws = Ok (r0 :: rs) /\ Forall2 (fun d r => subset d kws = Ok (Some r)) ds rs
  | Ok None => subset_list (d0 :: ds) kws = Raises TypeError
  | Raises e => subset_list (d0 :: ds) kws = Raises e
  end.
Proof.
  intros HF HA HC HK. pose proof (aligned_complete d0 HA HC) as E1. set (d1 := d0) in E1 at 2. unfold subset, subset_list. rewrite E1. cbn [bind].
  pose proof (make_limits_no_shape (u_coords d1) kws HK []) as ML. change (make_limits (u_coords d1) kws = match make_limits (u_coords d1) kws with Ok (_, l) => Ok (None, l) | Raises e => Raises e end) in ML. destruct (make_limits (u_coords d1) kws) as [[g lims]|e] eqn:EM; [|reflexivity]. assert (g = None) by congruence. subst g. clear ML. cbn [bind fst snd constrain_list].
  unfold d1 in *. clear d1. destruct (constrain_one (mkK None lims None None) d0) as [[[r0|] k1]|e] eqn:EC; cbn [bind fst snd]; [|reflexivity|reflexivity].
  cbn [append_result map list_append item_of i_gridded negb eqb bind]. rewrite Forall_forall in HF. destruct (constrain_list_twins lims d0 r0 k1 EC ds [r0]) as (rs & ER & FR); [left; auto|intros z [<-|[]]; split; auto|intros d Hd; apply HF; auto|].
  exists rs. split; [exact ER|]. assert (G : forall ds rs, (forall x, In x ds -> same_coordinates d0 x) -> Forall2 (fun d r => exists k, constrain_one (mkK None lims None None) d = Ok (Some r, k)) ds rs ->
    Forall2 (fun d r => bind (post_process d) (fun d => bind (make_limits (u_coords d) kws) (fun k => bind (constrain_one (mkK (fst k) (snd k) None None) d) (fun rk => Ok (fst rk)))) = Ok (Some r)) ds rs).
  { intros ds' rs' HF' HG. induction HG as [|d r ds' rs' (k & Ed) HG IH]; constructor; [|apply IH; intros; apply HF'; right; auto]. destruct (HF' d (or_introl eq_refl)) as [C L].
    assert (AD : aligned d) by (unfold aligned; rewrite C, L; exact HA). pose proof (twin_post d0 d (conj C L)) as TP. rewrite E1 in TP. destruct (post_process d) as [d2|] eqn:E2; [|contradiction]. cbn [bind]. destruct TP as [TC _]. rewrite TC, EM. cbn [bind fst snd]. assert (d2 = d); [|subst d2; rewrite Ed; reflexivity]. assert (CD : complete d) by (apply (same_complete d0 d (conj C L) HA HC)). rewrite (aligned_complete d AD CD) in E2. congruence. }
  apply G; auto.
Qed.

(** ** C33 *)
Lemma nth_grid_points g j i : j < length (g_ys g) -> i < length (g_xs g) -> nth (cell g j i) (grid_points g) (0%Q, 0%Q) = (nth i (g_xs g) 0%Q, nth j (g_ys g) 0%Q).
Proof.
  unfold cell, grid_points. generalize (g_ys g). intros ys. revert j. induction ys as [|y ys IH]; intros j Hj Hi; [cbn in Hj; lia|]. cbn [flat_map]. destruct j as [|j].
  - rewrite app_nth1 by (rewrite map_length; lia). cbn [nth]. rewrite (nth_indep _ _ ((fun x => (x, y)) 0%Q)) by (rewrite map_length; lia). rewrite (map_nth (fun x => (x, y))). reflexivity.
  - rewrite app_nth2 by (rewrite map_length; lia). rewrite map_length. replace (S j * length (g_xs g) + i - length (g_xs g)) with (j * length (g_xs g) + i) by lia. cbn [length] in Hj. rewrite IH by lia. reflexivity.
Qed.
Lemma grid_points_length g : length (grid_points g) = length (g_ys g) * length (g_xs g).
Proof. unfold grid_points. induction (g_ys g) as [|y ys IH]; [reflexivity|]. cbn [flat_map length]. rewrite app_length, map_length, IH. lia. Qed.
Lemma set_nth_get {A} (v d : A) : forall l j p, nth p (set_nth j v l) d = if (p =? j) && (p <? length l) then v else nth p l d.
Proof.
  induction l as [|x l IH]; intros j p; [cbn [length]; rewrite andb_false_r; destruct j, p; reflexivity|]. destruct j as [|j], p as [|p]; cbn [set_nth nth]; try reflexivity. rewrite IH. cbn [length]. reflexivity.
Qed.
Lemma clear_length is : forall m, length (clear_at is m) = length m.
Proof. unfold clear_at. induction is as [|i is IH]; intros m; [reflexivity|]. cbn [fold_left]. rewrite IH, set_nth_length. reflexivity. Qed.
Lemma clear_get is : forall m p, p < length m -> nth p (clear_at is m) false = if existsb (Nat.eqb p) is then false else nth p m false.
Proof.
  unfold clear_at. induction is as [|i is IH]; intros m p Hp; [reflexivity|]. cbn [fold_left existsb]. rewrite IH by (rewrite set_nth_length; auto). rewrite set_nth_get. destruct (p =? i) eqn:E; cbn [orb andb]; [|reflexivity].
  rewrite (proj2 (Nat.ltb_lt _ _) Hp). destruct (existsb (Nat.eqb p) is); reflexivity.
Qed.
Theorem shape_subset_mask r g : yx_grid g -> (exists j i, j < length (g_ys g) /\ i < length (g_xs g) /\ r_contains r (nth i (g_xs g) 0%Q) (nth j (g_ys g) 0%Q) = true) ->
  exists m, shape_subset r g = Ok m /\ length m = length (g_ys g) * length (g_xs g) /\ forall j i, j < length (g_ys g) -> i < length (g_xs g) ->
    nth (cell g j i) m false = let outside := negb (r_contains r (nth i (g_xs g) 0%Q) (nth j (g_ys g) 0%Q)) in match g_mask g with Some old => nth (cell g j i) old false && outside | None => outside end.
Proof.
  intros [SH ML] (j0 & i0 & Hj0 & Hi0 & H0). unfold shape_subset. rewrite SH. cbn [length Nat.ltb Nat.leb fold_left]. rewrite Nat.mul_1_l. set (n := length (g_ys g) * length (g_xs g)) in *.
  assert (CL : forall j i, j < length (g_ys g) -> i < length (g_xs g) -> cell g j i < n) by (intros j i Hj Hi; unfold cell, n; nia).
  set (is := grid_region_indices r g). assert (IN : forall j i, j < length (g_ys g) -> i < length (g_xs g) -> existsb (Nat.eqb (cell g j i)) is = r_contains r (nth i (g_xs g) 0%Q) (nth j (g_ys g) 0%Q)).
  { intros j i Hj Hi. unfold is, grid_region_indices. rewrite grid_points_length. fold n. destruct (r_contains r (nth i (g_xs g) 0%Q) (nth j (g_ys g) 0%Q)) eqn:RC.
    - apply existsb_exists. exists (cell g j i). split; [|apply Nat.eqb_refl]. apply filter_In. split; [apply in_seq; specialize (CL j i Hj Hi); lia|]. cbv zeta. rewrite nth_grid_points by auto. exact RC.
    - destruct (existsb _ _) eqn:X; auto. apply existsb_exists in X. destruct X as (p & Hp & E). apply Nat.eqb_eq in E. subst p. apply filter_In in Hp. destruct Hp as [_ Hp]. cbv zeta in Hp. rewrite nth_grid_points in Hp by auto. cbn [fst snd] in Hp. congruence. }
  assert (BND : existsb (fun i => n <=? i) is = false).
  { destruct (existsb _ is) eqn:X; auto. apply existsb_exists in X. destruct X as (p & Hp & E). apply Nat.leb_le in E. unfold is, grid_region_indices in Hp. apply filter_In in Hp. destruct Hp as [Hp _]. rewrite grid_points_length in Hp. apply in_seq in Hp. fold n in Hp. lia. }
  assert (NE : is <> []) by (intros Z; specialize (IN j0 i0 Hj0 Hi0); rewrite Z, H0 in IN; discriminate).
  set (mask := clear_at is (repeat true n)). assert (LM : length mask = n) by (unfold mask; rewrite clear_length, repeat_length; auto).
  assert (GM : forall j i, j < length (g_ys g) -> i < length (g_xs g) -> nth (cell g j i) mask false = negb (r_contains r (nth i (g_xs g) 0%Q) (nth j (g_ys g) 0%Q))).
  { intros j i Hj Hi. unfold mask. pose proof (CL j i Hj Hi). rewrite clear_get, IN by (auto; rewrite repeat_length; auto). rewrite (nth_indep _ false true), nth_repeat by (rewrite repeat_length; auto). destruct (r_contains _ _ _); reflexivity. }
  exists (match g_mask g with Some old => map (fun ab : bool * bool => fst ab && snd ab) (combine old mask) | None => mask end). split; [|split].
  - destruct is as [|i1 is'] eqn:Z; [congruence|]. rewrite BND. reflexivity.
  - destruct (g_mask g); auto. rewrite map_length, combine_length, ML, LM. lia.
  - intros j i Hj Hi. cbv zeta. destruct (g_mask g) as [old|]; [|apply GM; auto]. rewrite nth_and, GM by (auto; congruence). reflexivity.
Qed.
(** ** Names that mean nothing *)
Lemma get_std_none cs q : get_coords cs (mkCrit None q None None) = [] -> length cs <> 1 -> try_coord cs (mkCrit None q None None) = None.
Proof.
  intros H L. unfold try_coord, get_coord. rewrite H. cbn [q_name]. unfold get_coords. rewrite no_criteria. destruct cs as [|a [|b cs]]; auto. cbn in L. lia.
Qed.
Lemma fold_raises cs kws e : fold_left (fun k kw => bind k (fun k => add_kwarg cs k kw)) kws (Raises e) = Raises e.
Proof. induction kws; cbn; auto. Qed.
Theorem unknown_name d n a b kws : proper d -> length (u_coords d) <> 1 -> (forall c, In c (u_coords d) -> c_name c <> n /\ c_std c <> Some n /\ c_var c <> n /\ c_axis c <> upper n /\ forall s, axis_name (upper n) s -> c_std c <> Some s) ->
  subset d (Limit n a b :: kws) = Raises CoordinateNotFoundError.
Proof.
  intros HP HL HU. destruct (proper_processed d HP) as (d1 & E1 & A1 & C1 & R1 & I1 & N1 & O1). unfold subset. rewrite E1. cbn [bind]. unfold make_limits. cbn [fold_left bind add_kwarg].
  assert (L1 : length (u_coords d1) <> 1) by (rewrite <- (map_length identity_of), I1, map_length; auto).
  assert (HU1 : forall c, In c (u_coords d1) -> c_name c <> n /\ c_std c <> Some n /\ c_var c <> n /\ c_axis c <> upper n /\ forall s, axis_name (upper n) s -> c_std c <> Some s).
  { intros c Hc. destruct (in_identity _ _ c I1 Hc) as (y & Hy & E). specialize (HU y Hy). pose proof (identity_parts _ _ E) as (P1 & P2 & P3). assert (P4 : c_axis y = c_axis c) by (injection E; auto). rewrite <- P1, <- P2, <- P3, <- P4. exact HU. }
  set (cs := u_coords d1) in *. assert (F : find_coord cs n = None).
  { unfold find_coord. assert (S : get_coords cs (by_std n) = []) by (apply filter_none; intros x Hx; destruct (matches (by_std n) x) eqn:M; auto; apply matches_std in M; destruct (HU1 x Hx) as (_ & X & _); contradiction).
    rewrite (by_name_fails cs n) by (intros x Hx; destruct (HU1 x Hx) as (X & Y & _); auto). cbn [or_else]. unfold by_std. rewrite (get_std_none cs (Some n) S L1). cbn [or_else].
    assert (EMPTY : forall q, q_name q = None -> get_coords cs q = [] -> try_coord cs q = None).
    { intros q Hq H. unfold try_coord, get_coord. rewrite H, Hq. unfold get_coords. rewrite no_criteria. destruct cs as [|x [|y cs']]; auto. cbn in L1. lia. }
    assert (T3 : try_coord cs (mkCrit None (standard_axis (upper n)) None None) = None).
    { destruct (standard_axis (upper n)) as [s|] eqn:SA.
      - apply EMPTY; [reflexivity|]. apply filter_none. intros x Hx. destruct (matches _ x) eqn:M; auto. change (mkCrit None (Some s) None None) with (by_std s) in M. apply matches_std in M. destruct (HU1 x Hx) as (_ & _ & _ & _ & X). apply axis_lookup in SA. exfalso. exact (X s SA M).
      - unfold try_coord, get_coord, get_coords. cbn [q_name]. rewrite !no_criteria. destruct cs as [|x [|y cs']]; auto. cbn in L1. lia. }
    rewrite T3. cbn [or_else]. rewrite EMPTY; [|reflexivity|apply filter_none; intros x Hx; destruct (matches _ x) eqn:M; auto; apply matches_var in M; destruct (HU1 x Hx) as (_ & _ & X & _); contradiction]. cbn [or_else].
    apply EMPTY; [reflexivity|]. apply filter_none. intros x Hx. destruct (matches _ x) eqn:M; auto. unfold matches in M. cbn [q_name q_std q_axis q_var] in M. rewrite andb_true_r in M. cbn [andb] in M. apply str_eqb_eq in M. destruct (HU1 x Hx) as (_ & _ & _ & X & _). contradiction. }
  rewrite F, fold_raises. reflexivity.
Qed.
