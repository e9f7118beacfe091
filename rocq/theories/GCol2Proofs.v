(** Proofs for C68: the values of the result. *)
From Coq Require Import String.
From Verif Require Import Base PyStr QBase LonModel LonSpec LonProofs DateModel FileListModel IndexModel UngrModel UngrSpec UngrProofs SubsetModel SubsetSpec SubsetProofs Subset2Proofs GridIndexModel GridIndexSpec GridIndexProofs IndexProofs UtilProofs AggModel AggSpec AggProofs Agg2Proofs Agg3Proofs Agg4Proofs GColModel GColSpec GColProofs.
From Coq Require Import List Lqa Lia.
Import ListNotations.
Open Scope string_scope. Open Scope list_scope. Open Scope nat_scope. Notation length := List.length.

Lemma nth_error_ext_eq {A} (l m : list A) : (forall i, nth_error l i = nth_error m i) -> l = m.
Proof. revert m. induction l as [|x l IH]; intros [|y m] H; auto; [specialize (H 0); discriminate|specialize (H 0); discriminate|]. f_equal; [specialize (H 0); cbn in H; congruence|apply IH; intros i; apply (H (S i))]. Qed.
(** ** coord_map, when the data may lack coordinates *)
Lemma coord_map_present stds : unique_stds stds -> forall (names : list str) present hpi, (forall n, In n names -> n <> []) -> NoDup names -> length present = length names ->
  exists m, coord_map hpi names present stds = Ok m /\ NoDup (map snd m) /\ (forall h ci, In (h, ci) m <-> exists k n, h = hpi + k /\ nth_error names k = Some n /\ nth k present false = true /\ has_name stds ci n).
Proof.
  intros U. induction names as [|n names IH]; intros present hpi NE ND L.
  { destruct present; [|discriminate]. exists []. split; [reflexivity|]. split; [constructor|]. intros h ci. split; [contradiction|]. intros (k & n & _ & H & _). destruct k; discriminate. }
  destruct present as [|p present]; [discriminate|]. cbn [coord_map].
  destruct (IH present (S hpi)) as (m & E & NDm & Hm); [intros; apply NE; right; auto|inversion ND; auto|cbn in L; lia|].
  assert (G : exists here, (if p then match positions n stds with [] => Ok [] | [ci] => Ok [(hpi, ci)] | _ => Raises CoordinateNotFoundError end else Ok []) = Ok here /\ (forall h ci, In (h, ci) here <-> h = hpi /\ p = true /\ has_name stds ci n) /\ NoDup (map snd here)).
  { destruct p.
    - destruct (positions_unique n stds (NE n (or_introl eq_refl)) U) as [Ep|(ci & Ep)]; rewrite Ep; eexists; (split; [reflexivity|]).
      + split; [|constructor]. intros h ci. split; [contradiction|]. intros (_ & _ & H). apply in_positions in H. rewrite Ep in H. contradiction.
      + split; [|repeat constructor; auto]. intros h c. rewrite <- in_positions, Ep. cbn. split; [intros [[= <- <-]|[]]; auto|intros (-> & _ & [->|[]]); auto].
    - exists []. split; [reflexivity|]. split; [|constructor]. intros h ci. split; [contradiction|]. intros (_ & H & _). discriminate. }
  destruct G as (here & -> & Hh & NDh). cbn [bind]. rewrite E. cbn [bind]. exists (here ++ m). split; [reflexivity|]. split.
  - rewrite map_app. assert (X : forall x, In x (map snd here) -> In x (map snd m) -> False).
    { intros x H1 H2. apply in_map_iff in H1, H2. destruct H1 as ([h1 c1] & <- & H1), H2 as ([h2 c2] & E2 & H2). cbn in E2. subst. apply Hh in H1. apply Hm in H2. destruct H1 as (_ & _ & H1), H2 as (k & n' & _ & Hk & _ & H2). unfold has_name in *. rewrite H1 in H2. injection H2 as <-. apply NoDup_cons_iff in ND. apply (proj1 ND). eapply nth_error_In; eauto. }
    clear - NDh NDm X. induction (map snd here) as [|y l IHl]; [auto|]. apply NoDup_cons_iff in NDh. destruct NDh as [Ny NDl]. cbn. constructor; [rewrite in_app_iff; intros [H|H]; [auto|apply (X y); [left; auto|auto]]|]. apply IHl; auto. intros x H1 H2. apply (X x); [right; auto|auto].
  - intros h ci. rewrite in_app_iff, Hh, Hm. split.
    + intros [(-> & P & H)|(k & n' & -> & Hk & P & H)]; [exists 0, n; repeat split; auto; lia|exists (S k), n'; repeat split; auto; lia].
    + intros ([|k] & n' & -> & Hk & P & H); cbn in Hk; [injection Hk as <-; left; repeat split; auto; lia|right; exists k, n'; repeat split; auto; lia].
Qed.
(** ** the longitudes of the sample *)
Definition convention_of (pts : list Q) (low : Q) : Prop := ((exists p, In p pts /\ (p < 0)%Q) /\ low = (-(180))%Q) \/ ((forall p, In p pts -> (0 <= p)%Q) /\ low = 0%Q).
Lemma convention_of_unique pts a b : convention_of pts a -> convention_of pts b -> a = b.
Proof. intros [[(p & P1 & P2) ->]|[H ->]] [[(q & Q1 & Q2) ->]|[K ->]]; auto; exfalso; [specialize (K p P1)|specialize (H q Q1)]; lra. Qed.
Lemma sample_low_spec cs : (forall sp, In sp cs -> snd sp <> []) -> (forall i j nm p q, nth_error cs i = Some (Some nm, p) -> nth_error cs j = Some (Some nm, q) -> i = j) ->
  exists low, sample_low cs = Ok low /\ forall pts, In (Some (lit "longitude"), pts) cs -> exists s, low = Some s /\ convention_of pts s.
Proof.
  intros NE U. unfold sample_low.
  assert (G : forall l acc, (forall sp, In sp l -> snd sp <> []) -> exists low, fold_left (fun low sp => bind low (fun low => if std_eqb (fst sp) (Some (lit "longitude")) then bind (find_longitude_range (snd sp)) (fun s => Ok (Some s)) else Ok low)) l (Ok acc) = Ok low /\
    ((exists pts s, In (Some (lit "longitude"), pts) l /\ low = Some s /\ convention_of pts s) \/ ((forall pts, ~ In (Some (lit "longitude"), pts) l) /\ low = acc))).
  { induction l as [|[o pts] l IH]; intros acc N; [exists acc; split; [reflexivity|]; right; split; auto|]. cbn [fold_left bind fst snd]. destruct (std_eqb o (Some (lit "longitude"))) eqn:S.
    - apply std_eqb_eq in S. subst o. destruct (find_longitude_range pts) as [s|e] eqn:F; [|exfalso; apply (N (Some (lit "longitude"), pts)); [left; auto|]; destruct pts; [reflexivity|discriminate]]. cbn [bind].
      destruct (IH (Some s)) as (low & E & H); [intros; apply N; right; auto|]. exists low. split; auto. left. destruct H as [(p & s' & A & B & C)|[A B]]; [exists p, s'; cbn; auto|exists pts, s; split; [left; auto|split; auto; apply find_range_spec; auto]].
    - destruct (IH acc) as (low & E & H); [intros; apply N; right; auto|]. exists low. split; auto. destruct H as [(p & s' & A & B & C)|[A B]]; [left; exists p, s'; cbn; auto|]. right. split; auto. intros p [[= -> ->]|H]; [|eapply A; eauto]. rewrite (proj2 (std_eqb_eq _ _) eq_refl) in S. discriminate. }
  destruct (G cs None NE) as (low & E & H). exists low. split; auto. intros pts Hp. destruct H as [(p & s & A & B & C)|[A B]]; [|exfalso; eapply A; eauto].
  apply In_nth_error in Hp, A. destruct Hp as (i & Hi), A as (j & Hj). assert (i = j) by (eapply U; eauto). subst j. rewrite Hi in Hj. injection Hj as ->. eauto.
Qed.
(** ** filling the cells *)
Lemma fill_right {V} (k : list Q -> res (list (option V))) skip values ds : only_value_error k -> NoDup (map fst ds) -> forall acc, exists acc', fill k skip values ds acc = Ok acc' /\ forall c,
  (forall idxs, In (c, idxs) ds -> acc' c = if skip c then acc c else match k (somes (map (fun i => nth i values None) idxs)) with Ok v => Some v | Raises _ => acc c end) /\
  (~ In c (map fst ds) -> acc' c = acc c).
Proof.
  intros HK. induction ds as [|[c0 i0] ds IH]; intros N acc; [exists acc; split; [reflexivity|]; intros c; split; [contradiction|auto]|]. cbn in N. apply NoDup_cons_iff in N. destruct N as [N0 N]. specialize (IH N). cbn [fill].
  assert (SAME : forall acc', (forall c, (forall idxs, In (c, idxs) ds -> acc' c = if skip c then acc c else match k (somes (map (fun i => nth i values None) idxs)) with Ok v => Some v | Raises _ => acc c end) /\ (~ In c (map fst ds) -> acc' c = acc c)) ->
    (skip c0 = true \/ exists e, k (somes (map (fun i => nth i values None) i0)) = Raises e) -> forall c, (forall idxs, In (c, idxs) ((c0, i0) :: ds) -> acc' c = if skip c then acc c else match k (somes (map (fun i => nth i values None) idxs)) with Ok v => Some v | Raises _ => acc c end) /\ (~ In c (map fst ((c0, i0) :: ds)) -> acc' c = acc c)).
  { intros acc' H X c. split.
    - intros idxs [[= <- <-]|Hi]; [|apply H; auto]. rewrite (proj2 (H c0) N0). destruct X as [-> | (e & ->)]; auto. destruct (skip c0); auto.
    - intros Hc. apply H. intros C. apply Hc. right. auto. }
  destruct (skip c0) eqn:S; [destruct (IH acc) as (acc' & E & H); exists acc'; split; auto|].
  destruct (k (somes (map (fun i => nth i values None) i0))) as [v|e] eqn:EK.
  - destruct (IH (set_cell acc c0 v)) as (acc' & E & H). exists acc'. split; auto. intros c. split.
    + intros idxs [[= <- <-]|Hi].
      * rewrite S, EK. rewrite (proj2 (H c0) N0). unfold set_cell. rewrite (proj2 (list_Z_eqb_eq c0 c0)) by auto. auto.
      * assert (c <> c0) by (intros ->; apply N0; apply (in_map fst _ _ Hi)). assert (Y : set_cell acc c0 v c = acc c) by (unfold set_cell; destruct (list_Z_eqb c c0) eqn:Z; auto; apply list_Z_eqb_eq in Z; contradiction). rewrite (proj1 (H c) idxs Hi), Y. reflexivity.
    + intros Hc. rewrite (proj2 (H c)) by (intros C; apply Hc; right; auto). unfold set_cell. destruct (list_Z_eqb c c0) eqn:Z; auto. apply list_Z_eqb_eq in Z. exfalso. apply Hc. left. auto.
  - pose proof (HK _ _ EK). subst e. destruct (IH acc) as (acc' & E & H). exists acc'. split; auto. apply SAME; eauto.
Qed.

Section Core.
Context {V : Type} (k : list Q -> res (list (option V))) (argsort : list Z -> list nat) (mdfms : bool) (sample : cube) (d : udata).
Hypothesis (HP : forall l, is_argsort l (argsort l)) (HA : aligned d) (HC : complete d) (HU : unique_standard_names (u_coords d)) (HL : usual_longitudes d) (HLAT : has_latitude d).
Hypothesis (HV : u_values d <> []) (H2 : length (u_coords d) <> 1) (HG : good_sample sample) (HM : mdfms = true -> all_shared sample d) (HK : only_value_error k).
Let n := length (u_values d).
Let stds := map sd_std (cu_dims sample).

Lemma unique_dims : unique_stds stds.
Proof.
  intros i j nm NE Hi Hj. unfold has_name, stds in *. rewrite nth_error_map in Hi, Hj. destruct (nth_error (cu_dims sample) i) as [s|] eqn:Ei; [|discriminate]. destruct (nth_error (cu_dims sample) j) as [s'|] eqn:Ej; [|discriminate].
  injection Hi as Hi. injection Hj as Hj. destruct HG as (U & _ & _). unfold all_coords in U.
  apply (U i j nm (sd_points s) (sd_points s')); rewrite nth_error_app1, nth_error_map; try (rewrite ?Ei, ?Ej; cbn; congruence); rewrite map_length; apply nth_error_Some; congruence.
Qed.
Lemma present_spec h nm : nth_error standard_names h = Some nm -> (nth h (map (fun o => negb (is_missing o)) (find_standard_coords (u_coords d))) false = true <-> data_has d nm).
Proof.
  intros Hh. assert (NE : nm <> []) by (apply nonempty_standard; eapply nth_error_In; eauto).
  assert (E : nth h (map (fun o => negb (is_missing o)) (find_standard_coords (u_coords d))) false = negb (is_missing (match get_coord (u_coords d) (by_std nm) with Ok c => Some c | Raises _ => None end))).
  { apply nth_error_nth. unfold find_standard_coords. rewrite map_map, nth_error_map, Hh. reflexivity. }
  rewrite E. split.
  - intros H. destruct (existsb (fun c => std_eqb (c_std c) (Some nm)) (u_coords d)) eqn:X.
    + apply existsb_exists in X. destruct X as (c & Hc & Y). apply std_eqb_eq in Y. exists c. auto.
    + rewrite lookup_absent in H; auto; [discriminate|]. intros c Hc Y. assert (T : existsb (fun c => std_eqb (c_std c) (Some nm)) (u_coords d) = true) by (apply existsb_exists; exists c; split; auto; apply std_eqb_eq; exact Y). congruence.
  - intros (c & Hc & Hn). rewrite (lookup_found (u_coords d) nm c); auto.
Qed.
(** where a point is along an entry of the map *)
Lemma entry low h nm ci s a : sample_low (all_coords sample) = Ok low -> nth_error standard_names h = Some nm -> shared sample d ci s nm -> forall i, i < n ->
  forall kk, contains a kk (nth i (column (view_wrapped low (coords_flattened (u_coords d))) h) 0%Q) <-> exists x', position sample d i nm x' /\ contains a kk x'.
Proof.
  intros EL Hh (Hs & HN & H5 & (c & Hin & Hn)) i Hi kk.
  assert (LC : length (c_points c) = n) by (unfold aligned in HA; rewrite Forall_forall in HA; apply HA; auto).
  apply In_nth_error in Hin as Hcx. destruct Hcx as (cx & Hcx).
  destruct (somes_all (c_points c)) as [LS NS]; [intros j Hj; eapply complete_at; eauto|].
  destruct (nth i (c_points c) None) as [x|] eqn:Ex; [|exfalso; eapply (complete_at d cx c i); eauto; lia]. pose proof (NS i x Ex) as NX.
  pose proof (flattened_at _ h nm c HU Hh Hin Hn) as FA. pose proof (longitude_is_one h nm Hh) as LO.
  assert (L5 : length (coords_flattened (u_coords d)) = 5) by (unfold coords_flattened, find_standard_coords; rewrite !map_length; reflexivity).
  destruct HG as (GU & GN & _). destruct (sample_low_spec _ GN GU) as (low' & EL' & LS1). rewrite EL in EL'. injection EL' as <-.
  assert (NE : nm <> []) by (apply nonempty_standard; eapply nth_error_In; eauto).
  assert (UC : forall c', In c' (u_coords d) -> c_std c' = Some nm -> c' = c).
  { intros c' H1 H3. apply In_nth_error in H1. destruct H1 as (cy & H1). assert (cy = cx) by (eapply HU; eauto; exact NE). subst. congruence. }
  assert (PS : forall x', position sample d i nm x' <-> if str_eqb nm (lit "longitude") then exists low, convention sample low /\ same_meridian x x' /\ in_range low x' else (x' == x)%Q).
  { intros x'. unfold position. split; [intros (c' & y & A & B & C & D); assert (c' = c) by auto; subst c'; rewrite Ex in C; injection C as <-; exact D|intros D; exists c, x; auto]. }
  assert (EQ : (exists x', position sample d i nm x' /\ contains a kk x') <-> exists x', (if str_eqb nm (lit "longitude") then exists low, convention sample low /\ same_meridian x x' /\ in_range low x' else (x' == x)%Q) /\ contains a kk x').
  { split; intros (x' & A & B); exists x'; split; auto; apply PS; auto. }
  rewrite EQ. unfold column. destruct (str_eqb nm (lit "longitude")) eqn:SL.
  - apply str_eqb_eq in SL. assert (h = 1) by (apply LO; auto). subst h nm.
    assert (SIN : In (Some (lit "longitude"), sd_points s) (all_coords sample)) by (unfold all_coords; apply in_or_app; left; apply in_map_iff; exists s; split; [rewrite HN; auto|eapply nth_error_In; eauto]).
    destruct (LS1 _ SIN) as (s0 & -> & RG). rewrite wrapped_at by lia. rewrite FA. cbn [Nat.eqb option_map]. rewrite somes_map.
    assert (EV : nth i (map (view_wrap_lon s0) (somes (c_points c))) 0%Q = view_wrap_lon s0 x) by (rewrite (nth_indep _ 0%Q (view_wrap_lon s0 0%Q)) by (rewrite map_length; lia); rewrite map_nth, NX; reflexivity).
    rewrite EV. assert (IR : in_range s0 (view_wrap_lon s0 x)) by (apply view_wrap_range; specialize (HL c i x Hin Hn Ex); destruct RG as [[_ ->]|[_ ->]]; lra).
    split.
    + intros H. exists (view_wrap_lon s0 x). split; auto. exists s0. split; [exists (sd_points s); split; auto|]. split; [apply view_wrap_same|auto].
    + intros (x' & (low & (pts & PI & CV) & SM & IR') & CT). assert (CV' : convention_of pts low) by exact CV. destruct (LS1 _ PI) as (s1 & E1 & RG1). injection E1 as <-. assert (low = s0) by (eapply convention_of_unique; eauto). subst low.
      apply (contains_proper a kk x'); auto. symmetry. apply (in_range_unique s0); auto. destruct SM as (k1 & E1'), (view_wrap_same s0 x) as (k2 & E2'). exists (k2 - k1)%Z. rewrite E1', E2'. unfold Z.sub. rewrite inject_Z_plus, inject_Z_opp. ring.
  - assert (N1 : h <> 1) by (intros C; apply LO in C; subst nm; rewrite str_eqb_refl in SL; discriminate).
    assert (EC : nth h (view_wrapped low (coords_flattened (u_coords d))) None = Some (c_points c)).
    { destruct low as [s0|]; [rewrite wrapped_at by lia; destruct (Nat.eqb_spec h 1); [contradiction|auto]|exact FA]. }
    rewrite EC, NX. split; [intros H; exists x; split; [reflexivity|auto]|intros (x' & E & H); apply (contains_proper a kk x'); auto].
Qed.
Lemma decreasing_iff a : decreasing a = true <-> exists p q r, ax_points a = p :: q :: r /\ (q < p)%Q.
Proof.
  unfold decreasing. destruct (ax_points a) as [|p [|q r]]; [split; [discriminate|intros (? & ? & ? & ? & _); discriminate]|split; [discriminate|intros (? & ? & ? & ? & _); discriminate]|]. rewrite Qltb_lt. split; [intros H; eauto|intros (p' & q' & r' & [= -> -> ->] & H); auto].
Qed.

Theorem collocate_bin_spec : exists out, collocate_bin argsort (OnValues k) mdfms sample d = Ok out /\ sample_dims sample d (gc_dims out) /\
  Forall2 (fun ci a => exists s, nth_error (cu_dims sample) ci = Some s /\ cells_of s a) (gc_dims out) (gc_axes out) /\ right_cells not_first_down k mdfms sample d out.
Proof.
  unfold collocate_bin. destruct HLAT as (cl & HLc & SLc).
  assert (VL : view_length (mkView (coords_flattened (u_coords d)) (Some (u_values d))) = Ok (length (c_points cl))).
  { pose proof (flattened_at (u_coords d) 0 (lit "latitude") cl HU eq_refl HLc SLc) as FA. unfold view_length. cbn [w_coords]. destruct (coords_flattened (u_coords d)) as [|[x|] r]; cbn in FA; try discriminate. injection FA as ->. reflexivity. }
  rewrite VL. cbn [bind]. fold stds.
  destruct (coord_map_present stds unique_dims standard_names (map (fun o => negb (is_missing o)) (find_standard_coords (u_coords d))) 0) as (m & EM & NDm & Hm).
  { apply nonempty_standard. } { repeat constructor; cbn; intuition discriminate. } { rewrite map_length. unfold find_standard_coords. rewrite map_length. reflexivity. }
  rewrite EM. cbn [bind].
  assert (EN : forall h ci, In (h, ci) m <-> exists nm s, nth_error standard_names h = Some nm /\ shared sample d ci s nm).
  { intros h ci. rewrite Hm. split.
    - intros (kk & nm & -> & Hk & P & Hn). cbn [Nat.add]. unfold has_name, stds in Hn. rewrite nth_error_map in Hn. destruct (nth_error (cu_dims sample) ci) as [s|] eqn:Es; [|discriminate]. injection Hn as Hn. exists nm, s. split; auto. split; auto. split; auto. split; [apply nth_error_In in Hk; exact Hk|]. apply (present_spec kk nm Hk). auto.
    - intros (nm & s & Hk & (A & B & C & D)). exists h, nm. split; auto. split; auto. split; [apply (present_spec h nm Hk); auto|]. unfold has_name, stds. rewrite nth_error_map, A. cbn. rewrite B. reflexivity. }
  assert (IM : forall ci, In ci (map snd m) <-> exists s nm, shared sample d ci s nm).
  { intros ci. rewrite in_map_iff. split; [intros ([h c] & <- & H); apply EN in H; destruct H as (nm & s & _ & H); eauto|]. intros (s & nm & H). assert (H5 : In nm standard_names) by apply H. apply In_nth_error in H5. destruct H5 as (h & Hh). exists (h, ci). split; auto. apply EN. eauto. }
  assert (CH : mdfms && negb (length m =? length (all_coords sample)) = false).
  { destruct mdfms; auto. cbn. destruct (HM eq_refl) as [AUX ALL]. unfold all_coords. rewrite AUX, app_nil_r, map_length. apply negb_false_iff, Nat.eqb_eq. rewrite <- (map_length snd m), <- (seq_length (length (cu_dims sample)) 0). apply Permutation_length. apply NoDup_Permutation; auto; [apply seq_NoDup|].
    intros ci. rewrite IM, in_seq. split; [intros (s & nm & H & _); assert (ci < length (cu_dims sample)) by (apply nth_error_Some; congruence); lia|]. intros [_ H]. destruct (nth_error (cu_dims sample) ci) as [s|] eqn:Es; [|apply nth_error_None in Es; lia]. destruct (ALL ci s Es) as (nm & Hs). eauto. }
  rewrite CH. assert (GD : forall s nm, In s (cu_dims sample) -> sd_std s = Some nm -> In nm five_names -> good_dim s) by apply HG.
  destruct (map_res_all (fun hc : nat * nat => cell_axis (nth (snd hc) (cu_dims sample) (mkDim None [] None))) m) as (axes & EA & FA).
  { intros [h ci] H. apply EN in H. destruct H as (nm & s & _ & (A & B & C & _)). cbn [snd]. rewrite (nth_error_nth _ _ _ A). destruct (cell_axis_spec s) as (a & Ea & _); [eapply GD; eauto; eapply nth_error_In; eauto|]. eauto. }
  rewrite EA. cbn [bind]. assert (LA0 : length axes = length m) by (symmetry; eapply Forall2_length; eauto).
  assert (AX : forall shi h ci, nth_error m shi = Some (h, ci) -> exists nm s a, nth_error axes shi = Some a /\ nth_error standard_names h = Some nm /\ shared sample d ci s nm /\ cells_of s a /\ good_axis a).
  { intros shi h ci H. assert (HI : In (h, ci) m) by (eapply nth_error_In; eauto). apply EN in HI. destruct HI as (nm & s & Hh & SH). destruct (nth_error axes shi) as [a|] eqn:Ea; [|apply nth_error_None in Ea; assert (shi < length m) by (apply nth_error_Some; congruence); lia].
    exists nm, s, a. split; auto. split; auto. split; auto. assert (X : cell_axis (nth ci (cu_dims sample) (mkDim None [] None)) = Ok a).
    { clear - FA H Ea. revert shi H Ea. induction FA as [|x y l r E F IH]; intros [|shi]; cbn; try discriminate; [intros [= ->] [= ->]; exact E|apply IH]. }
    destruct SH as (A & B & C & _). rewrite (nth_error_nth _ _ _ A) in X. destruct (cell_axis_spec s) as (a' & Ea' & G1 & G2 & _); [eapply GD; eauto; eapply nth_error_In; eauto|]. rewrite Ea' in X. injection X as ->. auto. }
  destruct (sample_low_spec (all_coords sample)) as (low & EL & LS1); [apply HG|apply HG|]. rewrite EL. cbn [bind].
  set (cols := view_wrapped low (coords_flattened (u_coords d))). set (pts := grid_points m cols (u_values d)).
  assert (LP : length pts = n) by (unfold pts, grid_points; rewrite map_length, seq_length; reflexivity).
  assert (PT : forall i, i < n -> nth_error pts i = Some (mkPt (map (fun hc : nat * nat => nth i (column cols (fst hc)) 0%Q) m) (is_missing (nth i (u_values d) None)))).
  { intros i Hi. unfold pts, grid_points. rewrite nth_error_map, (nth_error_nth' (seq 0 (length (u_values d))) 0) by (rewrite seq_length; auto). rewrite seq_nth by auto. reflexivity. }
  assert (GA : Forall good_axis axes).
  { apply Forall_forall. intros a Ha. apply In_nth_error in Ha. destruct Ha as (shi & Ha). assert (shi < length m) by (rewrite <- LA0; apply nth_error_Some; congruence). destruct (nth_error m shi) as [[h ci]|] eqn:Em; [|apply nth_error_None in Em; lia]. destruct (AX _ _ _ Em) as (? & ? & a' & A & _ & _ & _ & G). congruence. }
  assert (LA : Forall (fun p => length (pt_coords p) = length axes) pts) by (unfold pts, grid_points; rewrite Forall_map; apply Forall_forall; intros i _; cbn; rewrite !map_length; auto).
  assert (NE : pts <> []) by (intros E; rewrite E in LP; apply HV; destruct (u_values d); [auto|discriminate]).
  destruct (deliveries_spec axes pts _ GA NE LA (HP _)) as (ds & ED & [D1 D2 D3 D4]). rewrite ED. cbn [bind].
  set (sorted := sort_by (combine (map snd m) (seq 0 (length m)))).
  assert (SP : Permutation sorted (combine (map snd m) (seq 0 (length m)))) by apply sort_perm.
  assert (LSm : length (map snd m) = length (seq 0 (length m))) by (rewrite map_length, seq_length; auto).
  assert (Fst : map fst (combine (map snd m) (seq 0 (length m))) = map snd m). { clear - LSm. revert LSm. generalize (map snd m) (seq 0 (length m)). induction l as [|x l IH]; intros [|y r] H; try discriminate; auto. cbn. rewrite IH; auto. }
  assert (Snd : map snd (combine (map snd m) (seq 0 (length m))) = seq 0 (length m)). { clear - LSm. revert LSm. generalize (map snd m) (seq 0 (length m)). induction l as [|x l IH]; intros [|y r] H; try discriminate; auto. cbn. rewrite IH; auto. }
  assert (ND1 : NoDup (map fst sorted)) by (eapply Permutation_NoDup; [symmetry; apply Permutation_map, SP|rewrite Fst; auto]).
  assert (ND2 : NoDup (map snd sorted)) by (eapply Permutation_NoDup; [symmetry; apply Permutation_map, SP|rewrite Snd; apply seq_NoDup]).
  assert (INS : forall ci shi, In (ci, shi) sorted <-> exists h, nth_error m shi = Some (h, ci)).
  { intros ci shi. rewrite (Permutation_in' eq_refl SP). split.
    - intros H. apply In_nth_error in H. destruct H as (j & H). apply nth_error_combine in H. destruct H as [H1 H3].
      assert (j < length m) by (rewrite <- (seq_length (length m) 0); apply nth_error_Some; congruence). rewrite (nth_error_nth' _ 0) in H3 by (rewrite seq_length; auto). rewrite seq_nth in H3 by auto. injection H3 as <-. cbn. rewrite nth_error_map in H1. destruct (nth_error m j) as [[h c]|]; [|discriminate]. injection H1 as <-. eauto.
    - intros (h & H). apply (nth_error_In _ shi). apply nth_error_combine. rewrite nth_error_map, H. split; auto. assert (shi < length m) by (apply nth_error_Some; congruence). rewrite (nth_error_nth' _ 0) by (rewrite seq_length; auto). rewrite seq_nth by auto. auto. }
  assert (LS : length sorted = length m) by (rewrite (Permutation_length SP), combine_length, map_length, seq_length; lia).
  set (skip := fun cell : list Z => mdfms && cu_masked sample (map (fun shi => Z.to_nat (nth shi cell 0%Z)) (map snd sorted))).
  destruct (fill_right k skip (u_values d) ds HK D1 (fun _ => None)) as (acc & EF & FR). rewrite EF. cbn [bind].
  eexists. split; [reflexivity|]. cbn [gc_dims gc_axes].
  assert (SX : forall j ci shi, nth_error sorted j = Some (ci, shi) -> exists h nm s a, nth_error m shi = Some (h, ci) /\ nth_error axes shi = Some a /\ nth_error standard_names h = Some nm /\ shared sample d ci s nm /\ cells_of s a).
  { intros j ci shi H. assert (X : In (ci, shi) sorted) by (eapply nth_error_In; eauto). apply INS in X. destruct X as (h & X). destruct (AX _ _ _ X) as (nm & s & a & A & B & C & D & _). exists h, nm, s, a. auto. }
  split; [|split].
  { split; [apply sorted_strict; auto; apply sort_sorted|]. intros ci. rewrite <- IM, <- Fst. apply Permutation_in'; auto. apply Permutation_map. exact SP. }
  { rewrite map_map. clear - SX. assert (G : forall l, (forall x, In x l -> exists j, nth_error sorted j = Some x) -> Forall2 (fun ci a => exists s, nth_error (cu_dims sample) ci = Some s /\ cells_of s a) (map fst l) (map (fun x : nat * nat => nth (snd x) axes (mkAx [] [])) l)).
    { induction l as [|[ci shi] l IH]; intros H; constructor; [|apply IH; intros; apply H; right; auto]. destruct (H (ci, shi)) as (j & Hj); [left; auto|]. destruct (SX _ _ _ Hj) as (h & nm & s & a & _ & A & _ & (S & _) & C). exists s. split; auto. cbn [snd]. rewrite (nth_error_nth _ _ _ A). auto. }
    apply G. intros x Hx. apply In_nth_error. auto. }
  intros cell CELL. set (out := mkGCol _ _ _) in *.
  assert (LC : length cell = length m). { apply Forall2_length in CELL. unfold out in CELL. cbn [gc_axes] in CELL. rewrite !map_length in CELL. lia. }
  set (zcell := map (fun shi => Z.of_nat (nth (index_of shi (map snd sorted)) cell 0)) (seq 0 (length (map snd sorted)))).
  assert (LZ : length zcell = length m) by (unfold zcell; rewrite map_length, seq_length, map_length; lia).
  assert (ZN : forall j ci shi, nth_error sorted j = Some (ci, shi) -> nth_error zcell shi = option_map Z.of_nat (nth_error cell j)).
  { intros j ci shi H. assert (X : In (ci, shi) sorted) by (eapply nth_error_In; eauto). apply INS in X. destruct X as (h & X). assert (shi < length m) by (apply nth_error_Some; congruence).
    unfold zcell. rewrite nth_error_map, (nth_error_nth' (seq 0 (length (map snd sorted))) 0) by (rewrite seq_length, map_length; lia). rewrite seq_nth by (rewrite map_length; lia). cbn [option_map Nat.add].
    rewrite (index_of_nth _ ND2 j shi) by (rewrite nth_error_map, H; reflexivity). assert (j < length sorted) by (apply nth_error_Some; congruence). rewrite (nth_error_nth' cell 0) by lia. reflexivity. }
  assert (SK : skip zcell = mdfms && cu_masked sample cell).
  { unfold skip. f_equal. f_equal. apply nth_error_ext_eq. intros j. rewrite !nth_error_map. destruct (nth_error sorted j) as [[ci shi]|] eqn:Es; cbn [option_map snd].
    - assert (j < length cell) by (rewrite LC, <- LS; apply nth_error_Some; congruence). destruct (nth_error cell j) as [kk|] eqn:Ek; [|apply nth_error_None in Ek; lia]. pose proof (ZN _ _ _ Es) as Z. rewrite Ek in Z. cbn in Z. rewrite (nth_error_nth _ _ _ Z), Nat2Z.id. auto.
    - apply nth_error_None in Es. symmetry. apply nth_error_None. lia. }
  assert (MEM : forall i, i < n -> forall p, nth_error pts i = Some p -> (cell_contains axes zcell p <-> in_the_cell sample d out i cell)).
  { intros i Hi p Hp. rewrite PT in Hp by auto. injection Hp as <-. split.
    - intros [_ CC] j ci a kk s nm Hj Hg Hk Hs. unfold out in Hj, Hg. cbn [gc_dims gc_axes] in Hj, Hg. rewrite nth_error_map in Hj. destruct (nth_error sorted j) as [[ci' shi]|] eqn:Es; [|discriminate]. injection Hj as <-. cbn [fst] in *.
      rewrite nth_error_map, nth_error_map, Es in Hg. cbn in Hg. injection Hg as <-. destruct (SX _ _ _ Es) as (h & nm' & s' & a & X & Ha & Hh & SH & _). rewrite (nth_error_nth _ _ _ Ha).
      assert (nm' = nm) by (destruct Hs as (A & B & _), SH as (A' & B' & _); congruence). subst nm'.
      apply (entry low h nm ci' s' a EL Hh SH i Hi). apply (CC shi); auto; [rewrite (ZN j ci' shi Es), Hk; reflexivity|cbn [pt_coords]; rewrite nth_error_map, X; reflexivity].
    - intros PI. split; [lia|]. intros shi a z v Ha Hz Hv. assert (shi < length m) by (rewrite <- LA0; apply nth_error_Some; congruence). destruct (nth_error m shi) as [[h ci]|] eqn:X; [|apply nth_error_None in X; lia].
      cbn [pt_coords] in Hv. rewrite nth_error_map, X in Hv. injection Hv as <-. assert (Y : In (ci, shi) sorted) by (apply INS; eauto). apply In_nth_error in Y. destruct Y as (j & Es).
      destruct (SX _ _ _ Es) as (h' & nm & s & a' & X' & Ha' & Hh & SH & _). assert (a' = a) by congruence. subst a'. assert (h' = h) by congruence. subst h'.
      rewrite (ZN j ci shi Es) in Hz; destruct (nth_error cell j) as [kk|] eqn:Ek; [|discriminate]; injection Hz as <-. cbn [fst].
      apply (entry low h nm ci s a EL Hh SH i Hi). apply (PI j ci a kk s nm); auto; unfold out; cbn [gc_dims gc_axes]; rewrite ?nth_error_map, ?Es; cbn; auto. rewrite (nth_error_nth _ _ _ Ha). reflexivity. }
  assert (NF : not_first_of_decreasing axes zcell <-> not_first_down out cell).
  { split.
    - intros H j a Hj Hd. unfold out in Hj. cbn [gc_axes] in Hj. rewrite nth_error_map, nth_error_map in Hj. destruct (nth_error sorted j) as [[ci shi]|] eqn:Es; [|discriminate]. cbn in Hj. injection Hj as <-. destruct (SX _ _ _ Es) as (h & nm & s & a & X & Ha & _). rewrite (nth_error_nth _ _ _ Ha) in Hd.
      intros C. apply (H shi a Ha); [apply decreasing_iff; auto|]. rewrite (ZN _ _ _ Es), C. reflexivity.
    - intros H shi a Ha Hd C. assert (shi < length m) by (rewrite <- LA0; apply nth_error_Some; congruence). destruct (nth_error m shi) as [[h ci]|] eqn:X; [|apply nth_error_None in X; lia]. assert (Y : In (ci, shi) sorted) by (apply INS; eauto). apply In_nth_error in Y. destruct Y as (j & Es).
      rewrite (ZN _ _ _ Es) in C. destruct (nth_error cell j) as [kk|] eqn:Ek; [|discriminate]. injection C as C. assert (kk = 0) by lia. subst kk. apply (H j a); auto; [|apply decreasing_iff; auto]. unfold out. cbn [gc_axes]. rewrite nth_error_map, nth_error_map, Es. cbn. rewrite (nth_error_nth _ _ _ Ha). reflexivity. }
  assert (AV : gc_value out cell = acc zcell) by reflexivity. rewrite AV. destruct (FR zcell) as [F1 F2]. rewrite SK in F1.
  assert (VS : forall idxs, (forall i, In i idxs -> nth i (u_values d) None <> None) -> values_at d idxs (somes (map (fun i => nth i (u_values d) None) idxs))).
  { clear. intros idxs. unfold values_at. induction idxs as [|i l IH]; intros X; [constructor|]. cbn. destruct (nth i (u_values d) None) as [v|] eqn:E; [|exfalso; apply (X i); [left; auto|auto]]. constructor; auto. apply IH. intros j Hj. apply X. right. auto. }
  destruct (in_dec (list_eq_dec Z.eq_dec) zcell (map fst ds)) as [I|I].
  - apply in_map_iff in I. destruct I as ([z idxs] & E & Hd). cbn in E. subst z.
    assert (MI : forall i, In i idxs <-> unmasked d i /\ in_the_cell sample d out i cell).
    { intros i. split.
      - intros Hi. destruct (proj1 (D4 zcell i)) as (p & Hp & M & C & _); [eauto|]. assert (Hn : i < n) by (rewrite <- LP; apply nth_error_Some; congruence). pose proof Hp as Hp'. rewrite PT in Hp' by auto. injection Hp' as <-. cbn in M. split; [split; auto; intros E; rewrite E in M; discriminate|]. apply (MEM i Hn _ Hp); auto.
      - intros ((Hi & Hv) & PI). assert (NFz : not_first_of_decreasing axes zcell). { pose proof (D3 _ _ Hd) as NEi. destruct idxs as [|i0 r]; [congruence|]. destruct (proj1 (D4 zcell i0)) as (p & _ & _ & _ & N0); [exists (i0 :: r); split; [auto|left; auto]|]. auto. }
        destruct (proj2 (D4 zcell i)) as (l & Hl & Hil).
        { eexists. split; [apply PT; auto|]. split; [cbn; destruct (nth i (u_values d) None); auto; contradiction|]. split; auto. apply (MEM i Hi _ (PT i Hi)). auto. }
        assert (l = idxs); [|subst; auto]. clear - D1 Hl Hd. induction ds as [|[c l0] ds IH]; [contradiction|]. cbn in D1. apply NoDup_cons_iff in D1. destruct D1 as [N D1]. destruct Hl as [Hl|Hl], Hd as [Hd|Hd]; [congruence| | |auto].
        + injection Hl as -> ->. exfalso. apply N. apply (in_map fst _ _ Hd).
        + injection Hd as -> ->. exfalso. apply N. apply (in_map fst _ _ Hl). }
    assert (SV : not_first_down out cell). { apply NF. pose proof (D3 _ _ Hd) as NEi. destruct idxs as [|i0 r]; [congruence|]. destruct (proj1 (D4 zcell i0)) as (p & _ & _ & _ & N0); [exists (i0 :: r); split; [auto|left; auto]|]. auto. }
    exists idxs, (somes (map (fun i => nth i (u_values d) None) idxs)). split; [|split; [|split; [|split]]].
    + clear - D2 Hd. induction ds as [|x ds IH]; [contradiction|]. cbn in D2. destruct Hd as [->|Hd]; [cbn in D2; apply nodup_app_l in D2; auto|]. apply IH; auto. clear - D2. induction (snd x) as [|y l IH]; auto. cbn in D2. apply NoDup_cons_iff in D2. tauto.
    + apply VS. intros i Hi. apply MI in Hi. apply Hi.
    + exact MI.
    + rewrite (F1 idxs Hd). intros [[-> ->]|[E|E]]; [reflexivity| |contradiction]. exfalso. apply (D3 _ _ Hd). auto.
    + intros NW _ _. rewrite (F1 idxs Hd). unfold unwanted in NW. destruct (mdfms && cu_masked sample cell) eqn:B; [exfalso; apply NW; apply andb_true_iff in B; tauto|]. reflexivity.
  - rewrite (F2 I). pose proof (bin_points_spec axes pts zcell GA LA) as BP.
    assert (Z : exists idxs, NoDup idxs /\ forall i, In i idxs <-> unmasked d i /\ in_the_cell sample d out i cell).
    { assert (Q : forall i, (exists p, nth_error pts i = Some p /\ pt_masked p = false /\ cell_contains axes zcell p) <-> unmasked d i /\ in_the_cell sample d out i cell).
      { intros i. split.
        - intros (p & Hp & M & C). assert (Hn : i < n) by (rewrite <- LP; apply nth_error_Some; congruence). pose proof Hp as Hp'. rewrite PT in Hp' by auto. injection Hp' as <-. cbn in M. split; [split; auto; intros E; rewrite E in M; discriminate|]. apply (MEM i Hn _ Hp); auto.
        - intros ((Hi & Hv) & PI). eexists. split; [apply PT; auto|]. split; [cbn; destruct (nth i (u_values d) None); auto; contradiction|]. apply (MEM i Hi _ (PT i Hi)). auto. }
      destruct (get_points_by_indices axes pts zcell) as [l|].
      - destruct BP as (_ & S & B). exists l. split; [apply sorted_lt_nodup_nat; auto|]. intros i. rewrite B. apply Q.
      - exists []. split; [constructor|]. intros i. split; [contradiction|]. intros H. apply Q in H. destruct H as (p & A & B & C). apply (BP i p A B C). }
    destruct Z as (idxs & NDi & MI). exists idxs, (somes (map (fun i => nth i (u_values d) None) idxs)). split; auto. split; [apply VS; intros i Hi; apply MI in Hi; apply Hi|]. split; auto. split; auto.
    intros _ NEi SV. exfalso. destruct idxs as [|i0 r]; [congruence|]. destruct (proj1 (MI i0)) as ((Hi & Hv) & PI); [left; auto|]. apply I.
    destruct (proj2 (D4 zcell i0)) as (l & Hl & Hil); [|apply (in_map fst _ _ Hl)]. eexists. split; [apply PT; auto|]. split; [cbn; destruct (nth i0 (u_values d) None); auto; contradiction|]. split; [apply (MEM i0 Hi _ (PT i0 Hi)); auto|apply NF; auto].
Qed.
End Core.
