(** Proofs for C35: the values of the result. *)
From Verif Require Import Base PyStr QBase LonModel LonSpec LonProofs DateModel UngrModel UngrSpec UngrProofs SubsetModel SubsetSpec SubsetProofs Subset2Proofs GridIndexModel GridIndexSpec GridIndexProofs IndexProofs UtilProofs AggModel AggSpec AggProofs Agg2Proofs.
From Coq Require Import Lqa Lia.
Open Scope nat_scope.
Notation length := List.length.

Lemma somes_all (l : list (option Q)) : (forall i, i < length l -> nth i l None <> None) -> length (somes l) = length l /\ forall i x, nth i l None = Some x -> nth i (somes l) 0%Q = x.
Proof.
  induction l as [|o l IH]; intros H; [split; [reflexivity|intros [|i] x; discriminate]|]. destruct o as [y|]; [|exfalso; apply (H 0); [cbn; lia|reflexivity]].
  destruct IH as [L N]; [intros i Hi; apply (H (S i)); cbn; lia|]. simpl. split; [lia|]. intros [|i] x; cbn; [intros [= ->]; auto|apply N].
Qed.
Lemma somes_map (f : Q -> Q) (l : list (option Q)) : somes (map (option_map f) l) = map f (somes l).
Proof. induction l as [|[x|] l IH]; cbn; congruence. Qed.
Lemma find_range_spec pts low : find_longitude_range pts = Ok low -> ((exists p, In p pts /\ (p < 0)%Q) /\ low = (-(180))%Q) \/ ((forall p, In p pts -> (0 <= p)%Q) /\ low = 0%Q).
Proof.
  destruct pts as [|x r]; [discriminate|]. unfold find_longitude_range. intros [= <-]. destruct (Qltb_spec (fold_left Qmin r x) 0) as [H|H].
  - left. split; auto. assert (G : forall l y, (fold_left Qmin l y < 0)%Q -> exists p, In p (y :: l) /\ (p < 0)%Q).
    { induction l as [|z l IH]; intros y Hy; [exists y; cbn; auto|]. cbn in Hy. destruct (IH _ Hy) as (p & [<-|Hp] & P0); [|exists p; cbn; auto]. destruct (Q.min_spec y z) as [[A B]|[A B]]; rewrite B in P0; [exists y|exists z]; cbn; auto. }
    apply G. auto.
  - right. split; auto. intros p Hp. destruct (fold_min_le r x) as [A B]. destruct Hp as [<-|Hp]; [lra|]. specialize (B p Hp). lra.
Qed.
Lemma range_of_unique g a b : range_of g a -> range_of g b -> a = b.
Proof. intros [[(p & P1 & P2) ->]|[H ->]] [[(q & Q1 & Q2) ->]|[K ->]]; auto; exfalso; [specialize (K p P1)|specialize (H q Q1)]; lra. Qed.
Lemma lon_start_spec stds grid low : unique_stds stds -> length grid = length stds -> lon_start stds grid = Ok low ->
  (forall ci g, has_name stds ci (lit "longitude") -> nth_error grid ci = Some g -> exists s, low = Some s /\ range_of g s) /\ ((forall ci, ~ has_name stds ci (lit "longitude")) -> low = None).
Proof.
  intros U L. unfold lon_start.
  assert (G : forall l acc low, fold_left (fun low sg => bind low (fun low => if std_eqb (fst sg) (Some (lit "longitude")) then bind (find_longitude_range (gpoints (snd sg))) (fun s => Ok (Some s)) else Ok low)) l (Ok acc) = Ok low ->
    (exists sg s, In sg l /\ fst sg = Some (lit "longitude") /\ low = Some s /\ range_of (snd sg) s) \/ ((forall sg, In sg l -> fst sg <> Some (lit "longitude")) /\ low = acc)).
  { assert (R : forall l e, fold_left (fun (low : res (option Q)) (sg : option str * gaxis) => bind low (fun low => if std_eqb (fst sg) (Some (lit "longitude")) then bind (find_longitude_range (gpoints (snd sg))) (fun s => Ok (Some s)) else Ok low)) l (Raises e) = Raises e) by (induction l; intros; cbn; auto).
    induction l as [|sg l IH]; intros acc r E; [right; split; [contradiction|cbn in E; congruence]|]. cbn [fold_left bind] in E. destruct (std_eqb (fst sg) (Some (lit "longitude"))) eqn:S.
    - apply std_eqb_eq in S. destruct (find_longitude_range (gpoints (snd sg))) as [s|] eqn:F; cbn [bind] in E; [|rewrite R in E; discriminate].
      destruct (IH _ _ E) as [(sg' & s' & H1 & H2 & H3 & H4)|[H1 H2]]; [left; exists sg', s'; cbn; auto|]. left. exists sg, s. cbn. split; auto. split; auto. split; auto. apply find_range_spec. auto.
    - destruct (IH _ _ E) as [(sg' & s' & H1 & H2 & H3 & H4)|[H1 H2]]; [left; exists sg', s'; cbn; auto|]. right. split; auto. intros x [<-|Hx]; auto. intros C. rewrite C, (proj2 (std_eqb_eq _ _) eq_refl) in S. discriminate. }
  intros E. apply G in E. assert (NE : lit "longitude" <> []) by discriminate. destruct E as [([o g] & s & H1 & H2 & H3 & H4)|[H1 H2]].
  - apply In_nth_error in H1. destruct H1 as (ci & H1). apply nth_error_combine in H1. destruct H1 as [Hc Hg]. cbn [fst snd] in *. subst o. split.
    + intros ci' g' Hn Hg'. assert (ci' = ci) by (apply (U ci' ci (lit "longitude") NE Hn Hc)). subst. exists s. split; auto. congruence.
    + intros HN. exfalso. apply (HN ci). auto.
  - split; auto. intros ci g Hn Hg. exfalso. apply (H1 (Some (lit "longitude"), g)); [|reflexivity]. apply (nth_error_In _ ci). apply nth_error_combine. auto.
Qed.
Lemma contains_proper a k x y : (x == y)%Q -> contains a k x -> contains a k y.
Proof. intros E [H (b & Hb & A)]. split; auto. exists b. rewrite <- E. auto. Qed.
Lemma in_cell_proper g k x y : (x == y)%Q -> in_cell g k x -> in_cell g k y.
Proof. destruct g; cbn; auto. intros E. apply contains_proper. auto. Qed.

(** a point's value along an entry of the coordinate map *)
Lemma complete_at d k c i : aligned d -> complete d -> nth_error (u_coords d) k = Some c -> i < length (c_points c) -> nth i (c_points c) None <> None.
Proof.
  intros A C H Hi. assert (L : length (c_points c) = length (u_values d)) by (unfold aligned in A; rewrite Forall_forall in A; apply A; eapply nth_error_In; eauto).
  destruct (complete_points d k c i A C H ltac:(lia)) as (x & ->). discriminate.
Qed.
Lemma unique_stds_of cs : unique_standard_names cs -> unique_stds (map c_std cs).
Proof.
  intros U i j n N Hi Hj. unfold has_name in *. rewrite nth_error_map in Hi, Hj. destruct (nth_error cs i) as [a|] eqn:Ei; [|discriminate]. destruct (nth_error cs j) as [b|] eqn:Ej; [|discriminate].
  cbn in Hi, Hj. injection Hi as Hi. injection Hj as Hj. eapply U; eauto.
Qed.
Lemma flattened_at cs h n c : unique_standard_names cs -> nth_error standard_names h = Some n -> In c cs -> c_std c = Some n -> nth h (coords_flattened cs) None = Some (c_points c).
Proof.
  intros U Hh Hc Hn. apply nth_error_nth. unfold coords_flattened, find_standard_coords. rewrite map_map, nth_error_map, Hh. cbn [option_map].
  rewrite (lookup_found cs n c); auto. apply nonempty_standard. eapply nth_error_In; eauto.
Qed.
Lemma wrapped_at s cols h : 2 <= length cols -> nth h (view_wrapped (Some s) cols) None = if h =? 1 then option_map (map (option_map (view_wrap_lon s))) (nth h cols None) else nth h cols None.
Proof.
  intros L. destruct cols as [|a [|b r]]; cbn in L; try lia. destruct b as [b|]; cbn [view_wrapped]; destruct h as [|[|h]]; reflexivity.
Qed.
Lemma longitude_is_one h n : nth_error standard_names h = Some n -> (n = lit "longitude" <-> h = 1).
Proof. intros H. destruct h as [|[|[|[|[|h]]]]]; cbn in H; try (injection H as <-; split; [discriminate|lia]); [injection H as <-; split; auto|destruct h; discriminate]. Qed.

Section Core.
Context {V : Type} (kernel : list Q -> list (option V)) (argsort : list Z -> list nat).
Context (src : list coord) (grid : list gaxis) (d : udata).
Hypothesis (HA : aligned d) (HC : complete d) (HU : unique_standard_names (u_coords d)) (HL : usual_longitudes d).
Hypothesis (HS : map c_std src = map c_std (u_coords d)) (HG : length grid = length src) (HF : Forall fine grid).
Let stds := map c_std src.
Let n := length (u_values d).

Lemma entry_value low h nm ci c g : lon_start stds grid = Ok low -> nth_error standard_names h = Some nm -> nth_error (u_coords d) ci = Some c -> c_std c = Some nm -> nth_error grid ci = Some g ->
  forall i, i < n -> exists x, nth i (c_points c) None = Some x /\ In (nth i (column (view_wrapped low (coords_flattened (u_coords d))) h) 0%Q) (column (view_wrapped low (coords_flattened (u_coords d))) h) /\
    forall k, in_cell g k (nth i (column (view_wrapped low (coords_flattened (u_coords d))) h) 0%Q) <-> located_in c g k x.
Proof.
  intros EL Hh Hc Hn Hg i Hi. assert (Hin : In c (u_coords d)) by (eapply nth_error_In; eauto).
  assert (LC : length (c_points c) = n) by (unfold aligned in HA; rewrite Forall_forall in HA; apply HA; auto).
  destruct (somes_all (c_points c)) as [LS NS]; [intros j Hj; eapply complete_at; eauto|].
  destruct (nth i (c_points c) None) as [x|] eqn:Ex; [|exfalso; eapply (complete_at d ci c i); eauto; lia]. exists x. split; auto. pose proof (NS i x Ex) as NX.
  pose proof (flattened_at _ h nm c HU Hh Hin Hn) as FA. pose proof (longitude_is_one h nm Hh) as LO.
  assert (L5 : length (coords_flattened (u_coords d)) = 5) by (unfold coords_flattened, find_standard_coords; rewrite !map_length; reflexivity).
  assert (US : unique_stds stds) by (unfold stds; rewrite HS; apply unique_stds_of; auto).
  destruct (lon_start_spec stds grid low US) as [LS1 LS2]; [unfold stds; rewrite map_length; auto|auto|].
  unfold column. destruct low as [s|].
  - rewrite wrapped_at by lia. rewrite FA. destruct (Nat.eqb_spec h 1) as [E1|E1].
    + cbn [option_map]. rewrite somes_map. assert (NM : nm = lit "longitude") by (apply LO; auto). subst nm.
      destruct (LS1 ci g) as (s' & E' & RG); [unfold has_name, stds; rewrite HS, nth_error_map, Hc; cbn; rewrite Hn; reflexivity|auto|]. injection E' as <-.
      assert (EV : nth i (map (view_wrap_lon s) (somes (c_points c))) 0%Q = view_wrap_lon s x) by (rewrite (nth_indep _ 0%Q (view_wrap_lon s 0%Q)) by (rewrite map_length; lia); rewrite map_nth, NX; reflexivity).
      rewrite EV. split; [apply in_map; rewrite <- NX; apply nth_In; lia|].
      assert (IR : in_range s (view_wrap_lon s x)).
      { apply view_wrap_range. specialize (HL c i x Hin Hn Ex). destruct RG as [[_ ->]|[_ ->]]; lra. }
      intros k. split.
      * intros HI. split; [|intros NL; exfalso; apply NL; exact Hn]. intros _. exists s, (view_wrap_lon s x). split; auto. split; [apply view_wrap_same|]. split; auto.
      * intros [H1 _]. destruct (H1 Hn) as (low & x' & R & SM & IR' & HI). assert (low = s) by (eapply range_of_unique; eauto). subst low. apply (in_cell_proper g k x'); auto.
        symmetry. apply (in_range_unique s); auto. destruct SM as (k1 & E1'), (view_wrap_same s x) as (k2 & E2'). exists (k2 - k1)%Z. rewrite E1', E2'. unfold Z.sub. rewrite inject_Z_plus, inject_Z_opp. ring.
    + rewrite NX. split; [rewrite <- NX; apply nth_In; lia|]. assert (NL : ~ is_lon_coord c). { intros C. unfold is_lon_coord in C. apply E1, LO. congruence. }
      intros k. split; [intros H; split; [intros C; contradiction|auto]|intros [_ H]; auto].
  - cbn [view_wrapped]. rewrite FA. rewrite NX. split; [rewrite <- NX; apply nth_In; lia|].
    assert (NL : ~ is_lon_coord c). { intros C. destruct (LS1 ci g) as (s' & E' & _); [unfold has_name, stds; rewrite HS, nth_error_map, Hc; cbn; unfold is_lon_coord in C; rewrite C; reflexivity|auto|discriminate]. }
    intros k. split; [intros H; split; [intros C; contradiction|auto]|intros [_ H]; auto].
Qed.

Lemma stds_coord ci nm : has_name stds ci nm <-> exists c, nth_error (u_coords d) ci = Some c /\ c_std c = Some nm.
Proof.
  unfold has_name, stds. rewrite HS, nth_error_map. destruct (nth_error (u_coords d) ci) as [c|]; cbn; split.
  - intros [= H]. eauto.
  - intros (c' & [= <-] & ->). auto.
  - discriminate.
  - intros (c' & H & _). discriminate.
Qed.
Hypothesis (HP : forall l, is_argsort l (argsort l)).

Theorem collocate_values out : collocate_grid kernel argsort src grid d = Ok out ->
  standard_dims d (ag_dims out) /\ ag_axes out = map (fun ci => nth ci grid (Whole 0)) (ag_dims out) /\ right_values kernel d out.
Proof.
  unfold collocate_grid. fold stds. destruct (view_length _) as [vl|]; cbn [bind]; [|discriminate].
  assert (US : unique_stds stds) by (unfold stds; rewrite HS; apply unique_stds_of; auto).
  destruct (coord_map_spec stds US standard_names (map (fun o => negb (is_missing o)) (find_standard_coords (u_coords d))) 0) as (m & EM & NDm & Hm).
  { apply nonempty_standard. } { repeat constructor; cbn; intuition discriminate. } { rewrite map_length. unfold find_standard_coords. rewrite map_length. reflexivity. }
  { intros k nm ci Hk Hn. apply stds_coord in Hn. destruct Hn as (c & Hc & Hs). apply nth_error_nth. unfold find_standard_coords. rewrite map_map, nth_error_map. rewrite Hk. cbn [option_map].
    rewrite (lookup_found (u_coords d) nm c); auto; [apply nonempty_standard; eapply nth_error_In; eauto|eapply nth_error_In; eauto]. }
  rewrite EM. cbn [bind]. destruct (lon_start stds grid) as [low|] eqn:EL; cbn [bind]; [|discriminate].
  set (cols := view_wrapped low (coords_flattened (u_coords d))). set (axes := map (fun hc : nat * nat => comparable (column cols (fst hc)) (nth (snd hc) grid (Whole 0))) m).
  set (pts := grid_points m cols (u_values d)). destruct (deliveries axes pts (argsort (map (cell_number axes) pts))) as [ds|] eqn:ED; cbn [bind]; [|discriminate].
  set (sorted := sort_by (combine (map snd m) (seq 0 (length m)))). destruct (map_res _ (map fst sorted)) as [b|]; cbn [bind]; [|discriminate]. intros [= <-]. cbn [ag_dims ag_axes].
  (* entries *)
  assert (EN : forall h ci, In (h, ci) m -> exists nm c g, nth_error standard_names h = Some nm /\ nth_error (u_coords d) ci = Some c /\ c_std c = Some nm /\ nth_error grid ci = Some g).
  { intros h ci H. apply Hm in H. destruct H as (k & nm & -> & Hk & Hn). apply stds_coord in Hn. destruct Hn as (c & Hc & Hs). exists nm, c. cbn.
    assert (LG : ci < length grid). { rewrite HG, <- (map_length c_std src), HS, map_length. apply nth_error_Some. congruence. } destruct (nth_error grid ci) as [g|] eqn:Eg; [|apply nth_error_None in Eg; lia]. eauto 6. }
  assert (LP : length pts = n) by (unfold pts, grid_points; rewrite map_length, seq_length; reflexivity).
  assert (PT : forall i, i < n -> nth_error pts i = Some (mkPt (map (fun hc : nat * nat => nth i (column cols (fst hc)) 0%Q) m) (is_missing (nth i (u_values d) None)))).
  { intros i Hi. unfold pts, grid_points. rewrite nth_error_map, (nth_error_nth' (seq 0 (length (u_values d))) 0) by (rewrite seq_length; auto). rewrite seq_nth by auto. reflexivity. }
  (* sorted *)
  assert (SP : Permutation sorted (combine (map snd m) (seq 0 (length m)))) by apply sort_perm.
  assert (LSm : length (map snd m) = length (seq 0 (length m))) by (rewrite map_length, seq_length; auto).
  assert (Fst : map fst (combine (map snd m) (seq 0 (length m))) = map snd m). { clear - LSm. revert LSm. generalize (map snd m) (seq 0 (length m)). induction l as [|x l IH]; intros [|y r] H; try discriminate; auto. cbn. rewrite IH; auto. }
  assert (Snd : map snd (combine (map snd m) (seq 0 (length m))) = seq 0 (length m)). { clear - LSm. revert LSm. generalize (map snd m) (seq 0 (length m)). induction l as [|x l IH]; intros [|y r] H; try discriminate; auto. cbn. rewrite IH; auto. }
  assert (ND1 : NoDup (map fst sorted)) by (eapply Permutation_NoDup; [symmetry; apply Permutation_map, SP|rewrite Fst; auto]).
  assert (ND2 : NoDup (map snd sorted)) by (eapply Permutation_NoDup; [symmetry; apply Permutation_map, SP|rewrite Snd; apply seq_NoDup]).
  assert (INS : forall ci shi, In (ci, shi) sorted <-> exists h, nth_error m shi = Some (h, ci)).
  { intros ci shi. rewrite (Permutation_in' eq_refl SP). split.
    - intros H. apply In_nth_error in H. destruct H as (j & H). apply nth_error_combine in H. destruct H as [H1 H2].
      assert (j < length m) by (rewrite <- (seq_length (length m) 0); apply nth_error_Some; congruence). rewrite (nth_error_nth' _ 0) in H2 by (rewrite seq_length; auto). rewrite seq_nth in H2 by auto. injection H2 as <-. cbn. rewrite nth_error_map in H1. destruct (nth_error m j) as [[h c]|]; [|discriminate]. injection H1 as <-. eauto.
    - intros (h & H). apply (nth_error_In _ shi). apply nth_error_combine. rewrite nth_error_map, H. split; auto. assert (shi < length m) by (apply nth_error_Some; congruence). rewrite (nth_error_nth' _ 0) by (rewrite seq_length; auto). rewrite seq_nth by auto. auto. }
  assert (LS : length sorted = length m) by (rewrite (Permutation_length SP), combine_length, map_length, seq_length; lia).
  split; [|split; [reflexivity|]].
  { split; [apply sorted_strict; auto; apply sort_sorted|]. intros ci. split.
    - intros H. apply in_map_iff in H. destruct H as ([c' shi] & <- & H). apply INS in H. destruct H as (h & H). apply nth_error_In in H. destruct (EN _ _ H) as (nm & c & g & H1 & H2 & H3 & _). exists c. cbn. split; auto. exists nm. split; auto. eapply nth_error_In; eauto.
    - intros (c & Hc & nm & Hs & Hn). apply In_nth_error in Hn. destruct Hn as (h & Hn). assert (X : In (h, ci) m) by (apply Hm; exists h, nm; repeat split; auto; apply stds_coord; eauto). apply In_nth_error in X. destruct X as (shi & X). apply (in_map fst _ (ci, shi)). apply INS. eauto. }
  (* values *)
  assert (GA : Forall good_axis axes /\ Forall (fun a => decreasing a = false) axes).
  { unfold axes. rewrite !Forall_map. assert (X : forall hc, In hc m -> fine (nth (snd hc) grid (Whole 0))) by (intros [h ci] H; destruct (EN _ _ H) as (_ & _ & g & _ & _ & _ & Hg); rewrite Forall_forall in HF; apply HF, nth_In; apply nth_error_Some; cbn; congruence).
    split; apply Forall_forall; intros hc H; apply (comparable_fine (column cols (fst hc)) _ (X hc H)). }
  destruct GA as [GA DA]. assert (LA : Forall (fun p => length (pt_coords p) = length axes) pts) by (unfold pts, grid_points, axes; rewrite Forall_map; apply Forall_forall; intros i _; cbn; rewrite !map_length; auto).
  assert (NE : pts <> []). { intros E. rewrite E in ED. rewrite (deliveries_empty axes) in ED by apply HP. discriminate. }
  destruct (deliveries_increasing axes pts _ GA DA NE LA (HP _)) as (ds' & ED' & [D1 D2 D3 D4]). rewrite ED in ED'. injection ED' as <-.
  intros cell CELL. set (out := mkAgg _ _ _ _) in *.
  assert (LC : length cell = length m). { apply Forall2_length in CELL. unfold out in CELL. cbn [ag_axes] in CELL. rewrite !map_length in CELL. lia. }
  set (zcell := map (fun shi => Z.of_nat (nth (index_of shi (map snd sorted)) cell 0)) (seq 0 (length (map snd sorted)))).
  assert (LZ : length zcell = length m) by (unfold zcell; rewrite map_length, seq_length, map_length; lia).
  assert (ZN : forall j ci shi, nth_error sorted j = Some (ci, shi) -> nth_error zcell shi = option_map Z.of_nat (nth_error cell j)).
  { intros j ci shi H. assert (X : In (ci, shi) sorted) by (eapply nth_error_In; eauto). apply INS in X. destruct X as (h & X). assert (shi < length m) by (apply nth_error_Some; congruence).
    unfold zcell. rewrite nth_error_map, (nth_error_nth' (seq 0 (length (map snd sorted))) 0) by (rewrite seq_length, map_length; lia). rewrite seq_nth by (rewrite map_length; lia). cbn [option_map Nat.add].
    rewrite (index_of_nth _ ND2 j shi) by (rewrite nth_error_map, H; reflexivity). assert (j < length sorted) by (apply nth_error_Some; congruence). rewrite (nth_error_nth' cell 0) by lia. reflexivity. }
  assert (MEM : forall i, i < n -> forall p, nth_error pts i = Some p -> (cell_contains axes zcell p <-> point_in d out i cell)).
  { intros i Hi p Hp. rewrite PT in Hp by auto. injection Hp as <-. split.
    - intros [_ CC] j ci g k c x Hj Hg Hk Hc Hx. unfold out in Hj, Hg. cbn [ag_dims ag_axes] in Hj, Hg. rewrite nth_error_map in Hj. destruct (nth_error sorted j) as [[ci' shi]|] eqn:Es; [|discriminate]. injection Hj as <-. cbn [fst] in *.
      rewrite nth_error_map, nth_error_map, Es in Hg. cbn in Hg. injection Hg as <-.
      assert (X : In (ci', shi) sorted) by (eapply nth_error_In; eauto). apply INS in X. destruct X as (h & X). destruct (EN h ci') as (nm & c' & g & N1 & N2 & N3 & N4); [eapply nth_error_In; eauto|].
      assert (c' = c) by congruence. subst c'. rewrite (nth_error_nth _ _ (Whole 0) N4).
      destruct (entry_value low h nm ci' c g EL N1 N2 N3 N4 i Hi) as (x' & Ex & IV & EQ). assert (x' = x) by congruence. subst x'. apply EQ.
      apply (comparable_contains (column cols h)); [rewrite Forall_forall in HF; apply HF; eapply nth_error_In; eauto|exact IV|].
      apply (CC shi); [unfold axes; rewrite nth_error_map, X; cbn; rewrite (nth_error_nth _ _ (Whole 0) N4); reflexivity|rewrite (ZN j ci' shi Es), Hk; reflexivity|cbn [pt_coords]; rewrite nth_error_map, X; reflexivity].
    - intros PI. split; [unfold axes; rewrite map_length; auto|]. intros shi a z v Ha Hz Hv. unfold axes in Ha. rewrite nth_error_map in Ha. destruct (nth_error m shi) as [[h ci]|] eqn:X; [|discriminate]. injection Ha as <-. cbn [fst snd] in *.
      cbn [pt_coords] in Hv. rewrite nth_error_map, X in Hv. injection Hv as <-. destruct (EN h ci) as (nm & c & g & N1 & N2 & N3 & N4); [eapply nth_error_In; eauto|]. rewrite (nth_error_nth _ _ (Whole 0) N4).
      assert (Y : In (ci, shi) sorted) by (apply INS; eauto); apply In_nth_error in Y; destruct Y as (j & Es).
      destruct (entry_value low h nm ci c g EL N1 N2 N3 N4 i Hi) as (x & Ex & IV & EQ).
      rewrite (ZN j ci shi Es) in Hz; destruct (nth_error cell j) as [k|] eqn:Ek; [|discriminate]; injection Hz as <-.
      apply (comparable_contains (column cols h)); [rewrite Forall_forall in HF; apply HF; eapply nth_error_In; eauto|exact IV|]; apply EQ.
      apply (PI j ci g k c x); auto; unfold out; cbn [ag_dims ag_axes]; rewrite ?nth_error_map, ?Es; cbn; auto; rewrite (nth_error_nth _ _ (Whole 0) N4); reflexivity. }
  assert (AV : ag_value out cell = fill_cells kernel (u_values d) ds zcell) by reflexivity. rewrite AV.
  assert (MI : forall idxs i, In (zcell, idxs) ds -> (In i idxs <-> i < length (u_values d) /\ nth i (u_values d) None <> None /\ point_in d out i cell)).
  { intros idxs i Hd. split.
    - intros Hi. destruct (proj1 (D4 zcell i)) as (p & Hp & M & C); [eauto|]. assert (Hn : i < n) by (rewrite <- LP; apply nth_error_Some; congruence). split; auto. pose proof Hp as Hp'. rewrite PT in Hp' by auto. injection Hp' as <-. cbn in M. split; [intros E; rewrite E in M; discriminate|]. apply (MEM i Hn _ Hp); auto.
    - intros (Hi & Hv & PI). destruct (proj2 (D4 zcell i)) as (l & Hl & Hil).
      { eexists. split; [apply PT; auto|]. split; [cbn; destruct (nth i (u_values d) None); auto; contradiction|]. apply (MEM i Hi _ (PT i Hi)). auto. }
      assert (l = idxs); [|subst; auto]. clear - D1 Hl Hd. induction ds as [|[c l0] ds IH]; [contradiction|]. cbn in D1. apply NoDup_cons_iff in D1. destruct D1 as [N D1]. destruct Hl as [Hl|Hl], Hd as [Hd|Hd]; [congruence| | |auto].
      + injection Hl as -> ->. exfalso. apply N. apply (in_map fst _ _ Hd).
      + injection Hd as -> ->. exfalso. apply N. apply (in_map fst _ _ Hl). }
  destruct (fill_spec kernel (u_values d) ds D1 zcell) as [F1 F2]. destruct (in_dec (list_eq_dec Z.eq_dec) zcell (map fst ds)) as [I|I].
  - apply in_map_iff in I. destruct I as ([z idxs] & E & Hd). cbn in E. subst z. exists idxs, (somes (map (fun i => nth i (u_values d) None) idxs)). split; [|split; [|split]].
    + clear - D2 Hd. induction ds as [|x ds IH]; [contradiction|]. cbn in D2. destruct Hd as [->|Hd]; [cbn in D2; apply nodup_app_l in D2; auto|]. apply IH; auto. clear - D2. induction (snd x) as [|y l IH]; auto. cbn in D2. apply NoDup_cons_iff in D2. tauto.
    + unfold values_at. assert (X : forall i, In i idxs -> nth i (u_values d) None <> None) by (intros i Hi; apply (MI idxs i Hd); auto). clear - X. induction idxs as [|i l IH]; [constructor|]. cbn. destruct (nth i (u_values d) None) as [v|] eqn:E; [|exfalso; apply (X i); [left; auto|auto]]. constructor; auto. apply IH. intros j Hj. apply X. right. auto.
    + intros i. apply (MI idxs i Hd).
    + rewrite (F1 idxs Hd). pose proof (D3 _ _ Hd). destruct idxs; [contradiction|reflexivity].
  - exists [], []. split; [constructor|]. split; [constructor|]. split; [|apply F2; auto]. intros i. split; [contradiction|]. intros (Hi & Hv & PI). exfalso. apply I.
    destruct (proj2 (D4 zcell i)) as (l & Hl & Hil); [eexists; split; [apply PT; auto|]; split; [cbn; destruct (nth i (u_values d) None); auto; contradiction|]; apply (MEM i Hi _ (PT i Hi)); auto|]. apply (in_map fst _ _ Hl).
Qed.
End Core.
