(** Proofs for C70, part 4: the mask, and everything together. *)
From Coq Require Import String.
From Verif Require Import Base PyStr QBase LonModel DateModel DateProofs IndexModel IndexSpec IndexProofs UngrModel UngrProofs AggModel Agg2Proofs GColModel InterpModel InterpSpec GUModel GUSpec GU3Proofs GU4Proofs GGModel GGSpec GGProofs GG2Proofs GG3Proofs.
From Coq Require Import List Lia Arith QArith Permutation.
Import ListNotations.
Open Scope string_scope. Open Scope list_scope. Open Scope nat_scope. Notation length := List.length.

(** ** positions in C order *)
Lemma ravel_flat shape e : length e = length shape -> ravel shape e = flat_pos shape e.
Proof.
  intros L. unfold ravel. assert (G : forall shape e acc, length e = length shape -> fold_left (fun (acc : nat) (se : nat * nat) => acc * fst se + snd se) (combine shape e) acc = acc * cells shape + flat_pos shape e).
  { clear. induction shape as [|n s IH]; intros [|i e] acc L; try discriminate; cbn [combine fold_left flat_pos cells fst snd]; [lia|]. rewrite IH by (injection L; auto). ring. }
  rewrite G by auto. lia.
Qed.
Lemma flat_app S : forall T e1 e2, length e1 = length S -> flat_pos (S ++ T) (e1 ++ e2) = flat_pos S e1 * cells T + flat_pos T e2.
Proof. induction S as [|n S IH]; intros T [|i e1] e2 L; try discriminate; [reflexivity|]. cbn [app flat_pos]. rewrite IH by (injection L; auto). rewrite cells_app. ring. Qed.
Lemma flat_bound T e : valid_index T e -> flat_pos T e < cells T.
Proof.
  intros H. unfold valid_index in H. induction H as [|i n e T Hi H IH]; cbn [flat_pos cells]; [lia|]. nia.
Qed.
Lemma nth_iterator S e : valid_index S e -> nth_error (index_iterator S) (flat_pos S e) = Some e.
Proof.
  intros H. destruct (valid_unravel S e H) as (i & Hi & E). rewrite <- E, flat_pos_unravel by auto. rewrite index_iterator_unravel, nth_error_map. rewrite (nth_error_nth' _ 0) by (rewrite seq_length; auto). rewrite seq_nth by auto. reflexivity.
Qed.
Lemma iterator_length S : length (index_iterator S) = cells S.
Proof. rewrite index_iterator_unravel, map_length, seq_length. reflexivity. Qed.
Lemma nth_repeated {A} (f : A -> bool) r l : forall a b x, nth_error l a = Some x -> b < r -> nth (a * r + b) (flat_map (fun e => repeat (f e) r) l) false = f x.
Proof.
  induction l as [|y l IH]; intros [|a] b x H Hb; try discriminate; cbn [flat_map].
  - injection H as ->. rewrite app_nth1 by (rewrite repeat_length; lia). clear -Hb. cbn. revert b Hb. induction r as [|r IH]; intros [|b] Hb; cbn; auto; try lia. apply IH. lia.
  - rewrite app_nth2 by (rewrite repeat_length; nia). rewrite repeat_length. replace (S a * r + b - r) with (a * r + b) by nia. apply IH; auto.
Qed.
Lemma repeated_length {A} (f : A -> bool) r l : length (flat_map (fun e => repeat (f e) r) l) = length l * r.
Proof. induction l as [|y l IH]; [reflexivity|]. cbn [flat_map]. rewrite app_length, repeat_length, IH. cbn. lia. Qed.
Lemma product_cells l : product l = cells l.
Proof. apply num_cells. Qed.
Lemma ones_cells l : Forall (fun n => n = 1) l -> cells l = 1.
Proof. induction 1 as [|n l -> H IH]; cbn; lia. Qed.
Definition len (d : gdim) : nat := length (points_of d).
Lemma valid_grid ds e : on_grid (map points_of ds) e <-> valid_index (map len ds) e.
Proof.
  unfold on_grid, valid_index. revert e. induction ds as [|d ds IH]; intros e; cbn; split; intros H; inversion H; subst; constructor; auto; apply IH; auto.
Qed.
(** the mask of the sample, repeated *)
Lemma mask_repeated s m scal rest r e : Forall (fun d => len d = 1) scal -> r = product (map len rest) -> valid_index (map len (sa_dims s ++ scal ++ rest)) e ->
  let shape := map len (sa_dims s ++ scal ++ rest) in let flat := flat_map (fun e => repeat (m e) r) (index_iterator (map len (sa_dims s))) in
  length flat = product shape /\ nth (ravel shape e) flat false = m (firstn (length (sa_dims s)) e).
Proof.
  intros H1 -> HV shape flat. assert (C1 : cells (map len (scal ++ rest)) = cells (map len rest)) by (rewrite map_app, cells_app, ones_cells; [lia|apply Forall_map; auto]). split.
  - unfold flat, shape. rewrite repeated_length, iterator_length, !product_cells, map_app, cells_app, C1. reflexivity.
  - unfold shape. rewrite map_app in HV |- *. unfold valid_index in HV. apply Forall2_app_inv_r in HV. destruct HV as (e1 & e2 & V1 & V2 & ->).
    assert (L1 : length e1 = length (map len (sa_dims s))) by (clear -V1; induction V1; cbn; auto). assert (L2 : length e2 = length (map len (scal ++ rest))) by (clear -V2; induction V2; cbn; auto).
    rewrite ravel_flat by (rewrite !app_length; lia). rewrite flat_app by auto. rewrite C1. unfold flat. rewrite product_cells.
    rewrite (nth_repeated m (cells (map len rest)) _ _ _ e1); [|apply nth_iterator; exact V1|rewrite <- C1; apply flat_bound; exact V2].
    rewrite map_length in L1. rewrite <- L1, firstn_app, firstn_all, Nat.sub_diag. cbn. rewrite app_nil_r. reflexivity.
Qed.

(** ** the range of longitudes *)
Lemma low_exists (cs : list (option str * list Q)) : (forall c, In c cs -> fst c = Some (lit "longitude") -> snd c <> []) -> exists low, sample_low cs = Ok low.
Proof.
  unfold sample_low. assert (G : forall cs acc, (forall c, In c cs -> fst c = Some (lit "longitude") -> snd c <> []) -> exists low, fold_left (fun low sp => bind low (fun low => if std_eqb (fst sp) (Some (lit "longitude")) then bind (find_longitude_range (snd sp)) (fun s => Ok (Some s)) else Ok low)) cs (Ok acc) = Ok low).
  { clear. induction cs as [|c cs IH]; intros acc H; [eexists; reflexivity|]. cbn [fold_left bind]. destruct (std_eqb (fst c) (Some (lit "longitude"))) eqn:E.
    - destruct (GU4Proofs.find_some (snd c)) as (l & El & _); [apply H; [left; auto|apply std_eqb_eq; auto]|]. rewrite El. cbn [bind]. apply IH. intros; apply H; auto. right. auto.
    - apply IH. intros; apply H; auto. right. auto. }
  apply G.
Qed.
Lemma same_labels g g' : same_variable g g' -> map (fun d => (gd_name d, len d)) (g_dims g') = map (fun d => (gd_name d, len d)) (g_dims g).
Proof.
  intros (_ & sg & H & L & _). revert H L. generalize (g_dims g) (g_dims g') sg. clear. induction l as [|d l IH]; intros [|d' l'] sg H L; try discriminate; [reflexivity|]. cbn [combine] in H. inversion H as [|? s ? sg' (A & B & _ & _ & C & _) HF]; subst. cbn [fst snd] in *.
  cbn [map]. f_equal; [|apply (IH l' sg'); auto]. unfold gd_name. rewrite A, B. unfold len. rewrite C. reflexivity.
Qed.
Lemma labels_names {A} (f : gdim -> A) l l' : map (fun d => (gd_name d, f d)) l = map (fun d => (gd_name d, f d)) l' -> map gd_name l = map gd_name l'.
Proof. intros H. apply (f_equal (map fst)) in H. rewrite !map_map in H. exact H. Qed.
Lemma labels_lens l l' : map (fun d => (gd_name d, len d)) l = map (fun d => (gd_name d, len d)) l' -> map len l = map len l'.
Proof. intros H. apply (f_equal (map snd)) in H. rewrite !map_map in H. exact H. Qed.
Lemma masked_ok mask ds r : map len (g_dims r) = map len ds -> exists r', masked_result mask (map len ds) r = Ok r' /\ g_dims r' = g_dims r /\
  forall e, valid_index (map len ds) e -> g_values r' e = match mask with Some m => if m e then None else g_values r e | None => g_values r e end.
Proof.
  intros L. unfold masked_result. destruct mask as [m|]; [|exists r; auto]. destruct (existsb m (index_iterator (map len ds))) eqn:E.
  - change (fun d => length (points_of d)) with len. destruct (list_eq_dec Nat.eq_dec (map len (g_dims r)) (map len ds)); [|contradiction]. eexists. split; [reflexivity|]. auto.
  - exists r. split; auto. split; auto. intros e He. destruct (m e) eqn:M; auto. exfalso. assert (X : existsb m (index_iterator (map len ds)) = true); [|congruence]. apply existsb_exists. exists e. split; auto. apply index_iterator_in. auto.
Qed.
Lemma all_dims_dec s D : {forall d, In d (sa_dims s) -> is_among (gd_name d) D} + {exists d, In d (sa_dims s) /\ ~ is_among (gd_name d) D}.
Proof.
  destruct (forallb (fun d => among_b (gd_name d) D) (sa_dims s)) eqn:E; [left|right].
  - rewrite forallb_forall in E. intros d Hd. apply among_b_spec. auto.
  - apply not_true_iff_false in E. rewrite forallb_forall in E. induction (sa_dims s) as [|x l IH]; [exfalso; apply E; intros ? []|]. destruct (among_b (gd_name x) D) eqn:A.
    + destruct IH as (d & Hd & H); [intros H; apply E; intros y [->|Hy]; auto|]. exists d. split; auto. right. auto.
    + exists x. split; [left; auto|]. rewrite <- among_b_spec. congruence.
Qed.
Lemma mask_ok mdfms s g : different_names (coords_of s) -> scalars_only s g -> (mdfms = true -> sa_mask s <> None -> ~ made_up_for s g) ->
  let own := own_of s (g_dims g) in let rest := rest_of s (g_dims g) in
  exists mask, make_output_mask mdfms s (length own) (map len (own ++ rest)) (product (map len rest)) = Ok mask /\
    forall e, valid_index (map len (own ++ rest)) e -> (mdfms = true /\ sample_missing s g e <-> exists m, mask = Some m /\ m e = true).
Proof.
  intros HC HS HM own rest. unfold make_output_mask. destruct mdfms; cbn [negb]; [|exists None; split; auto; intros e _; split; [intros [X _]; discriminate|intros (m & X & _); discriminate]].
  pose proof (own_selected s (g_dims g)) as SEL. fold own in SEL. unfold coords_of in SEL. apply selected_app in SEL. destruct SEL as (o1 & o2 & EO & S1 & S2).
  destruct (Nat.ltb_spec (length own) (length (sa_dims s))) as [LT|LE].
  { exists None. split; auto. intros e _. split; [|intros (m & X & _); discriminate]. intros [_ [HA _]]. exfalso. rewrite (selected_all _ _ _ S1) in EO by auto. rewrite EO, app_length in LT. lia. }
  destruct (sa_mask s) as [m|] eqn:EM; [|exists None; split; auto; intros e _; split; [intros [_ [_ (m & X & _)]]; congruence|intros (m & X & _); discriminate]].
  destruct (all_dims_dec s (g_dims g)) as [HA|HN].
  2: { exfalso. apply (HM eq_refl); [discriminate|]. split; auto. exists own. split; [apply own_selected|auto]. }
  rewrite (selected_all _ _ _ S1 HA) in EO.
  assert (SC : Forall (fun d => len d = 1) o2). { apply Forall_forall. intros d Hd. apply (selected_in _ _ _ S2) in Hd. destruct Hd as [Hd HI]. apply in_map_iff in Hd. destruct Hd as ([d' b] & <- & Hd). apply (HS d' b Hd HI). }
  rewrite EO. rewrite <- app_assoc. change (fun d => length (points_of d)) with len.
  set (flat := flat_map (fun e => repeat (m e) (product (map len rest))) (index_iterator (map len (sa_dims s)))).
  assert (LF : length flat = product (map len (sa_dims s ++ o2 ++ rest))).
  { unfold flat. rewrite repeated_length, iterator_length, !product_cells, !map_app, !cells_app, (ones_cells (map len o2)) by (apply Forall_map; auto). lia. }
  rewrite LF, Nat.eqb_refl. eexists. split; [reflexivity|]. intros e HV. destruct (mask_repeated s m o2 rest _ e SC eq_refl HV) as [_ E]. fold flat in E. split.
  - intros [_ [_ (m' & Em & Ht)]]. assert (m' = m) as -> by congruence. eexists. split; [reflexivity|]. exact (eq_trans E Ht).
  - intros (m' & [= <-] & Ht). split; auto. split; auto. exists m. split; auto. exact (eq_trans (eq_sym E) Ht).
Qed.
Section All.
Variable scheme : method -> gdata -> list target -> option Q.
Lemma map_res_chain {A B} (f : A -> res B) l m : Forall2 (fun x y => f x = Ok y) l m -> map_res f l = Ok m.
Proof. induction 1 as [|x y l m E H IH]; [reflexivity|]. cbn [map_res]. rewrite E. cbn [bind]. rewrite IH. reflexivity. Qed.
Lemma same_good g g' : same_variable g g' -> good_data g -> different_names (g_dims g').
Proof. intros H (HD & _). unfold different_names. rewrite (labels_names len _ _ (same_labels _ _ H)). exact HD. Qed.
Lemma same_among g g' n : same_variable g g' -> (is_among n (g_dims g') <-> is_among n (g_dims g)).
Proof. intros H. rewrite !among_map, (labels_names len _ _ (same_labels _ _ H)). tauto. Qed.
Lemma turned_same low g : good_data g -> exists g', rotate low g = Ok g' /\ same_variable g g'.
Proof. intros H. destruct (rotate_same low g H) as (g' & E & S & _). eauto. Qed.
Theorem grid_ok m mdfms s g0 gs : good_sample s -> (forall g, In g (g0 :: gs) -> good_data g /\ alike g g0) -> scalars_only s g0 ->
  (mdfms = true -> sa_mask s <> None -> ~ made_up_for s g0) ->
  exists rs gs', collocate_grid scheme m mdfms s (g0 :: gs) = Ok (rs, gs') /\ Forall2 same_variable (g0 :: gs) gs' /\ Forall2 (collocated (scheme m) mdfms s) gs' rs.
Proof.
  intros [HC HL] HG HS HM. unfold collocate_grid.
  destruct (low_exists (map (fun c => (gd_std (fst c), points_of (fst c))) (sample_coords s))) as (low & El).
  { intros c Hc. apply in_map_iff in Hc. destruct Hc as (x & <- & Hx). cbn. apply HL. rewrite <- coords_fst. apply in_map. auto. }
  rewrite El. cbn [bind].
  assert (RT : exists gs', (match low with Some low => map_res (rotate low) (g0 :: gs) | None => Ok (g0 :: gs) end) = Ok gs' /\ Forall2 same_variable (g0 :: gs) gs').
  { destruct low as [l|]; [apply map_res_F2; intros g Hg; apply turned_same; apply HG; auto|]. exists (g0 :: gs). split; auto. generalize (g0 :: gs). intros l. induction l; constructor; auto. apply same_variable_refl. }
  destruct RT as (gs' & -> & RT). cbn [bind]. destruct gs' as [|g0' gs']; [inversion RT|]. assert (S0 : same_variable g0 g0') by (inversion RT; auto).
  set (D := g_dims g0'). destruct (HG g0 (or_introl eq_refl)) as [G0 _]. assert (HD : different_names D) by (eapply same_good; eauto).
  assert (HG' : forall g, In g (g0' :: gs') -> map (fun d => (gd_name d, len d)) (g_dims g) = map (fun d => (gd_name d, len d)) D).
  { intros g Hg. apply In_nth_error in Hg. destruct Hg as (i & Hi). destruct (F2_nth _ _ _ RT i g Hi) as (g1 & H1 & S1). rewrite (same_labels _ _ S1). unfold D. rewrite (same_labels _ _ S0). apply HG. eapply nth_error_In; eauto. }
  destruct (layout s D HC HD) as (LP & LN & LS & LR & LL & ND). fold D. rewrite LN, LS, LR, LL, LP.
  assert (HS' : scalars_only s g0') by (intros d b Hd Ha; apply (HS d b Hd); apply (same_among _ _ _ S0); auto).
  assert (HM' : mdfms = true -> sa_mask s <> None -> ~ made_up_for s g0').
  { intros M1 M2 [(d & Hd & Hn) (own & H1 & H2)]. apply (HM M1 M2). split; [exists d; split; auto; intros X; apply Hn; apply (same_among _ _ _ S0); auto|]. exists own. split; auto.
    clear -H1 S0. induction H1 as [|x l r HP H IH|x l r HP H IH]; [constructor|apply sel_yes; auto; apply (same_among _ _ _ S0); auto|apply sel_no; auto; intros X; apply HP; apply (same_among _ _ _ S0); auto]. }
  destruct (mask_ok mdfms s g0' HC HS' HM') as (mask & EM & HMask). fold D in EM, HMask. change (fun d => length (points_of d)) with len. rewrite EM. cbn [bind].
  assert (B1 : forallb (fun ji : nat * nat => snd (nth (fst ji) (sample_coords s) (no_dim, false))) (sort_by (shared_pairs s D)) = true).
  { apply forallb_forall. intros [j i] Hj. cbn [fst]. apply (Permutation_in _ (sort_perm _)) in Hj. apply in_pairs in Hj; auto. destruct Hj as (c & d & Hc & Hd & E). rewrite <- coords_fst in Hc.
    rewrite nth_error_map in Hc. destruct (nth_error (sample_coords s) j) as [[c' b]|] eqn:Ej; [|discriminate]. cbn in Hc. injection Hc as ->. rewrite (nth_error_nth _ _ (no_dim, false) Ej). cbn.
    apply nth_error_In in Ej. unfold sample_coords in Ej. apply in_app_iff in Ej. destruct Ej as [Ej|Ej]; [apply in_map_iff in Ej; destruct Ej as (x & [= _ <-] & _); auto|].
    destruct (HS' c b Ej) as [-> _]; auto. exists d. split; auto. eapply nth_error_In; eauto. }
  rewrite B1, (nodupb_true _ ND). cbn [negb].
  assert (HO : exists order, Forall2 (fun x k => exists d, nth_error D k = Some d /\ gd_name d = gd_name x) (own_of s D ++ rest_of s D) order /\
    forall D', map gd_name D' = map gd_name D -> map_res (fun n => match name_position D' n with Some k => Ok k | None => Raises KeyError end) (map gd_name (own_of s D ++ rest_of s D)) = Ok order).
  { destruct (order_ok s D D HC HD eq_refl) as (order & E & F). exists order. split; auto. intros D' EN. destruct (order_ok s D D' HC HD EN) as (order' & E' & F'). rewrite E'. f_equal.
    clear -F F' HD. revert order' F'. induction F as [|x k l o (d & Hd & E) F IH]; intros o' F'; inversion F' as [|? k' ? o'' (d' & Hd' & E') F'']; subst; [reflexivity|]. f_equal; [|apply IH; auto]. apply (names_index D HD k' k d' d); auto. congruence. }
  destruct HO as (order & HO1 & HO2).
  assert (ALL : exists outs trs, Forall2 (fun g o => interpolate_cube scheme m (map labelled (own_of s D)) g = Ok o) (g0' :: gs') outs /\ Forall (fun o => map gd_name (g_dims o) = map gd_name D) outs /\
     Forall2 (fun o r => transpose order o = Ok r) outs trs /\
     Forall2 (fun g r => map labelled (g_dims r) = map labelled (own_of s (g_dims g) ++ rest_of s (g_dims g)) /\ forall e, on_grid (map snd (map labelled (own_of s (g_dims g) ++ rest_of s (g_dims g)))) e -> exists ts, Forall2 (wanted_at s (map labelled (own_of s (g_dims g) ++ rest_of s (g_dims g))) e) (g_dims g) ts /\ g_values r e = scheme m g ts) (g0' :: gs') trs).
  { clear -HG' HC HD HO1. revert HG'. generalize (g0' :: gs'). intros l. induction l as [|g l IH]; intros HG'; [exists [], []; repeat split; constructor|].
    destruct IH as (outs & trs & A & B & C & E); [intros; apply HG'; right; auto|]. destruct (one_variable scheme m s D g order HC HD) as (o & r & O1 & O2 & O3 & O4); auto; [apply (labels_names len); apply HG'; left; auto|].
    exists (o :: outs), (r :: trs). repeat split; constructor; auto. }
  destruct ALL as (outs & trs & A1 & A2 & A3 & A4). rewrite (map_res_chain _ _ _ A1). cbn [bind].
  assert (EO : (match outs with [] => Ok [] | o :: _ => map_res (fun n => match name_position (g_dims o) n with Some k => Ok k | None => Raises KeyError end) (map gd_name (own_of s D ++ rest_of s D)) end) = Ok order).
  { destruct outs as [|o outs]; [inversion A1|]. apply HO2. inversion A2; auto. }
  rewrite EO. cbn [bind]. rewrite (map_res_chain _ _ _ A3). cbn [bind].
  assert (FIN : exists rs, map_res (masked_result mask (map len (own_of s D ++ rest_of s D))) trs = Ok rs /\ Forall2 (collocated (scheme m) mdfms s) (g0' :: gs') rs).
  { clear A1 A2 A3 EO RT HG S0. revert A4 HG'. generalize (g0' :: gs'). intros l. revert trs. induction l as [|g l IH]; intros trs A4 HG'; inversion A4 as [|? r ? trs' [AL AV] A5]; subst; [exists []; split; [reflexivity|constructor]|].
    destruct (IH trs' A5) as (rs & E1 & E2); [intros; apply HG'; right; auto|].
    pose proof (HG' g (or_introl eq_refl)) as LG. pose proof (labels_names len _ _ LG) as NG. pose proof (own_of_names s _ _ NG) as OG. pose proof (rest_of_labels len s _ _ LG) as RG.
    assert (LE : map len (own_of s (g_dims g) ++ rest_of s (g_dims g)) = map len (own_of s D ++ rest_of s D)) by (rewrite !map_app, OG; f_equal; apply labels_lens; exact RG).
    assert (LR' : map len (g_dims r) = map len (own_of s D ++ rest_of s D)). { rewrite <- LE. apply (f_equal (map (fun x : str * list Q => length (snd x)))) in AL. rewrite !map_map in AL. exact AL. }
    destruct (masked_ok mask _ r LR') as (r' & M1 & M2 & M3). exists (r' :: rs). cbn [map_res]. rewrite M1. cbn [bind]. rewrite E1. split; [reflexivity|]. constructor; [|exact E2].
    exists (map labelled (own_of s (g_dims g) ++ rest_of s (g_dims g))). split; [exists (own_of s (g_dims g)), (rest_of s (g_dims g)); split; [apply own_selected|split; [apply rest_selected|reflexivity]]|]. split; [rewrite M2; exact AL|].
    intros e He. assert (HV : valid_index (map len (own_of s D ++ rest_of s D)) e). { rewrite <- LE. apply valid_grid. rewrite map_map in He. exact He. }
    assert (SM : sample_missing s g e <-> sample_missing s g0' e) by (unfold sample_missing; split; intros [X Y]; (split; [|exact Y]); intros d Hd; specialize (X d Hd); rewrite among_map in *; unfold D in NG; congruence).
    specialize (HMask e HV). rewrite <- SM in HMask. rewrite (M3 e HV). split.
    - intros H. apply HMask in H. destruct H as (mm & -> & Hm). rewrite Hm. reflexivity.
    - intros H. destruct (AV e He) as (ts & T1 & T2). exists ts. split; auto. destruct mask as [mm|]; auto. destruct (mm e) eqn:X; auto. exfalso. apply H. apply HMask. eauto. }
  destruct FIN as (rs & -> & F2). exists rs, (g0' :: gs'). split; [reflexivity|]. auto.
Qed.
Theorem sampled_grid_ok how m mdfms s g0 gs : way how m -> good_sample s -> (forall g, In g (g0 :: gs) -> good_data g /\ alike g g0) -> scalars_only s g0 ->
  (mdfms = true -> sa_mask s <> None -> ~ made_up_for s g0) ->
  exists rs gs', sampled_on_grid scheme how false mdfms s (g0 :: gs) = Ok (rs, gs') /\ Forall2 same_variable (g0 :: gs) gs' /\ Forall2 (collocated (scheme m) mdfms s) gs' rs.
Proof.
  intros HW H1 H2 H3 H4. destruct (grid_ok m mdfms s g0 gs H1 H2 H3 H4) as (rs & gs' & E & F). exists rs, gs'. split; auto. unfold sampled_on_grid. destruct HW as [[[-> | ->] ->]|[-> ->]]; cbn [str_eqb orb andb]; try rewrite E; try reflexivity.
Qed.
Theorem sampled_grid_refused how k mdfms s gs : k = true \/ (forall m, ~ way how m) -> sampled_on_grid scheme how k mdfms s gs = Raises ValueError.
Proof.
  unfold sampled_on_grid. intros [-> | H]; [reflexivity|]. destruct k; [reflexivity|]. destruct (str_eqb how [] || str_eqb how (lit "lin")) eqn:E1; [exfalso; apply (H Lin); left; split; auto; apply orb_true_iff in E1; rewrite !str_eqb_eq in E1; exact E1|].
  destruct (str_eqb how (lit "nn")) eqn:E2; auto. apply str_eqb_eq in E2. exfalso. apply (H Nn). right. auto.
Qed.
End All.
