(** Proofs for C59: what a copy or slice looks like (continued). *)
From Coq Require Import String.
From Verif Require Import Base PyStr QBase LonModel HeapModel HeapSpec HeapProofs Heap3Proofs.
From Coq Require Import List Lia Arith.
Import ListNotations.
Open Scope string_scope. Open Scope list_scope. Open Scope nat_scope. Notation length := List.length.

Definition prefix (h0 h : heap) : Prop := exists t, h = h0 ++ t.
Lemma prefix_refl h : prefix h h. Proof. exists []. rewrite app_nil_r. auto. Qed.
Lemma prefix_trans a b c : prefix a b -> prefix b c -> prefix a c.
Proof. intros (t & ->) (u & ->). exists (t ++ u). rewrite app_assoc. auto. Qed.
Lemma prefix_app h t : prefix h (h ++ t). Proof. exists t. auto. Qed.
Lemma prefix_length a b : prefix a b -> length a <= length b.
Proof. intros (t & ->). rewrite app_length. lia. Qed.
Lemma set_nth_app {A} n (x : A) l t : length l <= n -> set_nth n x (l ++ t) = l ++ set_nth (n - length l) x t.
Proof. revert n. induction l as [|a l IH]; intros n H; cbn [app length]; [rewrite Nat.sub_0_r; auto|]. cbn [length] in H. destruct n as [|n]; [lia|]. cbn [set_nth Nat.sub]. rewrite IH by lia. auto. Qed.
Lemma prefix_set h0 h l o : prefix h0 h -> length h0 <= l -> prefix h0 (set_nth l o h).
Proof. intros (t & ->) H. rewrite set_nth_app by auto. apply prefix_app. Qed.
Lemma prefix_refresh h0 h (p : loc * loc) : prefix h0 h -> length h0 <= snd p -> prefix h0 (refresh_at h p).
Proof. intros P H. unfold refresh_at. destruct (see_array h (fst p)); auto. destruct (nth_error h (snd p)) as [[]|]; auto. apply prefix_set; auto. Qed.
Lemma prefix_refresh_all h0 ps : forall h, prefix h0 h -> Forall (fun md => length h0 <= md) (map snd ps) -> prefix h0 (refresh_all h ps).
Proof.
  induction ps as [|p ps IH]; intros h P F; [auto|]. cbn [map] in F. apply Forall_cons_iff in F. destruct F as [F1 F]. change (refresh_all h (p :: ps)) with (refresh_all (refresh_at h p) ps). apply IH; auto. apply prefix_refresh; auto.
Qed.
Lemma p_array h h' l v : prefix h h' -> see_array h l = Some v -> see_array h' l = Some v. Proof. intros (t & ->). apply see_array_ext. Qed.
Lemma p_dict h h' l v : prefix h h' -> see_dict h l = Some v -> see_dict h' l = Some v. Proof. intros (t & ->). apply see_dict_ext. Qed.
Lemma p_meta h h' l v : prefix h h' -> see_meta h l = Some v -> see_meta h' l = Some v. Proof. intros (t & ->). apply see_meta_ext. Qed.
Lemma p_coord h h' l v : prefix h h' -> see_coord h l = Some v -> see_coord h' l = Some v. Proof. intros (t & ->). apply see_coord_ext. Qed.
Lemma p_data h h' l v : prefix h h' -> see_data h l = Some v -> see_data h' l = Some v. Proof. intros (t & ->). apply see_data_ext. Qed.
Lemma p_nth h h' l o : prefix h h' -> nth_error h l = Some o -> nth_error h' l = Some o. Proof. intros (t & ->). apply nth_grown. Qed.
Lemma p_md_of h h' l o : prefix h h' -> md_of h l = Some o -> md_of h' l = Some o.
Proof. intros P. unfold md_of. destruct (nth_error h l) as [[]|] eqn:E; try discriminate; rewrite (p_nth _ _ _ _ P E); auto. Qed.

Lemma alloc_at h o : alloc o h = Ok (length h, h ++ [o]). Proof. reflexivity. Qed.
Lemma nth_last (h : heap) o : nth_error (h ++ [o]) (length h) = Some o.
Proof. rewrite nth_error_app2, Nat.sub_diag by lia. reflexivity. Qed.
Lemma read_all cells : map (fun i => nth i cells (mkCell true None)) (seq 0 (length cells)) = cells.
Proof.
  apply nth_ext with (d := mkCell true None) (d' := mkCell true None); [rewrite map_length, seq_length; auto|]. intros n Hn. rewrite map_length, seq_length in Hn. rewrite (nth_indep _ _ ((fun i => nth i cells (mkCell true None)) 0)) by (rewrite map_length, seq_length; auto). rewrite (map_nth (fun i => nth i cells (mkCell true None))), seq_nth by auto. reflexivity.
Qed.
Lemma new_array_at h shape cells : exists l h', new_array shape cells h = Ok (l, h') /\ prefix h h' /\ see_array h' l = Some (shape, cells).
Proof.
  unfold new_array. rewrite (bind_ok _ _ _ _ _ (alloc_at h (OBuf cells))), alloc_at. eexists. eexists. split; [reflexivity|]. split; [exists ([OBuf cells] ++ [OArr shape (length h) (seq 0 (length cells))]); rewrite app_assoc; reflexivity|].
  unfold see_array. rewrite nth_last. rewrite (nth_grown _ _ _ _ (nth_last h (OBuf cells))). rewrite read_all. reflexivity.
Qed.
Definition copies (op : loc -> M loc) (F : list nat * list cell -> list nat * list cell) (ok : list nat * list cell -> Prop) : Prop :=
  forall h a sc, see_array h a = Some sc -> ok sc -> exists l h', op a h = Ok (l, h') /\ prefix h h' /\ see_array h' l = Some (F sc).
Lemma np_copy_copies : copies np_copy (fun sc => sc) (fun _ => True).
Proof. intros h a sc E _. unfold np_copy. rewrite (bind_ok _ _ _ _ _ (get_array_see _ _ _ E)). destruct sc as [s c]. apply new_array_at. Qed.
Definition valid_keys (k : keys) (sc : list nat * list cell) : Prop := k_shape k <> [] /\ Forall (fun i => i < length (snd sc)) (k_positions k).
Lemma np_getitem_copies k : copies (fun a => np_getitem a k) (selected k) (valid_keys k).
Proof.
  intros h a sc E [V1 V2]. unfold np_getitem. rewrite (bind_ok _ _ _ _ _ (get_array_see _ _ _ E)). assert (B : forallb (fun i => i <? length (snd sc)) (k_positions k) = true) by (apply forallb_forall; intros i Hi; apply Nat.ltb_lt; rewrite Forall_forall in V2; auto). rewrite B. unfold selected. destruct (k_shape k); [congruence|]. apply new_array_at.
Qed.
Lemma deepcopy_at h md v : see_meta h md = Some v -> exists l h', deepcopy_meta md h = Ok (l, h') /\ prefix h h' /\ see_meta h' l = Some v /\ length h <= l.
Proof.
  intros E. apply see_meta_inv in E. destruct E as (m & d & E1 & E2 & ->). unfold deepcopy_meta. rewrite (bind_ok _ _ _ _ _ (get_meta_at _ _ _ E1)), (bind_ok _ _ _ _ _ (get_dict_at _ _ _ E2)), (bind_ok _ _ _ _ _ (alloc_at h (ODict d))), alloc_at. eexists. eexists. split; [reflexivity|].
  split; [exists ([ODict d] ++ [OMeta (with_misc m (length h))]); rewrite app_assoc; reflexivity|]. split; [|rewrite app_length; cbn; lia]. unfold see_meta. rewrite nth_last. cbn [with_misc m_misc m_name m_std m_long m_shape m_units m_range m_history]. unfold see_dict. rewrite (nth_grown _ _ _ _ (nth_last h (ODict d))). reflexivity.
Qed.
(** a new object, before its shape and range are brought up to date *)
Definition pre (u : str -> str) (F : list nat * list cell -> list nat * list cell) (v : lazy_view) : lazy_view :=
  let data := F (v_data v) in mkLazy data ([length (snd data)], snd data) (units_md u (v_md v)) [].
Lemma refreshed_pre u F v : refreshed (pre u F v) = with_new_data u F v.
Proof. reflexivity. Qed.
Lemma change_units h md v (u : str -> str) : see_meta h md = Some v -> exists m, nth_error h md = Some (OMeta m) /\ (forall B (f : unit -> M B), (m0 <~ get_meta md ;; update md (OMeta (with_units m0 (u (m_units m0)))) ;;; f tt)%mem h = f tt (set_nth md (OMeta (with_units m (u (m_units m)))) h)) /\
  see_meta (set_nth md (OMeta (with_units m (u (m_units m)))) h) md = Some (units_md u v).
Proof.
  intros E. apply see_meta_inv in E. destruct E as (m & d & E1 & E2 & ->). exists m. split; auto. split.
  - intros B f. rewrite (bind_ok _ _ _ _ _ (get_meta_at _ _ _ E1)). unfold update, mbind at 1. assert (L : md < length h) by (apply nth_error_Some; congruence). apply Nat.ltb_lt in L. rewrite L. reflexivity.
  - rewrite (cm_meta_same h md m); auto. unfold see_dict. rewrite E2. reflexivity.
Qed.
Lemma new_coord_at h0 h a md ax sc v : prefix h0 h -> length h0 <= md -> see_array h a = Some sc -> see_meta h md = Some v ->
  exists c h', new_coord a md ax h = Ok (c, h') /\ prefix h0 h' /\ see_coord h' c = Some (mkLazy sc ([length (snd sc)], snd sc) (units_md coord_units v) [], upper ax) /\ md_of h' c = Some md.
Proof.
  intros P L Ea Em. unfold new_coord. rewrite (bind_ok _ _ _ _ _ (alloc_at h (ODict []))). rewrite (bind_ok _ _ _ _ _ (alloc_at _ _)). set (h1 := h ++ [ODict []]). set (c := OCoord a None md (upper ax) (length h)). set (h2 := h1 ++ [c]).
  assert (P1 : prefix h h1) by apply prefix_app. assert (P2 : prefix h1 h2) by apply prefix_app.
  assert (Em2 : see_meta h2 md = Some v) by (apply (p_meta h1); auto; apply (p_meta h); auto). destruct (change_units h2 md v coord_units Em2) as (m & E1 & E2 & E3). exists (length h1), (set_nth md (OMeta (with_units m (coord_units (m_units m)))) h2). split; [exact (E2 _ (fun _ => ret (length h1)))|].
  split; [apply prefix_set; auto; eapply prefix_trans; [exact P|]; eapply prefix_trans; eauto|].
  assert (Ec : nth_error (set_nth md (OMeta (with_units m (coord_units (m_units m)))) h2) (length h1) = Some c). { rewrite (cm_not h2 md m); auto; [apply nth_last|]. intros m0. unfold h2. rewrite nth_last. discriminate. }
  split; [|unfold md_of; rewrite Ec; reflexivity]. unfold see_coord. rewrite Ec. unfold c, see_lazy. rewrite (cm_array h2 md m) by auto. rewrite (p_array h1 h2 a sc P2 (p_array h h1 a sc P1 Ea)). rewrite E3. rewrite (cm_dict h2 md m) by auto.
  assert (Ed : see_dict h2 (length h) = Some []) by (apply (p_dict h1); auto; unfold see_dict, h1; rewrite nth_last; reflexivity). rewrite Ed. reflexivity.
Qed.
Definition gen_coord (op : loc -> M loc) (c : loc) : M loc := (p <~ coord_parts c ;; a <~ op (fst (fst p)) ;; md <~ deepcopy_meta (snd (fst p)) ;; new_coord a md (snd p))%mem.
Lemma gen_coord_at op F ok h c v ax : copies op F ok -> see_coord h c = Some (v, ax) -> ok (v_data v) ->
  exists c' h' md, gen_coord op c h = Ok (c', h') /\ prefix h h' /\ see_coord h' c' = Some (pre coord_units F v, upper ax) /\ md_of h' c' = Some md /\ length h <= md.
Proof.
  intros HC E O. apply see_coord_inv in E. destruct E as (a & f & md & at_ & Eo & El). apply see_lazy_inv in El. destruct El as (Ea & Em & _ & _). unfold gen_coord. assert (G : coord_parts c h = Ok ((a, md, ax), h)) by (unfold coord_parts; rewrite (bind_ok _ _ _ _ _ (get_at _ _ _ Eo)); reflexivity). rewrite (bind_ok _ _ _ _ _ G). cbn [fst snd].
  destruct (HC h a _ Ea O) as (a' & h1 & E1 & P1 & V1). rewrite (bind_ok _ _ _ _ _ E1). destruct (deepcopy_at h1 md _ (p_meta _ _ _ _ P1 Em)) as (md' & h2 & E2 & P2 & V2 & L2). rewrite (bind_ok _ _ _ _ _ E2).
  destruct (new_coord_at h1 h2 a' md' ax _ _ P2 L2 (p_array _ _ _ _ P2 V1) V2) as (c' & h3 & E3 & P3 & V3 & M3). exists c', h3, md'. split; [exact E3|]. split; [eapply prefix_trans; eauto|]. split; [exact V3|]. split; auto. pose proof (prefix_length _ _ P1). lia.
Qed.
Definition pre_coord (F : list nat * list cell -> list nat * list cell) (c : lazy_view * str) : lazy_view * str := (pre coord_units F (fst c), upper (snd c)).
Lemma see_all_app {A} (f : loc -> option A) l1 l2 v1 v2 : see_all f l1 = Some v1 -> see_all f l2 = Some v2 -> see_all f (l1 ++ l2) = Some (v1 ++ v2).
Proof. revert v1. induction l1 as [|x l1 IH]; intros v1 E1 E2; cbn in *; [injection E1 as <-; auto|]. destruct (f x); try discriminate. destruct (see_all f l1); try discriminate. injection E1 as <-. rewrite (IH _ eq_refl E2). reflexivity. Qed.
Lemma md_of_bound h c v md : see_coord h c = Some v -> md_of h c = Some md -> md < length h.
Proof.
  destruct v as [v ax]. intros E. apply see_coord_inv in E. destruct E as (a & f & md' & at_ & Eo & El). unfold md_of. rewrite Eo. intros H. injection H as <-. apply see_lazy_inv in El. destruct El as (_ & Em & _). apply see_meta_inv in Em. destruct Em as (m & d & E1 & _). apply nth_error_Some. congruence.
Qed.
Lemma mds_bound h cs : forall vs mds, see_all (see_coord h) cs = Some vs -> see_all (md_of h) cs = Some mds -> Forall (fun md => md < length h) mds.
Proof.
  induction cs as [|c cs IH]; intros vs mds E1 E2; cbn in *; [injection E2 as <-; constructor|]. destruct (see_coord h c) eqn:Ec; try discriminate. destruct (see_all (see_coord h) cs); try discriminate. destruct (md_of h c) eqn:Em; try discriminate. destruct (see_all (md_of h) cs); try discriminate. injection E2 as <-. constructor; [eapply md_of_bound; eauto|eapply IH; eauto].
Qed.
Lemma nodup_snoc (l : list loc) x : NoDup l -> ~ In x l -> NoDup (l ++ [x]).
Proof. intros H N. pose proof (Add_app x l []) as AD. rewrite app_nil_r in AD. apply (NoDup_Add AD). auto. Qed.
Lemma std_of_at h c v ax : see_coord h c = Some (v, ax) -> std_of c h = Ok (v_std (v_md v), h).
Proof.
  intros E. apply see_coord_inv in E. destruct E as (a & f & md & at_ & Eo & El). apply see_lazy_inv in El. destruct El as (_ & Em & _). apply see_meta_inv in Em. destruct Em as (m & d & E1 & _ & E3). unfold std_of, coord_parts.
  assert (G : coord_parts c h = Ok ((a, md, ax), h)) by (unfold coord_parts; rewrite (bind_ok _ _ _ _ _ (get_at _ _ _ Eo)); reflexivity). fold (coord_parts c). rewrite (bind_ok _ _ _ _ _ G). cbn [fst snd]. rewrite (bind_ok _ _ _ _ _ (get_meta_at _ _ _ E1)). rewrite E3. reflexivity.
Qed.
Lemma map_std_at h cs : forall vs, see_all (see_coord h) cs = Some vs -> map_each std_of cs h = Ok (map (fun c => v_std (v_md (fst c))) vs, h).
Proof.
  induction cs as [|c cs IH]; intros vs E; cbn in *; [injection E as <-; reflexivity|]. destruct (see_coord h c) as [[v ax]|] eqn:Ec; try discriminate. destruct (see_all (see_coord h) cs) as [vs'|]; try discriminate. injection E as <-. rewrite (bind_ok _ _ _ _ _ (std_of_at _ _ _ _ Ec)), (bind_ok _ _ _ _ _ (IH _ eq_refl)). reflexivity.
Qed.
Lemma std_eqb_eq a b : std_eqb a b = true <-> a = b.
Proof. destruct a, b; cbn; try (split; congruence). rewrite str_eqb_eq. split; congruence. Qed.
Lemma copy_into_at cs : forall h out ovs omds vs, see_all (see_coord h) out = Some ovs -> see_all (md_of h) out = Some omds -> NoDup omds -> see_all (see_coord h) cs = Some vs -> own_std_names (ovs ++ map (pre_coord (fun x => x)) vs) ->
  forall n, n <= length h -> Forall (fun md => n <= md) omds ->
  exists out' mds h', copy_into out cs h = Ok (out', h') /\ prefix h h' /\ see_all (see_coord h') out' = Some (ovs ++ map (pre_coord (fun x => x)) vs) /\ see_all (md_of h') out' = Some mds /\ NoDup mds /\ Forall (fun md => n <= md) mds.
Proof.
  induction cs as [|c cs IH]; intros h out ovs omds vs Eo Em ND Ev U n Hn Fn; cbn [see_all copy_into] in *.
  - injection Ev as <-. exists out, omds, h. cbn [map]. rewrite app_nil_r. split; [reflexivity|]. split; [apply prefix_refl|]. auto.
  - destruct (see_coord h c) as [[v ax]|] eqn:Ec; try discriminate. destruct (see_all (see_coord h) cs) as [vs'|] eqn:Evs; try discriminate. injection Ev as <-.
    destruct (gen_coord_at np_copy (fun x => x) (fun _ => True) h c v ax np_copy_copies Ec I) as (c' & h1 & md & E1 & P1 & V1 & M1 & L1). change (gen_coord np_copy c) with (coord_copy c) in E1. rewrite (bind_ok _ _ _ _ _ E1).
    assert (Eo1 : see_all (see_coord h1) out = Some ovs) by (eapply see_all_impl; [|exact Eo]; intros; eapply p_coord; eauto). assert (Em1 : see_all (md_of h1) out = Some omds) by (eapply see_all_impl; [|exact Em]; intros; eapply p_md_of; eauto).
    assert (A : coords_append out c' h1 = Ok (out ++ [c'], h1)).
    { unfold coords_append. rewrite (bind_ok _ _ _ _ _ (std_of_at _ _ _ _ V1)), (bind_ok _ _ _ _ _ (map_std_at _ _ _ Eo1)). destruct (existsb _ _) eqn:X; [|reflexivity]. exfalso. apply existsb_exists in X. destruct X as (s & Hs & X). apply andb_true_iff in X. destruct X as [X1 X2]. apply std_eqb_eq in X1. apply negb_true_iff in X2.
      apply in_map_iff in Hs. destruct Hs as (w & <- & Hw). apply In_nth_error in Hw. destruct Hw as (i & Hi). assert (Li : i < length ovs) by (apply nth_error_Some; congruence).
      assert (i = length ovs); [|lia]. apply (U i (length ovs) w (pre_coord (fun x => x) (v, ax))); [rewrite nth_error_app1; auto|rewrite nth_error_app2, Nat.sub_diag by lia; reflexivity|symmetry; exact X1|]. rewrite <- X1. intros Z. rewrite Z in X2. cbn in X2. discriminate. }
    rewrite (bind_ok _ _ _ _ _ A). pose proof (prefix_length _ _ P1) as PL.
    assert (Eo2 : see_all (see_coord h1) (out ++ [c']) = Some (ovs ++ [pre_coord (fun x => x) (v, ax)])) by (apply see_all_app; auto; cbn [see_all]; rewrite V1; reflexivity).
    assert (Em2 : see_all (md_of h1) (out ++ [c']) = Some (omds ++ [md])) by (apply see_all_app; auto; cbn [see_all]; rewrite M1; reflexivity).
    assert (ND2 : NoDup (omds ++ [md])) by (apply nodup_snoc; auto; intros I0; pose proof (mds_bound h out ovs omds Eo Em) as B; rewrite Forall_forall in B; apply B in I0; lia).
    assert (Ev2 : see_all (see_coord h1) cs = Some vs') by (eapply see_all_impl; [|exact Evs]; intros; eapply p_coord; eauto).
    destruct (IH h1 (out ++ [c']) _ _ vs' Eo2 Em2 ND2 Ev2) with (n := n) as (out' & mds & h' & R1 & R2 & R3 & R4); [rewrite <- app_assoc; exact U|lia|apply Forall_app; split; auto; constructor; auto; lia|].
    exists out', mds, h'. split; [exact R1|]. split; [eapply prefix_trans; eauto|]. rewrite <- app_assoc in R3. split; auto.
Qed.
Lemma map_getitem_at k cs : forall h vs, see_all (see_coord h) cs = Some vs -> Forall (fun c => valid_keys k (v_data (fst c))) vs ->
  exists out mds h', map_each (coord_getitem k) cs h = Ok (out, h') /\ prefix h h' /\ see_all (see_coord h') out = Some (map (pre_coord (selected k)) vs) /\ see_all (md_of h') out = Some mds /\ NoDup mds /\ Forall (fun md => length h <= md) mds.
Proof.
  induction cs as [|c cs IH]; intros h vs Ev V; cbn [see_all map_each] in *.
  - injection Ev as <-. exists [], [], h. split; [reflexivity|]. split; [apply prefix_refl|]. repeat split; constructor.
  - destruct (see_coord h c) as [[v ax]|] eqn:Ec; try discriminate. destruct (see_all (see_coord h) cs) as [vs'|] eqn:Evs; try discriminate. injection Ev as <-. apply Forall_cons_iff in V. destruct V as [V V'].
    destruct (gen_coord_at (fun a => np_getitem a k) (selected k) (valid_keys k) h c v ax (np_getitem_copies k) Ec V) as (c' & h1 & md & E1 & P1 & V1 & M1 & L1). change (gen_coord (fun a => np_getitem a k) c) with (coord_getitem k c) in E1. rewrite (bind_ok _ _ _ _ _ E1).
    assert (Ev2 : see_all (see_coord h1) cs = Some vs') by (eapply see_all_impl; [|exact Evs]; intros; eapply p_coord; eauto). destruct (IH h1 vs' Ev2 V') as (out & mds & h' & R1 & R2 & R3 & R4 & R5 & R6). rewrite (bind_ok _ _ _ _ _ R1).
    exists (c' :: out), (md :: mds), h'. split; [reflexivity|]. split; [eapply prefix_trans; eauto|]. pose proof (prefix_length _ _ P1). cbn [see_all map]. rewrite (p_coord _ _ _ _ R2 V1), R3, (p_md_of _ _ _ _ R2 M1), R4. split; [reflexivity|]. split; [reflexivity|].
    pose proof (md_of_bound _ _ _ _ V1 M1). split; [constructor; auto; intros I0; rewrite Forall_forall in R6; apply R6 in I0; lia|]. constructor; [lia|]. eapply Forall_impl; [|exact R6]. cbn. lia.
Qed.
Lemma ra_coords ps cs : forall h vs mds, NoDup (map snd ps) -> see_all (see_coord h) cs = Some vs -> see_all (md_of h) cs = Some mds -> (forall c a f md ax at_, In c cs -> nth_error h c = Some (OCoord a f md ax at_) -> In (a, md) ps) ->
  see_all (see_coord (refresh_all h ps)) cs = Some (map refreshed_coord vs).
Proof.
  induction cs as [|c cs IH]; intros h vs mds ND Ev Em HI; cbn [see_all] in *; [injection Ev as <-; reflexivity|]. destruct (see_coord h c) as [[v ax]|] eqn:Ec; try discriminate. destruct (see_all (see_coord h) cs) as [vs'|] eqn:Evs; try discriminate. injection Ev as <-. destruct (md_of h c); try discriminate. destruct (see_all (md_of h) cs) as [mds'|] eqn:Ems; try discriminate.
  rewrite (IH h vs' mds' ND Evs Ems) by (intros; eapply HI; eauto; right; auto). apply see_coord_inv in Ec. destruct Ec as (a & f & md & at_ & Eo & El). unfold see_coord. rewrite (ra_obj ps h c _ Eo) by discriminate. rewrite (ra_lazy ps h a f md at_ v); auto. eapply HI; eauto. left. auto.
Qed.
Lemma coord_pair_in h cs : forall ps, see_all (coord_pair h) cs = Some ps -> forall c a f md ax at_, In c cs -> nth_error h c = Some (OCoord a f md ax at_) -> In (a, md) ps.
Proof.
  induction cs as [|c cs IH]; intros ps E x a f md ax at_ I Ex; [contradiction|]. cbn [see_all] in E. destruct (coord_pair h c) as [p|] eqn:Ep; try discriminate. destruct (see_all (coord_pair h) cs) as [ps'|]; try discriminate. injection E as <-. destruct I as [->|I]; [|right; eapply IH; eauto]. unfold coord_pair in Ep. rewrite Ex in Ep. injection Ep as <-. left. auto.
Qed.
(** the effect of _post_process on data with all coordinates there: shapes and ranges *)
Lemma post_effect h d v : see_data h d = Some v -> all_there v -> own_metadata h d ->
  exists h', post_process d h = Ok (tt, h') /\ see_data h' d = Some (refreshed (fst v), map refreshed_coord (snd v)) /\ (exists ps, pairs_of h d = Some ps /\ NoDup (map snd ps) /\ h' = refresh_all h ps).
Proof.
  intros E A O. destruct (own_pairs h d v O E) as (ps & Ep & ND). exists (refresh_all h ps). split; [eapply post_process_there; eauto|]. split; [|eauto].
  unfold see_data, pairs_of in *. destruct (nth_error h d) as [[| | | | | |a f md cl at_]|] eqn:Ed; try discriminate. destruct (see_lazy h a f md at_) as [lv|] eqn:El; try discriminate. destruct (see_coords h cl) as [cv|] eqn:Ec; try discriminate. injection E as <-. cbn [fst snd].
  unfold see_coords in *. destruct (nth_error h cl) as [[| | | | |cs|]|] eqn:Ecl; try discriminate. destruct (see_all (coord_pair h) cs) as [pc|] eqn:Epc; try discriminate. injection Ep as <-.
  rewrite (ra_obj _ h d _ Ed) by discriminate. rewrite (ra_lazy _ h a f md at_ lv); auto; [|apply in_or_app; right; left; auto]. rewrite (ra_obj _ h cl _ Ecl) by discriminate.
  assert (Em : exists mds, see_all (md_of h) cs = Some mds). { unfold own_metadata in O. rewrite Ed, Ecl in O. destruct (see_all (md_of h) cs); [eauto|contradiction]. } destruct Em as (mds & Em).
  rewrite (ra_coords _ cs h cv mds); auto. intros c a' f' md' ax at' I Eo. apply in_or_app. left. eapply coord_pair_in; eauto.
Qed.
Lemma own_refresh ps h d : own_metadata h d -> own_metadata (refresh_all h ps) d.
Proof.
  unfold own_metadata. destruct (nth_error h d) as [[| | | | | |a f md cl at_]|] eqn:Ed; try contradiction. destruct (nth_error h cl) as [[| | | | |cs|]|] eqn:Ecl; try contradiction. destruct (see_all (md_of h) cs) as [mds|] eqn:Em; try contradiction. intros ND. rewrite (ra_obj ps h d _ Ed), (ra_obj ps h cl _ Ecl) by discriminate.
  rewrite (see_all_impl (md_of h) (md_of (refresh_all h ps)) cs mds); auto. intros x m. unfold md_of. destruct (nth_error h x) as [[]|] eqn:Ex; try discriminate; rewrite (ra_obj ps h x _ Ex) by discriminate; auto.
Qed.
Lemma new_data_at h0 h a md cl cs sc mv vs mds : prefix h0 h -> see_array h a = Some sc -> see_meta h md = Some mv -> nth_error h cl = Some (OList cs) -> see_all (see_coord h) cs = Some vs -> see_all (md_of h) cs = Some mds -> NoDup (md :: mds) -> Forall (fun md => length h0 <= md) (md :: mds) ->
  Forall (fun c => Forall is_there (snd (v_data (fst c))) /\ length (snd (v_data (fst c))) = length (snd sc)) vs ->
  exists c h', new_data a md cl h = Ok (c, h') /\ prefix h0 h' /\ see_data h' c = Some (refreshed (mkLazy sc ([length (snd sc)], snd sc) (units_md data_units mv) []), map refreshed_coord vs) /\
    own_metadata h' c /\ md_of h' c = Some md.
Proof.
  intros P Ea Em Ecl Ev Emd ND F AT. unfold new_data. destruct (change_units h md mv data_units Em) as (m & E1 & E2 & E3). set (h1 := set_nth md (OMeta (with_units m (data_units (m_units m)))) h) in *.
  rewrite (E2 _ (fun _ => (at_ <~ alloc (ODict []) ;; l <~ alloc (OData a None md cl at_) ;; post_process l ;;; ret l)%mem)). rewrite (bind_ok _ _ _ _ _ (alloc_at h1 (ODict []))), (bind_ok _ _ _ _ _ (alloc_at _ _)). set (h2 := h1 ++ [ODict []]). set (o := OData a None md cl (length h1)). set (h3 := h2 ++ [o]).
  assert (P12 : prefix h1 h2) by apply prefix_app. assert (P23 : prefix h2 h3) by apply prefix_app. assert (P13 : prefix h1 h3) by (eapply prefix_trans; eauto). assert (P01 : prefix h0 h1) by (apply prefix_set; auto; apply Forall_cons_iff in F; apply F).
  assert (No : forall x o, nth_error h x = Some o -> (forall m, o <> OMeta m) -> nth_error h1 x = Some o). { intros x o' Ex N. unfold h1. rewrite (cm_not h md m); auto. intros m0. rewrite Ex. intros X. injection X as X. apply (N m0). auto. }
  assert (Ev1 : see_all (see_coord h1) cs = Some vs /\ see_all (md_of h1) cs = Some mds).
  { clear - Ev Emd No ND E1. apply NoDup_cons_iff in ND. destruct ND as [N _]. revert vs mds Ev Emd N. induction cs as [|c cs IH]; intros vs mds Ev Emd N; cbn [see_all] in *; [split; auto|]. destruct (see_coord h c) as [[v ax]|] eqn:Ec; try discriminate. destruct (see_all (see_coord h) cs) as [vs'|]; try discriminate. injection Ev as <-. destruct (md_of h c) as [mdc|] eqn:Emc; try discriminate. destruct (see_all (md_of h) cs) as [mds'|]; try discriminate. injection Emd as <-.
    destruct (IH _ _ eq_refl eq_refl) as [I1 I2]; [intros X; apply N; right; auto|]. rewrite I1, I2. apply see_coord_inv in Ec. destruct Ec as (a & f & md' & at_ & Eo & El). unfold see_coord, md_of in *. rewrite Eo in Emc. injection Emc as <-. rewrite (No _ _ Eo) by discriminate. apply see_lazy_inv in El. destruct El as (Ea & Em & Et & Ef).
    unfold see_lazy, h1. rewrite (cm_array h md m) by auto. rewrite Ea, (cm_meta h md m) by (auto; intros ->; apply N; left; auto). rewrite Em. rewrite (cm_dict h md m) by auto. rewrite Et. assert (Fl : see_flat (set_nth md (OMeta (with_units m (data_units (m_units m)))) h) f (v_data v) = Some (v_flat v)) by (unfold see_flat in *; destruct f; auto; rewrite (cm_array h md m); auto). rewrite Fl. destruct v. auto. }
  destruct Ev1 as [Ev1 Emd1]. assert (Ecl3 : nth_error h3 cl = Some (OList cs)) by (eapply p_nth; [exact P13|]; apply No; auto; discriminate).
  assert (Ev3 : see_all (see_coord h3) cs = Some vs) by (eapply see_all_impl; [|exact Ev1]; intros; eapply p_coord; eauto). assert (Emd3 : see_all (md_of h3) cs = Some mds) by (eapply see_all_impl; [|exact Emd1]; intros; eapply p_md_of; eauto).
  assert (Ed3 : nth_error h3 (length h2) = Some o) by apply nth_last.
  assert (El3 : see_lazy h3 a None md (length h1) = Some (mkLazy sc ([length (snd sc)], snd sc) (units_md data_units mv) [])).
  { unfold see_lazy. rewrite (p_array h1 h3 a sc P13) by (unfold h1; rewrite (cm_array h md m); auto). rewrite (p_meta h1 h3 md _ P13 E3). rewrite (p_dict h2 h3 (length h1) [] P23) by (unfold see_dict, h2; rewrite nth_last; reflexivity). reflexivity. }
  assert (D3 : see_data h3 (length h2) = Some (mkLazy sc ([length (snd sc)], snd sc) (units_md data_units mv) [], vs)) by (unfold see_data, see_coords; rewrite Ed3; unfold o; rewrite El3, Ecl3, Ev3; reflexivity).
  assert (OM : own_metadata h3 (length h2)) by (unfold own_metadata; rewrite Ed3; unfold o; rewrite Ecl3, Emd3; auto).
  destruct (post_effect h3 (length h2) _ D3 AT OM) as (h4 & E4 & V4 & ps & Ep & NDp & ->). rewrite (bind_ok _ _ _ _ _ E4). eexists. eexists. split; [reflexivity|]. split; [|split; [exact V4|split; [apply own_refresh; exact OM|unfold md_of; rewrite (ra_obj ps h3 _ _ Ed3) by discriminate; reflexivity]]].
  apply prefix_refresh_all; [eapply prefix_trans; eauto|]. unfold pairs_of in Ep. rewrite Ed3 in Ep. unfold o in Ep. rewrite Ecl3 in Ep. destruct (pairs_mds h3 cs mds vs Emd3 Ev3) as (pc & E5 & E6). rewrite E5 in Ep. injection Ep as <-. rewrite map_app. apply Forall_cons_iff in F. destruct F as [F1 F2]. apply Forall_app. split; [subst mds; exact F2|constructor; auto].
Qed.

(** ** UngriddedData.copy and __getitem__ *)
Lemma refreshed_twice u F v : with_new_data u F (refreshed v) = with_new_data u F v.
Proof. reflexivity. Qed.
Lemma coords_at h d v : see_data h d = Some v -> all_there v -> own_metadata h d ->
  exists h' a f md cl at_ cs mds, nth_error h d = Some (OData a f md cl at_) /\ coords d h = Ok (cl, h') /\ length h' = length h /\ (forall x, see_array h' x = see_array h x) /\ see_data h' d = Some (refreshed (fst v), map refreshed_coord (snd v)) /\
    nth_error h' d = Some (OData a f md cl at_) /\ nth_error h' cl = Some (OList cs) /\ see_all (see_coord h') cs = Some (map refreshed_coord (snd v)) /\ see_array h' a = Some (v_data (fst v)) /\ see_meta h' md = Some (fresh_md (v_data (fst v)) (v_md (fst v))) /\ see_all (md_of h') cs = Some mds.
Proof.
  intros E A O. destruct (post_effect h d v E A O) as (h' & E1 & V1 & ps & Ep & ND & ->). pose proof E as E0. unfold see_data in E0. destruct (nth_error h d) as [[| | | | | |a f md cl at_]|] eqn:Ed; try discriminate. destruct (see_lazy h a f md at_) as [lv|] eqn:El; try discriminate. destruct (see_coords h cl) as [cv|] eqn:Ec; try discriminate. injection E0 as <-.
  unfold see_coords in Ec. destruct (nth_error h cl) as [[| | | | |cs|]|] eqn:Ecl; try discriminate. unfold own_metadata in O. rewrite Ed, Ecl in O. destruct (see_all (md_of h) cs) as [mds|] eqn:Emd; try contradiction.
  assert (Ed' : nth_error (refresh_all h ps) d = Some (OData a f md cl at_)) by (apply ra_obj; auto; discriminate). assert (Ecl' : nth_error (refresh_all h ps) cl = Some (OList cs)) by (apply ra_obj; auto; discriminate).
  pose proof V1 as V2. unfold see_data, see_coords in V2. rewrite Ed', Ecl' in V2. destruct (see_lazy (refresh_all h ps) a f md at_) as [lv'|] eqn:El'; try discriminate. destruct (see_all (see_coord (refresh_all h ps)) cs) as [cv'|] eqn:Ecv'; try discriminate. injection V2 as -> ->. cbn [fst snd] in *. apply see_lazy_inv in El'. destruct El' as (X1 & X2 & _).
  exists (refresh_all h ps), a, f, md, cl, at_, cs, mds. split; auto. split; [unfold coords; rewrite (bind_ok _ _ _ _ _ E1), (bind_ok _ _ _ _ _ (get_at _ _ _ Ed')); reflexivity|]. split; [apply ra_length|]. split; [apply ra_array|]. split; auto. split; auto. split; auto. split; auto. split; auto. split; auto.
  eapply see_all_impl; [|exact Emd]. intros x m. unfold md_of. destruct (nth_error h x) as [[]|] eqn:Ex; try discriminate; rewrite (ra_obj ps h x _ Ex) by discriminate; auto.
Qed.
Lemma own_std_map (f : lazy_view * str -> lazy_view * str) cs : (forall c, v_std (v_md (fst (f c))) = v_std (v_md (fst c))) -> own_std_names cs -> own_std_names (map f cs).
Proof.
  intros H U i j a b Ei Ej E N. rewrite nth_error_map in Ei, Ej. destruct (nth_error cs i) as [a'|] eqn:Ei'; try discriminate. destruct (nth_error cs j) as [b'|] eqn:Ej'; try discriminate. injection Ei as <-. injection Ej as <-. rewrite !H in *. eapply U; eauto.
Qed.
Lemma map_pre F vs : map refreshed_coord (map (pre_coord F) (map refreshed_coord vs)) = map (fun c => (with_new_data coord_spelling F (fst c), upper (snd c))) vs.
Proof. rewrite !map_map. apply map_ext. intros [v ax]. reflexivity. Qed.
Lemma own_prefix h h' d : prefix h h' -> own_metadata h d -> own_metadata h' d.
Proof.
  intros P. unfold own_metadata. destruct (nth_error h d) as [[| | | | | |a f md cl at_]|] eqn:Ed; try contradiction. destruct (nth_error h cl) as [[| | | | |cs|]|] eqn:Ecl; try contradiction. destruct (see_all (md_of h) cs) as [mds|] eqn:Em; try contradiction. intros ND. rewrite (p_nth _ _ _ _ P Ed), (p_nth _ _ _ _ P Ecl).
  rewrite (see_all_impl (md_of h) (md_of h') cs mds); auto. intros x m. apply p_md_of. auto.
Qed.
Theorem data_copy_looks h d v : see_data h d = Some v -> all_there v -> own_metadata h d -> own_std_names (snd v) ->
  exists c h', data_copy None d h = Ok (c, h') /\ see_data h' d = Some (refreshed (fst v), map refreshed_coord (snd v)) /\ see_data h' c = Some (made_from (fun x => x) v).
Proof.
  intros E A O U. pose proof E as E0. unfold see_data in E0. destruct (nth_error h d) as [[| | | | | |a0 f0 md0 cl0 at0]|] eqn:Ed; try discriminate. destruct (see_lazy h a0 f0 md0 at0) as [lv|] eqn:El; try discriminate. destruct (see_coords h cl0) as [cv|] eqn:Ec; try discriminate. injection E0 as <-. cbn [fst snd] in *.
  unfold data_copy. rewrite (bind_ok _ _ _ _ _ (get_at _ _ _ Ed)). apply see_lazy_inv in El. destruct El as (Ea & _). destruct (np_copy_copies h a0 _ Ea I) as (a' & h1 & E1 & P1 & V1). rewrite (bind_ok _ _ _ _ _ E1).
  destruct (coords_at h1 d (lv, cv) (p_data _ _ _ _ P1 E) A (own_prefix _ _ _ P1 O)) as (h2 & a & f & md & cl & at_ & cs & mds & Ed1 & E2 & L2 & S2 & D2 & Ed2 & Ecl2 & Ev2 & Ea2 & Em2 & Emd2). rewrite (p_nth _ _ _ _ P1 Ed) in Ed1. injection Ed1 as <- <- <- <- <-. rewrite (bind_ok _ _ _ _ _ E2). cbn [fst snd] in *.
  assert (U2 : own_std_names (map (pre_coord (fun x => x)) (map refreshed_coord cv))) by (rewrite map_map; apply own_std_map; auto).
  destruct (copy_into_at cs h2 [] [] [] (map refreshed_coord cv) eq_refl eq_refl (NoDup_nil _) Ev2 U2 (length h2) (le_n _) (Forall_nil _)) as (out & mds' & h3 & E3 & P3 & V3 & M3 & N3 & F3). cbn [app] in V3.
  assert (E3' : coordlist_copy cl0 h2 = Ok (length h3, h3 ++ [OList out])) by (unfold coordlist_copy; rewrite (bind_ok _ _ _ _ _ (get_list_at _ _ _ Ecl2)), (bind_ok _ _ _ _ _ E3); reflexivity). rewrite (bind_ok _ _ _ _ _ E3'). set (h4 := h3 ++ [OList out]) in *. assert (P4 : prefix h3 h4) by apply prefix_app. assert (P24 : prefix h2 h4) by (eapply prefix_trans; eauto).
  destruct (deepcopy_at h4 md0 _ (p_meta _ _ _ _ P24 Em2)) as (md' & h5 & E5 & P5 & V5 & L5). rewrite (bind_ok _ _ _ _ _ E5). assert (P25 : prefix h2 h5) by (eapply prefix_trans; eauto). assert (P35 : prefix h3 h5) by (eapply prefix_trans; eauto).
  assert (V3' : see_all (see_coord h5) out = Some (map (pre_coord (fun x => x)) (map refreshed_coord cv))) by (eapply see_all_impl; [|exact V3]; intros; eapply p_coord; eauto). assert (M3' : see_all (md_of h5) out = Some mds') by (eapply see_all_impl; [|exact M3]; intros; eapply p_md_of; eauto).
  pose proof (mds_bound h3 out _ _ V3 M3) as B3. pose proof (prefix_length _ _ P4) as L4. pose proof (prefix_length _ _ P24) as L24.
  destruct (new_data_at h2 h5 a' md' (length h3) out (v_data lv) (fresh_md (v_data lv) (v_md lv)) (map (pre_coord (fun x => x)) (map refreshed_coord cv)) mds' P25) as (c & h6 & E6 & P6 & V6 & _); auto.
  - eapply p_array; [exact P25|]. rewrite S2. exact V1.
  - eapply p_nth; [exact P5|]. apply nth_last.
  - constructor; auto. intros I0. rewrite Forall_forall in B3. apply B3 in I0. lia.
  - constructor; [lia|exact F3].
  - rewrite map_map. apply Forall_map. unfold all_there in A. cbn [fst snd] in A. eapply Forall_impl; [|exact A]. intros [w ax]. cbn. auto.
  - exists c, h6. split; [exact E6|]. split; [eapply p_data; eauto|]. rewrite V6. rewrite map_pre. unfold made_from. cbn [fst snd]. reflexivity.
Qed.
Lemma selected_there k data : Forall is_there (snd data) -> Forall (fun i => i < length (snd data)) (k_positions k) -> Forall is_there (snd (selected k data)).
Proof. intros H V. unfold selected. cbn [snd]. apply Forall_map. eapply Forall_impl; [|exact V]. cbn. intros i Hi. rewrite Forall_forall in H. apply H. apply nth_In. auto. Qed.
Theorem data_getitem_looks k h d v : see_data h d = Some v -> all_there v -> own_metadata h d -> k_shape k <> [] -> Forall (fun i => i < length (snd (v_data (fst v)))) (k_positions k) ->
  exists c h', data_getitem k d h = Ok (c, h') /\ see_data h' d = Some (refreshed (fst v), map refreshed_coord (snd v)) /\ see_data h' c = Some (made_from (selected k) v).
Proof.
  intros E A O K1 K2. destruct v as [lv cv]. cbn [fst snd] in *. unfold data_getitem.
  destruct (coords_at h d (lv, cv) E A O) as (h2 & a & f & md & cl & at_ & cs & mds & Ed1 & E2 & L2 & S2 & D2 & Ed2 & Ecl2 & Ev2 & Ea2 & Em2 & Emd2). rewrite (bind_ok _ _ _ _ _ E2), (bind_ok _ _ _ _ _ (get_list_at _ _ _ Ecl2)). cbn [fst snd] in *.
  assert (VK : Forall (fun c => valid_keys k (v_data (fst c))) (map refreshed_coord cv)). { apply Forall_map. unfold all_there in A. cbn [fst snd] in A. eapply Forall_impl; [|exact A]. intros [w ax] [_ Lw]. cbn in *. split; auto. rewrite Lw. auto. }
  destruct (map_getitem_at k cs h2 _ Ev2 VK) as (out & mds' & h3 & E3 & P3 & V3 & M3 & N3 & F3). rewrite (bind_ok _ _ _ _ _ E3), (bind_ok _ _ _ _ _ (get_at _ _ _ (p_nth _ _ _ _ P3 Ed2))).
  destruct (np_getitem_copies k h3 a _ (p_array _ _ _ _ P3 Ea2) (conj K1 K2)) as (a' & h4 & E4 & P4 & V4). rewrite (bind_ok _ _ _ _ _ E4). assert (P24 : prefix h2 h4) by (eapply prefix_trans; eauto).
  destruct (deepcopy_at h4 md _ (p_meta _ _ _ _ P24 Em2)) as (md' & h5 & E5 & P5 & V5 & L5). rewrite (bind_ok _ _ _ _ _ E5), (bind_ok _ _ _ _ _ (alloc_at h5 (OList out))). set (h6 := h5 ++ [OList out]). assert (P6 : prefix h5 h6) by apply prefix_app. assert (P46 : prefix h4 h6) by exact (prefix_trans _ _ _ P5 P6). assert (P36 : prefix h3 h6) by exact (prefix_trans _ _ _ P4 P46). assert (P26 : prefix h2 h6) by exact (prefix_trans _ _ _ P3 P36).
  assert (V3' : see_all (see_coord h6) out = Some (map (pre_coord (selected k)) (map refreshed_coord cv))) by (eapply see_all_impl; [|exact V3]; intros; eapply (p_coord h3 h6); [exact P36|auto]). assert (M3' : see_all (md_of h6) out = Some mds') by (eapply see_all_impl; [|exact M3]; intros; eapply (p_md_of h3 h6); [exact P36|auto]).
  pose proof (mds_bound h3 out _ _ V3 M3) as B3. pose proof (prefix_length _ _ P4) as L4. pose proof (prefix_length _ _ P3) as L3.
  destruct (new_data_at h2 h6 a' md' (length h5) out (selected k (v_data lv)) (fresh_md (v_data lv) (v_md lv)) (map (pre_coord (selected k)) (map refreshed_coord cv)) mds' P26) as (c & h7 & E7 & P7 & V7 & _); auto.
  - eapply p_array; [exact P46|]. exact V4.
  - eapply p_meta; [exact P6|]. exact V5.
  - apply nth_last.
  - constructor; auto. intros I0. rewrite Forall_forall in B3. apply B3 in I0. lia.
  - constructor; [lia|exact F3].
  - rewrite map_map. apply Forall_map. unfold all_there in A. cbn [fst snd] in A. eapply Forall_impl; [|exact A]. intros [w ax] [W1 W2]. cbn [fst snd pre_coord pre v_data refreshed_coord refreshed] in *. split; [apply selected_there; auto; rewrite W2; auto|]. unfold selected. cbn [snd]. rewrite !map_length. auto.
  - exists c, h7. split; [exact E7|]. split; [eapply p_data; eauto|]. rewrite V7. rewrite map_pre. unfold made_from. cbn [fst snd]. reflexivity.
Qed.
(** settled data: the copy looks the same, and so does the original *)
Lemma fresh_settled m data : v_shape m = fst data -> v_range m = range_of (snd data) -> fresh_md data m = m.
Proof. destruct m as [a b c s d r e g]. unfold fresh_md. cbn [v_shape v_range v_name v_std v_long v_units v_history v_misc]. congruence. Qed.
Lemma refreshed_settled u v : settled_lazy u v -> refreshed v = v /\ with_new_data u (fun x => x) v = v.
Proof.
  intros (H1 & H2 & H3 & H4 & H5). destruct v as [data fl m at_]. cbn [v_data v_flat v_md v_attrs] in *. unfold refreshed, with_new_data. cbn [v_data v_flat v_md v_attrs]. rewrite (fresh_settled m data) by auto. split; auto. assert (Em : units_md u m = m) by (destruct m; unfold units_md; cbn in *; congruence). rewrite Em, (fresh_settled m data) by auto. congruence.
Qed.
Theorem data_copy_equal h d v : see_data h d = Some v -> all_there v -> own_metadata h d -> own_std_names (snd v) -> settled v ->
  exists c h', data_copy None d h = Ok (c, h') /\ see_data h' d = Some v /\ see_data h' c = Some v.
Proof.
  intros E A O U [S1 S2]. destruct (data_copy_looks h d v E A O U) as (c & h' & E1 & V1 & V2). exists c, h'. split; auto. rewrite V1, V2. destruct v as [lv cv]. cbn [fst snd] in *. destruct (refreshed_settled _ _ S1) as [R1 R2].
  assert (M1 : map refreshed_coord cv = cv /\ map (fun c => (with_new_data coord_spelling (fun x => x) (fst c), upper (snd c))) cv = cv).
  { clear - S2. induction S2 as [|[w ax] cv [H H'] F [I1 I2]]; [auto|]. cbn [map]. rewrite I1, I2. unfold refreshed_coord. cbn [fst snd] in *. destruct (refreshed_settled _ _ H) as [R1 R2]. rewrite R1, R2, H'. auto. }
  destruct M1 as [M1 M2]. unfold made_from. cbn [fst snd]. rewrite R1, R2, M1, M2. auto.
Qed.
