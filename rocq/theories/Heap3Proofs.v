(** Proofs for C59: what a copy or slice looks like. *)
From Coq Require Import String.
From Verif Require Import Base PyStr QBase LonModel HeapModel HeapSpec HeapProofs.
From Coq Require Import List Lia Arith.
Import ListNotations.
Open Scope string_scope. Open Scope list_scope. Open Scope nat_scope. Notation length := List.length.

(** ** Memory that has grown at the end *)
Lemma nth_grown h t l (o : obj) : nth_error h l = Some o -> nth_error (h ++ t) l = Some o.
Proof. intros H. rewrite nth_error_app1; auto. apply nth_error_Some. congruence. Qed.
Lemma see_array_ext h t l v : see_array h l = Some v -> see_array (h ++ t) l = Some v.
Proof. unfold see_array. destruct (nth_error h l) as [[]|] eqn:E; try discriminate. rewrite (nth_grown _ t _ _ E). destruct (nth_error h buf) as [[]|] eqn:E2; try discriminate. rewrite (nth_grown _ t _ _ E2). auto. Qed.
Lemma see_dict_ext h t l v : see_dict h l = Some v -> see_dict (h ++ t) l = Some v.
Proof. unfold see_dict. destruct (nth_error h l) as [[]|] eqn:E; try discriminate. rewrite (nth_grown _ t _ _ E). auto. Qed.
Lemma see_meta_ext h t l v : see_meta h l = Some v -> see_meta (h ++ t) l = Some v.
Proof. unfold see_meta. destruct (nth_error h l) as [[]|] eqn:E; try discriminate. rewrite (nth_grown _ t _ _ E). destruct (see_dict h (m_misc m)) eqn:E2; try discriminate. rewrite (see_dict_ext _ t _ _ E2). auto. Qed.
Lemma see_lazy_ext h t d f md at_ v : see_lazy h d f md at_ = Some v -> see_lazy (h ++ t) d f md at_ = Some v.
Proof.
  unfold see_lazy. destruct (see_array h d) eqn:E1; try discriminate. destruct (see_meta h md) eqn:E2; try discriminate. destruct (see_dict h at_) eqn:E3; try discriminate. rewrite (see_array_ext _ t _ _ E1), (see_meta_ext _ t _ _ E2), (see_dict_ext _ t _ _ E3).
  unfold see_flat. destruct f; auto. destruct (see_array h l0) eqn:E4; try discriminate. rewrite (see_array_ext _ t _ _ E4). auto.
Qed.
Lemma see_coord_ext h t l v : see_coord h l = Some v -> see_coord (h ++ t) l = Some v.
Proof. unfold see_coord. destruct (nth_error h l) as [[]|] eqn:E; try discriminate. rewrite (nth_grown _ t _ _ E). destruct (see_lazy h data flat md attrs) eqn:E2; try discriminate. rewrite (see_lazy_ext _ t _ _ _ _ _ E2). auto. Qed.
Lemma see_all_impl {A} (f g : loc -> option A) l vs : (forall x v, f x = Some v -> g x = Some v) -> see_all f l = Some vs -> see_all g l = Some vs.
Proof. intros H. revert vs. induction l as [|x l IH]; intros vs; cbn; auto. destruct (f x) eqn:E; try discriminate. rewrite (H _ _ E). destruct (see_all f l); try discriminate. rewrite (IH _ eq_refl). auto. Qed.
Lemma see_coords_ext h t l v : see_coords h l = Some v -> see_coords (h ++ t) l = Some v.
Proof. unfold see_coords. destruct (nth_error h l) as [[]|] eqn:E; try discriminate. rewrite (nth_grown _ t _ _ E). apply see_all_impl. intros. apply see_coord_ext. auto. Qed.
Lemma see_data_ext h t l v : see_data h l = Some v -> see_data (h ++ t) l = Some v.
Proof.
  unfold see_data. destruct (nth_error h l) as [[]|] eqn:E; try discriminate. rewrite (nth_grown _ t _ _ E). destruct (see_lazy h data flat md attrs) eqn:E2; try discriminate. destruct (see_coords h coords) eqn:E3; try discriminate. rewrite (see_lazy_ext _ t _ _ _ _ _ E2), (see_coords_ext _ t _ _ E3). auto.
Qed.
Lemma see_all_length {A} (f : loc -> option A) l vs : see_all f l = Some vs -> length vs = length l.
Proof. revert vs. induction l as [|x l IH]; intros vs; cbn; [intros E; injection E as <-; auto|]. destruct (f x); try discriminate. destruct (see_all f l); try discriminate. intros E. injection E as <-. cbn. rewrite (IH l0); auto. Qed.

(** ** Reading in the model and in the specification *)
Lemma get_array_see h l sc : see_array h l = Some sc -> get_array l h = Ok (sc, h).
Proof.
  unfold see_array, get_array, mbind, get. destruct (nth_error h l) as [[]|] eqn:E; try discriminate. cbn [bind fst snd]. destruct (nth_error h buf) as [[]|] eqn:E2; try discriminate. cbn [bind fst snd]. intros H. injection H as <-. reflexivity.
Qed.
Lemma get_at h l o : nth_error h l = Some o -> get l h = Ok (o, h).
Proof. unfold get. intros ->. reflexivity. Qed.
Lemma get_meta_at h l m : nth_error h l = Some (OMeta m) -> get_meta l h = Ok (m, h).
Proof. intros E. unfold get_meta, mbind. rewrite (get_at _ _ _ E). reflexivity. Qed.
Lemma get_list_at h l m : nth_error h l = Some (OList m) -> get_list l h = Ok (m, h).
Proof. intros E. unfold get_list, mbind. rewrite (get_at _ _ _ E). reflexivity. Qed.
Lemma get_dict_at h l m : nth_error h l = Some (ODict m) -> get_dict l h = Ok (m, h).
Proof. intros E. unfold get_dict, mbind. rewrite (get_at _ _ _ E). reflexivity. Qed.
Lemma bind_ok {A B} (m : M A) (f : A -> M B) h a h1 : m h = Ok (a, h1) -> mbind m f h = f a h1.
Proof. unfold mbind. intros ->. reflexivity. Qed.
Lemma see_meta_inv h l v : see_meta h l = Some v -> exists m d, nth_error h l = Some (OMeta m) /\ nth_error h (m_misc m) = Some (ODict d) /\ v = mkMd (m_name m) (m_std m) (m_long m) (m_shape m) (m_units m) (m_range m) (m_history m) d.
Proof.
  unfold see_meta, see_dict. destruct (nth_error h l) as [[]|] eqn:E; try discriminate. destruct (nth_error h (m_misc m)) as [[]|] eqn:E2; try discriminate. intros H. injection H as <-. eauto.
Qed.

(** ** Changing metadata *)
Lemma nth_set (h : heap) l o x : l < length h -> nth_error (set_nth l o h) x = if Nat.eq_dec x l then Some o else nth_error h x.
Proof. intros B. destruct (Nat.eq_dec x l) as [->|N]; [apply set_nth_same; auto|apply set_nth_other; auto]. Qed.
Section ChangeMeta.
  Variables (h : heap) (l : loc) (m m' : meta).
  Hypothesis Em : nth_error h l = Some (OMeta m).
  Hypothesis Misc : m_misc m' = m_misc m.
  Let h' := set_nth l (OMeta m') h.
  Lemma cm_bound : l < length h. Proof. apply nth_error_Some. congruence. Qed.
  Lemma cm_other x : x <> l -> nth_error h' x = nth_error h x. Proof. apply set_nth_other. Qed.
  Lemma cm_same : nth_error h' l = Some (OMeta m'). Proof. apply set_nth_same, cm_bound. Qed.
  Lemma cm_not x : (forall m, nth_error h x <> Some (OMeta m)) -> nth_error h' x = nth_error h x.
  Proof. intros H. apply cm_other. intros ->. apply (H m). auto. Qed.
  Lemma cm_array x : see_array h' x = see_array h x.
  Proof.
    unfold see_array. destruct (Nat.eq_dec x l) as [->|N]; [rewrite cm_same, Em; reflexivity|]. rewrite cm_other by auto. destruct (nth_error h x) as [[]|] eqn:E; auto. destruct (Nat.eq_dec buf l) as [->|N2]; [rewrite cm_same, Em; reflexivity|]. rewrite cm_other by auto. reflexivity.
  Qed.
  Lemma cm_dict x : see_dict h' x = see_dict h x.
  Proof. unfold see_dict. destruct (Nat.eq_dec x l) as [->|N]; [rewrite cm_same, Em; reflexivity|]. rewrite cm_other by auto. reflexivity. Qed.
  Lemma cm_meta x : x <> l -> see_meta h' x = see_meta h x.
  Proof. intros N. unfold see_meta. rewrite cm_other by auto. destruct (nth_error h x) as [[]|]; auto. rewrite cm_dict. reflexivity. Qed.
  Lemma cm_meta_same : see_meta h' l = match see_dict h (m_misc m) with Some d => Some (mkMd (m_name m') (m_std m') (m_long m') (m_shape m') (m_units m') (m_range m') (m_history m') d) | None => None end.
  Proof. unfold see_meta. rewrite cm_same, cm_dict, Misc. reflexivity. Qed.
End ChangeMeta.
(** ** Refreshing shapes and ranges *)
Definition refresh_at (h : heap) (p : loc * loc) : heap :=
  match see_array h (fst p), nth_error h (snd p) with Some sc, Some (OMeta m) => set_nth (snd p) (OMeta (with_range (with_shape m (fst sc)) (range_of (snd sc)))) h | _, _ => h end.
Lemma update_shape_range_at h a md sc m : see_array h a = Some sc -> nth_error h md = Some (OMeta m) -> update_shape_range a md h = Ok (tt, refresh_at h (a, md)).
Proof.
  intros Ea Em. unfold update_shape_range. rewrite (bind_ok _ _ _ _ _ (get_array_see _ _ _ Ea)), (bind_ok _ _ _ _ _ (get_meta_at _ _ _ Em)). unfold update, refresh_at. cbn [fst snd]. rewrite Ea, Em. assert (B : md < length h) by (apply nth_error_Some; congruence). apply Nat.ltb_lt in B. rewrite B. reflexivity.
Qed.
Lemma refresh_array h p x : see_array (refresh_at h p) x = see_array h x.
Proof. unfold refresh_at. destruct (see_array h (fst p)); auto. destruct (nth_error h (snd p)) as [[]|] eqn:E; auto. apply (cm_array h (snd p) m); auto. Qed.
Lemma refresh_dict h p x : see_dict (refresh_at h p) x = see_dict h x.
Proof. unfold refresh_at. destruct (see_array h (fst p)); auto. destruct (nth_error h (snd p)) as [[]|] eqn:E; auto. apply (cm_dict h (snd p) m); auto. Qed.
Lemma refresh_meta h p x : x <> snd p -> see_meta (refresh_at h p) x = see_meta h x.
Proof. intros N. unfold refresh_at. destruct (see_array h (fst p)); auto. destruct (nth_error h (snd p)) as [[]|] eqn:E; auto. apply (cm_meta h (snd p) m); auto. Qed.
Lemma refresh_meta_same h p sc v : see_array h (fst p) = Some sc -> see_meta h (snd p) = Some v -> see_meta (refresh_at h p) (snd p) = Some (fresh_md sc v).
Proof.
  intros Ea Em. apply see_meta_inv in Em. destruct Em as (m & d & E & E2 & ->). unfold refresh_at. rewrite Ea, E. rewrite (cm_meta_same h (snd p) m); auto. unfold see_dict. rewrite E2. reflexivity.
Qed.
Lemma refresh_obj h p x o : nth_error h x = Some o -> (forall m, o <> OMeta m) -> nth_error (refresh_at h p) x = Some o.
Proof.
  intros E N. unfold refresh_at. destruct (see_array h (fst p)); auto. destruct (nth_error h (snd p)) as [[]|] eqn:E2; auto. rewrite set_nth_other; auto. intros ->. rewrite E in E2. injection E2 as E2. apply (N m). auto.
Qed.
Lemma refresh_length h p : length (refresh_at h p) = length h.
Proof. unfold refresh_at. destruct (see_array h (fst p)); auto. destruct (nth_error h (snd p)) as [[]|] eqn:E2; auto. apply set_nth_length. Qed.
Lemma refresh_metaobj h p x m : nth_error h x = Some (OMeta m) -> exists m', nth_error (refresh_at h p) x = Some (OMeta m').
Proof.
  intros E. unfold refresh_at. destruct (see_array h (fst p)); eauto. destruct (nth_error h (snd p)) as [[]|] eqn:E2; eauto. destruct (Nat.eq_dec x (snd p)) as [->|N]; [rewrite set_nth_same; eauto; apply nth_error_Some; congruence|rewrite set_nth_other; eauto].
Qed.
Definition refresh_all (h : heap) (ps : list (loc * loc)) : heap := fold_left refresh_at ps h.
Lemma ra_array ps : forall h x, see_array (refresh_all h ps) x = see_array h x.
Proof. induction ps as [|p ps IH]; intros h x; [cbn; auto|]. change (refresh_all h (p :: ps)) with (refresh_all (refresh_at h p) ps). rewrite IH. apply refresh_array. Qed.
Lemma ra_dict ps : forall h x, see_dict (refresh_all h ps) x = see_dict h x.
Proof. induction ps as [|p ps IH]; intros h x; [cbn; auto|]. change (refresh_all h (p :: ps)) with (refresh_all (refresh_at h p) ps). rewrite IH. apply refresh_dict. Qed.
Lemma ra_meta ps : forall h x, ~ In x (map snd ps) -> see_meta (refresh_all h ps) x = see_meta h x.
Proof. induction ps as [|p ps IH]; intros h x N; [cbn; auto|]. change (refresh_all h (p :: ps)) with (refresh_all (refresh_at h p) ps). cbn in N. rewrite IH by tauto. apply refresh_meta. intros ->. apply N. auto. Qed.
Lemma ra_meta_in ps : forall h a md sc v, NoDup (map snd ps) -> In (a, md) ps -> see_array h a = Some sc -> see_meta h md = Some v -> see_meta (refresh_all h ps) md = Some (fresh_md sc v).
Proof.
  induction ps as [|p ps IH]; intros h a md sc v ND I Ea Em; [contradiction|]. cbn [map] in ND. apply NoDup_cons_iff in ND. destruct ND as [N ND]. change (refresh_all h (p :: ps)) with (refresh_all (refresh_at h p) ps). destruct I as [->|I].
  - cbn [snd] in N. rewrite ra_meta by auto. apply (refresh_meta_same h (a, md)); auto.
  - apply (IH _ a); auto; [rewrite refresh_array; auto|]. rewrite refresh_meta; auto. intros ->. apply N. apply (in_map snd) in I. auto.
Qed.
Lemma ra_obj ps : forall h x o, nth_error h x = Some o -> (forall m, o <> OMeta m) -> nth_error (refresh_all h ps) x = Some o.
Proof. induction ps as [|p ps IH]; intros h x o E N; [cbn; auto|]. change (refresh_all h (p :: ps)) with (refresh_all (refresh_at h p) ps). apply IH; auto. apply refresh_obj; auto. Qed.
Lemma ra_length ps : forall h, length (refresh_all h ps) = length h.
Proof. induction ps as [|p ps IH]; intros h; [cbn; auto|]. change (refresh_all h (p :: ps)) with (refresh_all (refresh_at h p) ps). rewrite IH. apply refresh_length. Qed.
Lemma ra_lazy ps h d f md at_ v : NoDup (map snd ps) -> In (d, md) ps -> see_lazy h d f md at_ = Some v -> see_lazy (refresh_all h ps) d f md at_ = Some (refreshed v).
Proof.
  intros ND I. unfold see_lazy. rewrite ra_array, ra_dict. destruct (see_array h d) as [sc|] eqn:E1; try discriminate. destruct (see_meta h md) as [mv|] eqn:E2; try discriminate. rewrite (ra_meta_in ps h d md sc mv); auto. destruct (see_dict h at_); try discriminate.
  unfold see_flat. destruct f as [fl|]; [rewrite ra_array; destruct (see_array h fl); try discriminate|]; intros E; injection E as <-; reflexivity.
Qed.

(** ** _post_process of data with all coordinates there *)
(** the array and metadata of each coordinate *)
Definition coord_pair (h : heap) (c : loc) : option (loc * loc) := match nth_error h c with Some (OCoord a _ md _ _) => Some (a, md) | _ => None end.
Lemma repeat_or n m : length m = n -> Forall (fun b => b = false) m -> or_mask (repeat false n) m = repeat false n.
Proof. intros <-. unfold or_mask. induction m as [|b m IH]; intros F; auto. apply Forall_cons_iff in F. destruct F as [-> F]. cbn. rewrite IH; auto. Qed.
Lemma there_mask cells : Forall is_there cells -> Forall (fun b => b = false) (missing_of cells).
Proof. unfold missing_of. intros F. apply Forall_map. eapply Forall_impl; [|exact F]. intros c [H1 H2]. unfold is_masked_or_nan. rewrite H1. destruct (value c); [reflexivity|congruence]. Qed.
Lemma see_coord_inv h c v ax : see_coord h c = Some (v, ax) -> exists a f md at_, nth_error h c = Some (OCoord a f md ax at_) /\ see_lazy h a f md at_ = Some v.
Proof. unfold see_coord. destruct (nth_error h c) as [[]|] eqn:E; try discriminate. destruct (see_lazy h data flat md attrs) eqn:E2; try discriminate. intros H. injection H as <- <-. eauto 10. Qed.
Lemma see_lazy_inv h d f md at_ v : see_lazy h d f md at_ = Some v -> see_array h d = Some (v_data v) /\ see_meta h md = Some (v_md v) /\ see_dict h at_ = Some (v_attrs v) /\ see_flat h f (v_data v) = Some (v_flat v).
Proof.
  unfold see_lazy. destruct (see_array h d) eqn:E1; try discriminate. destruct (see_meta h md) eqn:E2; try discriminate. destruct (see_dict h at_) eqn:E3; try discriminate. destruct (see_flat h f p) eqn:E4; try discriminate. intros H. injection H as <-. auto.
Qed.
Lemma combined_there n cs : forall h vs ps, see_all (see_coord h) cs = Some vs -> see_all (coord_pair h) cs = Some ps ->
  Forall (fun c => Forall is_there (snd (v_data (fst c))) /\ length (snd (v_data (fst c))) = n) vs -> NoDup (map snd ps) -> combined_mask cs (repeat false n) h = Ok (repeat false n, refresh_all h ps).
Proof.
  induction cs as [|c cs IH]; intros h vs ps Ev Ep F ND; cbn [see_all] in *.
  - injection Ep as <-. reflexivity.
  - destruct (see_coord h c) as [[v ax]|] eqn:Ec; try discriminate. destruct (see_all (see_coord h) cs) as [vs'|] eqn:Evs; try discriminate. injection Ev as <-. destruct (coord_pair h c) as [p|] eqn:Ecp; try discriminate. destruct (see_all (coord_pair h) cs) as [ps'|] eqn:Eps; try discriminate. injection Ep as <-.
    apply see_coord_inv in Ec. destruct Ec as (a & f & md & at_ & Eo & El). unfold coord_pair in Ecp. rewrite Eo in Ecp. injection Ecp as <-. apply see_lazy_inv in El. destruct El as (Ea & Em & _ & _). apply Forall_cons_iff in F. cbn [fst] in F. destruct F as [[F1 F2] F].
    cbn [combined_mask]. unfold get_lazy at 1. assert (G : mbind (get c) (fun o => match o with OCoord d f m _ at_ => ret (mkHandle d f m at_ o) | OData d f m _ at_ => ret (mkHandle d f m at_ o) | _ => fail AttributeError end) h = Ok (mkHandle a f md at_ (OCoord a f md ax at_), h)) by (rewrite (bind_ok _ _ _ _ _ (get_at _ _ _ Eo)); reflexivity).
    rewrite (bind_ok _ _ _ _ _ G). cbn [h_data h_md]. rewrite (bind_ok _ _ _ _ _ (get_array_see _ _ _ Ea)). rewrite repeat_length, F2, Nat.eqb_refl. apply see_meta_inv in Em. destruct Em as (m & d & Em & _ & _). rewrite (bind_ok _ _ _ _ _ (update_shape_range_at h a md _ m Ea Em)).
    rewrite repeat_or by (try (apply there_mask; auto); unfold missing_of; rewrite map_length; auto). cbn [map snd] in ND. apply NoDup_cons_iff in ND. destruct ND as [N ND].
    assert (V : exists vs2, see_all (see_coord (refresh_at h (a, md))) cs = Some vs2 /\ Forall (fun c => Forall is_there (snd (v_data (fst c))) /\ length (snd (v_data (fst c))) = n) vs2).
    { clear - Evs F. revert vs' Evs F. induction cs as [|c cs IH]; intros vs' Evs F; cbn [see_all] in *; [exists []; auto|]. destruct (see_coord h c) as [[v ax]|] eqn:Ec; try discriminate. destruct (see_all (see_coord h) cs) as [vs2|] eqn:E2; try discriminate. injection Evs as <-. apply Forall_cons_iff in F. destruct F as [F1 F2]. destruct (IH vs2 eq_refl F2) as (vs3 & E3 & F3).
      rewrite E3. apply see_coord_inv in Ec. destruct Ec as (a' & f & md' & at_ & Eo & El). unfold see_coord. rewrite (refresh_obj h (a, md) c _ Eo) by discriminate. apply see_lazy_inv in El. destruct El as (Ea & Em & Et & Ef). unfold see_lazy. rewrite refresh_array, Ea, refresh_dict, Et.
      assert (Fl : see_flat (refresh_at h (a, md)) f (v_data v) = Some (v_flat v)) by (unfold see_flat in *; destruct f; auto; rewrite refresh_array; auto). rewrite Fl.
      assert (Mx : exists mv, see_meta (refresh_at h (a, md)) md' = Some mv). { destruct (Nat.eq_dec md' md) as [->|Nm]; [|rewrite refresh_meta; eauto]. apply see_meta_inv in Em. destruct Em as (m & d & E1 & E5 & _). destruct (refresh_metaobj h (a, md) md m E1) as (m' & E6). unfold see_meta. rewrite E6.
        assert (Ms : m_misc m' = m_misc m). { unfold refresh_at in E6. cbn [fst snd] in E6. destruct (see_array h a); [|congruence]. rewrite E1 in E6. rewrite set_nth_same in E6 by (apply nth_error_Some; congruence). injection E6 as <-. reflexivity. } rewrite Ms, refresh_dict. unfold see_dict. rewrite E5. eauto. }
      destruct Mx as (mv & Mx). rewrite Mx. eexists. split; [reflexivity|]. constructor; auto. }
    destruct V as (vs2 & V1 & V2). change (refresh_all h ((a, md) :: ps')) with (refresh_all (refresh_at h (a, md)) ps'). apply (IH (refresh_at h (a, md)) vs2 ps'); auto.
    eapply see_all_impl; [|exact Eps]. intros x q. unfold coord_pair. destruct (nth_error h x) as [[]|] eqn:Ex; try discriminate. rewrite (refresh_obj h (a, md) x _ Ex) by discriminate. auto.
Qed.
Lemma existsb_repeat n : existsb (fun b : bool => b) (repeat false n) = false.
Proof. induction n; cbn; auto. Qed.
Definition pairs_of (h : heap) (d : loc) : option (list (loc * loc)) :=
  match nth_error h d with Some (OData a _ md cl _) => match nth_error h cl with Some (OList cs) => match see_all (coord_pair h) cs with Some ps => Some (ps ++ [(a, md)]) | None => None end | _ => None end | _ => None end.
Lemma post_process_there h d v ps : see_data h d = Some v -> all_there v -> pairs_of h d = Some ps -> NoDup (map snd ps) -> post_process d h = Ok (tt, refresh_all h ps).
Proof.
  unfold see_data, pairs_of. intros Ev AT Ep ND. destruct (nth_error h d) as [[| | | | | |a f md cl at_]|] eqn:Ed; try discriminate. destruct (see_lazy h a f md at_) as [lv|] eqn:El; try discriminate. destruct (see_coords h cl) as [cv|] eqn:Ec; try discriminate. injection Ev as <-.
  unfold see_coords in Ec. destruct (nth_error h cl) as [[| | | | |cs|]|] eqn:Ecl; try discriminate. destruct (see_all (coord_pair h) cs) as [pc|] eqn:Epc; try discriminate. injection Ep as <-. unfold all_there in AT. cbn [fst snd] in AT. rewrite map_app in ND. cbn [map snd] in ND. apply see_lazy_inv in El. destruct El as (Ea & Em & _ & _).
  apply NoDup_remove in ND. destruct ND as [ND NI]. rewrite app_nil_r in ND, NI.
  unfold post_process. rewrite (bind_ok _ _ _ _ _ (get_at _ _ _ Ed)), (bind_ok _ _ _ _ _ (get_array_see _ _ _ Ea)), (bind_ok _ _ _ _ _ (get_list_at _ _ _ Ecl)). rewrite (bind_ok _ _ _ _ _ (combined_there _ cs h cv pc Ec Epc AT ND)). rewrite existsb_repeat.
  unfold refresh_all at 2. rewrite fold_left_app. cbn [fold_left]. fold (refresh_all h pc).
  assert (E2 : see_meta (refresh_all h pc) md = Some (v_md lv)) by (rewrite ra_meta; auto). apply see_meta_inv in E2. destruct E2 as (m & dd & E2 & _ & _). eapply update_shape_range_at; [rewrite ra_array; exact Ea|exact E2].
Qed.
Lemma pairs_mds h cs : forall mds vs, see_all (md_of h) cs = Some mds -> see_all (see_coord h) cs = Some vs -> exists ps, see_all (coord_pair h) cs = Some ps /\ map snd ps = mds.
Proof.
  induction cs as [|c cs IH]; intros mds vs Em Ev; cbn [see_all] in *; [injection Em as <-; exists []; auto|]. destruct (md_of h c) as [md|] eqn:E1; try discriminate. destruct (see_all (md_of h) cs) as [mds'|]; try discriminate. injection Em as <-. destruct (see_coord h c) as [[v ax]|] eqn:Ec; try discriminate. destruct (see_all (see_coord h) cs) as [vs'|]; try discriminate.
  destruct (IH _ _ eq_refl eq_refl) as (ps & E2 & E3). apply see_coord_inv in Ec. destruct Ec as (a & f & md' & at_ & Eo & _). unfold coord_pair, md_of in *. rewrite Eo in *. injection E1 as <-. rewrite E2. eexists. split; [reflexivity|]. cbn. congruence.
Qed.
Lemma own_pairs h d v : own_metadata h d -> see_data h d = Some v -> exists ps, pairs_of h d = Some ps /\ NoDup (map snd ps).
Proof.
  unfold own_metadata, see_data, pairs_of, see_coords. destruct (nth_error h d) as [[| | | | | |a f md cl at_]|] eqn:Ed; try contradiction. destruct (nth_error h cl) as [[| | | | |cs|]|] eqn:Ecl; try contradiction. destruct (see_all (md_of h) cs) as [mds|] eqn:Em; try contradiction. intros ND.
  destruct (see_lazy h a f md at_); try discriminate. destruct (see_all (see_coord h) cs) as [vs|] eqn:Ev; try discriminate. intros _. destruct (pairs_mds h cs mds vs Em Ev) as (ps & E1 & E2). rewrite E1. eexists. split; [reflexivity|]. rewrite map_app, E2. cbn. apply NoDup_cons_iff in ND. destruct ND as [N ND]. rewrite <- (app_nil_r mds) in ND, N. pose proof (Add_app md mds []) as AD. apply (NoDup_Add AD). auto.
Qed.
