(** Proofs for C49: arithmetic on data in memory. *)
From Coq Require Import String.
From Verif Require Import Base PyStr QBase LonModel HeapModel HeapSpec HeapProofs Heap3Proofs Heap4Proofs MathModel MathSpec MathProofs.
From Coq Require Import List Lia Arith.
Import ListNotations.
Open Scope string_scope. Open Scope list_scope. Open Scope nat_scope. Notation length := List.length.

(** ** Reading changes nothing *)
Definition reads {A} (m : M A) : Prop := forall h a h', m h = Ok (a, h') -> h' = h.
Lemma reads_ret {A} (a : A) : reads (ret a). Proof. intros h b h' E. injection E as _ <-. auto. Qed.
Lemma reads_fail {A} e : reads (@fail A e). Proof. intros h b h' E. discriminate E. Qed.
Lemma reads_bind {A B} (m : M A) (f : A -> M B) : reads m -> (forall a, reads (f a)) -> reads (mbind m f).
Proof. intros H1 H2 h b h' E. apply mbind_ok in E. destruct E as (a & h1 & E1 & E). apply H1 in E1. subst h1. eapply H2; eauto. Qed.
Lemma reads_get l : reads (get l). Proof. intros h o h' E. apply get_ok in E. apply E. Qed.
Lemma reads_get_lazy l : reads (get_lazy l).
Proof. apply reads_bind; [apply reads_get|]. intros []; auto using reads_ret, reads_fail. Qed.
Lemma reads_left l : reads (left_operand l).
Proof. apply reads_bind; [apply reads_get|]. intros []; auto using reads_get_lazy, reads_fail. Qed.
Lemma reads_get_meta l : reads (get_meta l).
Proof. apply reads_bind; [apply reads_get|]. intros []; auto using reads_ret, reads_fail. Qed.
Lemma reads_get_array l : reads (get_array l).
Proof. apply reads_bind; [apply reads_get|]. intros []; auto using reads_fail. apply reads_bind; [apply reads_get|]. intros []; auto using reads_ret, reads_fail. Qed.
Lemma reads_units o : reads (operand_units o).
Proof. destruct o; cbn; try apply reads_ret. apply reads_bind; [apply reads_get_lazy|]. intros x. apply reads_bind; [apply reads_get_meta|]. intros m. apply reads_ret. Qed.
Lemma reads_array o : reads (operand_array o).
Proof. destruct o; cbn; auto using reads_ret, reads_get_array. apply reads_bind; [apply reads_get_lazy|]. intros x. apply reads_get_array. Qed.
Ltac rd E lem := let a := fresh "a" in let hh := fresh "hh" in let E1 := fresh "E" in apply mbind_ok in E; destruct E as (a & hh & E1 & E); apply lem in E1; subst hh.
(** every operation is _math_op_common with some function, name and units *)
Definition by_math (in_place : bool) (d : loc) (m : M loc) : Prop := forall h c h', m h = Ok (c, h') -> exists f name u, math_op f name u in_place d h = Ok (c, h').
Lemma by_unary op units name b d : by_math b d (unary op units name b d).
Proof. intros h c h' E. unfold unary in E. rd E reads_left. rd E reads_get_meta. destruct (units (m_units a0)); [eauto|discriminate E]. Qed.
Lemma by_binary op u o b d : by_math b d (binary op u o b d).
Proof. intros h c h' E. unfold binary in E. rd E reads_left. rd E reads_get_meta. rd E reads_array. eauto. Qed.
Lemma by_add op o b d : by_math b d (add_subtract op o b d).
Proof. intros h c h' E. unfold add_subtract in E. rd E reads_left. rd E reads_get_meta. rd E reads_units. match type of E with (if ?b then _ else _) _ = _ => destruct b end; [|discriminate E]. eapply by_binary; eauto. Qed.
Lemma by_multiply op units o b d : by_math b d (multiply_divide op units o b d).
Proof. intros h c h' E. unfold multiply_divide in E. rd E reads_left. rd E reads_get_meta. rd E reads_units. match type of E with match ?b with _ => _ end _ = _ => destruct b end; [|discriminate E]. eapply by_binary; eauto. Qed.

(** ** What is changed *)
Lemma acts_write (S : loc -> Prop) a new : S a -> acts S (write_array a new) no_locs.
Proof.
  intros H. eapply acts_bind; [apply acts_get_in; auto|]. intros [] S1 H1 O1; try apply acts_fail. cbn [refs In] in O1. eapply acts_bind; [apply acts_get|]. intros [] S2 H2 _; try apply acts_fail. apply acts_update; auto; sub.
Qed.
Lemma acts_data_copy_with (S : loc -> Prop) a d : S a -> S d -> acts S (data_copy (Some a) d) here.
Proof.
  intros Ha H. eapply acts_bind; [apply acts_get_in; auto|]. intros [] S1 H1 O1; try apply acts_fail. eapply acts_bind; [apply (acts_ret S1 a here); unfold here; cbn [In]; intros l [<-|[]]; auto|]. intros a' S2 H2 O2. eapply acts_bind; [apply acts_coords; auto|]. intros cl S3 H3 O3. eapply acts_bind; [apply acts_coordlist_copy|]. intros cl' S4 H4 O4.
  eapply acts_bind; [apply acts_deepcopy_meta|]. intros md' S5 H5 O5. apply acts_new_data; unfold here in *; cbn [In] in *; auto 12.
Qed.
Lemma acts_copy_with (S : loc -> Prop) a d : S a -> S d -> acts S (copy_with a d) here.
Proof.
  intros Ha H. eapply acts_bind; [apply acts_get_in; auto|]. intros [] S1 H1 O1; try (apply acts_data_copy_with; auto). eapply acts_bind; [apply acts_deepcopy_meta|]. intros md' S2 H2 O2. apply acts_new_coord; unfold here in *; cbn [In] in *; auto.
Qed.
Lemma acts_left (S : loc -> Prop) d : S d -> acts S (left_operand d) handle_locs.
Proof. intros H. eapply acts_bind; [apply acts_get|]. intros [] S1 H1 _; try apply acts_fail; apply acts_get_lazy_in; auto. Qed.
Lemma acts_math_op (S : loc -> Prop) f name u b d : S d -> acts S (math_op f name u b d) here.
Proof.
  intros H. eapply acts_bind; [apply acts_left; auto|]. intros x S1 H1 O1. eapply acts_bind; [apply acts_get_array|]. intros sc S2 H2 _. destruct (f sc) as [r|e]; [|apply acts_fail]. eapply acts_bind; [instantiate (1 := here); destruct b|].
  - destruct (shape_eqb _ _); [|apply acts_fail]. eapply acts_bind; [apply acts_write; apply H2, O1; cbn; auto|]. intros _ S3 H3 _. apply acts_ret. unfold here. cbn [In]. intros l [<-|[]]; auto.
  - eapply acts_bind; [apply acts_new_array|]. intros a S3 H3 O3. apply acts_copy_with; auto. apply O3. left. auto.
  - intros c S3 H3 O3. assert (Hc : S3 c) by (apply O3; left; auto). eapply acts_bind; [apply acts_change_meta; auto|]. intros _ S4 H4 _. eapply acts_bind; [apply acts_change_meta; auto|]. intros _ S5 H5 _. apply acts_ret. unfold here. cbn [In]. intros l [<-|[]]; auto.
Qed.
(** only what is found at the left operand is changed, new or in place *)
Theorem math_edit b d m h c h' : by_math b d m -> no_dangling h -> d < length h -> m h = Ok (c, h') -> edit d h h'.
Proof. intros B W L E. destruct (B _ _ _ E) as (f & name & u & E1). eapply (acts_edit (math_op f name u b d) here); eauto. intros S HS. apply acts_math_op. auto. Qed.
(** ** New data shares nothing *)
Lemma data_copy_with_parts (N : loc -> Prop) x d h c h' (O : loc -> Prop) : parts h N O -> N d -> O x -> data_copy (Some x) d h = Ok (c, h') -> exists N' O', parts h' N' O' /\ (forall l, N l -> N' l) /\ (forall l, O l -> O' l) /\ O' c.
Proof.
  intros P Hd Hx E. unfold data_copy in E. step E. apply get_ok in E0. destruct E0 as [-> E0]. destruct a; try discriminate E.
  step E. injection E1 as <- <-.
  step E. destruct (parts_act _ _ _ _ _ _ _ (parts_flip _ _ _ P) (acts_coords N d Hd) E1) as (P2 & U2 & L2). apply parts_flip in P2.
  step E. destruct (own_act _ _ _ _ _ _ _ P2 (fun S => acts_coordlist_copy S _) E2) as (O3 & P3 & M3 & U3).
  step E. destruct (own_act _ _ _ _ _ _ _ P3 (fun S => acts_deepcopy_meta S _) E3) as (O4 & P4 & M4 & U4).
  destruct (parts_act _ _ _ _ _ _ _ P4 (acts_new_data O4 x a1 a0 (M4 _ (M3 _ Hx)) (U4 _ (or_introl eq_refl)) (M4 _ (U3 _ (or_introl eq_refl)))) E) as (P5 & U5 & L5).
  eexists. eexists. split; [exact P5|]. split; [intros l Hl; left; auto|]. split; [intros l Hl; left; auto|]. apply U5. left. auto.
Qed.
Lemma copy_with_parts (N : loc -> Prop) x d h c h' (O : loc -> Prop) : parts h N O -> N d -> O x -> copy_with x d h = Ok (c, h') -> exists N' O', parts h' N' O' /\ (forall l, N l -> N' l) /\ (forall l, O l -> O' l) /\ O' c.
Proof.
  intros P Hd Hx E. unfold copy_with in E. step E. apply get_ok in E0. destruct E0 as [-> E0]. destruct a; try (eapply data_copy_with_parts; eauto; fail).
  step E. destruct (own_act _ _ _ _ _ _ _ P (fun S => acts_deepcopy_meta S _) E1) as (O4 & P4 & M4 & U4).
  destruct (parts_act _ _ _ _ _ _ _ P4 (acts_new_coord O4 x a axis (M4 _ Hx) (U4 _ (or_introl eq_refl))) E) as (P5 & U5 & L5). exists N. eexists. split; [exact P5|]. split; auto. split; [intros l Hl; left; auto|]. apply U5. left. auto.
Qed.
Lemma math_fresh d m : by_math false d m -> fresh_from d m.
Proof.
  intros B h c h' W L E. destruct (math_edit _ _ _ _ _ _ B W L E) as (LE & W' & _). split; auto. split; auto. destruct (B _ _ _ E) as (f & name & u & E1). unfold math_op in E1.
  rd E1 reads_left. rd E1 reads_get_array. destruct (f a0) as [r|]; [|discriminate E1]. step E1. step E0. destruct (own_act _ _ _ _ _ _ _ (parts_start h W) (fun S => acts_new_array S _ _) E2) as (O1 & P1 & M1 & U1).
  destruct (copy_with_parts _ _ _ _ _ _ _ P1 L (U1 _ (or_introl eq_refl)) E0) as (N2 & O2 & P2 & MN & MO & Oc).
  step E1. destruct (parts_act _ _ _ _ _ _ _ P2 (acts_change_meta O2 (fun m => with_units m u) a1 (fun _ => eq_refl) Oc) E3) as (P3 & _ & _). step E1. destruct (parts_act _ _ _ _ _ _ _ P3 (acts_change_meta _ (with_more_history (lit "Performed " ++ name ++ lit " operation")) a1 (fun _ => eq_refl) (or_introl Oc)) E4) as (P4 & _ & _).
  injection E1 as <- <-. split; [apply P4; left; left; auto|]. intros z Hz. eapply parts_separate; [exact P4|apply MN; exact Hz|left; left; auto].
Qed.

(** ** Changing the metadata of data *)
Lemma cm_md_of h l m m' x : nth_error h l = Some (OMeta m) -> md_of (set_nth l (OMeta m') h) x = md_of h x.
Proof.
  intros Em. unfold md_of. destruct (Nat.eq_dec x l) as [->|N]; [rewrite (cm_same h l m m' Em), Em; reflexivity|]. rewrite (cm_other h l m' x) by auto. reflexivity.
Qed.
Lemma cm_lazy h l m m' a f md at_ : nth_error h l = Some (OMeta m) -> md <> l -> see_lazy (set_nth l (OMeta m') h) a f md at_ = see_lazy h a f md at_.
Proof.
  intros Em N. unfold see_lazy, see_flat. rewrite (cm_array h l m m' Em), (cm_meta h l m m' Em), (cm_dict h l m m' Em) by auto. destruct f as [f|]; [rewrite (cm_array h l m m' Em)|]; reflexivity.
Qed.
Lemma cm_obj h l m m' x o : nth_error h l = Some (OMeta m) -> nth_error h x = Some o -> (forall m, o <> OMeta m) -> nth_error (set_nth l (OMeta m') h) x = Some o.
Proof. intros Em Ex N. rewrite (cm_not h l m m'); auto. intros m0. rewrite Ex. intros X. injection X as X. eapply N; eauto. Qed.
Lemma cm_coords h l m m' cs : nth_error h l = Some (OMeta m) -> forall vs mds, see_all (see_coord h) cs = Some vs -> see_all (md_of h) cs = Some mds -> ~ In l mds -> see_all (see_coord (set_nth l (OMeta m') h)) cs = Some vs.
Proof.
  intros Em. induction cs as [|c cs IH]; intros vs mds Ev Emd N; cbn [see_all] in *; [auto|]. destruct (see_coord h c) as [[v ax]|] eqn:Ec; try discriminate Ev. destruct (see_all (see_coord h) cs) as [vs'|]; try discriminate Ev. destruct (md_of h c) as [mdc|] eqn:Emc; try discriminate Emd. destruct (see_all (md_of h) cs) as [mds'|]; try discriminate Emd. injection Emd as <-. cbn [In] in N.
  rewrite (IH vs' mds'); auto. apply see_coord_inv in Ec. destruct Ec as (a & f & md & at_ & Eo & El). unfold md_of in Emc. rewrite Eo in Emc. injection Emc as <-. unfold see_coord. rewrite (cm_obj h l m m' c _ Em Eo) by discriminate. rewrite (cm_lazy h l m m') by auto. rewrite El. exact Ev.
Qed.
Lemma cm_mds h l m m' cs : nth_error h l = Some (OMeta m) -> see_all (md_of (set_nth l (OMeta m') h)) cs = see_all (md_of h) cs.
Proof. intros Em. apply see_all_agree. intros x _. apply cm_md_of with (m := m). auto. Qed.
Definition view_of_meta (m : meta) (d : list (str * str)) : md_view := mkMd (m_name m) (m_std m) (m_long m) (m_shape m) (m_units m) (m_range m) (m_history m) d.
Lemma set_meta_lazy h a f md at_ m m' v : see_lazy h a f md at_ = Some v -> nth_error h md = Some (OMeta m) -> m_misc m' = m_misc m ->
  see_lazy (set_nth md (OMeta m') h) a f md at_ = Some (mkLazy (v_data v) (v_flat v) (view_of_meta m' (v_misc (v_md v))) (v_attrs v)).
Proof.
  intros E Em Mi. apply see_lazy_inv in E. destruct E as (E1 & E2 & E3 & E4). unfold see_lazy. rewrite (cm_array h md m m' Em), E1, (cm_meta_same h md m m' Em Mi), (cm_dict h md m m' Em), E3. apply see_meta_inv in E2. destruct E2 as (m0 & dd & X1 & X2 & X3). rewrite Em in X1. injection X1 as <-. unfold see_dict. rewrite X2. rewrite X3. cbn [v_misc].
  assert (Fl : see_flat (set_nth md (OMeta m') h) f (v_data v) = Some (v_flat v)) by (unfold see_flat in *; destruct f; auto; rewrite (cm_array h md m m' Em); auto). rewrite Fl. reflexivity.
Qed.
Lemma set_meta_data h c md m m' v : see_data h c = Some v -> own_metadata h c -> md_of h c = Some md -> nth_error h md = Some (OMeta m) -> m_misc m' = m_misc m ->
  see_data (set_nth md (OMeta m') h) c = Some (mkLazy (v_data (fst v)) (v_flat (fst v)) (view_of_meta m' (v_misc (v_md (fst v)))) (v_attrs (fst v)), snd v) /\ own_metadata (set_nth md (OMeta m') h) c.
Proof.
  intros E O Md Em Mi. unfold see_data in E. destruct (nth_error h c) as [[| | | | | |a f md' cl at_]|] eqn:Ed; try discriminate E. unfold md_of in Md. rewrite Ed in Md. injection Md as ->. destruct (see_lazy h a f md at_) as [lv|] eqn:El; try discriminate E. destruct (see_coords h cl) as [cv|] eqn:Ec; try discriminate E. injection E as <-. cbn [fst snd].
  unfold see_coords in Ec. destruct (nth_error h cl) as [[| | | | |cs|]|] eqn:Ecl; try discriminate Ec. unfold own_metadata in *. rewrite Ed, Ecl in O. destruct (see_all (md_of h) cs) as [mds|] eqn:Emd; try contradiction. pose proof O as O'. apply NoDup_cons_iff in O'. destruct O' as [N _].
  unfold see_data, see_coords. rewrite (cm_obj h md m m' c _ Em Ed), (cm_obj h md m m' cl _ Em Ecl) by discriminate. rewrite (set_meta_lazy h a f md at_ m m' lv El Em Mi), (cm_coords h md m m' cs Em cv mds Ec Emd N), (cm_mds h md m m' cs Em), Emd. auto.
Qed.
Lemma change_meta_at f h c md m : md_of h c = Some md -> nth_error h md = Some (OMeta m) -> change_meta f c h = Ok (tt, set_nth md (OMeta (f m)) h).
Proof.
  intros Md Em. unfold change_meta, get_lazy. unfold md_of in Md. destruct (nth_error h c) as [[]|] eqn:Ec; try discriminate Md; injection Md as ->; unfold mbind at 1 2; rewrite (get_at _ _ _ Ec); cbn [bind fst snd ret h_md]; rewrite (bind_ok _ _ _ _ _ (get_meta_at _ _ _ Em)); unfold update; assert (B : md < length h) by (apply nth_error_Some; congruence); apply Nat.ltb_lt in B; rewrite B; reflexivity.
Qed.
Lemma set_nth_twice {A} n (x y : A) l : set_nth n x (set_nth n y l) = set_nth n x l.
Proof. revert n. induction l as [|a l IH]; intros [|n]; cbn; auto. rewrite IH. auto. Qed.
(** units and history *)
Definition note (u t : str) (c : loc) : M unit := change_meta (fun m => with_units m u) c ;;; change_meta (with_more_history t) c.
Lemma note_at u t h c md m : md_of h c = Some md -> nth_error h md = Some (OMeta m) -> note u t c h = Ok (tt, set_nth md (OMeta (with_more_history t (with_units m u))) h).
Proof.
  intros Md Em. unfold note. rewrite (bind_ok _ _ _ _ _ (change_meta_at _ h c md m Md Em)). rewrite (change_meta_at _ _ c md (with_units m u)); [rewrite set_nth_twice; reflexivity| |apply cm_same with (m := m); auto]. rewrite (cm_md_of h md m); auto.
Qed.
Lemma noted_view u t m d : view_of_meta (with_more_history t (with_units m u)) d = noted u t (view_of_meta m d).
Proof. unfold with_more_history, noted, view_of_meta. destruct m as [a b s e us g hist i]. cbn. destruct hist; reflexivity. Qed.
Lemma see_meta_view h md m v : nth_error h md = Some (OMeta m) -> see_meta h md = Some v -> v = view_of_meta m (v_misc v).
Proof. intros Em E. apply see_meta_inv in E. destruct E as (m0 & d & X1 & X2 & ->). rewrite Em in X1. injection X1 as <-. reflexivity. Qed.
Lemma md_of_meta h c v : see_left h c = Some v -> exists md m, md_of h c = Some md /\ nth_error h md = Some (OMeta m) /\ v_md v = view_of_meta m (v_misc (v_md v)).
Proof.
  unfold see_left, md_of. destruct (nth_error h c) as [[]|]; try discriminate; intros E; apply see_lazy_inv in E; destruct E as (_ & E & _); pose proof E as E'; apply see_meta_inv in E; destruct E as (m & d & X1 & X2 & X3); exists md, m; (split; [reflexivity|split; [exact X1|eapply see_meta_view; eauto]]).
Qed.
Lemma see_data_left h c v : see_data h c = Some v -> see_left h c = Some (fst v).
Proof. unfold see_data, see_left. destruct (nth_error h c) as [[]|]; try discriminate. destruct (see_lazy h data flat md attrs); try discriminate. destruct (see_coords h coords); try discriminate. intros E. injection E as <-. reflexivity. Qed.
Lemma see_coord_left h c v : see_coord h c = Some v -> see_left h c = Some (fst v).
Proof. unfold see_coord, see_left. destruct (nth_error h c) as [[]|]; try discriminate. destruct (see_lazy h data flat md attrs); try discriminate. intros E. injection E as <-. reflexivity. Qed.
Lemma note_data u t h c v : see_data h c = Some v -> own_metadata h c -> exists h' md, note u t c h = Ok (tt, h') /\ md_of h c = Some md /\
  see_data h' c = Some (mkLazy (v_data (fst v)) (v_flat (fst v)) (noted u t (v_md (fst v))) (v_attrs (fst v)), snd v) /\ (forall h0, prefix h0 h -> length h0 <= md -> prefix h0 h').
Proof.
  intros E O. destruct (md_of_meta h c (fst v) (see_data_left _ _ _ E)) as (md & m & Md & Em & V). exists (set_nth md (OMeta (with_more_history t (with_units m u))) h), md. split; [apply note_at; auto|]. split; auto. split; [|intros; apply prefix_set; auto].
  destruct (set_meta_data h c md m (with_more_history t (with_units m u)) v E O Md Em eq_refl) as [E1 _]. rewrite E1, noted_view, <- V. reflexivity.
Qed.
(** ** copy(data) *)
Lemma data_copy_with_at h d v a' r : see_data h d = Some v -> all_there v -> own_metadata h d -> own_std_names (snd v) -> see_array h a' = Some r -> length (snd r) = length (snd (v_data (fst v))) ->
  exists c h' h2 md, data_copy (Some a') d h = Ok (c, h') /\ see_data h2 d = Some (refreshed (fst v), map refreshed_coord (snd v)) /\ prefix h2 h' /\ length h2 <= md /\ md_of h' c = Some md /\ own_metadata h' c /\
    see_data h' c = Some (mkLazy r ([length (snd r)], snd r) (fresh_md r (units_md data_units (v_md (fst v)))) [], snd (made_from (fun x => x) v)).
Proof.
  intros E A O U Er Lr. pose proof E as E0. unfold see_data in E0. destruct (nth_error h d) as [[| | | | | |a0 f0 md0 cl0 at0]|] eqn:Ed; try discriminate E0. destruct (see_lazy h a0 f0 md0 at0) as [lv|] eqn:El; try discriminate E0. destruct (see_coords h cl0) as [cv|] eqn:Ec; try discriminate E0. injection E0 as <-. cbn [fst snd] in *.
  unfold data_copy. rewrite (bind_ok _ _ _ _ _ (get_at _ _ _ Ed)). assert (E1 : ret a' h = Ok (a', h)) by reflexivity. rewrite (bind_ok _ _ _ _ _ E1).
  destruct (coords_at h d (lv, cv) E A O) as (h2 & a & f & md & cl & at_ & cs & mds & Ed1 & E2 & L2 & S2 & D2 & Ed2 & Ecl2 & Ev2 & Ea2 & Em2 & Emd2). rewrite Ed in Ed1. injection Ed1 as <- <- <- <- <-. rewrite (bind_ok _ _ _ _ _ E2). cbn [fst snd] in *.
  assert (U2 : own_std_names (map (pre_coord (fun x => x)) (map refreshed_coord cv))) by (rewrite map_map; apply own_std_map; auto).
  destruct (copy_into_at cs h2 [] [] [] (map refreshed_coord cv) eq_refl eq_refl (NoDup_nil _) Ev2 U2 (length h2) (le_n _) (Forall_nil _)) as (out & mds' & h3 & E3 & P3 & V3 & M3 & N3 & F3). cbn [app] in V3.
  assert (E3' : coordlist_copy cl0 h2 = Ok (length h3, h3 ++ [OList out])) by (unfold coordlist_copy; rewrite (bind_ok _ _ _ _ _ (get_list_at _ _ _ Ecl2)), (bind_ok _ _ _ _ _ E3); reflexivity). rewrite (bind_ok _ _ _ _ _ E3'). set (h4 := h3 ++ [OList out]) in *. assert (P4 : prefix h3 h4) by apply prefix_app. assert (P24 : prefix h2 h4) by (eapply prefix_trans; eauto).
  destruct (deepcopy_at h4 md0 _ (p_meta _ _ _ _ P24 Em2)) as (md' & h5 & E5 & P5 & V5 & L5). rewrite (bind_ok _ _ _ _ _ E5). assert (P25 : prefix h2 h5) by (eapply prefix_trans; eauto). assert (P35 : prefix h3 h5) by (eapply prefix_trans; eauto).
  assert (V3' : see_all (see_coord h5) out = Some (map (pre_coord (fun x => x)) (map refreshed_coord cv))) by (eapply see_all_impl; [|exact V3]; intros; eapply p_coord; eauto). assert (M3' : see_all (md_of h5) out = Some mds') by (eapply see_all_impl; [|exact M3]; intros; eapply p_md_of; eauto).
  pose proof (mds_bound h3 out _ _ V3 M3) as B3. pose proof (prefix_length _ _ P4) as L4. pose proof (prefix_length _ _ P24) as L24.
  destruct (new_data_at h2 h5 a' md' (length h3) out r (fresh_md (v_data lv) (v_md lv)) (map (pre_coord (fun x => x)) (map refreshed_coord cv)) mds' P25) as (c & h6 & E6 & P6 & V6 & O6 & Md6); auto.
  - eapply p_array; [exact P25|]. rewrite S2. exact Er.
  - eapply p_nth; [exact P5|]. apply nth_last.
  - constructor; auto. intros I0. rewrite Forall_forall in B3. apply B3 in I0. lia.
  - constructor; [lia|exact F3].
  - rewrite map_map. apply Forall_map. unfold all_there in A. cbn [fst snd] in A. eapply Forall_impl; [|exact A]. intros [w ax] [W1 W2]. cbn [fst snd pre_coord pre v_data refreshed_coord refreshed] in *. split; auto. congruence.
  - exists c, h6, h2, md'. split; [exact E6|]. split; [exact D2|]. split; [exact P6|]. split; [lia|]. split; [exact Md6|]. split; [exact O6|]. rewrite V6. rewrite map_pre. reflexivity.
Qed.
Lemma left_at h d v : see_left h d = Some v -> exists x, left_operand d h = Ok (x, h) /\ see_array h (h_data x) = Some (v_data v) /\ see_meta h (h_md x) = Some (v_md v) /\ get_lazy d h = Ok (x, h).
Proof.
  unfold see_left, left_operand, get_lazy. destruct (nth_error h d) as [[]|] eqn:E; try discriminate; intros El; apply see_lazy_inv in El; destruct El as (E1 & E2 & _); unfold mbind; rewrite (get_at _ _ _ E); cbn [bind fst snd]; rewrite ?(get_at _ _ _ E); cbn [bind fst snd]; eexists; (split; [reflexivity|]); cbn [h_data h_md]; auto.
Qed.
Lemma mbind_ext {A B} (m : M A) (f g : A -> M B) h : (forall a h1, f a h1 = g a h1) -> mbind m f h = mbind m g h.
Proof. intros H. unfold mbind. destruct (m h) as [[a h1]|]; cbn; auto. Qed.
(** units and history come last *)
Lemma math_op_note f name u b d h x v r : left_operand d h = Ok (x, h) -> see_array h (h_data x) = Some v -> f v = Ok r ->
  math_op f name u b d h = (c <~ (if b then (if shape_eqb (fst r) (fst v) then write_array (h_data x) (snd r) ;;; ret d else fail ValueError) else a <~ new_array (fst r) (snd r) ;; copy_with a d) ;; note u (line_of name) c ;;; ret c) h.
Proof.
  intros E1 E2 E3. unfold math_op. rewrite (bind_ok _ _ _ _ _ E1), (bind_ok _ _ _ _ _ (get_array_see _ _ _ E2)), E3. apply mbind_ext. intros c h1. unfold note, mbind. destruct (change_meta _ c h1) as [[[] h3]|]; reflexivity.
Qed.
Theorem math_op_new f name u h d v r : see_data h d = Some v -> all_there v -> own_metadata h d -> own_std_names (snd v) -> f (v_data (fst v)) = Ok r -> length (snd r) = length (snd (v_data (fst v))) ->
  exists c h', math_op f name u false d h = Ok (c, h') /\ see_data h' d = Some (refreshed (fst v), map refreshed_coord (snd v)) /\ see_data h' c = Some (outcome r u (line_of name) v).
Proof.
  intros E A O U Ef Lr. destruct (left_at h d _ (see_data_left _ _ _ E)) as (x & E1 & E2 & _). rewrite (math_op_note f name u false d h x _ r E1 E2 Ef).
  destruct r as [rs rc]. cbn [fst snd] in *. destruct (new_array_at h rs rc) as (a' & h1 & En & P1 & V1).
  destruct (data_copy_with_at h1 d v a' (rs, rc) (p_data _ _ _ _ P1 E) A (own_prefix _ _ _ P1 O) U V1 Lr) as (c & h3 & h2 & md & E3 & D2 & P3 & L3 & Md3 & O3 & V3).
  assert (E4 : copy_with a' d h1 = Ok (c, h3)). { unfold copy_with. pose proof E as E'. unfold see_data in E'. destruct (nth_error h d) as [[| | | | | |a f0 md' cl at_]|] eqn:Ed; try discriminate E'. rewrite (bind_ok _ _ _ _ _ (get_at _ _ _ (p_nth _ _ _ _ P1 Ed))). exact E3. }
  assert (E5 : (a <~ new_array rs rc ;; copy_with a d) h = Ok (c, h3)) by (rewrite (bind_ok _ _ _ _ _ En); exact E4). rewrite (bind_ok _ _ _ _ _ E5).
  destruct (note_data u (line_of name) h3 c _ V3 O3) as (h4 & md4 & N4 & M4 & V4 & P4). rewrite (bind_ok _ _ _ _ _ N4). rewrite Md3 in M4. injection M4 as <-. exists c, h4. split; [reflexivity|]. split; [eapply p_data; [apply P4; [exact P3|exact L3]|exact D2]|]. rewrite V4. reflexivity.
Qed.
(** a coordinate as left operand *)
Theorem math_op_new_coord f name u h d v ax r : see_coord h d = Some (v, ax) -> f (v_data v) = Ok r ->
  exists c h', math_op f name u false d h = Ok (c, h') /\ prefix h h' /\ see_coord h' c = Some (new_lazy r u (line_of name) (v_md v), upper ax).
Proof.
  intros E Ef. destruct (left_at h d _ (see_coord_left _ _ _ E)) as (x & E1 & E2 & _). rewrite (math_op_note f name u false d h x _ r E1 E2 Ef). destruct r as [rs rc]. cbn [fst snd] in *. destruct (new_array_at h rs rc) as (a' & h1 & En & P1 & V1).
  pose proof E as E'. apply see_coord_inv in E'. destruct E' as (a & fl & md & at_ & Eo & El). apply see_lazy_inv in El. destruct El as (_ & Em & _). destruct (deepcopy_at h1 md _ (p_meta _ _ _ _ P1 Em)) as (md' & h2 & E3 & P2 & V2 & L2).
  destruct (new_coord_at h1 h2 a' md' ax (rs, rc) (v_md v) P2 L2 (p_array _ _ _ _ P2 V1) V2) as (c & h3 & E4 & P3 & V3 & Md3).
  assert (E5 : (a <~ new_array rs rc ;; copy_with a d) h = Ok (c, h3)). { rewrite (bind_ok _ _ _ _ _ En). unfold copy_with. rewrite (bind_ok _ _ _ _ _ (get_at _ _ _ (p_nth _ _ _ _ P1 Eo))), (bind_ok _ _ _ _ _ E3). exact E4. } rewrite (bind_ok _ _ _ _ _ E5).
  destruct (md_of_meta h3 c _ (see_coord_left _ _ _ V3)) as (md3 & m & M3 & Em3 & Vm). rewrite Md3 in M3. injection M3 as <-. cbn [fst] in Vm. rewrite (bind_ok _ _ _ _ _ (note_at u (line_of name) h3 c md' m Md3 Em3)).
  eexists. eexists. split; [reflexivity|]. pose proof (prefix_length _ _ P1) as L1. split; [apply prefix_set; [eapply prefix_trans; eauto|lia]|].
  pose proof V3 as V3'. apply see_coord_inv in V3'. destruct V3' as (a3 & f3 & md3' & at3 & Eo3 & El3). unfold md_of in Md3. rewrite Eo3 in Md3. injection Md3 as ->. unfold see_coord. rewrite (cm_obj h3 md' m _ c _ Em3 Eo3) by discriminate. rewrite (set_meta_lazy h3 a3 f3 md' at3 m (with_more_history (line_of name) (with_units m u)) _ El3 Em3 eq_refl). rewrite noted_view, <- Vm. reflexivity.
Qed.

(** ** In place *)
Definition overwrite (index : list nat) (new cells : list cell) : list cell := fold_left (fun cells ic => set_nth (fst ic) (snd ic) cells) (combine index new) cells.
Lemma overwrite_length index : forall new cells, length (overwrite index new cells) = length cells.
Proof. unfold overwrite. induction index as [|i index IH]; intros [|c new] cells; cbn [combine fold_left]; auto. rewrite IH. apply set_nth_length. Qed.
Lemma overwrite_other index : forall new cells j, ~ In j index -> nth_error (overwrite index new cells) j = nth_error cells j.
Proof. unfold overwrite. induction index as [|i index IH]; intros [|c new] cells j N; cbn [combine fold_left]; auto. cbn [In] in N. rewrite IH by tauto. cbn [fst snd]. apply set_nth_other. intros ->. apply N. auto. Qed.
Lemma overwrite_read index : forall new cells, NoDup index -> Forall (fun j => j < length cells) index -> length new = length index -> read_cells (overwrite index new cells) index = new.
Proof.
  induction index as [|i index IH]; intros [|c new] cells ND F L; cbn [length] in *; try lia; [reflexivity|]. apply NoDup_cons_iff in ND. destruct ND as [N ND]. apply Forall_cons_iff in F. destruct F as [Fi F]. unfold read_cells. cbn [map]. change (overwrite (i :: index) (c :: new) cells) with (overwrite index new (set_nth i c cells)). f_equal.
  - apply nth_error_nth. rewrite overwrite_other by auto. apply set_nth_same. auto.
  - apply IH; auto. eapply Forall_impl; [|exact F]. intros j Hj. cbn beta in *. rewrite set_nth_length. auto.
Qed.
Section ChangeBuf.
  Variables (h : heap) (b : loc) (c c' : list cell).
  Hypothesis Eb : nth_error h b = Some (OBuf c).
  Let h' := set_nth b (OBuf c') h.
  Lemma cb_same : nth_error h' b = Some (OBuf c'). Proof. apply set_nth_same. apply nth_error_Some. congruence. Qed.
  Lemma cb_obj x o : nth_error h x = Some o -> (forall c, o <> OBuf c) -> nth_error h' x = Some o.
  Proof. intros Ex N. unfold h'. rewrite set_nth_other; auto. intros ->. rewrite Eb in Ex. injection Ex as <-. eapply N; eauto. Qed.
  Lemma cb_dict x : see_dict h' x = see_dict h x.
  Proof. unfold see_dict. destruct (Nat.eq_dec x b) as [->|N]; [rewrite cb_same, Eb; reflexivity|]. unfold h'. rewrite set_nth_other by auto. reflexivity. Qed.
  Lemma cb_meta x : see_meta h' x = see_meta h x.
  Proof. unfold see_meta. destruct (Nat.eq_dec x b) as [->|N]; [rewrite cb_same, Eb; reflexivity|]. replace (nth_error h' x) with (nth_error h x) by (unfold h'; rewrite set_nth_other by auto; reflexivity). destruct (nth_error h x) as [[]|]; auto. rewrite cb_dict. reflexivity. Qed.
  Lemma cb_array x s i : nth_error h x = Some (OArr s b i) -> see_array h' x = Some (s, read_cells c' i).
  Proof. intros Ex. unfold see_array. rewrite (cb_obj x _ Ex) by discriminate. rewrite cb_same. reflexivity. Qed.
  Lemma cb_some x v : see_array h x = Some v -> exists w, see_array h' x = Some w.
  Proof.
    unfold see_array. destruct (nth_error h x) as [[]|] eqn:Ex; try discriminate. rewrite (cb_obj x _ Ex) by discriminate. destruct (Nat.eq_dec buf b) as [->|N]; [rewrite cb_same; eauto|]. unfold h'. rewrite set_nth_other by auto. eauto.
  Qed.
End ChangeBuf.
Lemma write_array_at h a s b i cells new : nth_error h a = Some (OArr s b i) -> nth_error h b = Some (OBuf cells) -> write_array a new h = Ok (tt, set_nth b (OBuf (overwrite i new cells)) h).
Proof.
  intros Ea Eb. unfold write_array. rewrite (bind_ok _ _ _ _ _ (get_at _ _ _ Ea)), (bind_ok _ _ _ _ _ (get_at _ _ _ Eb)). unfold update. assert (B : b < length h) by (apply nth_error_Some; congruence). apply Nat.ltb_lt in B. rewrite B. reflexivity.
Qed.
Lemma left_inv h d v : see_left h d = Some v -> exists a f md at_, see_lazy h a f md at_ = Some v /\ array_of h d = Some a /\ md_of h d = Some md /\
  ((exists ax, nth_error h d = Some (OCoord a f md ax at_)) \/ (exists cl, nth_error h d = Some (OData a f md cl at_))).
Proof. unfold see_left, array_of, md_of. destruct (nth_error h d) as [[]|]; try discriminate; intros E; do 4 eexists; (split; [exact E|]); eauto 10. Qed.
Theorem math_op_in_place f name u h d v r : see_left h d = Some v -> own_places h d -> f (v_data v) = Ok r -> fst r = fst (v_data v) -> length (snd r) = length (snd (v_data v)) ->
  exists h', math_op f name u true d h = Ok (d, h') /\ in_place_effect r u (line_of name) d h h' v.
Proof.
  intros E (a & s & b & i & cells & Ha & Ea & Eb & ND & F) Ef S Lr. destruct (left_at h d _ E) as (x & E1 & E2 & E2m & E2l). rewrite (math_op_note f name u true d h x _ r E1 E2 Ef). assert (SE : shape_eqb (fst r) (fst (v_data v)) = true) by (apply shape_eqb_eq; auto). rewrite SE.
  destruct (left_inv h d v E) as (a0 & fl & md & at_ & El & Ha0 & Hm & Ho). rewrite Ha in Ha0. injection Ha0 as <-.
  assert (Xa : h_data x = a). { destruct Ho as [(ax & Eo)|(cl & Eo)]; unfold get_lazy in E2l; rewrite (bind_ok _ _ _ _ _ (get_at _ _ _ Eo)) in E2l; injection E2l as <-; reflexivity. } rewrite Xa in *. clear Xa.
  assert (Sa : see_array h a = Some (s, read_cells cells i)) by (unfold see_array; rewrite Ea, Eb; reflexivity). rewrite Sa in E2. injection E2 as E2. rewrite <- E2 in *. cbn [fst snd] in *. unfold read_cells in Lr. rewrite map_length in Lr.
  set (h1 := set_nth b (OBuf (overwrite i (snd r) cells)) h). assert (W : (write_array a (snd r) ;;; ret d) h = Ok (d, h1)) by (rewrite (bind_ok _ _ _ _ _ (write_array_at h a s b i cells (snd r) Ea Eb)); reflexivity). rewrite (bind_ok _ _ _ _ _ W). clear W.
  assert (Sa1 : see_array h1 a = Some r). { unfold h1. rewrite (cb_array h b cells _ Eb a s i Ea). rewrite overwrite_read by auto. destruct r. cbn in *. congruence. }
  apply see_lazy_inv in El. destruct El as (_ & Em & Et & Ef'). pose proof (cb_meta h b cells (overwrite i (snd r) cells) Eb md) as Em1. fold h1 in Em1. rewrite Em in Em1. pose proof (cb_dict h b cells (overwrite i (snd r) cells) Eb at_) as Et1. fold h1 in Et1. rewrite Et in Et1.
  assert (Fl : exists w, see_flat h1 fl r = Some w). { unfold see_flat in *. destruct fl as [fl|]; eauto. eapply cb_some; eauto. } destruct Fl as (w & Fl).
  assert (El1 : see_lazy h1 a fl md at_ = Some (mkLazy r w (v_md v) (v_attrs v))) by (unfold see_lazy; rewrite Sa1, Em1, Et1, Fl; reflexivity).
  pose proof Em as Em'. apply see_meta_inv in Em'. destruct Em' as (m & dd & Xm & _ & _). assert (Xm1 : nth_error h1 md = Some (OMeta m)) by (apply (cb_obj h b cells); auto; discriminate).
  assert (Md1 : md_of h1 d = Some md). { unfold md_of. destruct Ho as [(ax & Eo)|(cl & Eo)]; unfold h1; rewrite (cb_obj h b cells _ Eb d _ Eo) by discriminate; reflexivity. }
  rewrite (bind_ok _ _ _ _ _ (note_at u (line_of name) h1 d md m Md1 Xm1)). eexists. split; [reflexivity|]. pose proof (see_meta_view h1 md m _ Xm1 Em1) as Vm. split.
  - exists (mkLazy r w (noted u (line_of name) (v_md v)) (v_attrs v)). split; [|split; [reflexivity|split; [reflexivity|split; [reflexivity|]]]].
    + pose proof (set_meta_lazy h1 a fl md at_ m (with_more_history (line_of name) (with_units m u)) _ El1 Xm1 eq_refl) as G. cbn [v_data v_flat v_md v_attrs] in G. rewrite noted_view, <- Vm in G.
      unfold see_left. destruct Ho as [(ax & Eo)|(cl & Eo)]; pose proof (cb_obj h b cells (overwrite i (snd r) cells) Eb d _ Eo) as Eo1; fold h1 in Eo1; rewrite (cm_obj h1 md m _ d _ Xm1 (Eo1 ltac:(discriminate))) by discriminate; exact G.
    + intros FV. unfold flat_right. cbn [v_flat v_data]. destruct fl as [fl|]; [|cbn in Fl; injection Fl as <-; reflexivity]. cbn [see_flat] in Fl.
      assert (X : exists shape b' index, nth_error h a = Some (OArr shape b' index) /\ nth_error h fl = Some (OArr [length index] b' index)) by (destruct Ho as [(ax & Eo)|(cl & Eo)]; [exact (FV d _ a fl md at_ ax 0 Eo (or_introl eq_refl))|exact (FV d _ a fl md at_ [] cl Eo (or_intror eq_refl))]).
      destruct X as (s' & b' & i' & X1 & X2). rewrite Ea in X1. injection X1 as <- <- <-. unfold h1 in Fl. rewrite (cb_array h b cells _ Eb fl _ i X2) in Fl. injection Fl as <-. rewrite overwrite_read by auto. rewrite Lr. reflexivity.
  - intros y b' md' Hb Hmd Nb Nm. apply agree_looks. intros l R. unfold buffer_of in Hb. rewrite Ha, Ea in Hb. injection Hb as <-. rewrite Hm in Hmd. injection Hmd as <-. rewrite set_nth_other by (intros ->; contradiction). unfold h1. rewrite set_nth_other by (intros ->; contradiction). reflexivity.
Qed.

(** ** The operations *)
Lemma operand_at h o u a : see_operand h o = Some (u, a) -> operand_units o h = Ok (u, h) /\ operand_array o h = Ok (a, h).
Proof.
  destruct o as [c|l|l|cu l]; cbn [see_operand operand_units operand_array].
  - intros E. injection E as <- <-. auto.
  - destruct (see_array h l) eqn:El; try discriminate. intros E. injection E as <- <-. split; [reflexivity|apply get_array_see; auto].
  - destruct (see_left h l) as [v|] eqn:El; try discriminate. intros E. injection E as <- <-. destruct (left_at h l v El) as (x & _ & E2 & E3 & E4). rewrite (bind_ok _ _ _ _ _ E4). apply see_meta_inv in E3. destruct E3 as (m & d & X1 & _ & ->). rewrite (bind_ok _ _ _ _ _ (get_meta_at _ _ _ X1)). split; [reflexivity|]. rewrite (bind_ok _ _ _ _ _ E4). apply get_array_see. auto.
  - destruct (see_array h l) eqn:El; try discriminate. intros E. injection E as <- <-. split; [reflexivity|apply get_array_see; auto].
Qed.
Lemma left_meta h d v : see_left h d = Some v -> exists x m, left_operand d h = Ok (x, h) /\ get_meta (h_md x) h = Ok (m, h) /\ m_units m = v_units (v_md v) /\ m_shape m = v_shape (v_md v).
Proof. intros E. destruct (left_at h d v E) as (x & E1 & _ & E3 & _). apply see_meta_inv in E3. destruct E3 as (m & dd & X1 & _ & X3). exists x, m. split; auto. split; [apply get_meta_at; auto|]. rewrite X3. auto. Qed.
Lemma binary_at op u o b h d v ou oa : see_left h d = Some v -> see_operand h o = Some (ou, oa) -> binary op u o b d h = math_op (elementwise op (v_shape (v_md v)) oa) (lit "unary_func") u b d h.
Proof.
  intros E Eo. destruct (left_meta h d v E) as (x & m & E1 & E2 & _ & E3). destruct (operand_at h o ou oa Eo) as [_ E4]. unfold binary. rewrite (bind_ok _ _ _ _ _ E1), (bind_ok _ _ _ _ _ E2), (bind_ok _ _ _ _ _ E4), E3. reflexivity.
Qed.
Lemma add_at op o b h d v ou oa : see_left h d = Some v -> see_operand h o = Some (ou, oa) -> add_subtract op o b d h =
  match sum_units (v_units (v_md v)) ou with Ok u => math_op (elementwise op (v_shape (v_md v)) oa) (lit "unary_func") u b d h | Raises e => Raises e end.
Proof.
  intros E Eo. destruct (left_meta h d v E) as (x & m & E1 & E2 & E3 & _). destruct (operand_at h o ou oa Eo) as [E4 _]. unfold add_subtract. rewrite (bind_ok _ _ _ _ _ E1), (bind_ok _ _ _ _ _ E2), (bind_ok _ _ _ _ _ E4), E3. unfold sum_units. destruct ou as [ou|]; [destruct (str_eqb (v_units (v_md v)) ou); [|reflexivity]|]; apply binary_at with (ou := Some ou) || apply binary_at with (ou := None); auto.
Qed.
Lemma multiply_at op units o b h d v ou oa : see_left h d = Some v -> see_operand h o = Some (ou, oa) -> multiply_divide op units o b d h =
  match product_units units (v_units (v_md v)) ou with Ok u => math_op (elementwise op (v_shape (v_md v)) oa) (lit "unary_func") u b d h | Raises e => Raises e end.
Proof.
  intros E Eo. destruct (left_meta h d v E) as (x & m & E1 & E2 & E3 & _). destruct (operand_at h o ou oa Eo) as [E4 _]. unfold multiply_divide. rewrite (bind_ok _ _ _ _ _ E1), (bind_ok _ _ _ _ _ E2), (bind_ok _ _ _ _ _ E4), E3. unfold product_units. destruct (units _ _); [|reflexivity]. eapply binary_at; eauto.
Qed.
Lemma unary_at op units name b h d v : see_left h d = Some v -> unary op units name b d h =
  match units (v_units (v_md v)) with Ok u => math_op (fun sc => Ok (fst sc, map op (snd sc))) name u b d h | Raises e => Raises e end.
Proof. intros E. destruct (left_meta h d v E) as (x & m & E1 & E2 & E3 & _). unfold unary. rewrite (bind_ok _ _ _ _ _ E1), (bind_ok _ _ _ _ _ E2), E3. destruct (units _); reflexivity. Qed.
(** the elementwise function refuses: nothing else is done *)
Lemma math_op_raises f name u b d h v e : see_left h d = Some v -> f (v_data v) = Raises e -> math_op f name u b d h = Raises e.
Proof. intros E Ef. destruct (left_at h d v E) as (x & E1 & E2 & _). unfold math_op. rewrite (bind_ok _ _ _ _ _ E1), (bind_ok _ _ _ _ _ (get_array_see _ _ _ E2)), Ef. reflexivity. Qed.
Lemma two_at op units m o b h d v ou oa : two_operands op units m -> see_left h d = Some v -> see_operand h o = Some (ou, oa) -> m o b d h =
  match units (v_units (v_md v)) ou with Ok u => math_op (elementwise op (v_shape (v_md v)) oa) (lit "unary_func") u b d h | Raises e => Raises e end.
Proof. intros T E Eo. destruct T; [apply add_at|apply multiply_at]; auto. Qed.
Lemma by_two op units m o b d : two_operands op units m -> by_math b d (m o b d).
Proof. intros T. destruct T; [apply by_add|apply by_multiply]. Qed.

Lemma refreshed_date v : up_to_date_lazy v -> refreshed v = v.
Proof. intros [H1 H2]. destruct v as [data fl m at_]. unfold refreshed. cbn [v_data v_flat v_md v_attrs] in *. rewrite fresh_settled by auto. reflexivity. Qed.
Lemma refreshed_all_date v : up_to_date v -> (refreshed (fst v), map refreshed_coord (snd v)) = v.
Proof.
  intros [H1 H2]. destruct v as [lv cv]. cbn [fst snd] in *. rewrite refreshed_date by auto. f_equal. induction H2 as [|[w ax] cv H F IH]; [reflexivity|]. cbn [map]. rewrite IH. unfold refreshed_coord. cbn [fst snd] in *. rewrite refreshed_date by auto. reflexivity.
Qed.
Lemma combined_length op a b r : whole a -> combined op a b r -> length (snd r) = length (snd a).
Proof. intros W (S & Wr & _). unfold whole in *. congruence. Qed.
Theorem two_new op units m o h d v ou oa u : two_operands op units m -> see_data h d = Some v -> all_there v -> own_metadata h d -> own_std_names (snd v) ->
  see_operand h o = Some (ou, oa) -> units (v_units (v_md (fst v))) ou = Ok u -> v_shape (v_md (fst v)) = fst (v_data (fst v)) -> whole (v_data (fst v)) -> whole oa -> fits (fst oa) (fst (v_data (fst v))) ->
  exists c h' r, m o false d h = Ok (c, h') /\ combined op (v_data (fst v)) oa r /\ see_data h' d = Some (refreshed (fst v), map refreshed_coord (snd v)) /\ see_data h' c = Some (outcome r u (line_of (lit "unary_func")) v).
Proof.
  intros T E A O U Eo Eu Sh Wa Wo F. destruct (elementwise_ok op (v_shape (v_md (fst v))) oa (v_data (fst v)) Wa Wo F Sh) as (r & Er & Cr). pose proof (combined_length _ _ _ _ Wa Cr) as L.
  destruct (math_op_new (elementwise op (v_shape (v_md (fst v))) oa) (lit "unary_func") u h d v r E A O U Er L) as (c & h' & E1 & E2 & E3). exists c, h', r. rewrite (two_at op units m o false h d (fst v) ou oa T (see_data_left _ _ _ E) Eo), Eu. auto.
Qed.
Theorem two_new_coord op units m o h d v ax ou oa u : two_operands op units m -> see_coord h d = Some (v, ax) ->
  see_operand h o = Some (ou, oa) -> units (v_units (v_md v)) ou = Ok u -> v_shape (v_md v) = fst (v_data v) -> whole (v_data v) -> whole oa -> fits (fst oa) (fst (v_data v)) ->
  exists c h' r, m o false d h = Ok (c, h') /\ combined op (v_data v) oa r /\ see_coord h' d = Some (v, ax) /\ see_coord h' c = Some (new_lazy r u (line_of (lit "unary_func")) (v_md v), upper ax).
Proof.
  intros T E Eo Eu Sh Wa Wo F. destruct (elementwise_ok op (v_shape (v_md v)) oa (v_data v) Wa Wo F Sh) as (r & Er & Cr).
  destruct (math_op_new_coord (elementwise op (v_shape (v_md v)) oa) (lit "unary_func") u h d v ax r E Er) as (c & h' & E1 & P & E3). exists c, h', r. rewrite (two_at op units m o false h d v ou oa T (see_coord_left _ _ _ E) Eo), Eu. split; auto. split; auto. split; auto. eapply p_coord; eauto.
Qed.
Theorem two_in_place op units m o h d v ou oa u : two_operands op units m -> see_left h d = Some v -> own_places h d ->
  see_operand h o = Some (ou, oa) -> units (v_units (v_md v)) ou = Ok u -> v_shape (v_md v) = fst (v_data v) -> whole (v_data v) -> whole oa -> fits (fst oa) (fst (v_data v)) ->
  exists h' r, m o true d h = Ok (d, h') /\ combined op (v_data v) oa r /\ in_place_effect r u (line_of (lit "unary_func")) d h h' v.
Proof.
  intros T E Ow Eo Eu Sh Wa Wo F. destruct (elementwise_ok op (v_shape (v_md v)) oa (v_data v) Wa Wo F Sh) as (r & Er & Cr). pose proof (combined_length _ _ _ _ Wa Cr) as L.
  destruct (math_op_in_place (elementwise op (v_shape (v_md v)) oa) (lit "unary_func") u h d v r E Ow Er (proj1 Cr) L) as (h' & E1 & E2). exists h', r. rewrite (two_at op units m o true h d v ou oa T E Eo), Eu. auto.
Qed.
Theorem two_refused op units m o b h d v ou oa : two_operands op units m -> see_left h d = Some v -> see_operand h o = Some (ou, oa) ->
  (forall e, units (v_units (v_md v)) ou = Raises e -> m o b d h = Raises e) /\
  (forall u, units (v_units (v_md v)) ou = Ok u -> v_shape (v_md v) = fst (v_data v) -> ~ fits (fst oa) (fst (v_data v)) -> m o b d h = Raises ValueError).
Proof.
  intros T E Eo. pose proof (two_at op units m o b h d v ou oa T E Eo) as X. split.
  - intros e Ee. rewrite X, Ee. reflexivity.
  - intros u Eu Sh N. rewrite X, Eu. eapply math_op_raises; eauto. rewrite Sh. apply elementwise_refused. auto.
Qed.
Lemma mapped_ok op (a : list nat * list cell) : mapped op a (fst a, map op (snd a)).
Proof. split; [reflexivity|]. cbn [snd]. split; [apply map_length|]. intros i x E. rewrite nth_error_map, E. reflexivity. Qed.
Theorem one_new op units name m h d v u : one_operand op units name m -> see_data h d = Some v -> all_there v -> own_metadata h d -> own_std_names (snd v) -> units (v_units (v_md (fst v))) = Ok u ->
  exists c h' r, m false d h = Ok (c, h') /\ mapped op (v_data (fst v)) r /\ see_data h' d = Some (refreshed (fst v), map refreshed_coord (snd v)) /\ see_data h' c = Some (outcome r u (line_of name) v).
Proof.
  intros T E A O U Eu. destruct T as [op units name]. destruct (math_op_new (fun sc => Ok (fst sc, map op (snd sc))) name u h d v _ E A O U eq_refl) as (c & h' & E1 & E2 & E3); [apply map_length|]. do 3 eexists. rewrite (unary_at op units name false h d (fst v) (see_data_left _ _ _ E)), Eu. split; [exact E1|]. split; [apply mapped_ok|]. auto.
Qed.
Theorem one_in_place op units name m h d v u : one_operand op units name m -> see_left h d = Some v -> own_places h d -> units (v_units (v_md v)) = Ok u ->
  exists h' r, m true d h = Ok (d, h') /\ mapped op (v_data v) r /\ in_place_effect r u (line_of name) d h h' v.
Proof.
  intros T E Ow Eu. destruct T as [op units name]. destruct (math_op_in_place (fun sc => Ok (fst sc, map op (snd sc))) name u h d v _ E Ow eq_refl eq_refl) as (h' & E1 & E2); [apply map_length|]. do 2 eexists. rewrite (unary_at op units name true h d v E), Eu. split; [exact E1|]. split; [apply mapped_ok|]. auto.
Qed.
Theorem operations_change op units m o b d op1 units1 name1 m1 h c h' : two_operands op units m -> one_operand op1 units1 name1 m1 -> no_dangling h -> d < length h ->
  m o b d h = Ok (c, h') \/ m1 b d h = Ok (c, h') -> edit d h h' /\ forall z, z < length h -> separate h d z -> looks_the_same h h' z.
Proof.
  intros T T1 W B H. assert (Ed : edit d h h'). { destruct H as [H|H]; [eapply (math_edit b d (m o b d)); eauto; eapply by_two; eauto|]. destruct T1. eapply (math_edit b d (unary op0 units0 name b d)); eauto. apply by_unary. } split; auto. intros z Hz S. apply agree_looks. eapply edit_agree; eauto.
Qed.
Theorem operations_fresh op units m o d op1 units1 name1 m1 : two_operands op units m -> one_operand op1 units1 name1 m1 -> fresh_from d (m o false d) /\ fresh_from d (m1 false d).
Proof. intros T T1. split; [apply math_fresh; eapply by_two; eauto|]. destruct T1. apply math_fresh, by_unary. Qed.
(** metadata after an operation in place that succeeds *)
Lemma in_place_md f name u h d v c h' w : see_left h d = Some v -> own_places h d -> math_op f name u true d h = Ok (c, h') -> see_left h' d = Some w -> v_md w = noted u (line_of name) (v_md v).
Proof.
  intros E (a & s & b & i & cells & Ha & Ea & Eb & _) X Y. destruct (left_at h d v E) as (x & E1 & E2 & E2m & E2l). destruct (f (v_data v)) as [r|e] eqn:Ef; [|rewrite (math_op_raises f name u true d h v e E Ef) in X; discriminate X].
  rewrite (math_op_note f name u true d h x _ r E1 E2 Ef) in X. destruct (shape_eqb (fst r) (fst (v_data v))); [|discriminate X].
  destruct (left_inv h d v E) as (a0 & fl & md & at_ & El & Ha0 & Hm & Ho). rewrite Ha in Ha0. injection Ha0 as <-.
  assert (Xa : h_data x = a). { destruct Ho as [(ax & Eo)|(cl & Eo)]; unfold get_lazy in E2l; rewrite (bind_ok _ _ _ _ _ (get_at _ _ _ Eo)) in E2l; injection E2l as <-; reflexivity. } rewrite Xa in *.
  set (h1 := set_nth b (OBuf (overwrite i (snd r) cells)) h) in *. assert (W : (write_array a (snd r) ;;; ret d) h = Ok (d, h1)) by (rewrite (bind_ok _ _ _ _ _ (write_array_at h a s b i cells (snd r) Ea Eb)); reflexivity). rewrite (bind_ok _ _ _ _ _ W) in X.
  apply see_lazy_inv in El. destruct El as (_ & Em & _ & _). pose proof (cb_meta h b cells (overwrite i (snd r) cells) Eb md) as Em1. fold h1 in Em1. rewrite Em in Em1. pose proof Em as Em'. apply see_meta_inv in Em'. destruct Em' as (m & dd & Xm & _ & _). assert (Xm1 : nth_error h1 md = Some (OMeta m)) by (apply (cb_obj h b cells); auto; discriminate).
  assert (Md1 : md_of h1 d = Some md). { unfold md_of. destruct Ho as [(ax & Eo)|(cl & Eo)]; unfold h1; rewrite (cb_obj h b cells _ Eb d _ Eo) by discriminate; reflexivity. }
  rewrite (bind_ok _ _ _ _ _ (note_at u (line_of name) h1 d md m Md1 Xm1)) in X. injection X as _ <-. pose proof (see_meta_view h1 md m _ Xm1 Em1) as Vm.
  destruct (left_inv _ d w Y) as (a1 & fl1 & md1 & at1 & El1 & _ & Hm1 & _). rewrite (cm_md_of h1 md m) in Hm1 by auto. rewrite Md1 in Hm1. injection Hm1 as <-. apply see_lazy_inv in El1. destruct El1 as (_ & Em2 & _).
  rewrite (cm_meta_same h1 md m (with_more_history (line_of name) (with_units m u)) Xm1 eq_refl) in Em2. apply see_meta_inv in Em1. destruct Em1 as (m0 & d0 & Z1 & Z2 & Z3). rewrite Xm1 in Z1. injection Z1 as <-. unfold see_dict in Em2. rewrite Z2 in Em2. injection Em2 as <-. rewrite Z3. exact (noted_view u (line_of name) m d0).
Qed.
