(** Proofs for C38 on objects in memory: coords() of data whose coordinates have missing values. *)
From Coq Require Import String.
From Verif Require Import Base PyStr QBase LonModel HeapModel HeapSpec HeapProofs Heap3Proofs Heap4Proofs.
From Coq Require Import List Lia Arith Sorted.
Import ListNotations.
Open Scope string_scope. Open Scope list_scope. Open Scope nat_scope. Notation length := List.length.

(** ** What is left alone *)
Record frame (h h' : heap) (cs mds : list loc) : Prop := mkFrame {
  fr_array : forall x v, see_array h x = Some v -> see_array h' x = Some v;
  fr_dict : forall x v, see_dict h x = Some v -> see_dict h' x = Some v;
  fr_meta : forall x v, ~ In x mds -> see_meta h x = Some v -> see_meta h' x = Some v;
  fr_obj : forall x o, ~ In x cs -> (forall m, o <> OMeta m) -> nth_error h x = Some o -> nth_error h' x = Some o }.
Lemma frame_refl h cs mds : frame h h cs mds. Proof. constructor; auto. Qed.
Lemma frame_trans h1 h2 h3 cs mds cs' mds' : frame h1 h2 cs mds -> frame h2 h3 cs' mds' -> frame h1 h3 (cs ++ cs') (mds ++ mds').
Proof. intros [A1 A2 A3 A4] [B1 B2 B3 B4]. constructor; auto; intros; rewrite in_app_iff in *; [apply B3; auto|apply B4; auto]. Qed.
Lemma frame_lazy h h' cs mds d f md at_ v : frame h h' cs mds -> ~ In md mds -> see_lazy h d f md at_ = Some v -> see_lazy h' d f md at_ = Some v.
Proof.
  intros [F1 F2 F3 F4] N E. apply see_lazy_inv in E. destruct E as (Ea & Em & Et & Ef). unfold see_lazy. rewrite (F1 _ _ Ea), (F3 _ _ N Em), (F2 _ _ Et). assert (X : see_flat h' f (v_data v) = Some (v_flat v)) by (unfold see_flat in *; destruct f; auto). rewrite X. destruct v. reflexivity.
Qed.
Lemma frame_coord h h' cs mds c md v : frame h h' cs mds -> ~ In c cs -> md_of h c = Some md -> ~ In md mds -> see_coord h c = Some v -> see_coord h' c = Some v /\ md_of h' c = Some md.
Proof.
  intros F N M N2 E. destruct v as [v ax]. apply see_coord_inv in E. destruct E as (a & f & md' & at_ & Eo & El). unfold md_of in *. rewrite Eo in M. injection M as ->. unfold see_coord. assert (Eo' : nth_error h' c = Some (OCoord a f md ax at_)) by (apply (fr_obj _ _ _ _ F); auto; discriminate). rewrite Eo'. rewrite (frame_lazy _ _ _ _ _ _ _ _ _ F N2 El). auto.
Qed.
Lemma frame_prefix h h' : prefix h h' -> frame h h' [] [].
Proof. intros P. constructor; intros; [eapply p_array|eapply p_dict|eapply p_meta|eapply p_nth]; eauto. Qed.
Lemma frame_refresh h p : frame h (refresh_at h p) [] [snd p].
Proof. constructor; intros; [rewrite refresh_array|rewrite refresh_dict|rewrite refresh_meta; [|intros ->; apply H; left; auto]|apply refresh_obj]; auto. Qed.
Lemma frame_refresh_all ps : forall h, frame h (refresh_all h ps) [] (map snd ps).
Proof.
  intros h. constructor; intros; [rewrite ra_array|rewrite ra_dict|rewrite ra_meta|apply ra_obj]; auto.
Qed.
Definition lazy_obj (o : obj) : Prop := match o with OCoord _ _ _ _ _ | OData _ _ _ _ _ => True | _ => False end.
Lemma frame_object h l o o' : nth_error h l = Some o -> lazy_obj o -> frame h (set_nth l o' h) [l] [].
Proof.
  intros E L. assert (O : forall x, x <> l -> nth_error (set_nth l o' h) x = nth_error h x) by (intros; apply set_nth_other; auto). constructor.
  - intros x v. unfold see_array. destruct (nth_error h x) as [[]|] eqn:Ex; try discriminate. rewrite O by (intros ->; rewrite E in Ex; injection Ex as ->; exact L). rewrite Ex. destruct (nth_error h buf) as [[]|] eqn:Eb; try discriminate.
    rewrite O by (intros ->; rewrite E in Eb; injection Eb as ->; exact L). rewrite Eb. auto.
  - intros x v. unfold see_dict. destruct (nth_error h x) as [[]|] eqn:Ex; try discriminate. rewrite O by (intros ->; rewrite E in Ex; injection Ex as ->; exact L). rewrite Ex. auto.
  - intros x v _. unfold see_meta, see_dict. destruct (nth_error h x) as [[]|] eqn:Ex; try discriminate. rewrite O by (intros ->; rewrite E in Ex; injection Ex as ->; exact L). rewrite Ex. destruct (nth_error h (m_misc m)) as [[]|] eqn:Eb; try discriminate.
    rewrite O by (intros X; rewrite X, E in Eb; injection Eb as ->; exact L). rewrite Eb. auto.
  - intros x o'' N _ Ex. rewrite O; auto. intros ->. apply N. left. auto.
Qed.

(** ** Putting new values into a data object or coordinate *)
Definition md_in (o : obj) : option loc := match o with OCoord _ _ md _ _ | OData _ _ md _ _ => Some md | _ => None end.
Lemma get_lazy_at h l o md : nth_error h l = Some o -> md_in o = Some md -> exists x, get_lazy l h = Ok (x, h) /\ h_obj x = o /\ h_md x = md.
Proof. intros E M. unfold get_lazy. rewrite (bind_ok _ _ _ _ _ (get_at _ _ _ E)). destruct o; try discriminate; injection M as ->; eexists; split; reflexivity || (split; reflexivity). Qed.
Lemma replace_at h l o md mv shape cells (keep : bool) : nth_error h l = Some o -> md_in o = Some md -> see_meta h md = Some mv ->
  exists b h', (a <~ new_array shape cells ;; (x <~ get_lazy l ;; update l (with_data (h_obj x) a (if keep then h_flat x else None))) ;;; update_shape_range a md)%mem h = Ok (tt, h') /\
  nth_error h' l = Some (with_data o b (if keep then kept_flat h l else None)) /\ see_array h' b = Some (shape, cells) /\ see_meta h' md = Some (fresh_md (shape, cells) mv) /\ frame h h' [l] [md].
Proof.
  intros E M Em. destruct (new_array_at h shape cells) as (b & h1 & E1 & P1 & A1). rewrite (bind_ok _ _ _ _ _ E1). pose proof (p_nth _ _ _ _ P1 E) as El1. destruct (get_lazy_at h1 l o md El1 M) as (x & Ex & Xo & Xm).
  assert (Xf : h_flat x = kept_flat h l). { unfold get_lazy in Ex. rewrite (bind_ok _ _ _ _ _ (get_at _ _ _ El1)) in Ex. unfold kept_flat. rewrite E. destruct o; try discriminate; injection Ex as <-; reflexivity. }
  set (o' := with_data o b (if keep then kept_flat h l else None)). set (h2 := set_nth l o' h1).
  assert (U : (x <~ get_lazy l ;; update l (with_data (h_obj x) b (if keep then h_flat x else None)))%mem h1 = Ok (tt, h2)).
  { rewrite (bind_ok _ _ _ _ _ Ex). unfold update. rewrite Xo, Xf. assert (B : l < length h1) by (apply nth_error_Some; congruence). apply Nat.ltb_lt in B. rewrite B. reflexivity. }
  rewrite (bind_ok _ _ _ _ _ U). assert (L : lazy_obj o) by (destruct o; try discriminate; exact I). pose proof (frame_object h1 l o o' El1 L) as F2. fold h2 in F2.
  pose proof (fr_array _ _ _ _ F2 _ _ A1) as A2. pose proof (fr_meta _ _ _ _ F2 md _ (fun x => x) (p_meta _ _ _ _ P1 Em)) as M2. pose proof M2 as M3. apply see_meta_inv in M3. destruct M3 as (m & d & E3 & _).
  exists b, (refresh_at h2 (b, md)). split; [eapply update_shape_range_at; eauto|]. split; [|split; [rewrite refresh_array; exact A2|split; [apply (refresh_meta_same h2 (b, md)); auto|]]].
  - apply refresh_obj; [apply set_nth_same; apply nth_error_Some; congruence|]. unfold o'. destruct o; try discriminate.
  - pose proof (frame_trans _ _ _ _ _ _ _ (frame_prefix _ _ P1) (frame_trans _ _ _ _ _ _ _ F2 (frame_refresh h2 (b, md)))) as X. cbn [app snd] in X. exact X.
Qed.

(** ** The points to keep *)
Definition positions (mask : list bool) : list nat := filter (fun i => negb (nth i mask true)) (seq 0 (length mask)).
Lemma filter_shift (f : nat -> bool) n : filter f (map S (seq 0 n)) = map S (filter (fun i => f (S i)) (seq 0 n)).
Proof. induction (seq 0 n) as [|i l IH]; [reflexivity|]. cbn [map filter]. destruct (f (S i)); cbn [map]; rewrite IH; auto. Qed.
Lemma compress_picks {A} (d : A) mask : forall l, length l = length mask -> compress mask l = map (fun i => nth i l d) (positions mask).
Proof.
  induction mask as [|b mask IH]; intros [|x l] H; try discriminate; [reflexivity|]. unfold compress, positions in *. cbn [combine filter length seq nth fst snd]. rewrite <- seq_shift. rewrite filter_shift.
  cbn [nth]. injection H as H. specialize (IH l H). destruct b; cbn [negb map snd nth]; rewrite map_map; cbn [nth]; [exact IH|f_equal; exact IH].
Qed.
Lemma positions_in mask i : In i (positions mask) <-> nth_error mask i = Some false.
Proof.
  unfold positions. rewrite filter_In, in_seq. split.
  - intros [H1 H2]. destruct (nth_error mask i) as [b|] eqn:E; [|apply nth_error_None in E; lia]. rewrite (nth_error_nth _ _ _ E) in H2. destruct b; [discriminate|auto].
  - intros E. assert (i < length mask) by (apply nth_error_Some; congruence). rewrite (nth_error_nth _ _ _ E). split; [lia|reflexivity].
Qed.
Lemma sorted_filter (f : nat -> bool) l : StronglySorted lt l -> StronglySorted lt (filter f l).
Proof. induction 1 as [|x l S IH F]; [constructor|]. cbn. destruct (f x); auto. constructor; auto. rewrite Forall_forall in *. intros y Hy. apply filter_In in Hy. apply F, Hy. Qed.
Lemma sorted_seq n : forall s, StronglySorted lt (seq s n).
Proof. induction n as [|n IH]; intros s; cbn; constructor; auto. rewrite Forall_forall. intros x Hx. apply in_seq in Hx. lia. Qed.
Lemma positions_sorted mask : StronglySorted lt (positions mask).
Proof. apply sorted_filter, sorted_seq. Qed.
Lemma sorted_ext : forall a b, StronglySorted lt a -> StronglySorted lt b -> (forall i, In i a <-> In i b) -> a = b.
Proof.
  induction a as [|x a IH]; intros [|y b] Sa Sb H; auto; [destruct (H y); cbn in *; tauto|destruct (H x); cbn in *; tauto|]. inversion Sa as [|? ? Sa' Fa]; inversion Sb as [|? ? Sb' Fb]; subst. rewrite Forall_forall in Fa, Fb.
  assert (x = y). { destruct (proj1 (H x) (or_introl eq_refl)) as [E|I1]; auto. destruct (proj2 (H y) (or_introl eq_refl)) as [E|I2]; auto. apply Fb in I1. apply Fa in I2. lia. } subst y. f_equal. apply IH; auto. intros i. split; intros I.
  - pose proof (Fa _ I) as L. destruct (proj1 (H i) (or_intror I)); [lia|auto].
  - pose proof (Fb _ I) as L. destruct (proj2 (H i) (or_intror I)); [lia|auto].
Qed.
Lemma or_mask_length a b : length a = length b -> length (or_mask a b) = length a.
Proof. intros H. unfold or_mask. rewrite map_length, combine_length. lia. Qed.
Lemma or_mask_nth a : forall b i, length a = length b -> nth_error (or_mask a b) i = Some false <-> nth_error a i = Some false /\ nth_error b i = Some false.
Proof.
  unfold or_mask. induction a as [|x a IH]; intros [|y b] i H; try discriminate; [destruct i; cbn; intuition discriminate|]. destruct i as [|i]; cbn; [destruct x, y; cbn; intuition discriminate|]. apply IH. injection H as H. exact H.
Qed.
Lemma missing_nth cells i : nth_error (missing_of cells) i = Some false <-> exists x, nth_error cells i = Some x /\ is_there x.
Proof.
  unfold missing_of. rewrite nth_error_map. destruct (nth_error cells i) as [c|]; cbn; [|split; [discriminate|intros (x & E & _); discriminate]]. unfold is_masked_or_nan, is_there. split.
  - intros E. injection E as E. apply orb_false_iff in E. destruct E as [E1 E2]. exists c. split; auto. split; auto. destruct (value c); [discriminate|discriminate].
  - intros (x & E & H1 & H2). injection E as <-. rewrite H1. destruct (value c); [reflexivity|congruence].
Qed.
Definition full_mask (n : nat) (vs : list (lazy_view * str)) (mask : list bool) : list bool := fold_left (fun m c => or_mask m (missing_of (snd (v_data (fst c))))) vs mask.
Lemma full_mask_length n vs : forall mask, length mask = n -> Forall (fun c => length (snd (v_data (fst c))) = n) vs -> length (full_mask n vs mask) = n.
Proof. induction vs as [|c vs IH]; intros mask L F; cbn; auto. apply Forall_cons_iff in F. destruct F as [F1 F]. apply IH; auto. rewrite or_mask_length; auto. unfold missing_of. rewrite map_length. congruence. Qed.
Lemma full_mask_nth n vs : forall mask i, length mask = n -> Forall (fun c => length (snd (v_data (fst c))) = n) vs ->
  nth_error (full_mask n vs mask) i = Some false <-> nth_error mask i = Some false /\ Forall (fun c => exists x, nth_error (snd (v_data (fst c))) i = Some x /\ is_there x) vs.
Proof.
  induction vs as [|c vs IH]; intros mask i L F; cbn [full_mask fold_left]; [intuition|]. apply Forall_cons_iff in F. destruct F as [F1 F]. assert (L2 : length mask = length (missing_of (snd (v_data (fst c))))) by (unfold missing_of; rewrite map_length; congruence).
  unfold full_mask in IH. rewrite IH; auto; [|rewrite or_mask_length; auto]. rewrite or_mask_nth by auto. rewrite missing_nth, Forall_cons_iff. intuition.
Qed.

(** ** _post_process *)
(** coordinates after their shapes and ranges have been brought up to date *)
Lemma combined_at n cs : forall h vs mds mask, see_all (see_coord h) cs = Some vs -> see_all (md_of h) cs = Some mds -> NoDup mds -> length mask = n -> Forall (fun c => length (snd (v_data (fst c))) = n) vs ->
  exists h', combined_mask cs mask h = Ok (full_mask n vs mask, h') /\ see_all (see_coord h') cs = Some (map refreshed_coord vs) /\ see_all (md_of h') cs = Some mds /\ frame h h' [] mds.
Proof.
  induction cs as [|c cs IH]; intros h vs mds mask Ev Em ND L F; cbn [see_all combined_mask] in *.
  - injection Ev as <-. injection Em as <-. exists h. split; [reflexivity|]. split; auto. split; auto. apply frame_refl.
  - destruct (see_coord h c) as [[v ax]|] eqn:Ec; try discriminate. destruct (see_all (see_coord h) cs) as [vs'|] eqn:Evs; try discriminate. injection Ev as <-. destruct (md_of h c) as [md|] eqn:Emc; try discriminate. destruct (see_all (md_of h) cs) as [mds'|] eqn:Ems; try discriminate. injection Em as <-.
    apply NoDup_cons_iff in ND. destruct ND as [N ND]. apply Forall_cons_iff in F. cbn [fst] in F. destruct F as [F1 F]. pose proof Ec as Ec0. apply see_coord_inv in Ec. destruct Ec as (a & f & md' & at_ & Eo & El). pose proof Emc as Emc0. unfold md_of in Emc. rewrite Eo in Emc. injection Emc as ->.
    destruct (get_lazy_at h c _ md Eo eq_refl) as (x & Ex & Xo & Xm). rewrite (bind_ok _ _ _ _ _ Ex). assert (Xd : h_data x = a) by (unfold get_lazy in Ex; rewrite (bind_ok _ _ _ _ _ (get_at _ _ _ Eo)) in Ex; injection Ex as <-; reflexivity). rewrite Xd, Xm. pose proof El as El0. apply see_lazy_inv in El. destruct El as (Ea & Emv & _ & _).
    rewrite (bind_ok _ _ _ _ _ (get_array_see _ _ _ Ea)). rewrite F1, L, Nat.eqb_refl. pose proof Emv as Emv0. apply see_meta_inv in Emv. destruct Emv as (m & d & Em1 & _ & _). rewrite (bind_ok _ _ _ _ _ (update_shape_range_at h a md _ m Ea Em1)).
    pose proof (frame_refresh h (a, md)) as Fr. cbn [snd] in Fr. set (h1 := refresh_at h (a, md)) in *.
    assert (V1 : see_all (see_coord h1) cs = Some vs' /\ see_all (md_of h1) cs = Some mds').
    { clear - Evs Ems N Fr. revert vs' mds' Evs Ems N. induction cs as [|c cs IH]; intros vs' mds' Evs Ems N; cbn [see_all] in *; [auto|]. destruct (see_coord h c) as [v|] eqn:Ec; try discriminate. destruct (see_all (see_coord h) cs) as [vs2|]; try discriminate. injection Evs as <-. destruct (md_of h c) as [mdc|] eqn:Emc; try discriminate. destruct (see_all (md_of h) cs) as [mds2|]; try discriminate. injection Ems as <-.
      destruct (IH _ _ eq_refl eq_refl) as [I1 I2]; [intros X; apply N; right; auto|]. destruct (frame_coord _ _ _ _ c mdc v Fr) as [X1 X2]; auto; [intros [X|[]]; apply N; left; auto|]. rewrite X1, X2, I1, I2. auto. }
    destruct V1 as [V1 V2]. destruct (IH h1 vs' mds' (or_mask mask (missing_of (snd (v_data v)))) V1 V2 ND) as (h' & R1 & R2 & R3 & R4); auto; [rewrite or_mask_length; auto; unfold missing_of; rewrite map_length; congruence|].
    exists h'. split; [exact R1|].
    assert (Vc : see_coord h1 c = Some (refreshed v, ax) /\ md_of h1 c = Some md).
    { unfold see_coord, md_of. unfold h1. rewrite (refresh_obj h (a, md) c _ Eo) by discriminate. split; auto. pose proof (ra_lazy [(a, md)] h a f md at_ v) as X. cbn [refresh_all fold_left] in X. rewrite X; auto; [repeat constructor; intros []|left; auto]. }
    destruct Vc as [Vc1 Vc2]. destruct (frame_coord _ _ _ _ c md _ R4 (fun x => x) Vc2 N Vc1) as [Vc3 Vc4]. rewrite Vc3, Vc4, R2, R3. split; [reflexivity|]. split; [reflexivity|]. pose proof (frame_trans _ _ _ _ _ _ _ Fr R4) as X. exact X.
Qed.
Definition compressed (mask : list bool) (v : lazy_view) : lazy_view :=
  let p := map (fun p => mkCell false (value p)) (compress mask (snd (v_data v))) in mkLazy ([length p], p) ([length p], p) (fresh_md ([length p], p) (v_md v)) (v_attrs v).
Lemma compress_at mask h c v ax md : see_coord h c = Some (v, ax) -> md_of h c = Some md -> length (snd (v_data v)) = length mask ->
  exists h', compress_coord mask c h = Ok (tt, h') /\ see_coord h' c = Some (compressed mask v, ax) /\ md_of h' c = Some md /\ frame h h' [c] [md].
Proof.
  intros Ec Em L. apply see_coord_inv in Ec. destruct Ec as (a & f & md' & at_ & Eo & El). pose proof Em as Em0. unfold md_of in Em. rewrite Eo in Em. injection Em as ->. apply see_lazy_inv in El. destruct El as (Ea & Emv & Et & _).
  destruct (get_lazy_at h c _ md Eo eq_refl) as (x & Ex & Xo & Xm). unfold compress_coord. rewrite (bind_ok _ _ _ _ _ Ex). assert (Xd : h_data x = a) by (unfold get_lazy in Ex; rewrite (bind_ok _ _ _ _ _ (get_at _ _ _ Eo)) in Ex; injection Ex as <-; reflexivity). rewrite Xd, Xm. rewrite (bind_ok _ _ _ _ _ (get_array_see _ _ _ Ea)). rewrite L, Nat.eqb_refl.
  set (p := map (fun p => mkCell false (value p)) (compress mask (snd (v_data v)))). destruct (replace_at h c _ md (v_md v) [length p] p false Eo eq_refl Emv) as (b & h' & R1 & R2 & R3 & R4 & R5). exists h'. split; [exact R1|]. cbn [with_data] in R2.
  assert (Vc : see_coord h' c = Some (compressed mask v, ax)). { unfold see_coord. rewrite R2. unfold see_lazy. rewrite R3, R4, (fr_dict _ _ _ _ R5 _ _ Et). cbn [see_flat snd]. reflexivity. }
  split; auto. split; auto. unfold md_of. rewrite R2. auto.
Qed.
Lemma each_compress_at mask cs : forall h vs mds, see_all (see_coord h) cs = Some vs -> see_all (md_of h) cs = Some mds -> NoDup mds -> Forall (fun c => length (snd (v_data (fst c))) = length mask) vs ->
  exists h', each (compress_coord mask) cs h = Ok (tt, h') /\ see_all (see_coord h') cs = Some (map (fun c => (compressed mask (fst c), snd c)) vs) /\ see_all (md_of h') cs = Some mds /\ frame h h' cs mds.
Proof.
  induction cs as [|c cs IH]; intros h vs mds Ev Em ND F; cbn [see_all each] in *.
  - injection Ev as <-. injection Em as <-. exists h. split; [reflexivity|]. split; auto. split; auto. apply frame_refl.
  - destruct (see_coord h c) as [[v ax]|] eqn:Ec; try discriminate. destruct (see_all (see_coord h) cs) as [vs'|] eqn:Evs; try discriminate. injection Ev as <-. destruct (md_of h c) as [md|] eqn:Emc; try discriminate. destruct (see_all (md_of h) cs) as [mds'|] eqn:Ems; try discriminate. injection Em as <-.
    apply NoDup_cons_iff in ND. destruct ND as [N ND]. apply Forall_cons_iff in F. cbn [fst] in F. destruct F as [F1 F]. destruct (compress_at mask h c v ax md Ec Emc F1) as (h1 & R1 & R2 & R3 & R4). rewrite (bind_ok _ _ _ _ _ R1).
    assert (Nc : ~ In c cs). { intros I. apply N. clear - I Emc Ems. revert mds' Ems. induction cs as [|c' cs IH]; intros mds' Ems; [contradiction|]. cbn [see_all] in Ems. destruct I as [->|I].
      - rewrite Emc in Ems. destruct (see_all (md_of h) cs); [|discriminate]. injection Ems as <-. left. auto.
      - destruct (md_of h c'); [|discriminate]. destruct (see_all (md_of h) cs) as [mds2|]; [|discriminate]. injection Ems as <-. right. apply IH; auto. }
    assert (V1 : see_all (see_coord h1) cs = Some vs' /\ see_all (md_of h1) cs = Some mds').
    { clear - Evs Ems N Nc R4. revert vs' mds' Evs Ems N Nc. induction cs as [|c' cs IH]; intros vs' mds' Evs Ems N Nc; cbn [see_all] in *; [auto|]. destruct (see_coord h c') as [v|] eqn:Ec; try discriminate. destruct (see_all (see_coord h) cs) as [vs2|]; try discriminate. injection Evs as <-. destruct (md_of h c') as [mdc|] eqn:Emc; try discriminate. destruct (see_all (md_of h) cs) as [mds2|]; try discriminate. injection Ems as <-.
      destruct (IH _ _ eq_refl eq_refl) as [I1 I2]; [intros X; apply N; right; auto|intros X; apply Nc; right; auto|]. destruct (frame_coord _ _ _ _ c' mdc v R4) as [X1 X2]; auto; [intros [X|[]]; apply Nc; left; auto|intros [X|[]]; apply N; left; auto|]. rewrite X1, X2, I1, I2. auto. }
    destruct V1 as [V1 V2]. destruct (IH h1 vs' mds' V1 V2 ND F) as (h' & S1 & S2 & S3 & S4). exists h'. split; [exact S1|]. destruct (frame_coord _ _ _ _ c md _ S4 Nc R3 N R2) as [Vc3 Vc4]. rewrite Vc3, Vc4, S2, S3. split; [reflexivity|]. split; [reflexivity|]. exact (frame_trans _ _ _ _ _ _ _ R4 S4).
Qed.
Lemma not_a_coord h cs x : forall cv o, see_all (see_coord h) cs = Some cv -> nth_error h x = Some o -> (forall a f md ax at_, o <> OCoord a f md ax at_) -> ~ In x cs.
Proof.
  induction cs as [|c cs IH]; intros cv o Ec Ex N I; [contradiction|]. cbn [see_all] in Ec. destruct (see_coord h c) as [v|] eqn:E; [|discriminate]. destruct (see_all (see_coord h) cs) as [cv'|]; [|discriminate]. destruct I as [->|I]; [|eapply IH; eauto]. unfold see_coord in E. rewrite Ex in E. destruct o; try discriminate. eapply N. reflexivity.
Qed.
Lemma all_false mask : existsb (fun b : bool => b) mask = false -> length (positions mask) = length mask.
Proof.
  intros H. unfold positions. assert (F : forall i, In i (seq 0 (length mask)) -> negb (nth i mask true) = true).
  { intros i Hi. apply in_seq in Hi. destruct (nth i mask true) eqn:E; auto. exfalso. assert (X : existsb (fun b : bool => b) mask = true) by (apply existsb_exists; exists true; split; auto; rewrite <- E; apply nth_In; lia). congruence. }
  rewrite <- (seq_length (length mask) 0) at 2. induction (seq 0 (length mask)) as [|i l IH]; [reflexivity|]. cbn [filter length]. rewrite F by (left; auto). cbn [length]. f_equal. apply IH. intros j Hj. apply F. right. auto.
Qed.
Lemma frame_all h h' cs mds l : forall vs ms, frame h h' cs mds -> see_all (see_coord h) l = Some vs -> see_all (md_of h) l = Some ms -> (forall c, In c l -> ~ In c cs) -> (forall m, In m ms -> ~ In m mds) ->
  see_all (see_coord h') l = Some vs /\ see_all (md_of h') l = Some ms.
Proof.
  induction l as [|c l IH]; intros vs ms F Ev Em N1 N2; cbn [see_all] in *; [auto|]. destruct (see_coord h c) as [v|] eqn:Ec; try discriminate. destruct (see_all (see_coord h) l) as [vs2|]; try discriminate. injection Ev as <-. destruct (md_of h c) as [mdc|] eqn:Emc; try discriminate. destruct (see_all (md_of h) l) as [ms2|]; try discriminate. injection Em as <-.
  destruct (IH _ _ F eq_refl eq_refl) as [I1 I2]; [intros x X; apply N1; right; auto|intros x X; apply N2; right; auto|]. destruct (frame_coord _ _ _ _ c mdc v F) as [X1 X2]; auto; [apply N1; left; auto|apply N2; left; auto|]. rewrite X1, X2, I1, I2. auto.
Qed.
Lemma keep_positions v ps : one_point_each v -> to_keep v ps -> ps = positions (full_mask (length (snd (v_data (fst v)))) (snd v) (repeat false (length (snd (v_data (fst v)))))).
Proof.
  intros O [S K]. set (n := length (snd (v_data (fst v)))) in *. apply sorted_ext; auto; [apply positions_sorted|]. intros i. rewrite K, positions_in, full_mask_nth; auto; [|apply repeat_length]. unfold usable. split.
  - intros [H1 H2]. split; auto. rewrite nth_error_repeat; auto.
  - intros [H1 H2]. split; auto. rewrite <- (repeat_length false n). apply nth_error_Some. congruence.
Qed.
Lemma compressed_reduced mask v ps : ps = positions mask -> length (snd (v_data v)) = length mask -> (forall i, In i ps -> exists x, nth_error (snd (v_data v)) i = Some x /\ is_there x) ->
  reduced ps v (compressed mask v) /\ v_flat (compressed mask v) = v_data (compressed mask v).
Proof.
  intros E L H. assert (X : map (fun p => mkCell false (value p)) (compress mask (snd (v_data v))) = map (fun i => nth i (snd (v_data v)) (mkCell true None)) ps).
  { rewrite (compress_picks (mkCell true None)) by auto. rewrite <- E, map_map. apply map_ext_in. intros i Hi. destruct (H i Hi) as (x & Ex & H1 & _). rewrite (nth_error_nth _ _ _ Ex). destruct x as [m w]. cbn in *. subst. reflexivity. }
  split; [|reflexivity]. unfold reduced, compressed, picked. cbn [v_data v_md v_attrs]. rewrite X, map_length. auto.
Qed.
Theorem coords_reduce h d v ps : see_data h d = Some v -> one_point_each v -> own_metadata h d -> to_keep v ps -> length ps <> length (snd (v_data (fst v))) ->
  exists cl h' w, coords d h = Ok (cl, h') /\ see_data h' d = Some w /\ cleaned ps v w /\ own_metadata h' d /\ match nth_error h d with Some (OData _ _ _ c _) => c = cl | _ => False end.
Proof.
  intros E O OM K NE. pose proof (keep_positions v ps O K) as EP. unfold see_data in E. destruct (nth_error h d) as [[| | | | | |a f md cl at_]|] eqn:Ed; try discriminate. destruct (see_lazy h a f md at_) as [lv|] eqn:El; try discriminate. destruct (see_coords h cl) as [cv|] eqn:Ec; try discriminate. injection E as <-. cbn [fst snd] in *.
  unfold see_coords in Ec. destruct (nth_error h cl) as [[| | | | |cs|]|] eqn:Ecl; try discriminate. unfold own_metadata in OM. rewrite Ed, Ecl in OM. destruct (see_all (md_of h) cs) as [mds|] eqn:Emd; try contradiction. apply NoDup_cons_iff in OM. destruct OM as [N ND].
  pose proof El as El0. apply see_lazy_inv in El. destruct El as (Ea & Em & Et & Ef). set (n := length (snd (v_data lv))) in *. unfold one_point_each in O. cbn [fst snd] in O. fold n in O.
  destruct (combined_at n cs h cv mds (repeat false n) Ec Emd ND (repeat_length _ _) O) as (h1 & C1 & C2 & C3 & F1). set (mask := full_mask n cv (repeat false n)) in *.
  assert (LM : length mask = n) by (apply full_mask_length; [apply repeat_length|exact O]).
  assert (EX : existsb (fun b : bool => b) mask = true). { destruct (existsb (fun b : bool => b) mask) eqn:X; auto. exfalso. apply all_false in X. rewrite <- EP, LM in X. contradiction. }
  destruct (each_compress_at mask cs h1 _ mds C2 C3 ND) as (h2 & D1 & D2 & D3 & F2). { rewrite LM. apply Forall_map. eapply Forall_impl; [|exact O]. intros c X. exact X. }
  pose proof (frame_trans _ _ _ _ _ _ _ F1 F2) as F12. cbn [app] in F12.
  assert (Nd : ~ In d cs) by (eapply not_a_coord; [exact Ec|exact Ed|discriminate]). assert (Ncl : ~ In cl cs) by (eapply not_a_coord; [exact Ec|exact Ecl|discriminate]).
  assert (Ed2 : nth_error h2 d = Some (OData a f md cl at_)) by (apply (fr_obj _ _ _ _ F12); auto; discriminate).
  assert (Ecl2 : nth_error h2 cl = Some (OList cs)) by (apply (fr_obj _ _ _ _ F12); auto; discriminate).
  assert (Em2 : see_meta h2 md = Some (v_md lv)) by (apply (fr_meta _ _ _ _ F12); auto; rewrite in_app_iff; tauto).
  set (p := compress mask (snd (v_data lv))).
  destruct (replace_at h2 d _ md (v_md lv) [length p] p true Ed2 eq_refl Em2) as (b & h3 & R1 & R2 & R3 & R4 & F3). cbn [with_data] in R2. assert (Kf : kept_flat h2 d = f) by (unfold kept_flat; rewrite Ed2; auto). rewrite Kf in R2.
  assert (PP : post_process d h = Ok (tt, h3)).
  { unfold post_process. rewrite (bind_ok _ _ _ _ _ (get_at _ _ _ Ed)), (bind_ok _ _ _ _ _ (get_array_see _ _ _ Ea)), (bind_ok _ _ _ _ _ (get_list_at _ _ _ Ecl)), (bind_ok _ _ _ _ _ C1), EX, (bind_ok _ _ _ _ _ D1). exact R1. }
  assert (Ecl3 : nth_error h3 cl = Some (OList cs)) by (apply (fr_obj _ _ _ _ F3); auto; [intros [X|[]]; subst; congruence|discriminate]).
  assert (V3 : see_all (see_coord h3) cs = Some (map (fun c => (compressed mask (fst c), snd c)) (map refreshed_coord cv)) /\ see_all (md_of h3) cs = Some mds).
  { apply (frame_all h2 h3 [d] [md]); auto; [intros c I [X|[]]; subst; contradiction|intros c I [X|[]]; subst; contradiction]. }
  destruct V3 as [V3 V4]. destruct (see_flat h3 f ([length p], p)) as [fl|] eqn:Efl.
  2:{ exfalso. destruct f as [fl|]; cbn [see_flat] in Efl; [|discriminate]. cbn [see_flat] in Ef. apply (fr_array _ _ _ _ F12) in Ef. apply (fr_array _ _ _ _ F3) in Ef. congruence. }
  exists cl, h3, (mkLazy ([length p], p) fl (fresh_md ([length p], p) (v_md lv)) (v_attrs lv), map (fun c => (compressed mask (fst c), snd c)) (map refreshed_coord cv)).
  split; [unfold coords; rewrite (bind_ok _ _ _ _ _ PP), (bind_ok _ _ _ _ _ (get_at _ _ _ R2)); reflexivity|]. split; [|split; [|split; [|reflexivity]]].
  - unfold see_data. rewrite R2. unfold see_lazy. rewrite R3, R4. rewrite (fr_dict _ _ _ _ F3 _ _ (fr_dict _ _ _ _ F12 _ _ Et)), Efl. unfold see_coords. rewrite Ecl3, V3. reflexivity.
  - assert (X : p = map (fun i => nth i (snd (v_data lv)) (mkCell true None)) ps) by (unfold p; rewrite (compress_picks (mkCell true None)) by (rewrite LM; reflexivity); rewrite <- EP; reflexivity).
    split; cbn [fst snd].
    + unfold reduced, picked. cbn [v_data v_md v_attrs]. rewrite X, map_length. auto.
    + destruct K as [_ K]. unfold usable in K. cbn [fst snd] in K. assert (U : Forall (fun c => length (snd (v_data (fst c))) = length mask /\ forall i, In i ps -> exists x, nth_error (snd (v_data (fst c))) i = Some x /\ is_there x) cv).
      { rewrite Forall_forall in *. intros c Hc. split; [rewrite LM; auto|]. intros i Hi. apply K in Hi. destruct Hi as [_ Hi]. rewrite Forall_forall in Hi. apply Hi. exact Hc. }
      revert U. clear - EP. clearbody mask. generalize dependent mask. intros mask EP U. induction U as [|c l [U1 U2] U IH]; cbn [map]; constructor; auto. cbn [fst snd refreshed_coord]. destruct (compressed_reduced mask (fst c) ps EP U1 U2) as [C1 C2]. split; [|split; auto]. destruct C1 as (C3 & C4 & C5). split; [exact C3|]. split; [exact C4|exact C5].
  - unfold own_metadata. rewrite R2, Ecl3, V4. constructor; auto.
Qed.

(** ** A slice of data whose coordinates have missing values *)
Lemma set_nth_self {A} (l : list A) : forall n x, nth_error l n = Some x -> set_nth n x l = l.
Proof. induction l as [|a l IH]; intros [|n] x E; try discriminate; cbn in *; [congruence|]. f_equal. auto. Qed.
Lemma refresh_settled h a md sc mv : see_array h a = Some sc -> see_meta h md = Some mv -> v_shape mv = fst sc -> v_range mv = range_of (snd sc) -> refresh_at h (a, md) = h.
Proof.
  intros Ea Em S R. apply see_meta_inv in Em. destruct Em as (m & d & E1 & _ & ->). unfold refresh_at. cbn [fst snd]. rewrite Ea, E1. apply set_nth_self. rewrite E1. cbn in S, R. destruct m. unfold with_range, with_shape. cbn in *. congruence.
Qed.
Lemma refresh_all_settled h ps : (forall a md, In (a, md) ps -> exists sc mv, see_array h a = Some sc /\ see_meta h md = Some mv /\ v_shape mv = fst sc /\ v_range mv = range_of (snd sc)) -> refresh_all h ps = h.
Proof.
  induction ps as [|[a md] ps IH]; intros H; [reflexivity|]. change (refresh_all h ((a, md) :: ps)) with (refresh_all (refresh_at h (a, md)) ps). destruct (H a md (or_introl eq_refl)) as (sc & mv & E1 & E2 & E3 & E4). rewrite (refresh_settled _ _ _ _ _ E1 E2 E3 E4). apply IH. intros. apply H. right. auto.
Qed.
Definition up_to_date (v : lazy_view) : Prop := v_shape (v_md v) = fst (v_data v) /\ v_range (v_md v) = range_of (snd (v_data v)).
Lemma reduced_fresh ps v w : reduced ps v w -> up_to_date w.
Proof. intros (_ & E & _). unfold up_to_date. rewrite E. split; reflexivity. Qed.
Lemma coords_again h d w : see_data h d = Some w -> all_there w -> own_metadata h d -> up_to_date (fst w) -> Forall (fun c => up_to_date (fst c)) (snd w) ->
  match nth_error h d with Some (OData _ _ _ cl _) => coords d h = Ok (cl, h) | _ => False end.
Proof.
  intros E A O U1 U2. destruct (own_pairs h d w O E) as (ps & Ep & ND). pose proof (post_process_there h d w ps E A Ep ND) as PP. assert (R : refresh_all h ps = h).
  { apply refresh_all_settled. intros a0 md0 I. unfold see_data, pairs_of, see_coords in *. destruct (nth_error h d) as [[| | | | | |a f md cl at_]|]; try discriminate. destruct (see_lazy h a f md at_) as [lv|] eqn:El; try discriminate. destruct (nth_error h cl) as [[| | | | |cs|]|]; try discriminate. destruct (see_all (see_coord h) cs) as [cv|] eqn:Ev; try discriminate. injection E as <-. destruct (see_all (coord_pair h) cs) as [pc|] eqn:Epc; try discriminate. injection Ep as <-. cbn [fst snd] in *.
    apply in_app_iff in I. destruct I as [I|[I|[]]].
    - clear - I Ev Epc U2. revert cv pc Ev Epc U2 I. induction cs as [|c cs IH]; intros cv pc Ev Epc U I; cbn [see_all] in *; [injection Epc as <-; contradiction|]. destruct (see_coord h c) as [[v ax]|] eqn:Ec; try discriminate. destruct (see_all (see_coord h) cs) as [cv'|]; try discriminate. injection Ev as <-. destruct (coord_pair h c) as [p|] eqn:Ecp; try discriminate. destruct (see_all (coord_pair h) cs) as [pc'|]; try discriminate. injection Epc as <-. apply Forall_cons_iff in U. destruct U as [U1 U]. destruct I as [->|I]; [|eapply IH; eauto].
      apply see_coord_inv in Ec. destruct Ec as (a & f & md & at_ & Eo & El). unfold coord_pair in Ecp. rewrite Eo in Ecp. injection Ecp as -> ->. apply see_lazy_inv in El. destruct El as (Ea & Em & _). destruct U1 as [U3 U4]. cbn [fst] in *. eauto 10.
    - injection I as <- <-. apply see_lazy_inv in El. destruct El as (Ea & Em & _). destruct U1 as [U3 U4]. eauto 10. }
  rewrite R in PP. unfold see_data in E. destruct (nth_error h d) as [[| | | | | |a f md cl at_]|] eqn:Ed; try discriminate. unfold coords. rewrite (bind_ok _ _ _ _ _ PP), (bind_ok _ _ _ _ _ (get_at _ _ _ Ed)). reflexivity.
Qed.
Lemma cleaned_there v ps w : to_keep v ps -> cleaned ps v w -> all_there w /\ Forall (fun c => up_to_date (fst c)) (snd w) /\ length (snd (v_data (fst w))) = length ps.
Proof.
  intros [_ K] [[C1 _] C]. assert (L : length (snd (v_data (fst w))) = length ps) by (rewrite C1; unfold picked; cbn [snd]; rewrite map_length; auto). split; [|split; auto].
  - unfold all_there. assert (U : forall i, In i ps -> usable v i) by (intros i Hi; apply K, Hi). unfold usable in U. revert U C. generalize (snd v). generalize (snd w). clear K. intros l' l. revert l'. induction l as [|c l IH]; intros l' U C; inversion C as [|? c' ? l2 [[R1 _] [_ _]] C']; subst; constructor; auto.
    + split; [|rewrite L, R1; unfold picked; cbn [snd]; apply map_length]. rewrite R1. unfold picked. cbn [snd]. apply Forall_map. rewrite Forall_forall. intros i Hi. specialize (U i Hi). apply Forall_cons_iff in U. destruct U as [(x & Ex & T) _]. rewrite (nth_error_nth _ _ _ Ex). exact T.
    + apply IH; auto. intros i Hi. specialize (U i Hi). apply Forall_cons_iff in U. apply U.
  - clear - C. induction C as [|c c' l l' [R _] C IH]; constructor; auto. eapply reduced_fresh; eauto.
Qed.
Theorem data_getitem_reduces k h d v ps : see_data h d = Some v -> one_point_each v -> own_metadata h d -> to_keep v ps -> length ps <> length (snd (v_data (fst v))) -> k_shape k <> [] -> Forall (fun i => i < length ps) (k_positions k) ->
  exists c h' w, data_getitem k d h = Ok (c, h') /\ see_data h' d = Some w /\ cleaned ps v w /\ see_data h' c = Some (made_from (selected k) w).
Proof.
  intros E O OM K NE K1 K2. destruct (coords_reduce h d v ps E O OM K NE) as (cl & h1 & w & C1 & C2 & C3 & C4 & C5). destruct (cleaned_there v ps w K C3) as (T1 & T2 & T3). assert (T0 : up_to_date (fst w)) by (destruct C3 as [R _]; eapply reduced_fresh; eauto).
  pose proof (coords_again h1 d w C2 T1 C4 T0 T2) as CA. rewrite <- T3 in K2. destruct (data_getitem_looks k h1 d w C2 T1 C4 K1 K2) as (c & h' & G1 & G2 & G3).
  assert (Same : coords d h1 = Ok (cl, h1)).
  { destruct (nth_error h1 d) as [[| | | | | |a1 f1 md1 cl1 at1]|] eqn:Ed1; try contradiction. unfold coords in C1. unfold mbind at 1 in C1. destruct (post_process d h) as [[u hp]|]; [|discriminate]. cbn [bind fst snd] in C1. unfold mbind, get in C1. destruct (nth_error hp d) as [o|] eqn:Eo; [|discriminate]. cbn [bind fst snd] in C1. destruct o; try discriminate. injection C1 as -> ->. rewrite Ed1 in Eo. injection Eo as <- <- <- -> <-. exact CA. }
  exists c, h', w. split; [|split; [|split; auto]].
  - unfold data_getitem in *. rewrite (bind_ok _ _ _ _ _ C1). rewrite (bind_ok _ _ _ _ _ Same) in G1. exact G1.
  - rewrite G2. f_equal. destruct w as [lw cw]. cbn [fst snd] in *. f_equal.
    + unfold refreshed. rewrite fresh_settled by apply T0. destruct lw; reflexivity.
    + clear - T2. induction T2 as [|c l U F IH]; [reflexivity|]. cbn [map]. rewrite IH. f_equal. destruct c as [c ax]. unfold refreshed_coord, refreshed. cbn [fst snd] in *. rewrite fresh_settled by apply U. destruct c; reflexivity.
Qed.

(** ** The range *)
Lemma extreme_spec (f : Q -> Q -> Q) (R : Q -> Q -> Prop) (Rr : forall x, R x x) (Rt : forall x y z, R x y -> R y z -> R x z) (F1 : forall x y, f x y = x \/ f x y = y) (F2 : forall x y, R (f x y) x /\ R (f x y) y) cells :
  match extreme f cells with
  | None => forall x, ~ unmasked cells x
  | Some None => unmasked cells None
  | Some (Some a) => ~ unmasked cells None /\ unmasked cells (Some a) /\ forall q, unmasked cells (Some q) -> R a q
  end.
Proof.
  unfold unmasked. induction cells as [|[m v] l IH]; cbn [extreme]; [intros x []|]. cbn [masked value]. destruct m.
  - destruct (extreme f l) as [[a|]|].
    + destruct IH as (I1 & I2 & I3). split; [intros [X|X]; [discriminate|auto]|]. split; [right; auto|]. intros q [X|X]; [discriminate|auto].
    + right. auto.
    + intros x [X|X]; [discriminate|eapply IH; eauto].
  - destruct v as [x|]; [|left; reflexivity]. destruct (extreme f l) as [[a|]|].
    + destruct IH as (I1 & I2 & I3). split; [intros [X|X]; [discriminate|auto]|]. destruct (F2 x a) as [G1 G2]. split.
      * destruct (F1 x a) as [->| ->]; [left; reflexivity|right; auto].
      * intros q [X|X]; [injection X as <-; auto|]. eapply Rt; eauto.
    + right. auto.
    + split; [intros [X|X]; [discriminate|eapply IH; eauto]|]. split; [left; auto|]. intros q [X|X]; [injection X as <-; auto|exfalso; eapply IH; eauto].
Qed.
Lemma least_spec x y : (least x y = x \/ least x y = y) /\ (least x y <= x /\ least x y <= y)%Q.
Proof. unfold least, Qleb. destruct (Qle_bool x y) eqn:E; [apply Qle_bool_iff in E|]; split; auto; [split; auto; apply Qle_refl|]. assert (X : ~ (x <= y)%Q) by (rewrite <- Qle_bool_iff, E; discriminate). apply Qnot_le_lt, Qlt_le_weak in X. split; auto. apply Qle_refl. Qed.
Lemma greatest_spec x y : (greatest x y = x \/ greatest x y = y) /\ (x <= greatest x y /\ y <= greatest x y)%Q.
Proof. unfold greatest, Qleb. destruct (Qle_bool x y) eqn:E; [apply Qle_bool_iff in E|]; split; auto; [split; auto; apply Qle_refl|]. assert (X : ~ (x <= y)%Q) by (rewrite <- Qle_bool_iff, E; discriminate). apply Qnot_le_lt, Qlt_le_weak in X. split; auto. apply Qle_refl. Qed.
Theorem range_is_range cells : is_range cells (range_of cells).
Proof.
  unfold range_of. destruct cells as [|c l] eqn:EC; [apply ir_empty; reflexivity|]. rewrite <- EC. assert (NE : cells <> []) by (rewrite EC; discriminate). clear EC c l.
  pose proof (extreme_spec least Qle Qle_refl Qle_trans (fun x y => proj1 (least_spec x y)) (fun x y => proj2 (least_spec x y)) cells) as A.
  pose proof (extreme_spec greatest (fun x y => (y <= x)%Q) Qle_refl (fun x y z H1 H2 => Qle_trans _ _ _ H2 H1) (fun x y => proj1 (greatest_spec x y)) (fun x y => proj2 (greatest_spec x y)) cells) as B.
  destruct (extreme least cells) as [[a|]|], (extreme greatest cells) as [[b|]|]; cbn iota beta zeta in *; try (apply ir_nan; assumption); try (exfalso; destruct A as (A1 & A2 & _); (contradiction || eapply B; eassumption)); try (exfalso; destruct B as (B1 & B2 & _); (contradiction || eapply A; eassumption)); try (exfalso; eapply B; eassumption); try (exfalso; eapply A; eassumption).
  - destruct A as (A1 & A2 & A3), B as (_ & B2 & B3). apply ir_values; auto.
  - apply ir_masked; auto.
Qed.
