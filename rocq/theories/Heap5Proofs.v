(** Proofs for C39 (both ways, after any history) and C60 (data_flattened). *)
From Coq Require Import String.
From Verif Require Import Base PyStr QBase LonModel HeapModel HeapSpec HeapProofs Heap2Proofs Heap3Proofs.
From Coq Require Import List Lia Arith.
Import ListNotations.
Open Scope string_scope. Open Scope list_scope. Open Scope nat_scope. Notation length := List.length.

(** ** C39 *)
Lemma independent m d h c h0 h1 : fresh_from d m -> no_dangling h -> d < length h -> m h = Ok (c, h0) -> history d c h0 h1 ->
  (forall os h2, run os d h1 = Ok (tt, h2) -> looks_the_same h1 h2 c) /\ (forall os h2, run os c h1 = Ok (tt, h2) -> looks_the_same h1 h2 d).
Proof.
  intros F W B E H. destruct (F h c h0 W B E) as (W0 & L0 & C0 & S0). specialize (S0 d B). destruct (history_separate d c h0 h1 W0) as (W1 & L1 & S1 & G1 & G2); auto; [lia|].
  split; intros os h2 R; [apply G1|apply G2]; eapply run_edit; eauto; lia.
Qed.

(** ** C60 *)
Definition flat_inv (h : heap) : Prop := in_order h /\ flats_are_views h.
Definition stable (h h' : heap) : Prop := forall l s b i, nth_error h l = Some (OArr s b i) -> nth_error h' l = Some (OArr s b i).
Lemma stable_refl h : stable h h. Proof. intros l s b i E. exact E. Qed.
Lemma stable_trans a b c : stable a b -> stable b c -> stable a c. Proof. intros H1 H2 l s x i E. apply H2, H1, E. Qed.
Definition pres {A} (m : M A) : Prop := forall h a h', flat_inv h -> m h = Ok (a, h') -> flat_inv h' /\ stable h h'.
Lemma pres_ret {A} (a : A) : pres (ret a). Proof. intros h x h' I E. injection E as <- <-. split; auto. apply stable_refl. Qed.
Lemma pres_fail {A} e : pres (@fail A e). Proof. intros h x h' I E. discriminate. Qed.
Lemma pres_bind {A B} (m : M A) (f : A -> M B) : pres m -> (forall a, pres (f a)) -> pres (mbind m f).
Proof. intros P Q h x h' I E. step E. destruct (P _ _ _ I E0) as [I1 S1]. destruct (Q _ _ _ _ I1 E) as [I2 S2]. split; auto. eapply stable_trans; eauto. Qed.
Lemma pres_get l : pres (get l).
Proof. intros h x h' I E. apply get_ok in E. destruct E as [-> _]. split; auto. apply stable_refl. Qed.
Lemma pres_get_meta l : pres (get_meta l). Proof. apply pres_bind; [apply pres_get|]. intros []; apply pres_ret || apply pres_fail. Qed.
Lemma pres_get_dict l : pres (get_dict l). Proof. apply pres_bind; [apply pres_get|]. intros []; apply pres_ret || apply pres_fail. Qed.
Lemma pres_get_list l : pres (get_list l). Proof. apply pres_bind; [apply pres_get|]. intros []; apply pres_ret || apply pres_fail. Qed.
Lemma pres_get_array l : pres (get_array l).
Proof. apply pres_bind; [apply pres_get|]. intros []; try apply pres_fail. apply pres_bind; [apply pres_get|]. intros []; apply pres_ret || apply pres_fail. Qed.
Lemma pres_get_lazy l : pres (get_lazy l). Proof. apply pres_bind; [apply pres_get|]. intros []; apply pres_ret || apply pres_fail. Qed.

Definition good_at (h : heap) (o : obj) : Prop :=
  match o with
  | OArr _ _ index => consecutive index = true
  | OCoord a (Some f) _ _ _ | OData a (Some f) _ _ _ => exists shape b index, nth_error h a = Some (OArr shape b index) /\ nth_error h f = Some (OArr [length index] b index)
  | _ => True end.
Lemma inv_good h l o : flat_inv h -> nth_error h l = Some o -> good_at h o.
Proof. intros [I J] E. destruct o as [| | | |a [f|] md ax at_| |a [f|] md cl at_]; cbn; auto; [eapply I; eauto|eapply J; eauto|eapply J; eauto]. Unshelve. all: exact 0 || exact []. Qed.
Lemma good_inv h : (forall l o, nth_error h l = Some o -> good_at h o) -> flat_inv h.
Proof. intros H. split; [intros l s b i E; apply (H _ _ E)|]. intros l o a f md at_ ax cl E [-> | ->]; apply (H _ _ E). Qed.
Lemma good_stable h h' o : stable h h' -> good_at h o -> good_at h' o.
Proof. intros S. destruct o as [| | | |a [f|] md ax at_| |a [f|] md cl at_]; cbn; auto; intros (s & b & i & E1 & E2); exists s, b, i; auto. Qed.
Lemma alloc_inv o h l h' : flat_inv h -> good_at h o -> alloc o h = Ok (l, h') -> flat_inv h' /\ stable h h' /\ l = length h /\ nth_error h' l = Some o.
Proof.
  intros I G E. injection E as <- <-. assert (S : stable h (h ++ [o])) by (intros x s b i Ex; apply nth_grown; auto). split; [|split; auto; split; auto; rewrite nth_error_app2, Nat.sub_diag by lia; auto].
  apply good_inv. intros x p Ex. apply (good_stable h); auto. destruct (Nat.lt_ge_cases x (length h)) as [L|L]; [rewrite nth_error_app1 in Ex by auto; eapply inv_good; eauto|]. rewrite nth_error_app2 in Ex by auto. destruct (x - length h) as [|k]; [injection Ex as <-; auto|destruct k; discriminate].
Qed.
Definition no_array (o : obj) : Prop := match o with OArr _ _ _ => False | _ => True end.
Lemma update_inv l o o' h u h' : flat_inv h -> update l o h = Ok (u, h') -> nth_error h l = Some o' -> no_array o' -> no_array o -> good_at h o -> flat_inv h' /\ stable h h' /\ h' = set_nth l o h.
Proof.
  intros I E El N' N G. unfold update in E. destruct (Nat.ltb_spec l (length h)); [|discriminate]. injection E as _ <-.
  assert (S : stable h (set_nth l o h)). { intros x s b i Ex. destruct (Nat.eq_dec x l) as [->|D]; [rewrite El in Ex; injection Ex as ->; contradiction|]. rewrite set_nth_other; auto. }
  split; auto. apply good_inv. intros x p Ex. apply (good_stable h); auto. destruct (Nat.eq_dec x l) as [->|D]; [rewrite set_nth_same in Ex by auto; injection Ex as <-; auto|]. rewrite set_nth_other in Ex by auto. eapply inv_good; eauto.
Qed.
Lemma get_meta_ok l h m h' : get_meta l h = Ok (m, h') -> h' = h /\ nth_error h l = Some (OMeta m).
Proof. intros E. unfold get_meta in E. step E. apply get_ok in E0. destruct E0 as [-> E0]. destruct a; try discriminate. injection E as <- <-. auto. Qed.
Lemma get_dict_ok l h m h' : get_dict l h = Ok (m, h') -> h' = h /\ nth_error h l = Some (ODict m).
Proof. intros E. unfold get_dict in E. step E. apply get_ok in E0. destruct E0 as [-> E0]. destruct a; try discriminate. injection E as <- <-. auto. Qed.
Lemma get_list_ok l h m h' : get_list l h = Ok (m, h') -> h' = h /\ nth_error h l = Some (OList m).
Proof. intros E. unfold get_list in E. step E. apply get_ok in E0. destruct E0 as [-> E0]. destruct a; try discriminate. injection E as <- <-. auto. Qed.
Lemma get_array_ok l h sc h' : get_array l h = Ok (sc, h') -> h' = h /\ see_array h l = Some sc.
Proof.
  intros E. unfold get_array in E. step E. apply get_ok in E0. destruct E0 as [-> E0]. destruct a; try discriminate. step E. apply get_ok in E1. destruct E1 as [-> E1]. destruct a; try discriminate. injection E as <- <-. split; auto. unfold see_array. rewrite E0, E1. reflexivity.
Qed.
Lemma get_lazy_ok l h x h' : get_lazy l h = Ok (x, h') -> h' = h /\ nth_error h l = Some (h_obj x) /\ no_array (h_obj x) /\ (forall a f, no_array (with_data (h_obj x) a f)) /\ (forall a, good_at h (with_data (h_obj x) a None)) /\ with_data (h_obj x) (h_data x) (h_flat x) = h_obj x.
Proof. intros E. unfold get_lazy in E. step E. apply get_ok in E0. destruct E0 as [-> E0]. destruct a; try discriminate; injection E as <- <-; cbn; repeat split; auto. Qed.
Lemma seq_consecutive n : forall k, consecutive (seq k n) = true.
Proof. induction n as [|n IH]; intros k; cbn [seq consecutive]; auto. destruct n as [|n]; [reflexivity|]. specialize (IH (S k)). cbn [seq] in *. rewrite Nat.eqb_refl. exact IH. Qed.
Lemma pres_new_array shape cells : pres (new_array shape cells).
Proof.
  intros h x h' I E. unfold new_array in E. step E. destruct (alloc_inv (OBuf cells) h a h0 I Logic.I E0) as (I1 & S1 & _). destruct (alloc_inv (OArr shape a (seq 0 (length cells))) h0 x h' I1 (seq_consecutive _ _) E) as (I2 & S2 & _). split; auto. eapply stable_trans; eauto.
Qed.
Lemma pres_change_meta f l : pres (change_meta f l).
Proof.
  intros h x h' I E. unfold change_meta in E. step E. apply get_lazy_ok in E0. destruct E0 as (-> & _). step E. apply get_meta_ok in E0. destruct E0 as (-> & E0). destruct (update_inv _ _ _ _ _ _ I E E0 Logic.I Logic.I Logic.I) as (I1 & S1 & _). auto.
Qed.
Lemma pres_change_dict f l : pres (change_dict f l).
Proof. intros h x h' I E. unfold change_dict in E. step E. apply get_dict_ok in E0. destruct E0 as (-> & E0). destruct (update_inv _ _ _ _ _ _ I E E0 Logic.I Logic.I Logic.I) as (I1 & S1 & _). auto. Qed.
Lemma pres_set_data l a : pres (set_data l a).
Proof. intros h x h' I E. unfold set_data in E. step E. apply get_lazy_ok in E0. destruct E0 as (-> & E0 & N1 & N2 & G & _). destruct (update_inv _ _ _ _ _ _ I E E0 N1 (N2 _ _) (G _)) as (I1 & S1 & _). auto. Qed.
Lemma pres_update_shape_range a md : pres (update_shape_range a md).
Proof.
  intros h x h' I E. unfold update_shape_range in E. step E. apply get_array_ok in E0. destruct E0 as (-> & _). step E. apply get_meta_ok in E0. destruct E0 as (-> & E0). destruct (update_inv _ _ _ _ _ _ I E E0 Logic.I Logic.I Logic.I) as (I1 & S1 & _). auto.
Qed.
Lemma pres_set_point a i c : pres (set_point a i c).
Proof.
  intros h x h' I E. unfold set_point in E. step E. apply get_ok in E0. destruct E0 as (-> & E0). destruct a0; try discriminate. destruct (nth_error index i); try discriminate. step E. apply get_ok in E1. destruct E1 as (-> & E1). destruct a0; try discriminate. destruct (update_inv _ _ _ _ _ _ I E E1 Logic.I Logic.I Logic.I) as (I1 & S1 & _). auto.
Qed.
Lemma pres_data_flattened l : pres (data_flattened l).
Proof.
  intros h x h' I E. unfold data_flattened in E. step E. apply get_lazy_ok in E0. destruct E0 as (-> & E0 & N1 & N2 & G & W). destruct (h_flat a) as [f|]; [injection E as <- <-; split; auto; apply stable_refl|].
  step E. unfold np_ravel in E1. step E1. apply get_ok in E2. destruct E2 as (-> & E2). destruct a1; try discriminate. pose proof (inv_good _ _ _ I E2) as Gc. cbn in Gc. rewrite Gc in E1. destruct (alloc_inv (OArr [length index] buf index) h a0 h0 I Gc E1) as (I1 & S1 & El & Ea). step E. injection E as <- <-.
  assert (E0' : nth_error h0 l = Some (h_obj a)) by (injection E1 as _ <-; apply nth_grown; auto).
  assert (Gn : good_at h0 (with_data (h_obj a) (h_data a) (Some a0))). { destruct (h_obj a); cbn; auto; exists shape, buf, index; auto. }
  destruct (update_inv _ _ _ _ _ _ I1 E3 E0' N1 (N2 _ _) Gn) as (I2 & S2 & _). split; auto. eapply stable_trans; eauto.
Qed.
Lemma pres_find p d : pres (find_part p d).
Proof. destruct p; cbn [find_part]; [apply pres_ret|]. apply pres_bind; [apply pres_get|]. intros []; try apply pres_fail. apply pres_bind; [apply pres_get_list|]. intros a. destruct (nth_error a k); [apply pres_ret|apply pres_fail]. Qed.
Lemma pres_combined cs : forall mask, pres (combined_mask cs mask).
Proof.
  induction cs as [|c cs IH]; intros mask; cbn [combined_mask]; [apply pres_ret|]. apply pres_bind; [apply pres_get_lazy|]. intros x. apply pres_bind; [apply pres_get_array|]. intros sc. destruct (_ =? _); [|apply pres_fail]. apply pres_bind; [apply pres_update_shape_range|]. intros _. apply IH.
Qed.
Lemma pres_compress mask c : pres (compress_coord mask c).
Proof.
  unfold compress_coord. apply pres_bind; [apply pres_get_lazy|]. intros x. apply pres_bind; [apply pres_get_array|]. intros sc. destruct (_ =? _); [|apply pres_fail]. apply pres_bind; [apply pres_new_array|]. intros a. apply pres_bind; [apply pres_set_data|]. intros _. apply pres_update_shape_range.
Qed.
Lemma pres_each {A} (f : A -> M unit) l : (forall x, pres (f x)) -> pres (each f l).
Proof. intros H. induction l; cbn [each]; [apply pres_ret|]. apply pres_bind; auto. Qed.
(** the flattened array that d keeps, if none, is not touched by coords() *)
Definition unflat {A} (d : loc) (m : M A) : Prop := forall h a h', kept_flat h d = None -> d < length h -> m h = Ok (a, h') -> kept_flat h' d = None /\ d < length h'.
Lemma unflat_ret {A} d (a : A) : unflat d (ret a). Proof. intros h x h' I L E. injection E as <- <-. auto. Qed.
Lemma unflat_fail {A} d e : unflat d (@fail A e). Proof. intros h x h' I L E. discriminate. Qed.
Lemma unflat_bind {A B} d (m : M A) (f : A -> M B) : unflat d m -> (forall a, unflat d (f a)) -> unflat d (mbind m f).
Proof. intros P Q h x h' I L E. step E. destruct (P _ _ _ I L E0) as [I1 S1]. eapply Q; eauto. Qed.
Lemma unflat_alloc d o : unflat d (alloc o).
Proof. intros h x h' I L E. injection E as <- <-. unfold kept_flat in *. rewrite nth_error_app1 by auto. split; auto. rewrite app_length. lia. Qed.
Lemma unflat_same {A} d (m : M A) : (forall h a h', m h = Ok (a, h') -> h' = h) -> unflat d m.
Proof. intros H h x h' I L E. apply H in E. subst. auto. Qed.
Lemma unflat_get_lazy d l : unflat d (get_lazy l). Proof. apply unflat_same. intros h x h' E. apply get_lazy_ok in E. apply E. Qed.
Lemma unflat_get_array d l : unflat d (get_array l). Proof. apply unflat_same. intros h x h' E. apply get_array_ok in E. apply E. Qed.
Lemma unflat_update d l o h u h' : kept_flat h d = None -> d < length h -> match o with OCoord _ (Some _) _ _ _ | OData _ (Some _) _ _ _ => False | _ => True end -> update l o h = Ok (u, h') -> kept_flat h' d = None /\ d < length h'.
Proof.
  intros K L G E. unfold update in E. destruct (Nat.ltb_spec l (length h)); [|discriminate]. injection E as _ <-. rewrite set_nth_length. split; auto. unfold kept_flat in *. destruct (Nat.eq_dec d l) as [->|D]; [rewrite set_nth_same by auto|rewrite set_nth_other; auto]. destruct o as [| | | |a [f|] md ax at_| |a [f|] md cl at_]; auto; contradiction.
Qed.
Lemma unflat_new_array d shape cells : unflat d (new_array shape cells).
Proof. apply unflat_bind; [apply unflat_alloc|]. intros a. apply unflat_alloc. Qed.
Lemma unflat_shape_range d a md : unflat d (update_shape_range a md).
Proof. intros h x h' K L E. unfold update_shape_range in E. step E. apply get_array_ok in E0. destruct E0 as (-> & _). step E. apply get_meta_ok in E0. destruct E0 as (-> & _). eapply unflat_update; eauto. exact I. Qed.
Lemma unflat_set_data d l a : unflat d (set_data l a).
Proof. intros h x h' K L E. unfold set_data in E. step E. unfold get_lazy in E0. step E0. apply get_ok in E1. destruct E1 as (-> & E1). destruct a1; try discriminate; injection E0 as <- <-; cbn in E; eapply unflat_update; eauto; exact I. Qed.
Lemma unflat_combined d cs : forall mask, unflat d (combined_mask cs mask).
Proof.
  induction cs as [|c cs IH]; intros mask; cbn [combined_mask]; [apply unflat_ret|]. apply unflat_bind; [apply unflat_get_lazy|]. intros x. apply unflat_bind; [apply unflat_get_array|]. intros sc. destruct (_ =? _); [|apply unflat_fail]. apply unflat_bind; [apply unflat_shape_range|]. intros _. apply IH.
Qed.
Lemma unflat_compress d mask c : unflat d (compress_coord mask c).
Proof.
  unfold compress_coord. apply unflat_bind; [apply unflat_get_lazy|]. intros x. apply unflat_bind; [apply unflat_get_array|]. intros sc. destruct (_ =? _); [|apply unflat_fail]. apply unflat_bind; [apply unflat_new_array|]. intros a. apply unflat_bind; [apply unflat_set_data|]. intros _. apply unflat_shape_range.
Qed.
Lemma unflat_each {A} d (f : A -> M unit) l : (forall x, unflat d (f x)) -> unflat d (each f l).
Proof. intros H. induction l; cbn [each]; [apply unflat_ret|]. apply unflat_bind; auto. Qed.
(** no coordinate value missing: nothing is taken out *)
Definition there_at (n : nat) (h : heap) (c : loc) : Prop := exists a f md ax at_ sc, nth_error h c = Some (OCoord a f md ax at_) /\ see_array h a = Some sc /\ Forall is_there (snd sc) /\ length (snd sc) = n.
Lemma combined_none n cs : forall h mask h', Forall (there_at n h) cs -> combined_mask cs (repeat false n) h = Ok (mask, h') -> mask = repeat false n.
Proof.
  induction cs as [|c cs IH]; intros h mask h' F E; cbn [combined_mask] in E; [injection E as <- _; auto|]. apply Forall_cons_iff in F. destruct F as [(a & f & md & ax & at_ & sc & Ec & Ea & F1 & F2) F].
  step E. unfold get_lazy in E0. step E0. apply get_ok in E1. destruct E1 as (-> & E1). rewrite Ec in E1. injection E1 as <-. injection E0 as <- <-. cbn [h_data h_md] in E. step E. rewrite (get_array_see _ _ _ Ea) in E0. injection E0 as <- <-.
  rewrite repeat_length, F2, Nat.eqb_refl in E. step E. assert (Em : exists m, nth_error h md = Some (OMeta m)). { unfold update_shape_range in E0. step E0. apply get_array_ok in E1. destruct E1 as (-> & _). step E0. apply get_meta_ok in E1. destruct E1 as (-> & E1). eauto. } destruct Em as (m & Em).
  rewrite (update_shape_range_at _ _ _ _ _ Ea Em) in E0. injection E0 as _ <-. rewrite repeat_or in E by (auto using there_mask; unfold missing_of; rewrite map_length; auto).
  eapply IH; [|exact E]. eapply Forall_impl; [|exact F]. intros c' (a' & f' & md' & ax' & at' & sc' & Ec' & Ea' & G). exists a', f', md', ax', at', sc'. split; [apply refresh_obj; auto; discriminate|]. rewrite refresh_array. auto.
Qed.
Lemma there_of_view n h cs : forall vs, see_all (see_coord h) cs = Some vs -> Forall (fun c => Forall is_there (snd (v_data (fst c))) /\ length (snd (v_data (fst c))) = n) vs -> Forall (there_at n h) cs.
Proof.
  induction cs as [|c cs IH]; intros vs E F; constructor; cbn [see_all] in E; destruct (see_coord h c) as [[v ax]|] eqn:Ec; try discriminate; destruct (see_all (see_coord h) cs) as [vs'|] eqn:Evs; try discriminate; injection E as <-; apply Forall_cons_iff in F; destruct F as [F1 F]; [|eapply IH; eauto].
  apply see_coord_inv in Ec. destruct Ec as (a & f & md & at_ & Ec & El). apply see_lazy_inv in El. destruct El as (Ea & _). exists a, f, md, ax, at_, (v_data v). auto.
Qed.
Lemma pres_post d h u h' : flat_inv h -> kept_flat h d = None \/ (exists v, see_data h d = Some v /\ all_there v) -> post_process d h = Ok (u, h') -> flat_inv h' /\ stable h h'.
Proof.
  intros I C E. unfold post_process in E. step E. apply get_ok in E0. destruct E0 as (-> & Ed). destruct a as [| | | | | |a f md cl at_]; try discriminate. step E. apply get_array_ok in E0. destruct E0 as (-> & Ea). step E. apply get_list_ok in E0. destruct E0 as (-> & Ecl). rename a1 into cs. step E. rename a1 into mask.
  destruct (pres_combined _ _ _ _ _ I E0) as [I1 S1]. destruct (existsb (fun b => b) mask) eqn:Ex.
  - destruct C as [K|(v & Ev & AT)].
    + assert (L : d < length h) by (apply nth_error_Some; congruence). destruct (unflat_combined d _ _ _ _ _ K L E0) as [K1 L1]. step E. destruct (pres_each _ _ (pres_compress mask) _ _ _ I1 E1) as [I2 S2]. destruct (unflat_each d _ _ (unflat_compress d mask) _ _ _ K1 L1 E1) as [K2 L2].
      step E. destruct (pres_new_array _ _ _ _ _ I2 E2) as [I3 S3]. destruct (unflat_new_array d _ _ _ _ _ K2 L2 E2) as [K3 L3]. step E. unfold set_data_only in E3. step E3. pose proof E4 as E5. apply get_lazy_ok in E5. destruct E5 as (-> & Eo & N1 & N2 & G & W).
      assert (Fn : h_flat a4 = None). { unfold get_lazy in E4. step E4. apply get_ok in E5. destruct E5 as (-> & E5). unfold kept_flat in K3. rewrite E5 in K3. destruct a5; try discriminate; injection E4 as <-; cbn; auto. }
      rewrite Fn in E3. destruct (update_inv _ _ _ _ _ _ I3 E3 Eo N1 (N2 _ _) (G _)) as (I4 & S4 & _). destruct (pres_update_shape_range _ _ _ _ _ I4 E) as [I5 S5]. split; auto. eauto using stable_trans.
    + exfalso. unfold see_data in Ev. rewrite Ed in Ev. destruct (see_lazy h a f md at_) as [lv|] eqn:El; try discriminate. unfold see_coords in Ev. rewrite Ecl in Ev. destruct (see_all (see_coord h) cs) as [cv|] eqn:Ecv; try discriminate. injection Ev as <-. unfold all_there in AT. cbn [fst snd] in AT. apply see_lazy_inv in El. destruct El as (Ea' & _). rewrite Ea in Ea'. injection Ea' as ->.
      apply combined_none in E0; [|eapply there_of_view; eauto]. subst mask. rewrite existsb_repeat in Ex. discriminate.
  - destruct (pres_update_shape_range _ _ _ _ _ I1 E) as [I5 S5]. split; auto. eauto using stable_trans.
Qed.
Lemma pres_perform o d h u h' : flat_inv h -> (o = Coords -> kept_flat h d = None \/ (exists v, see_data h d = Some v /\ all_there v)) -> perform o d h = Ok (u, h') -> flat_inv h'.
Proof.
  intros I C E. enough (G : flat_inv h' /\ stable h h') by apply G.
  destruct o; cbn [perform] in E; try (revert E; apply (fun P : pres _ => P h u h' I); apply pres_bind; [apply pres_find|]; intros l0).
  - apply pres_bind; [apply pres_get_lazy|]. intros x. apply pres_set_point.
  - apply pres_bind; [apply pres_new_array|]. intros x. apply pres_set_data.
  - apply pres_change_meta.
  - apply pres_change_meta.
  - apply pres_bind; [apply pres_get_lazy|]. intros x. apply pres_change_dict.
  - apply pres_bind; [apply pres_get_lazy|]. intros x. apply pres_change_dict.
  - apply pres_bind; [apply pres_get_lazy|]. intros x. apply pres_bind; [apply pres_get_meta|]. intros m. apply pres_change_dict.
  - apply pres_bind; [apply pres_get_lazy|]. intros x. apply pres_bind; [apply pres_get_array|]. intros m. apply pres_bind; [apply pres_new_array|]. intros a. apply pres_set_data.
  - apply pres_bind; [apply pres_data_flattened|]. intros x. apply pres_ret.
  - step E. injection E as _ <-. unfold coords in E0. step E0. destruct (pres_post d _ _ _ I (C eq_refl) E) as [I1 S1]. split; [|]; step E0; apply get_ok in E1; destruct E1 as (-> & _); destruct a1; try discriminate; injection E0 as _ <-; auto.
Qed.
Lemma run_flat os : forall d h h', flat_inv h -> coords_in_time os d h -> run os d h = Ok (tt, h') -> flat_inv h'.
Proof.
  induction os as [|o os IH]; intros d h h' I C E; cbn [run] in E; [injection E as <-; auto|]. step E. destruct a. apply (IH d h0 h'); auto.
  - eapply pres_perform; [exact I| |exact E0]. intros ->. apply (C [] os h); reflexivity.
  - intros os1 os2 h1 -> R. apply (C (o :: os1) os2 h1); auto. cbn [run]. rewrite (bind_ok _ _ _ _ _ E0). exact R.
Qed.
Lemma view_flat_right h a f md at_ v l o : flat_inv h -> nth_error h l = Some o -> (exists ax, o = OCoord a f md ax at_) \/ (exists cl, o = OData a f md cl at_) -> see_lazy h a f md at_ = Some v -> flat_right v.
Proof.
  intros I El Eo Ev. apply see_lazy_inv in Ev. destruct Ev as (Ea & _ & _ & Ef). unfold see_flat in Ef. destruct f as [f|]; [|injection Ef as Ef; symmetry; exact Ef].
  pose proof (inv_good _ _ _ I El) as G. assert (X : exists shape b index, nth_error h a = Some (OArr shape b index) /\ nth_error h f = Some (OArr [length index] b index)) by (destruct Eo as [(? & ->)|(? & ->)]; exact G). destruct X as (s & b & i & E1 & E2).
  unfold see_array in Ea, Ef. rewrite E1 in Ea. rewrite E2 in Ef. destruct (nth_error h b) as [[]|]; try discriminate. injection Ea as Ea. injection Ef as Ef. unfold flat_right. rewrite <- Ea, <- Ef. cbn [snd]. rewrite map_length. reflexivity.
Qed.
Theorem flat_after os d h h' v : in_order h -> flats_are_views h -> coords_in_time os d h -> run os d h = Ok (tt, h') -> see_data h' d = Some v -> flat_right (fst v) /\ Forall (fun c => flat_right (fst c)) (snd v).
Proof.
  intros I J C E Ev. pose proof (run_flat _ _ _ _ (conj I J) C E) as K. unfold see_data in Ev. destruct (nth_error h' d) as [[| | | | | |a f md cl at_]|] eqn:Ed; try discriminate. destruct (see_lazy h' a f md at_) as [lv|] eqn:El; try discriminate. unfold see_coords in Ev. destruct (nth_error h' cl) as [[| | | | |cs|]|]; try discriminate. destruct (see_all (see_coord h') cs) as [cv|] eqn:Ecv; try discriminate. injection Ev as <-. cbn [fst snd]. split; [eapply view_flat_right; eauto|].
  clear - K Ecv. revert cv Ecv. induction cs as [|c cs IH]; intros cv E; cbn [see_all] in E; [injection E as <-; constructor|]. destruct (see_coord h' c) as [[v ax]|] eqn:Ec; try discriminate. destruct (see_all (see_coord h') cs) as [vs|]; try discriminate. injection E as <-. constructor; auto. apply see_coord_inv in Ec. destruct Ec as (a & f & md & at_ & Ec & El). eapply view_flat_right; eauto.
Qed.
