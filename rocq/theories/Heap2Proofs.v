(** Proofs for C39: a copy with given data shares that array only. *)
From Coq Require Import String.
From Verif Require Import Base PyStr QBase LonModel HeapModel HeapSpec HeapProofs.
From Coq Require Import List Lia Arith.
Import ListNotations.
Open Scope string_scope. Open Scope list_scope. Open Scope nat_scope. Notation length := List.length.

Definition is_array (o : obj) : bool := match o with OArr _ _ _ | OBuf _ => true | _ => false end.
Definition keeps {A} (m : M A) : Prop := forall h a h', m h = Ok (a, h') -> forall l o, nth_error h l = Some o -> is_array o = true -> nth_error h' l = Some o.
Lemma keeps_ret {A} (a : A) : keeps (ret a).
Proof. intros h b h' E. injection E as <- <-. auto. Qed.
Lemma keeps_fail {A} e : keeps (@fail A e).
Proof. intros h b h' E. discriminate. Qed.
Lemma keeps_bind {A B} (m : M A) (f : A -> M B) : keeps m -> (forall a, keeps (f a)) -> keeps (mbind m f).
Proof. intros H1 H2 h b h' E l o El A1. step E. eapply H2; eauto. Qed.
Lemma keeps_get l : keeps (get l).
Proof. intros h o h' E. apply get_ok in E. destruct E as [-> _]. auto. Qed.
Lemma keeps_alloc o : keeps (alloc o).
Proof. intros h a h' E l x El _. injection E as <- <-. rewrite nth_error_app1; auto. apply nth_error_Some. congruence. Qed.
Lemma update_keeps l o h u h' x : update l o h = Ok (u, h') -> nth_error h l = Some x -> is_array x = false -> forall m y, nth_error h m = Some y -> is_array y = true -> nth_error h' m = Some y.
Proof. unfold update. destruct (l <? length h) eqn:B; [|discriminate]. intros E Ex Ax m y Ey Ay. injection E as <- <-. rewrite set_nth_other; auto. intros ->. congruence. Qed.
Lemma get_meta_ok l h m h' : get_meta l h = Ok (m, h') -> h' = h /\ nth_error h l = Some (OMeta m).
Proof. intros E. unfold get_meta in E. step E. apply get_ok in E0. destruct E0 as [-> E0]. destruct a; try discriminate. injection E as <- <-. auto. Qed.
Ltac kr := first [apply keeps_ret | apply keeps_fail | apply keeps_get | apply keeps_alloc | (apply keeps_bind; [|intros])].
Lemma keeps_get_meta l : keeps (get_meta l). Proof. unfold get_meta. kr; [kr|]. destruct a; kr. Qed.
Lemma keeps_get_dict l : keeps (get_dict l). Proof. unfold get_dict. kr; [kr|]. destruct a; kr. Qed.
Lemma keeps_get_list l : keeps (get_list l). Proof. unfold get_list. kr; [kr|]. destruct a; kr. Qed.
Lemma keeps_get_array l : keeps (get_array l). Proof. unfold get_array. kr; [kr|]. destruct a; try kr; [kr|]. destruct a; kr. Qed.
Lemma keeps_get_lazy l : keeps (get_lazy l). Proof. unfold get_lazy. kr; [kr|]. destruct a; kr. Qed.
Lemma keeps_coord_parts l : keeps (coord_parts l). Proof. unfold coord_parts. kr; [kr|]. destruct a; kr. Qed.
Lemma keeps_new_array s c : keeps (new_array s c). Proof. unfold new_array. kr; [kr|]. kr. Qed.
Lemma keeps_np_copy a : keeps (np_copy a). Proof. unfold np_copy. kr; [apply keeps_get_array|apply keeps_new_array]. Qed.
Lemma keeps_deepcopy a : keeps (deepcopy_meta a). Proof. unfold deepcopy_meta. kr; [apply keeps_get_meta|]. kr; [apply keeps_get_dict|]. kr; kr. Qed.
Lemma keeps_change_meta md f : keeps (mbind (get_meta md) (fun m => update md (OMeta (f m)))).
Proof. intros h u h' E. step E. apply get_meta_ok in E0. destruct E0 as [-> E0]. eapply update_keeps; eauto. Qed.
Lemma keeps_update_shape_range a md : keeps (update_shape_range a md).
Proof. unfold update_shape_range. kr; [apply keeps_get_array|]. apply (keeps_change_meta md (fun m => with_range (with_shape m (fst a0)) (range_of (snd a0)))). Qed.
Lemma keeps_lazy_update l f : keeps (mbind (get_lazy l) (fun x => update l (f x))).
Proof.
  intros h u h' E. step E. unfold get_lazy in E0. step E0. apply get_ok in E1. destruct E1 as [-> E1]. destruct a0; try discriminate; injection E0 as <- <-; eapply update_keeps; eauto.
Qed.
Lemma keeps_each {A} (f : A -> M unit) l : (forall x, keeps (f x)) -> keeps (each f l).
Proof. intros H. induction l; cbn [each]; kr; auto. Qed.
Lemma keeps_map_each {A B} (f : A -> M B) l : (forall x, keeps (f x)) -> keeps (map_each f l).
Proof. intros H. induction l; cbn [map_each]; kr; auto. kr; [auto|kr]. Qed.
Lemma keeps_combined cs : forall mask, keeps (combined_mask cs mask).
Proof. induction cs as [|c cs IH]; intros mask; cbn [combined_mask]; [kr|]. kr; [apply keeps_get_lazy|]. kr; [apply keeps_get_array|]. destruct (_ =? _); [|kr]. kr; [apply keeps_update_shape_range|apply IH]. Qed.
Lemma keeps_compress mask c : keeps (compress_coord mask c).
Proof. unfold compress_coord. kr; [apply keeps_get_lazy|]. kr; [apply keeps_get_array|]. destruct (_ =? _); [|kr]. kr; [apply keeps_new_array|]. kr; [apply (keeps_lazy_update c (fun x => with_data (h_obj x) a1 None))|apply keeps_update_shape_range]. Qed.
Lemma keeps_post d : keeps (post_process d).
Proof.
  unfold post_process. kr; [kr|]. destruct a; try kr; [apply keeps_get_array|]. kr; [apply keeps_get_list|]. kr; [apply keeps_combined|]. destruct (existsb _ _); [|apply keeps_update_shape_range]. kr; [apply keeps_each; intros; apply keeps_compress|]. kr; [apply keeps_new_array|]. kr; [apply (keeps_lazy_update d (fun x => with_data (h_obj x) a3 (h_flat x)))|apply keeps_update_shape_range].
Qed.
Lemma keeps_coords d : keeps (coords d). Proof. unfold coords. kr; [apply keeps_post|]. kr; [kr|]. destruct a0; kr. Qed.
Lemma keeps_bind_assoc {A B C} (m : M A) (f : A -> M B) (g : B -> M C) h : mbind (mbind m f) g h = mbind m (fun a => mbind (f a) g) h.
Proof. unfold mbind. destruct (m h) as [[a h1]|]; reflexivity. Qed.
Lemma keeps_meta_then {A} md f (m : M A) : keeps m -> keeps (mbind (get_meta md) (fun x => mbind (update md (OMeta (f x))) (fun _ => m))).
Proof.
  intros H h a h' E. rewrite <- keeps_bind_assoc in E. revert h a h' E. change (keeps (mbind (mbind (get_meta md) (fun x => update md (OMeta (f x)))) (fun _ => m))). kr; [apply keeps_change_meta|auto].
Qed.
Lemma keeps_new_coord a md ax : keeps (new_coord a md ax).
Proof. unfold new_coord. kr; [kr|]. kr; [kr|]. apply (keeps_meta_then md (fun m => with_units m (coord_units (m_units m)))). kr. Qed.
Lemma keeps_new_data a md cl : keeps (new_data a md cl).
Proof. unfold new_data. apply (keeps_meta_then md (fun m => with_units m (data_units (m_units m)))). kr; [kr|]. kr; [kr|]. kr; [apply keeps_post|kr]. Qed.
Lemma keeps_coord_copy c : keeps (coord_copy c).
Proof. unfold coord_copy. kr; [apply keeps_coord_parts|]. kr; [apply keeps_np_copy|]. kr; [apply keeps_deepcopy|apply keeps_new_coord]. Qed.
Lemma keeps_std_of c : keeps (std_of c).
Proof. unfold std_of. kr; [apply keeps_coord_parts|]. kr; [apply keeps_get_meta|kr]. Qed.
Lemma keeps_copy_into cs : forall out, keeps (copy_into out cs).
Proof.
  induction cs as [|c cs IH]; intros out; cbn [copy_into]; [kr|]. kr; [apply keeps_coord_copy|]. kr; [|apply IH]. unfold coords_append. kr; [apply keeps_std_of|]. kr; [apply keeps_map_each; intros; apply keeps_std_of|]. destruct (existsb _ _); kr.
Qed.
Lemma keeps_coordlist_copy cl : keeps (coordlist_copy cl).
Proof. unfold coordlist_copy. kr; [apply keeps_get_list|]. kr; [apply keeps_copy_into|kr]. Qed.

(** two closed parts that have in common only arrays of a given set *)
Definition parts_but (K : loc -> Prop) (h : heap) (N O : loc -> Prop) : Prop :=
  closed h N /\ closed h O /\ (forall l, N l -> O l -> K l) /\ (forall l, K l -> exists o, nth_error h l = Some o /\ is_array o = true).
Lemma parts_but_flip K h (N O : loc -> Prop) : parts_but K h N O -> parts_but K h O N.
Proof. intros (A & B & C & D). repeat split; try apply A; try apply B; auto. Qed.
(** a part the action does not belong to stays as it is, up to the common arrays, which are kept *)
Lemma parts_but_act K {A} (m : M A) out h a h' (N O : loc -> Prop) : (forall l, {O l} + {~ O l}) -> parts_but K h N O -> acts O m out -> keeps m -> m h = Ok (a, h') -> parts_but K h' N (grow O h h') /\ (forall l, In l (out a) -> grow O h h' l) /\ length h <= length h'.
Proof.
  intros DO (CN & CO & D & KA) H KE E. destruct (H _ _ _ CO E) as (L & C & F & OU). split; [|split; auto]. split; [|split; [auto|split]].
  - destruct CN as [N1 N2]. split; [intros l Hl; apply N1 in Hl; lia|]. intros l o r El Hl I. destruct (DO l) as [Ho|Ho].
    + destruct (KA l (D l Hl Ho)) as (o' & E1 & E2). rewrite (KE _ _ _ E l o' E1 E2) in El. injection El as <-. eapply N2; eauto.
    + rewrite F in El; [eapply N2; eauto|apply N1; auto|auto].
  - intros l Hn [Ho|Ho]; [auto|]. apply CN in Hn. lia.
  - intros l Hl. destruct (KA l Hl) as (o & E1 & E2). exists o. split; [eapply KE; eauto|auto].
Qed.
Lemma grow_dec (O : loc -> Prop) h h' : (forall l, {O l} + {~ O l}) -> forall l, {grow O h h' l} + {~ grow O h h' l}.
Proof. intros D l. unfold grow. destruct (D l); [left; auto|]. destruct (le_dec (length h) l); [|right; intuition]. destruct (lt_dec l (length h')); [left; auto|right; intuition]. Qed.
Theorem data_copy_with_shares x d h c h' s b i cells : no_dangling h -> d < length h -> nth_error h x = Some (OArr s b i) -> nth_error h b = Some (OBuf cells) -> data_copy (Some x) d h = Ok (c, h') -> copy_shares x d h c h'.
Proof.
  intros W B Ex Eb E. pose (K := fun l => l = x \/ l = b). assert (DK : forall l, {K l} + {~ K l}) by (intros l; unfold K; destruct (Nat.eq_dec l x); [left; auto|]; destruct (Nat.eq_dec l b); [left; auto|right; intuition]).
  assert (KR : forall l, K l -> reach h x l) by (intros l [->| ->]; [constructor|econstructor; [exact Ex|left; reflexivity|constructor]]).
  assert (CK : closed h K). { split; [intros l [->| ->]; apply nth_error_Some; congruence|]. intros l o r El [->| ->] I; [rewrite Ex in El; injection El as <-; destruct I as [<-|[]]; right; auto|rewrite Eb in El; injection El as <-; destruct I]. }
  assert (P : parts_but K h (fun l => l < length h) K). { split; [apply closed_all; auto|]. split; auto. split; auto. intros l [->| ->]; eauto. }
  unfold data_copy in E. step E. apply get_ok in E0. destruct E0 as [-> E0]. destruct a; try discriminate. step E. injection E1 as <- <-.
  step E. destruct (parts_but_act K _ _ _ _ _ _ _ (fun l => lt_dec l (length h)) (parts_but_flip _ _ _ _ P) (acts_coords _ d B) (keeps_coords d) E1) as (P2 & U2 & L2). apply parts_but_flip in P2.
  step E. destruct (parts_but_act K _ _ _ _ _ _ _ DK P2 (acts_coordlist_copy K a) (keeps_coordlist_copy a) E2) as (P3 & U3 & L3).
  step E. destruct (parts_but_act K _ _ _ _ _ _ _ (grow_dec _ _ _ DK) P3 (acts_deepcopy_meta _ md) (keeps_deepcopy md) E3) as (P4 & U4 & L4).
  destruct (parts_but_act K _ _ _ _ _ _ _ (grow_dec _ _ _ (grow_dec _ _ _ DK)) P4 (acts_new_data _ x a1 a0 (or_introl (or_introl (or_introl eq_refl))) (U4 _ (or_introl eq_refl)) (or_introl (U3 _ (or_introl eq_refl)))) (keeps_new_data x a1 a0) E) as (P5 & U5 & L5).
  split; [|split; [lia|split]].
  - destruct P5 as (CN & CO & _). apply closed_all. split; auto. intros l o r El Hl I. destruct (Nat.lt_ge_cases l (length h0)) as [H0|H0]; [apply CN; eapply CN; eauto; unfold grow; lia|apply CO; eapply CO; eauto; unfold grow; lia].
  - apply P5. apply U5. left. auto.
  - intros z l Hz R1 R2. apply KR. destruct P5 as (CN & CO & D & _). apply D; [apply (closed_reach h' _ z l CN); auto; left; auto|apply (closed_reach h' _ c l CO); auto; apply U5; left; auto].
Qed.
