(** Proofs for C39: separation. *)
From Coq Require Import String.
From Verif Require Import Base PyStr QBase LonModel HeapModel HeapSpec.
From Coq Require Import List Lia Arith.
Import ListNotations.
Open Scope string_scope. Open Scope list_scope. Open Scope nat_scope. Notation length := List.length.

(** ** Lists *)
Lemma set_nth_length {A} n (x : A) l : length (set_nth n x l) = length l.
Proof. revert n. induction l as [|a l IH]; intros [|n]; cbn; auto. Qed.
Lemma set_nth_same {A} n (x : A) l : n < length l -> nth_error (set_nth n x l) n = Some x.
Proof. revert n. induction l as [|a l IH]; intros [|n] H; cbn in *; try lia; auto. apply IH. lia. Qed.
Lemma set_nth_other {A} n m (x : A) l : m <> n -> nth_error (set_nth n x l) m = nth_error l m.
Proof. revert n m. induction l as [|a l IH]; intros [|n] [|m] H; cbn; auto; try congruence. Qed.

(** ** Views depend on what is reached only *)
Definition agree (h h' : heap) (x : loc) : Prop := forall l, reach h x l -> nth_error h' l = nth_error h l.
Lemma agree_here h h' x : agree h h' x -> nth_error h' x = nth_error h x.
Proof. intros H. apply H. constructor. Qed.
Lemma agree_step h h' x o r : agree h h' x -> nth_error h x = Some o -> In r (refs o) -> agree h h' r.
Proof. intros H E I l R. apply H. econstructor; eauto. Qed.
Lemma see_array_agree h h' x : agree h h' x -> see_array h' x = see_array h x.
Proof.
  intros H. unfold see_array. rewrite (agree_here _ _ _ H). destruct (nth_error h x) as [[]|] eqn:E; auto. rewrite (agree_here h h' buf); auto. apply (agree_step _ _ _ _ _ H E). cbn. auto.
Qed.
Lemma see_dict_agree h h' x : agree h h' x -> see_dict h' x = see_dict h x.
Proof. intros H. unfold see_dict. rewrite (agree_here _ _ _ H). reflexivity. Qed.
Lemma see_meta_agree h h' x : agree h h' x -> see_meta h' x = see_meta h x.
Proof.
  intros H. unfold see_meta. rewrite (agree_here _ _ _ H). destruct (nth_error h x) as [[]|] eqn:E; auto. rewrite (see_dict_agree h h'); auto. apply (agree_step _ _ _ _ _ H E). cbn. auto.
Qed.
Lemma see_lazy_agree h h' d f md at_ : agree h h' d -> agree h h' md -> agree h h' at_ -> (forall l, f = Some l -> agree h h' l) -> see_lazy h' d f md at_ = see_lazy h d f md at_.
Proof.
  intros Hd Hm Ha Hf. unfold see_lazy. rewrite (see_array_agree _ _ _ Hd), (see_meta_agree _ _ _ Hm), (see_dict_agree _ _ _ Ha). destruct (see_array h d), (see_meta h md), (see_dict h at_); auto. unfold see_flat. destruct f as [fl|]; auto. rewrite (see_array_agree _ _ _ (Hf fl eq_refl)). reflexivity.
Qed.
Lemma see_coord_agree h h' x : agree h h' x -> see_coord h' x = see_coord h x.
Proof.
  intros H. unfold see_coord. rewrite (agree_here _ _ _ H). destruct (nth_error h x) as [[]|] eqn:E; auto. rewrite (see_lazy_agree h h'); auto; try (apply (agree_step _ _ _ _ _ H E); cbn; auto 10). intros l ->. apply (agree_step _ _ _ _ _ H E). cbn. auto 10.
Qed.
Lemma see_all_agree {A} (see see' : loc -> option A) l : (forall x, In x l -> see' x = see x) -> see_all see' l = see_all see l.
Proof. induction l as [|x l IH]; intros H; cbn; auto. rewrite H by (left; auto). rewrite IH; auto. intros y Hy. apply H. right. auto. Qed.
Lemma see_coords_agree h h' x : agree h h' x -> see_coords h' x = see_coords h x.
Proof.
  intros H. unfold see_coords. rewrite (agree_here _ _ _ H). destruct (nth_error h x) as [[]|] eqn:E; auto. apply see_all_agree. intros y Hy. apply see_coord_agree. apply (agree_step _ _ _ _ _ H E). auto.
Qed.
Lemma see_data_agree h h' x : agree h h' x -> see_data h' x = see_data h x.
Proof.
  intros H. unfold see_data. rewrite (agree_here _ _ _ H). destruct (nth_error h x) as [[]|] eqn:E; auto. rewrite (see_lazy_agree h h'), (see_coords_agree h h'); auto; try (apply (agree_step _ _ _ _ _ H E); cbn; auto 10). intros l ->. apply (agree_step _ _ _ _ _ H E). cbn. auto 10.
Qed.
Lemma see_datalist_agree h h' x : agree h h' x -> see_datalist h' x = see_datalist h x.
Proof.
  intros H. unfold see_datalist. rewrite (agree_here _ _ _ H). destruct (nth_error h x) as [[]|] eqn:E; auto. apply see_all_agree. intros y Hy. apply see_data_agree. apply (agree_step _ _ _ _ _ H E). auto.
Qed.
Lemma agree_looks h h' x : agree h h' x -> looks_the_same h h' x.
Proof. intros H. repeat split; auto using see_data_agree, see_coord_agree, see_coords_agree, see_datalist_agree, see_array_agree. Qed.
Lemma agree_reach h h' x l : agree h h' x -> reach h' x l -> reach h x l.
Proof.
  intros H R. revert H. induction R as [l|l o m n E I R IH]; intros H; [constructor|]. rewrite (agree_here _ _ _ H) in E. econstructor; eauto. apply IH. eapply agree_step; eauto.
Qed.
Lemma reach_bound h x l : no_dangling h -> x < length h -> reach h x l -> l < length h.
Proof. intros W H R. induction R as [|l o m n E I R IH]; auto. apply IH. eapply W; eauto. Qed.

(** ** Edits *)
Lemma separate_sym h a b : separate h a b -> separate h b a.
Proof. intros H l R1 R2. eapply H; eauto. Qed.
Lemma edit_agree h h' a b : no_dangling h -> b < length h -> separate h a b -> edit a h h' -> agree h h' b.
Proof. intros W B S (L & _ & F & _) l R. apply F; [eapply reach_bound; eauto|]. intros R'. eapply S; eauto. Qed.
Lemma edit_separate h h' a b : no_dangling h -> b < length h -> separate h a b -> edit a h h' -> separate h' a b.
Proof.
  intros W B S E l Ra Rb. pose proof (edit_agree _ _ _ _ W B S E) as A. pose proof (agree_reach _ _ _ _ A Rb) as Rb'. destruct E as (L & _ & F & G). destruct (G l Ra) as [R|R]; [eapply S; eauto|]. pose proof (reach_bound _ _ _ W B Rb'). lia.
Qed.
Theorem history_separate a b h h1 : no_dangling h -> a < length h -> b < length h -> separate h a b -> history a b h h1 ->
  no_dangling h1 /\ length h <= length h1 /\ separate h1 a b /\
  (forall h2, edit a h1 h2 -> looks_the_same h1 h2 b) /\ (forall h2, edit b h1 h2 -> looks_the_same h1 h2 a).
Proof.
  intros W A B S H. assert (G : no_dangling h1 /\ length h <= length h1 /\ separate h1 a b).
  { induction H as [|h1 h2 H (W1 & L1 & S1) E|h1 h2 H (W1 & L1 & S1) E]; [split; [|split]; auto| |].
    - split; [apply E|]. split; [destruct E; lia|]. eapply edit_separate; eauto. lia.
    - split; [apply E|]. split; [destruct E; lia|]. apply separate_sym. eapply edit_separate; eauto; [lia|]. apply separate_sym. auto. }
  destruct G as (W1 & L1 & S1). split; auto. split; auto. split; auto. split; intros h2 E; apply agree_looks; eapply edit_agree; eauto; try lia. apply separate_sym. auto.
Qed.

(** ** What programs do to a closed part of the memory *)
Definition closed (h : heap) (S : loc -> Prop) : Prop := (forall l, S l -> l < length h) /\ (forall l o r, nth_error h l = Some o -> S l -> In r (refs o) -> S r).
Definition grow (S : loc -> Prop) (h h' : heap) (l : loc) : Prop := S l \/ (length h <= l /\ l < length h').
Definition acts (S : loc -> Prop) {A} (m : M A) (out : A -> list loc) : Prop :=
  forall h a h', closed h S -> m h = Ok (a, h') ->
    length h <= length h' /\ closed h' (grow S h h') /\ (forall l, l < length h -> ~ S l -> nth_error h' l = nth_error h l) /\
    (forall l, In l (out a) -> grow S h h' l).
Definition no_locs {A} (a : A) : list loc := [].
Definition here (l : loc) : list loc := [l].
Definition all_locs (l : list loc) : list loc := l.
Lemma closed_iff h (S S' : loc -> Prop) : (forall l, S l <-> S' l) -> closed h S -> closed h S'.
Proof. intros E [H1 H2]. split; [intros l Hl; apply H1, E; auto|]. intros l o r E1 Hl I. apply E. eapply H2; eauto. apply E. auto. Qed.
Lemma grow_same (S : loc -> Prop) h l : grow S h h l <-> S l.
Proof. unfold grow. split; [intros [H|H]; auto; lia|auto]. Qed.
Lemma grow_trans (S : loc -> Prop) h h1 h2 l : length h <= length h1 -> length h1 <= length h2 -> (grow (grow S h h1) h1 h2 l <-> grow S h h2 l).
Proof. unfold grow. intros H1 H2. split; [intros [[H|H]|H]; auto; right; lia|]. intros [H|H]; auto. destruct (Nat.lt_ge_cases l (length h1)); [left; right; lia|right; lia]. Qed.
Lemma acts_ret (S : loc -> Prop) {A} (a : A) out : (forall l, In l (out a) -> S l) -> acts S (ret a) out.
Proof. intros H h b h' C E. injection E as <- <-. split; [lia|]. split; [eapply closed_iff; [|eauto]; intros; symmetry; apply grow_same|]. split; auto. intros l Hl. left. auto. Qed.
Lemma acts_fail (S : loc -> Prop) {A} e out : acts S (@fail A e) out.
Proof. intros h b h' C E. discriminate. Qed.
Lemma acts_bind (S : loc -> Prop) {A B} (m : M A) (f : A -> M B) out1 out : acts S m out1 ->
  (forall a (S' : loc -> Prop), (forall l, S l -> S' l) -> (forall l, In l (out1 a) -> S' l) -> acts S' (f a) out) -> acts S (mbind m f) out.
Proof.
  intros H1 H2 h b h' C E. unfold mbind in E. destruct (m h) as [[a h1]|] eqn:Em; [|discriminate]. cbn [bind fst snd] in E. destruct (H1 _ _ _ C Em) as (L1 & C1 & F1 & O1).
  assert (A2 := H2 a (grow S h h1) (fun l Hl => or_introl Hl) O1). destruct (A2 _ _ _ C1 E) as (L2 & C2 & F2 & O2).
  split; [lia|]. split; [eapply closed_iff; [|eauto]; intros; apply grow_trans; auto|]. split.
  - intros l Hl Ns. rewrite F2, F1; auto; try lia. intros [G|G]; auto; lia.
  - intros l Hl. apply (grow_trans S h h1 h' l L1 L2). auto.
Qed.
Lemma acts_weaken (S : loc -> Prop) {A} (m : M A) out out' : acts S m out -> (forall a l, In l (out' a) -> In l (out a)) -> acts S m out'.
Proof. intros H W h a h' C E. destruct (H _ _ _ C E) as (L & C1 & F & O). split; auto. Qed.
Lemma acts_get (S : loc -> Prop) l : acts S (get l) no_locs.
Proof. intros h o h' C E. unfold get in E. destruct (nth_error h l) as [x|] eqn:El; [|discriminate]. injection E as <- <-. apply (acts_ret S x no_locs); auto. cbn. tauto. Qed.
Lemma acts_get_in (S : loc -> Prop) l : S l -> acts S (get l) refs.
Proof.
  intros Hl h o h' C E. unfold get in E. destruct (nth_error h l) as [x|] eqn:El; [|discriminate]. injection E as <- <-. apply (acts_ret S x refs); auto. intros r Hr. destruct C as [_ C]. eapply C; eauto.
Qed.
Lemma acts_alloc (S : loc -> Prop) o : (forall r, In r (refs o) -> S r) -> acts S (alloc o) here.
Proof.
  intros H h a h' C E. unfold alloc in E. injection E as <- <-. rewrite app_length. cbn [length]. split; [lia|]. destruct C as [C1 C2]. split; [split|split].
  - intros l [Hl|Hl]; rewrite app_length in *; cbn [length] in *; [apply C1 in Hl; lia|lia].
  - intros l o' r E [Hl|Hl] I.
    + left. rewrite nth_error_app1 in E by (apply C1; auto). eapply C2; eauto.
    + assert (l = length h) by (rewrite app_length in Hl; cbn [length] in Hl; lia). subst l. rewrite nth_error_app2, Nat.sub_diag in E by lia. injection E as <-. left. auto.
  - intros l Hl _. rewrite nth_error_app1; auto.
  - intros l [<-|[]]. right. rewrite app_length. cbn [length]. lia.
Qed.
Lemma acts_update (S : loc -> Prop) l o : S l -> (forall r, In r (refs o) -> S r) -> acts S (update l o) no_locs.
Proof.
  intros Hl H h a h' C E. unfold update in E. destruct (l <? length h) eqn:B; [|discriminate]. apply Nat.ltb_lt in B. injection E as <- <-. rewrite set_nth_length. split; [lia|]. destruct C as [C1 C2]. split; [split|split].
  - intros x Hx. rewrite set_nth_length. destruct Hx as [Hx|Hx]; [auto|rewrite set_nth_length in Hx; lia].
  - intros x o' r E Hx I. left. destruct Hx as [Hx|Hx]; [|rewrite set_nth_length in Hx; lia]. destruct (Nat.eq_dec x l) as [->|N]; [rewrite set_nth_same in E by auto; injection E as <-; auto|]. rewrite set_nth_other in E by auto. eapply C2; eauto.
  - intros x Hx Ns. apply set_nth_other. intros ->. auto.
  - intros x [].
Qed.
Ltac sub := intros; match goal with H : In _ (no_locs _) |- _ => destruct H | _ => idtac end; cbn [refs here all_locs fst snd In] in *; intuition (subst; eauto).
Lemma acts_get_meta (S : loc -> Prop) l : acts S (get_meta l) no_locs.
Proof. eapply acts_bind; [apply acts_get|]. intros [] S' _ _; try apply acts_fail. apply acts_ret. sub. Qed.
Lemma acts_get_meta_in (S : loc -> Prop) l : S l -> acts S (get_meta l) (fun m => [m_misc m]).
Proof. intros H. eapply acts_bind; [apply acts_get_in; auto|]. intros [] S' HS HO; try apply acts_fail. apply acts_ret. sub. Qed.
Lemma acts_get_dict (S : loc -> Prop) l : acts S (get_dict l) no_locs.
Proof. eapply acts_bind; [apply acts_get|]. intros [] S' _ _; try apply acts_fail. apply acts_ret. sub. Qed.
Lemma acts_get_list (S : loc -> Prop) l : acts S (get_list l) no_locs.
Proof. eapply acts_bind; [apply acts_get|]. intros [] S' _ _; try apply acts_fail. apply acts_ret. sub. Qed.
Lemma acts_get_list_in (S : loc -> Prop) l : S l -> acts S (get_list l) all_locs.
Proof. intros H. eapply acts_bind; [apply acts_get_in; auto|]. intros [] S' HS HO; try apply acts_fail. apply acts_ret. sub. Qed.
Lemma acts_get_array (S : loc -> Prop) l : acts S (get_array l) no_locs.
Proof. eapply acts_bind; [apply acts_get|]. intros [] S' _ _; try apply acts_fail. eapply acts_bind; [apply acts_get|]. intros [] S2 _ _; try apply acts_fail. apply acts_ret. sub. Qed.
Lemma acts_each {A} (f : A -> M unit) l : forall S : loc -> Prop, (forall x (S' : loc -> Prop), In x l -> (forall r, S r -> S' r) -> acts S' (f x) no_locs) -> acts S (each f l) no_locs.
Proof.
  induction l as [|x l IH]; intros S H; cbn [each]; [apply acts_ret; sub|]. eapply acts_bind; [apply H; [left|]; auto|]. intros _ S' HS _. apply IH. intros y S2 Hy H2. apply H; [right|]; auto.
Qed.
Lemma acts_map_each {A B} (f : A -> M B) out l : forall S : loc -> Prop, (forall x (S' : loc -> Prop), In x l -> (forall r, S r -> S' r) -> acts S' (f x) out) -> acts S (map_each f l) (flat_map out).
Proof.
  induction l as [|x l IH]; intros S H; cbn [map_each]; [apply acts_ret; intros ? []|]. eapply acts_bind; [apply H; [left|]; auto|]. intros y S' HS HO. eapply acts_bind; [apply IH; intros z S2 Hz H2; apply H; [right|]; auto|].
  intros ys S2 HS2 HO2. apply acts_ret. intros l0 Hl. cbn [flat_map] in Hl. apply in_app_iff in Hl. destruct Hl; auto.
Qed.
Lemma acts_new_array (S : loc -> Prop) shape cells : acts S (new_array shape cells) here.
Proof. eapply acts_bind; [apply acts_alloc; sub|]. intros b S' HS HO. apply acts_alloc. sub. Qed.
Lemma acts_np_copy (S : loc -> Prop) a : acts S (np_copy a) here.
Proof. eapply acts_bind; [apply acts_get_array|]. intros. apply acts_new_array. Qed.
Lemma acts_np_ravel (S : loc -> Prop) a : S a -> acts S (np_ravel a) here.
Proof.
  intros H. eapply acts_bind; [apply acts_get_in; auto|]. intros [] S' HS HO; try apply acts_fail. destruct (consecutive index); [apply acts_alloc; sub|]. eapply acts_bind; [apply acts_get_array|]. intros. apply acts_new_array.
Qed.
Lemma acts_np_getitem (S : loc -> Prop) a k : acts S (np_getitem a k) here.
Proof. eapply acts_bind; [apply acts_get_array|]. intros sc S' _ _. destruct (forallb _ _); [|apply acts_fail]. destruct (k_shape k); [apply acts_fail|apply acts_new_array]. Qed.
Lemma acts_update_shape_range (S : loc -> Prop) a md : S md -> acts S (update_shape_range a md) no_locs.
Proof. intros H. eapply acts_bind; [apply acts_get_array|]. intros sc S' HS _. eapply acts_bind; [apply acts_get_meta_in; auto|]. intros m S2 HS2 HO2. apply acts_update; auto; sub. Qed.
Lemma acts_get_lazy (S : loc -> Prop) l : acts S (get_lazy l) no_locs.
Proof. eapply acts_bind; [apply acts_get|]. intros [] S' _ _; try apply acts_fail; apply acts_ret; sub. Qed.
Definition handle_locs (x : handle) : list loc := h_data x :: h_md x :: h_attrs x :: refs (h_obj x) ++ match h_flat x with Some f => [f] | None => [] end.
Lemma acts_get_lazy_in (S : loc -> Prop) l : S l -> acts S (get_lazy l) handle_locs.
Proof.
  intros H. eapply acts_bind; [apply acts_get_in; auto|]. intros [] S' HS HO; try apply acts_fail; apply acts_ret; unfold handle_locs; cbn [h_data h_md h_attrs h_flat h_obj refs] in *; intros r Hr; apply HO; destruct flat; cbn [In app] in *; intuition (subst; eauto).
Qed.
Lemma refs_with_data o d f r : In r (refs (with_data o d f)) -> r = d \/ (exists x, f = Some x /\ r = x) \/ In r (refs o).
Proof. destruct o; cbn [with_data refs]; intros H; auto; cbn [In] in *; repeat (destruct H as [H|H]; [subst; auto 10|]); (destruct f; cbn [In] in H; [destruct H as [<-|[]]; eauto|contradiction]). Qed.
Lemma acts_set_data (S : loc -> Prop) l a : S l -> S a -> acts S (set_data l a) no_locs.
Proof.
  intros H Ha. eapply acts_bind; [apply acts_get_lazy_in; auto|]. intros x S' HS HO. apply acts_update; auto. intros r Hr. apply refs_with_data in Hr. destruct Hr as [->|[(y & E & _)|Hr]]; [auto|discriminate|]. apply HO. unfold handle_locs. cbn [In]. rewrite in_app_iff. auto 10.
Qed.
Lemma acts_set_data_only (S : loc -> Prop) l a : S l -> S a -> acts S (set_data_only l a) no_locs.
Proof.
  intros H Ha. eapply acts_bind; [apply acts_get_lazy_in; auto|]. intros x S' HS HO. apply acts_update; auto. intros r Hr. apply refs_with_data in Hr. unfold handle_locs in HO. cbn [In] in HO. setoid_rewrite in_app_iff in HO.
  destruct Hr as [->|[(y & E & ->)|Hr]]; [auto| |apply HO; auto 10]. apply HO. rewrite E. cbn [In]. auto 10.
Qed.
Lemma acts_data_flattened (S : loc -> Prop) l : S l -> acts S (data_flattened l) here.
Proof.
  intros H. eapply acts_bind; [apply acts_get_lazy_in; auto|]. intros x S' HS HO. unfold handle_locs in HO. cbn [In] in HO. setoid_rewrite in_app_iff in HO. destruct (h_flat x) as [f|] eqn:Ef.
  - apply acts_ret. sub. apply HO. cbn. auto 10.
  - eapply acts_bind; [apply acts_np_ravel; apply HO; auto|]. intros f S2 HS2 HO2. eapply acts_bind; [apply acts_update; [auto|]|].
    + intros r Hr. apply refs_with_data in Hr. destruct Hr as [->|[(y & E & ->)|Hr]]; [apply HS2, HO; auto| |apply HS2, HO; auto 10]. injection E as <-. apply HO2. cbn. auto.
    + intros _ S3 HS3 _. apply acts_ret. sub.
Qed.
Lemma acts_deepcopy_meta (S : loc -> Prop) md : acts S (deepcopy_meta md) here.
Proof.
  eapply acts_bind; [apply acts_get_meta|]. intros m S1 _ _. eapply acts_bind; [apply acts_get_dict|]. intros d S2 _ _. eapply acts_bind; [apply acts_alloc; sub|]. intros l S3 _ HO. apply acts_alloc. sub.
Qed.
(** ** _post_process *)
Lemma acts_combined_mask cs : forall (S : loc -> Prop) mask, (forall c, In c cs -> S c) -> acts S (combined_mask cs mask) no_locs.
Proof.
  induction cs as [|c cs IH]; intros S mask H; cbn [combined_mask]; [apply acts_ret; sub|]. eapply acts_bind; [apply acts_get_lazy_in, H; left; auto|]. intros x S1 H1 O1. eapply acts_bind; [apply acts_get_array|]. intros sc S2 H2 _. destruct (_ =? _); [|apply acts_fail].
  eapply acts_bind; [apply acts_update_shape_range; apply H2, O1; cbn; auto|]. intros _ S3 H3 _. apply IH. intros y Hy. apply H3, H2, H1, H. right. auto.
Qed.
Lemma acts_compress_coord (S : loc -> Prop) mask c : S c -> acts S (compress_coord mask c) no_locs.
Proof.
  intros H. eapply acts_bind; [apply acts_get_lazy_in; auto|]. intros x S1 H1 O1. eapply acts_bind; [apply acts_get_array|]. intros sc S2 H2 _. destruct (_ =? _); [|apply acts_fail].
  eapply acts_bind; [apply acts_new_array|]. intros a S3 H3 O3. eapply acts_bind; [apply acts_set_data; [auto|apply O3; cbn; auto]|]. intros _ S4 H4 _. apply acts_update_shape_range. apply H4, H3, H2, O1. cbn. auto.
Qed.
Lemma acts_post_process (S : loc -> Prop) d : S d -> acts S (post_process d) no_locs.
Proof.
  intros H. eapply acts_bind; [apply acts_get_in; auto|]. intros [] S1 H1 O1; try apply acts_fail. cbn [refs In] in O1. eapply acts_bind; [apply acts_get_array|]. intros sc S2 H2 _. eapply acts_bind; [apply acts_get_list_in; auto 10|]. intros cs S3 H3 O3.
  eapply acts_bind; [apply acts_combined_mask; intros; apply O3; auto|]. intros mask S4 H4 _. destruct (existsb _ _).
  - eapply acts_bind; [apply acts_each; intros c S' Hc HS; apply acts_compress_coord; apply HS, H4, O3; auto|]. intros _ S5 H5 _. eapply acts_bind; [apply acts_new_array|]. intros b S6 H6 O6. eapply acts_bind; [apply acts_set_data_only; [auto 10|apply O6; cbn; auto]|]. intros _ S7 H7 _. apply acts_update_shape_range. auto 15.
  - apply acts_update_shape_range. auto 15.
Qed.
Lemma acts_coords (S : loc -> Prop) d : S d -> acts S (coords d) here.
Proof.
  intros H. eapply acts_bind; [apply acts_post_process; auto|]. intros _ S1 H1 _. eapply acts_bind; [apply acts_get_in; auto|]. intros [] S2 H2 O2; try apply acts_fail. apply acts_ret. sub.
Qed.
(** ** Making objects *)
Lemma acts_new_coord (S : loc -> Prop) a md axis : S a -> S md -> acts S (new_coord a md axis) here.
Proof.
  intros Ha Hm. eapply acts_bind; [apply acts_alloc; sub|]. intros at_ S1 H1 O1. eapply acts_bind; [apply acts_alloc; sub|]. intros l S2 H2 O2. eapply acts_bind; [apply acts_get_meta_in; auto|]. intros m S3 H3 O3. eapply acts_bind; [apply acts_update; [auto|sub]|]. intros _ S4 H4 _. apply acts_ret. sub.
Qed.
Lemma acts_new_data (S : loc -> Prop) a md cl : S a -> S md -> S cl -> acts S (new_data a md cl) here.
Proof.
  intros Ha Hm Hc. eapply acts_bind; [apply acts_get_meta_in; auto|]. intros m S1 H1 O1. eapply acts_bind; [apply acts_update; [auto|sub]|]. intros _ S2 H2 _. eapply acts_bind; [apply acts_alloc; sub|]. intros at_ S3 H3 O3. eapply acts_bind; [apply acts_alloc; sub|]. intros l S4 H4 O4.
  eapply acts_bind; [apply acts_post_process; sub|]. intros _ S5 H5 _. apply acts_ret. sub.
Qed.
Lemma acts_coord_parts (S : loc -> Prop) c : acts S (coord_parts c) no_locs.
Proof. eapply acts_bind; [apply acts_get|]. intros [] S1 _ _; try apply acts_fail. apply acts_ret. sub. Qed.
Lemma acts_coord_copy (S : loc -> Prop) c : acts S (coord_copy c) here.
Proof.
  eapply acts_bind; [apply acts_coord_parts|]. intros p S1 _ _. eapply acts_bind; [apply acts_np_copy|]. intros a S2 _ O2. eapply acts_bind; [apply acts_deepcopy_meta|]. intros md S3 H3 O3. apply acts_new_coord; sub.
Qed.
Lemma acts_coord_getitem (S : loc -> Prop) k c : acts S (coord_getitem k c) here.
Proof.
  eapply acts_bind; [apply acts_coord_parts|]. intros p S1 _ _. eapply acts_bind; [apply acts_np_getitem|]. intros a S2 _ O2. eapply acts_bind; [apply acts_deepcopy_meta|]. intros md S3 H3 O3. apply acts_new_coord; sub.
Qed.
Lemma acts_std_of (S : loc -> Prop) c : acts S (std_of c) no_locs.
Proof. eapply acts_bind; [apply acts_coord_parts|]. intros p S1 _ _. eapply acts_bind; [apply acts_get_meta|]. intros. apply acts_ret. sub. Qed.
Lemma acts_coords_append (S : loc -> Prop) l c : (forall x, In x l -> S x) -> S c -> acts S (coords_append l c) all_locs.
Proof.
  intros H Hc. eapply acts_bind; [apply acts_std_of|]. intros s S1 H1 _. eapply acts_bind; [apply (acts_map_each _ no_locs); intros; apply acts_std_of|]. intros ss S2 H2 _. destruct (existsb _ _); [apply acts_fail|]. apply acts_ret. intros x Hx. apply in_app_iff in Hx. destruct Hx as [Hx|[<-|[]]]; auto.
Qed.
Lemma acts_copy_into cs : forall (S : loc -> Prop) out, (forall x, In x out -> S x) -> acts S (copy_into out cs) all_locs.
Proof.
  induction cs as [|c cs IH]; intros S out H; cbn [copy_into]; [apply acts_ret; sub|]. eapply acts_bind; [apply acts_coord_copy|]. intros c' S1 H1 O1. eapply acts_bind; [apply acts_coords_append; auto; apply O1; cbn; auto|]. intros out' S2 H2 O2. apply IH. auto.
Qed.
Lemma acts_coordlist_copy (S : loc -> Prop) cl : acts S (coordlist_copy cl) here.
Proof. eapply acts_bind; [apply acts_get_list|]. intros cs S1 _ _. eapply acts_bind; [apply acts_copy_into; intros x []|]. intros out S2 _ O2. apply acts_alloc. auto. Qed.

(** ** Calls *)
Lemma acts_find_part (S : loc -> Prop) p d : S d -> acts S (find_part p d) here.
Proof.
  intros H. destruct p as [|k]; cbn [find_part]; [apply acts_ret; sub|]. eapply acts_bind; [apply acts_get_in; auto|]. intros [] S1 H1 O1; try apply acts_fail. cbn [refs In] in O1. eapply acts_bind; [apply acts_get_list_in; auto 10|]. intros cs S2 H2 O2. destruct (nth_error cs k) eqn:E; [|apply acts_fail]. apply nth_error_In in E. apply acts_ret. sub.
Qed.
Lemma acts_set_point (S : loc -> Prop) a i c : S a -> acts S (set_point a i c) no_locs.
Proof.
  intros H. eapply acts_bind; [apply acts_get_in; auto|]. intros [] S1 H1 O1; try apply acts_fail. cbn [refs In] in O1. destruct (nth_error index i); [|apply acts_fail]. eapply acts_bind; [apply acts_get|]. intros [] S2 H2 _; try apply acts_fail. apply acts_update; auto; sub.
Qed.
Lemma acts_change_meta (S : loc -> Prop) f l : (forall m, m_misc (f m) = m_misc m) -> S l -> acts S (change_meta f l) no_locs.
Proof.
  intros F H. eapply acts_bind; [apply acts_get_lazy_in; auto|]. intros x S1 H1 O1. eapply acts_bind; [apply acts_get_meta_in; apply O1; cbn; auto|]. intros m S2 H2 O2. apply acts_update; [apply H2, O1; cbn; auto|]. cbn [refs]. rewrite F. auto.
Qed.
Lemma acts_change_dict (S : loc -> Prop) f l : S l -> acts S (change_dict f l) no_locs.
Proof. intros H. eapply acts_bind; [apply acts_get_dict|]. intros d S1 H1 _. apply acts_update; auto; sub. Qed.
Lemma acts_perform (S : loc -> Prop) o d : S d -> acts S (perform o d) no_locs.
Proof.
  intros H. destruct o; cbn [perform]; try (eapply acts_bind; [apply acts_find_part; auto|]; intros l S1 H1 O1; assert (Hl : S1 l) by (apply O1; cbn; auto)).
  - eapply acts_bind; [apply acts_get_lazy_in; auto|]. intros x S2 H2 O2. apply acts_set_point. apply O2. cbn. auto.
  - eapply acts_bind; [apply acts_new_array|]. intros a S2 H2 O2. apply acts_set_data; auto. apply O2. cbn. auto.
  - apply acts_change_meta; auto.
  - apply acts_change_meta; auto.
  - eapply acts_bind; [apply acts_get_lazy_in; auto|]. intros x S2 H2 O2. apply acts_change_dict. apply O2. cbn. auto.
  - eapply acts_bind; [apply acts_get_lazy_in; auto|]. intros x S2 H2 O2. apply acts_change_dict. apply O2. cbn. auto.
  - eapply acts_bind; [apply acts_get_lazy_in; auto|]. intros x S2 H2 O2. eapply acts_bind; [apply acts_get_meta_in; apply O2; cbn; auto|]. intros m S3 H3 O3. apply acts_change_dict. apply O3. cbn. auto.
  - eapply acts_bind; [apply acts_get_lazy_in; auto|]. intros x S2 H2 O2. eapply acts_bind; [apply acts_get_array|]. intros sc S3 H3 _. eapply acts_bind; [apply acts_new_array|]. intros a S4 H4 O4. apply acts_set_data; auto. apply O4. cbn. auto.
  - eapply acts_bind; [apply acts_data_flattened; auto|]. intros. apply acts_ret. sub.
  - eapply acts_bind; [apply acts_coords; auto|]. intros. apply acts_ret. sub.
Qed.
Lemma acts_run os : forall (S : loc -> Prop) d, S d -> acts S (run os d) no_locs.
Proof. induction os as [|o os IH]; intros S d H; cbn [run]; [apply acts_ret; sub|]. eapply acts_bind; [apply acts_perform; auto|]. intros _ S1 H1 _. apply IH. auto. Qed.
Lemma closed_reach h (S : loc -> Prop) x l : closed h S -> S x -> reach h x l -> S l.
Proof. intros C H R. revert H. induction R as [|l o m n E I R IH]; intros H; auto. apply IH. destruct C as [_ C]. eapply C; eauto. Qed.
Lemma closed_all h : no_dangling h <-> closed h (fun l => l < length h).
Proof. split; [intros W; split; auto; intros; eapply W; eauto|]. intros [_ C] l o r E I. eapply C; eauto. apply nth_error_Some. congruence. Qed.
Lemma reach_snoc h x m o n : reach h x m -> nth_error h m = Some o -> In n (refs o) -> reach h x n.
Proof. induction 1 as [|l o' m' k E I R IH]; intros En In_; [econstructor; eauto; constructor|]. econstructor; eauto. Qed.
Lemma reach_closed h x : no_dangling h -> x < length h -> closed h (reach h x).
Proof. intros W H. split; [intros l R; eapply reach_bound; eauto|]. intros l o r E R I. eapply reach_snoc; eauto. Qed.
Lemma acts_grown {A} (m : M A) out h a h' : (forall S : loc -> Prop, acts S m out) -> no_dangling h -> m h = Ok (a, h') -> no_dangling h'.
Proof.
  intros HA W E. destruct (HA _ _ _ _ (proj1 (closed_all h) W) E) as (L & C & _). apply closed_all. eapply closed_iff; [|eauto]. intros l. unfold grow. split; [intros [H|H]; lia|]. intros H. destruct (Nat.lt_ge_cases l (length h)); auto.
Qed.
(** a program that only uses what it finds at d edits d *)
Lemma acts_edit {A} (m : M A) out h d a h' : (forall S : loc -> Prop, S d -> acts S m out) -> no_dangling h -> d < length h -> m h = Ok (a, h') -> edit d h h'.
Proof.
  intros HA W B E. destruct (HA _ (reach_here h d) _ _ _ (reach_closed h d W B) E) as (L & C & F & _). split; auto. split; [|split; auto].
  - destruct (HA _ B _ _ _ (proj1 (closed_all h) W) E) as (_ & C2 & _). apply closed_all. eapply closed_iff; [|eauto]. intros l. unfold grow. split; [intros [H|H]; lia|]. intros H. destruct (Nat.lt_ge_cases l (length h)); auto.
  - intros l R. assert (G : grow (reach h d) h h' l) by (eapply closed_reach; eauto; left; constructor). destruct G as [G|G]; [auto|right; lia].
Qed.
Theorem run_edit os d h h' : no_dangling h -> d < length h -> run os d h = Ok (tt, h') -> edit d h h'.
Proof. intros W B E. eapply (acts_edit (run os d)); eauto. intros S HS. apply acts_run. auto. Qed.

(** ** Copies are separate *)
(** two disjoint closed parts: [N] the old objects, [O] what the copy owns *)
Definition parts (h : heap) (N O : loc -> Prop) : Prop := closed h N /\ closed h O /\ (forall l, N l -> O l -> False).
Lemma parts_flip h (N O : loc -> Prop) : parts h N O -> parts h O N.
Proof. intros (A & B & C). split; auto. split; auto. intros; eapply C; eauto. Qed.
Lemma parts_act {A} (m : M A) out h a h' (N O : loc -> Prop) : parts h N O -> acts O m out -> m h = Ok (a, h') -> parts h' N (grow O h h') /\ (forall l, In l (out a) -> grow O h h' l) /\ length h <= length h'.
Proof.
  intros (CN & CO & D) H E. destruct (H _ _ _ CO E) as (L & C & F & OU). split; [|split; auto]. split; [|split; auto].
  - destruct CN as [N1 N2]. split; [intros l Hl; apply N1 in Hl; lia|]. intros l o r El Hl I. rewrite F in El; [eapply N2; eauto|apply N1; auto|]. intros Ho. eapply D; eauto.
  - intros l Hn [Ho|Ho]; [eapply D; eauto|]. apply CN in Hn. lia.
Qed.
Definition owns (N : loc -> Prop) {A} (m : M A) (out : A -> list loc) : Prop :=
  forall h a h' O, parts h N O -> m h = Ok (a, h') -> exists N' O', parts h' N' O' /\ (forall l, N l -> N' l) /\ (forall l, O l -> O' l) /\ (forall l, In l (out a) -> O' l).
Lemma own_act (N : loc -> Prop) {A} (m : M A) out h a h' (O : loc -> Prop) : parts h N O -> (forall S : loc -> Prop, acts S m out) -> m h = Ok (a, h') -> exists O', parts h' N O' /\ (forall l, O l -> O' l) /\ (forall l, In l (out a) -> O' l).
Proof. intros P H E. destruct (parts_act m out h a h' N O P (H O) E) as (P' & U & _). exists (grow O h h'). split; auto. split; auto. intros l Hl. left. auto. Qed.
Lemma mbind_ok {A B} (m : M A) (f : A -> M B) h b h' : mbind m f h = Ok (b, h') -> exists a h1, m h = Ok (a, h1) /\ f a h1 = Ok (b, h').
Proof. unfold mbind. destruct (m h) as [[a h1]|]; [|discriminate]. cbn. eauto. Qed.
Ltac step E := let a := fresh "a" in let h := fresh "h" in let E1 := fresh "E" in apply mbind_ok in E; destruct E as (a & h & E1 & E).
Lemma get_ok l h o h' : get l h = Ok (o, h') -> h' = h /\ nth_error h l = Some o.
Proof. unfold get. destruct (nth_error h l); [|discriminate]. intros H. injection H as <- <-. auto. Qed.
Lemma data_copy_parts (N : loc -> Prop) d h c h' O : parts h N O -> N d -> data_copy None d h = Ok (c, h') -> exists N' O', parts h' N' O' /\ (forall l, N l -> N' l) /\ (forall l, O l -> O' l) /\ O' c.
Proof.
  intros P Hd E. unfold data_copy in E. step E. apply get_ok in E0. destruct E0 as [-> E0]. destruct a; try discriminate.
  step E. destruct (own_act N _ _ _ _ _ _ P (fun S => acts_np_copy S data) E1) as (O1 & P1 & M1 & U1).
  step E. destruct (parts_act _ _ _ _ _ _ _ (parts_flip _ _ _ P1) (acts_coords N d Hd) E2) as (P2 & U2 & L2). apply parts_flip in P2.
  step E. destruct (own_act _ _ _ _ _ _ _ P2 (fun S => acts_coordlist_copy S _) E3) as (O3 & P3 & M3 & U3).
  step E. destruct (own_act _ _ _ _ _ _ _ P3 (fun S => acts_deepcopy_meta S _) E4) as (O4 & P4 & M4 & U4).
  destruct (parts_act _ _ _ _ _ _ _ P4 (acts_new_data O4 a a2 a1 (M4 _ (M3 _ (U1 _ (or_introl eq_refl)))) (U4 _ (or_introl eq_refl)) (M4 _ (U3 _ (or_introl eq_refl)))) E) as (P5 & U5 & L5).
  eexists. eexists. split; [exact P5|]. split; [intros l Hl; left; auto|]. split; [intros l Hl; left; auto|]. apply U5. left. auto.
Qed.
Lemma data_getitem_parts k (N : loc -> Prop) d h c h' O : parts h N O -> N d -> data_getitem k d h = Ok (c, h') -> exists N' O', parts h' N' O' /\ (forall l, N l -> N' l) /\ (forall l, O l -> O' l) /\ O' c.
Proof.
  intros P Hd E. unfold data_getitem in E.
  step E. destruct (parts_act _ _ _ _ _ _ _ (parts_flip _ _ _ P) (acts_coords N d Hd) E0) as (P2 & U2 & L2). apply parts_flip in P2.
  step E. destruct (own_act _ _ _ _ _ _ _ P2 (fun S => acts_get_list S _) E1) as (O1 & P1 & M1 & _).
  step E. destruct (own_act _ _ _ _ _ _ _ P1 (fun S => acts_map_each (coord_getitem k) here a0 S (fun x S' _ _ => acts_coord_getitem S' k x)) E2) as (O3 & P3 & M3 & U3).
  step E. apply get_ok in E3. destruct E3 as [-> E3]. destruct a2; try discriminate.
  step E. destruct (own_act _ _ _ _ _ _ _ P3 (fun S => acts_np_getitem S _ k) E4) as (O4 & P4 & M4 & U4).
  step E. destruct (own_act _ _ _ _ _ _ _ P4 (fun S => acts_deepcopy_meta S _) E5) as (O5 & P5 & M5 & U5).
  step E. assert (AL : acts O5 (alloc (OList a1)) here). { apply acts_alloc. cbn [refs]. intros r Hr. apply M5, M4, U3. apply in_flat_map. exists r. split; auto. left. auto. }
  destruct (parts_act _ _ _ _ _ _ _ P5 AL E6) as (P6 & U6 & L6).
  destruct (parts_act _ _ _ _ _ _ _ P6 (acts_new_data _ a2 a3 a4 (or_introl (M5 _ (U4 _ (or_introl eq_refl)))) (or_introl (U5 _ (or_introl eq_refl))) (U6 _ (or_introl eq_refl))) E) as (P7 & U7 & L7).
  eexists. eexists. split; [exact P7|]. split; [intros l Hl; left; auto|]. split; [intros l Hl; left; left; auto|]. apply U7. left. auto.
Qed.
Lemma acts_coord_shapes (S : loc -> Prop) d : S d -> acts S (coord_shapes d) no_locs.
Proof.
  intros H. eapply acts_bind; [apply acts_coords; auto|]. intros cl S1 H1 O1. eapply acts_bind; [apply acts_get_list|]. intros cs S2 H2 _. apply (acts_weaken _ _ (flat_map no_locs)); [|intros ? ? []]. apply acts_map_each. intros x S' _ _. eapply acts_bind; [apply acts_get_lazy|]. intros y S3 _ _. eapply acts_bind; [apply acts_get_array|]. intros. apply acts_ret. sub.
Qed.
Lemma acts_list_append (S : loc -> Prop) l d : (forall x, In x l -> S x) -> S d -> acts S (list_append l d) all_locs.
Proof.
  intros H Hd. destruct l as [|x l]; cbn [list_append]; [apply acts_ret; sub|]. eapply acts_bind; [apply acts_coord_shapes, H; left; auto|]. intros s1 S1 H1 _. eapply acts_bind; [apply acts_coord_shapes; auto|]. intros s2 S2 H2 _. destruct (negb _); [apply acts_fail|]. destruct (existsb _ _); [apply acts_fail|]. apply acts_ret.
  intros y Hy. unfold all_locs in Hy. apply in_app_iff in Hy. destruct Hy as [Hy|[<-|[]]]; auto.
Qed.
Lemma copy_all_parts ds : forall (N : loc -> Prop) out h r h' O, parts h N O -> (forall d, In d ds -> N d) -> (forall x, In x out -> O x) -> copy_all_into out ds h = Ok (r, h') -> exists N' O', parts h' N' O' /\ (forall l, N l -> N' l) /\ (forall l, In l r -> O' l).
Proof.
  induction ds as [|d ds IH]; intros N out h r h' O P Hd Ho E; cbn [copy_all_into] in E; [injection E as <- <-; eauto|].
  step E. destruct (data_copy_parts _ _ _ _ _ _ P (Hd d (or_introl eq_refl)) E0) as (N1 & O1 & P1 & MN & MO & Oc). step E. destruct (parts_act _ _ _ _ _ _ _ P1 (acts_list_append O1 out a (fun x Hx => MO x (Ho x Hx)) Oc) E1) as (P2 & U2 & _).
  destruct (IH N1 a0 h1 r h' _ P2 (fun x Hx => MN x (Hd x (or_intror Hx))) U2 E) as (N3 & O3 & P3 & M3 & U3). eauto 10.
Qed.
Lemma datalist_copy_parts (N : loc -> Prop) d h c h' O : parts h N O -> N d -> datalist_copy d h = Ok (c, h') -> exists N' O', parts h' N' O' /\ (forall l, N l -> N' l) /\ O' c.
Proof.
  intros P Hd E. unfold datalist_copy in E. step E. destruct (parts_act _ _ _ _ _ _ _ (parts_flip _ _ _ P) (acts_get_list_in N d Hd) E0) as (P1 & U1 & L1). apply parts_flip in P1.
  step E. destruct (copy_all_parts a _ [] _ _ _ _ P1 U1 (fun x Hx => match Hx with end) E1) as (N2 & O2 & P2 & M2 & U2). destruct (parts_act _ _ _ _ _ _ _ P2 (acts_alloc O2 (OList a0) U2) E) as (P3 & U3 & _).
  exists N2. eexists. split; [exact P3|]. split; [intros l Hl; apply M2; left; auto|]. apply U3. left. auto.
Qed.
Lemma parts_separate h (N O : loc -> Prop) z c : parts h N O -> N z -> O c -> separate h z c.
Proof. intros (A & B & C) Hz Hc l R1 R2. eapply C; [eapply (closed_reach h N); eauto|eapply (closed_reach h O); eauto]. Qed.
Lemma parts_start h : no_dangling h -> parts h (fun l => l < length h) (fun _ => False).
Proof. intros W. split; [apply closed_all; auto|]. split; [split; tauto|tauto]. Qed.
(** nothing dangles afterwards *)
Definition sound_from (d : loc) {A} (m : M A) : Prop := forall S : loc -> Prop, S d -> acts S m no_locs.
Lemma sound_no_dangling {A} (m : M A) d h a h' : sound_from d m -> no_dangling h -> d < length h -> m h = Ok (a, h') -> no_dangling h' /\ length h <= length h'.
Proof. intros H W B E. destruct (acts_edit m no_locs h d a h' H W B E) as (L & W' & _). auto. Qed.
Lemma sound_data_copy d : sound_from d (data_copy None d).
Proof.
  intros S H. eapply acts_bind; [apply acts_get_in; auto|]. intros [] S1 H1 O1; try apply acts_fail. eapply acts_bind; [apply acts_np_copy|]. intros a S2 H2 O2. eapply acts_bind; [apply acts_coords; auto|]. intros cl S3 H3 O3. eapply acts_bind; [apply acts_coordlist_copy|]. intros cl' S4 H4 O4.
  eapply acts_bind; [apply acts_deepcopy_meta|]. intros md' S5 H5 O5. apply (acts_weaken _ _ here); [apply acts_new_data; unfold here in *; cbn [In] in *; auto 12|intros ? ? []].
Qed.
Lemma sound_data_getitem k d : sound_from d (data_getitem k d).
Proof.
  intros S H. eapply acts_bind; [apply acts_coords; auto|]. intros cl S1 H1 O1. eapply acts_bind; [apply acts_get_list|]. intros cs S2 H2 _. eapply acts_bind; [apply (acts_map_each _ here); intros; apply acts_coord_getitem|]. intros cs' S3 H3 O3.
  eapply acts_bind; [apply acts_get|]. intros [] S4 H4 _; try apply acts_fail. eapply acts_bind; [apply acts_np_getitem|]. intros a S5 H5 O5. eapply acts_bind; [apply acts_deepcopy_meta|]. intros md6 S6 H6 O6.
  eapply acts_bind; [apply acts_alloc; cbn [refs]; intros r Hr; apply H6, H5, H4, O3, in_flat_map; exists r; cbn; auto|]. intros cl' S7 H7 O7. apply (acts_weaken _ _ here); [apply acts_new_data; unfold here in *; cbn [In] in *; auto 12|intros ? ? []].
Qed.
Lemma acts_copy_all ds : forall (S : loc -> Prop) out, (forall d, In d ds -> S d) -> (forall x, In x out -> S x) -> acts S (copy_all_into out ds) all_locs.
Proof.
  induction ds as [|d ds IH]; intros S out Hd Ho; cbn [copy_all_into]; [apply acts_ret; sub|]. eapply acts_bind.
  - instantiate (1 := here). eapply acts_bind; [apply acts_get_in, Hd; left; auto|]. intros [] S1 H1 O1; try apply acts_fail. eapply acts_bind; [apply acts_np_copy|]. intros a S2 H2 O2. eapply acts_bind; [apply acts_coords; apply H2, H1, Hd; left; auto|]. intros cl S3 H3 O3. eapply acts_bind; [apply acts_coordlist_copy|]. intros cl' S4 H4 O4.
    eapply acts_bind; [apply acts_deepcopy_meta|]. intros md' S5 H5 O5. apply acts_new_data; unfold here in *; cbn [In] in *; auto 12.
  - intros d' S1 H1 O1. eapply acts_bind; [apply acts_list_append; [auto|apply O1; cbn; auto]|]. intros out' S2 H2 O2. apply IH; auto. intros x Hx. apply H2, H1, Hd. right. auto.
Qed.
Lemma sound_datalist_copy d : sound_from d (datalist_copy d).
Proof.
  intros S H. eapply acts_bind; [apply acts_get_list_in; auto|]. intros ds S1 H1 O1. eapply acts_bind; [apply acts_copy_all; [auto|intros x []]|]. intros out S2 H2 O2. apply (acts_weaken _ _ here); [apply acts_alloc; auto|intros ? ? []].
Qed.
Lemma sound_of_acts {A} (m : M A) out d : (forall S : loc -> Prop, acts S m out) -> sound_from d m.
Proof. intros H S _. eapply acts_weaken; [apply H|intros ? ? []]. Qed.
(** the result shares nothing with anything there was before *)
Lemma fresh_by_acts m d : (forall S : loc -> Prop, acts S m here) -> fresh_from d m.
Proof.
  intros H h c h' W B E. destruct (sound_no_dangling m d h c h' (sound_of_acts _ _ _ H) W B E) as [W' L]. split; auto. split; auto. destruct (own_act _ _ _ _ _ _ _ (parts_start h W) H E) as (O' & P & M1 & U).
  split; [apply P; apply U; left; auto|]. intros z Hz. eapply parts_separate; eauto. apply U. left. auto.
Qed.
Lemma data_copy_fresh d : fresh_from d (data_copy None d).
Proof.
  intros h c h' W B E. destruct (sound_no_dangling _ d h c h' (sound_data_copy d) W B E) as [W' L]. split; auto. split; auto. destruct (data_copy_parts _ _ _ _ _ _ (parts_start h W) B E) as (N' & O' & P & MN & MO & U). split; [apply P; auto|]. intros z Hz. eapply parts_separate; eauto.
Qed.
Lemma data_getitem_fresh k d : fresh_from d (data_getitem k d).
Proof.
  intros h c h' W B E. destruct (sound_no_dangling _ d h c h' (sound_data_getitem k d) W B E) as [W' L]. split; auto. split; auto. destruct (data_getitem_parts _ _ _ _ _ _ _ (parts_start h W) B E) as (N' & O' & P & MN & MO & U). split; [apply P; auto|]. intros z Hz. eapply parts_separate; eauto.
Qed.
Lemma datalist_copy_fresh d : fresh_from d (datalist_copy d).
Proof.
  intros h c h' W B E. destruct (sound_no_dangling _ d h c h' (sound_datalist_copy d) W B E) as [W' L]. split; auto. split; auto. destruct (datalist_copy_parts _ _ _ _ _ _ (parts_start h W) B E) as (N' & O' & P & MN & U). split; [apply P; auto|]. intros z Hz. eapply parts_separate; eauto.
Qed.
