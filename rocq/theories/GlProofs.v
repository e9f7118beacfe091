(** Proofs about lists of gridded data (C93): appending, the methods over all the items. *)
From Coq Require Import String Ascii.
From Verif Require Import Base PyStr FileListModel FileListProofs UngrModel GlModel GlSpec.

Lemma Forall2_impl_in {A B} (P P' : A -> B -> Prop) l m : Forall2 P l m -> (forall x y, In x l -> P x y -> P' x y) -> Forall2 P' l m.
Proof. intros F. induction F as [|x y l m Hxy F IH]; intros H; constructor; [apply H; auto; now left|]. apply IH. intros a b Ha. apply H. now right. Qed.
(** ** The heap *)
Lemma upd_length {A} (l : list A) i x : List.length (upd l i x) = List.length l.
Proof. revert i; induction l as [|y l IH]; intros [|i]; cbn; auto. Qed.
Lemma upd_nth {A} (l : list A) i x j d : i < List.length l -> nth j (upd l i x) d = if Nat.eq_dec j i then x else nth j l d.
Proof.
  revert i j; induction l as [|y l IH]; intros [|i] [|j] Hi; cbn [List.length upd nth] in *; try lia.
  - now destruct (Nat.eq_dec 0 0).
  - now destruct (Nat.eq_dec (S j) 0).
  - now destruct (Nat.eq_dec 0 (S i)).
  - rewrite IH by lia. destruct (Nat.eq_dec j i), (Nat.eq_dec (S j) (S i)); auto; lia.
Qed.
Lemma upd_beyond {A} (l : list A) i x : List.length l <= i -> upd l i x = l.
Proof. revert i; induction l as [|y l IH]; intros [|i] Hi; cbn in *; auto; try lia. f_equal. apply IH. lia. Qed.
Lemma upd_same {A} (l : list A) i d : upd l i (nth i l d) = l.
Proof. revert i; induction l as [|y l IH]; intros [|i]; cbn; auto. f_equal. apply IH. Qed.
Lemma get_put h a c b : a < List.length (h_cubes h) -> get (put h a c) b = if Nat.eq_dec b a then c else get h b.
Proof. intros Ha. unfold get, put. cbn. apply upd_nth, Ha. Qed.
Lemma get_put_other h a c b : b <> a -> get (put h a c) b = get h b.
Proof.
  intros Hb. destruct (lt_dec a (List.length (h_cubes h))) as [Ha|Ha].
  - rewrite get_put by auto. now destruct (Nat.eq_dec b a).
  - unfold get, put. cbn. now rewrite upd_beyond by lia.
Qed.
Lemma put_length h a c : List.length (h_cubes (put h a c)) = List.length (h_cubes h).
Proof. unfold put. cbn. apply upd_length. Qed.
Lemma get_alloc h c b : get (fst (alloc h c)) b = if Nat.eq_dec b (List.length (h_cubes h)) then c else get h b.
Proof.
  unfold get, alloc. cbn. destruct (Nat.eq_dec b (List.length (h_cubes h))) as [->|Hn].
  - rewrite app_nth2 by lia. now rewrite Nat.sub_diag.
  - destruct (lt_dec b (List.length (h_cubes h))) as [Hl|Hl]; [now apply app_nth1|].
    rewrite !nth_overflow; auto; rewrite ?app_length; cbn; lia.
Qed.

Lemma wrap_as_gridded c : as_gridded c (wrap_cube c).
Proof. unfold as_gridded, wrap_cube. destruct (k_gridded c) eqn:E; cbn; repeat split; auto; discriminate. Qed.
Lemma as_gridded_trans c : as_gridded c c -> k_gridded c = true.
Proof. now intros [? _]. Qed.
Lemma as_gridded_self c : k_gridded c = true -> as_gridded c c.
Proof. intros H. repeat split; auto; congruence. Qed.
Lemma wrap_cube_shapes c : map snd (k_coords (wrap_cube c)) = map snd (k_coords c).
Proof. unfold wrap_cube. now destruct (k_gridded c). Qed.
Lemma wrap_cube_idem c : wrap_cube (wrap_cube c) = wrap_cube c.
Proof. unfold wrap_cube at 1. assert (H : k_gridded (wrap_cube c) = true) by (unfold wrap_cube; destruct (k_gridded c) eqn:E; auto). now rewrite H. Qed.
Lemma get_wrap h a b : get (wrap h a) b = if Nat.eq_dec b a then (if lt_dec a (List.length (h_cubes h)) then wrap_cube (get h a) else get h b) else get h b.
Proof.
  unfold wrap. destruct (Nat.eq_dec b a) as [->|Hn]; [|now apply get_put_other].
  destruct (lt_dec a _) as [Hl|Hl]; [rewrite get_put by auto; now destruct (Nat.eq_dec a a)|].
  unfold get, put. cbn. now rewrite upd_beyond by lia.
Qed.
Lemma wrap_length h a : List.length (h_cubes (wrap h a)) = List.length (h_cubes h).
Proof. apply put_length. Qed.
Lemma item_wrap h a b : item_at (wrap h a) b = item_at h b.
Proof.
  unfold item_at. f_equal. rewrite get_wrap. destruct (Nat.eq_dec b a) as [->|]; auto. destruct (lt_dec _ _); auto. apply wrap_cube_shapes.
Qed.

(** ** Appending *)
Lemma append_inv h l o h' l' : append h l o = (h', Ok l') -> exists a, o = OCube a /\ h' = wrap h a /\ l' = l ++ [a].
Proof.
  destruct o as [a| |]; unfold append; try discriminate.
  destruct (list_append true (map (item_at (wrap h a)) l) (item_at (wrap h a) a)) eqn:E; [|discriminate]. intros [= <- <-]. eauto.
Qed.
Lemma append_lists h l o : h_lists (fst (append h l o)) = h_lists h.
Proof. destruct o as [a| |]; unfold append; auto. now destruct (list_append true (map (item_at (wrap h a)) l) (item_at (wrap h a) a)). Qed.
Lemma zip_differ_refl s : zip_differ s s = false.
Proof. unfold zip_differ. induction s as [|n s IH]; cbn; auto. now rewrite Nat.eqb_refl. Qed.
Lemma shapes_same_ok (ss : list (list nat)) : existsb (fun ab : list nat * list nat => zip_differ (fst ab) (snd ab)) (combine ss ss) = false.
Proof. induction ss as [|s ss IH]; cbn [combine existsb fst snd]; auto. now rewrite zip_differ_refl. Qed.
(** the same shapes as everything in the list: accepted *)
Lemma append_ok h l a shapes : (forall b, In b l -> shaped shapes (get h b)) -> shaped shapes (get h a) -> append h l (OCube a) = (wrap h a, Ok (l ++ [a])).
Proof.
  intros Hl Ha. unfold append. cbv zeta. rewrite !item_wrap.
  assert (E : map (item_at (wrap h a)) l = map (item_at h) l) by (apply map_ext; intros; apply item_wrap). rewrite E. clear E.
  unfold list_append. change (i_gridded (item_at h a)) with true. cbn [eqb negb].
  destruct l as [|b l]; cbn [map]; [reflexivity|].
  assert (Hb : i_shapes (item_at h b) = shapes) by (apply Hl; now left). assert (Ha' : i_shapes (item_at h a) = shapes) by exact Ha.
  rewrite Hb, Ha', Nat.eqb_refl, shapes_same_ok. reflexivity.
Qed.

Lemma extend_inv h l os h' l' : extend h l os = (h', Ok l') ->
  exists as_, os = map OCube as_ /\ l' = l ++ as_ /\ h' = fold_left wrap as_ h.
Proof.
  revert h l; induction os as [|o os IH]; intros h l; cbn [extend].
  - intros [= -> ->]. exists []. now rewrite app_nil_r.
  - destruct (append h l o) as [h1 [l1|e]] eqn:E; [|discriminate]. intros H.
    apply append_inv in E as (a & -> & -> & ->). apply IH in H as (as_ & -> & -> & ->).
    exists (a :: as_). cbn. now rewrite <- app_assoc.
Qed.
Lemma fold_wrap_length as_ h : List.length (h_cubes (fold_left wrap as_ h)) = List.length (h_cubes h).
Proof. revert h; induction as_ as [|a as_ IH]; intros h; cbn; auto. rewrite IH. apply wrap_length. Qed.
Lemma fold_wrap_lists as_ h : h_lists (fold_left wrap as_ h) = h_lists h.
Proof. revert h; induction as_ as [|a as_ IH]; intros h; cbn; auto. now rewrite IH. Qed.
Lemma fold_wrap_get as_ h b : get (fold_left wrap as_ h) b =
  if in_dec Nat.eq_dec b as_ then (if lt_dec b (List.length (h_cubes h)) then wrap_cube (get h b) else get h b) else get h b.
Proof.
  revert h; induction as_ as [|a as_ IH]; intros h; cbn [fold_left]; auto.
  rewrite IH, wrap_length, get_wrap.
  destruct (in_dec Nat.eq_dec b as_) as [Hi|Hi], (in_dec Nat.eq_dec b (a :: as_)) as [Hj|Hj]; try (exfalso; apply Hj; now right).
  - destruct (Nat.eq_dec b a) as [->|]; destruct (lt_dec _ _); auto. apply wrap_cube_idem.
  - destruct Hj as [->|Hj]; [|contradiction]. now destruct (Nat.eq_dec b b).
  - destruct (Nat.eq_dec b a) as [->|]; auto. exfalso. apply Hj. now left.
Qed.

Theorem construct_ok : forall h os h' l, extend h [] os = (h', Ok l) -> (forall a, In (OCube a) os -> a < List.length (h_cubes h)) ->
  os = map OCube l /\ (forall a, In a l -> as_gridded (get h a) (get h' a)) /\ (forall a, ~ In a l -> get h' a = get h a) /\
  List.length (h_cubes h') = List.length (h_cubes h) /\ h_lists h' = h_lists h.
Proof.
  intros h os h' l H Hlive. apply extend_inv in H as (as_ & -> & -> & ->). cbn [app].
  split; [auto|]. split; [|split; [|split; [apply fold_wrap_length|apply fold_wrap_lists]]].
  - intros a Ha. rewrite fold_wrap_get. destruct (in_dec _ a as_) as [_|]; [|contradiction].
    destruct (lt_dec _ _) as [_|n]; [apply wrap_as_gridded|]. exfalso. apply n, Hlive. now apply in_map.
  - intros a Ha. rewrite fold_wrap_get. now destruct (in_dec _ a as_).
Qed.
Lemma extend_total shapes as_ h l : (forall b, In b l -> shaped shapes (get h b)) -> (forall b, In b as_ -> shaped shapes (get h b)) ->
  extend h l (map OCube as_) = (fold_left wrap as_ h, Ok (l ++ as_)).
Proof.
  revert h l; induction as_ as [|a as_ IH]; intros h l Hl Ha; cbn [map extend fold_left]; [now rewrite app_nil_r|].
  rewrite (append_ok h l a shapes) by (auto; apply Ha; now left).
  assert (Hw : forall b, shaped shapes (get h b) -> shaped shapes (get (wrap h a) b)).
  { intros b Hb. pose proof (item_wrap h a b) as E. unfold item_at in E. injection E as E. unfold shaped. now rewrite E. }
  rewrite IH; [now rewrite <- app_assoc|..].
  - intros b Hb. apply Hw. apply in_app_or in Hb as [Hb|[<-|[]]]; auto. apply Ha; now left.
  - intros b Hb. apply Hw, Ha. now right.
Qed.
Theorem construct_total : forall h l shapes, (forall a, In a l -> shaped shapes (get h a)) -> exists h', extend h [] (map OCube l) = (h', Ok l).
Proof. intros h l shapes H. eexists. apply (extend_total shapes); auto. intros b []. Qed.
Theorem construct_wrong_kind : forall h l os o os', os = map OCube l -> o = OUngridded \/ o = OOther ->
  match snd (extend h [] os) with Ok _ => snd (extend h [] (os ++ o :: os')) = Raises TypeError | Raises e => snd (extend h [] (os ++ o :: os')) = Raises e end.
Proof.
  intros h l os o os' -> Ho. generalize (@nil nat) as acc. revert h. induction l as [|a l IH]; intros h acc; cbn [map List.app extend].
  - cbn [snd]. destruct Ho as [->| ->]; reflexivity.
  - destruct (append h acc (OCube a)) as [h1 [l1|e]]; [apply IH|]. reflexivity.
Qed.

(** ** Methods over all the items *)
Lemma alloc_all_spec cs : forall h h' bs, alloc_all h cs = (h', bs) ->
  h_lists h' = h_lists h /\ bs = seq (List.length (h_cubes h)) (List.length cs) /\ h_cubes h' = h_cubes h ++ cs.
Proof.
  induction cs as [|c cs IH]; intros h h' bs; cbn [alloc_all].
  - intros [= <- <-]. now rewrite app_nil_r.
  - unfold alloc at 1. destruct (alloc_all _ cs) as [h1 bs1] eqn:E. intros [= <- <-].
    apply IH in E as (E1 & -> & E2). cbn in *. split; [auto|]. split.
    + rewrite app_length. cbn. now rewrite Nat.add_1_r.
    + rewrite E2, <- app_assoc. reflexivity.
Qed.
Lemma get_old h cs a ls : a < List.length (h_cubes h) -> get (mkHeap (h_cubes h ++ cs) ls) a = get h a.
Proof. intros H. unfold get. cbn. now apply app_nth1. Qed.

(** one round of flat_op: what was there stays, the new objects are gridded versions of the results *)
Lemma round h cs h1 bs h2 out out2 : alloc_all h cs = (h1, bs) -> extend h1 out (map OCube bs) = (h2, Ok out2) ->
  out2 = out ++ bs /\ kept h h2 /\ List.length (h_cubes h2) = List.length (h_cubes h) + List.length cs /\ Forall2 (fun c b => as_gridded c (get h2 b)) cs bs.
Proof.
  intros Ha He. apply alloc_all_spec in Ha as (L & -> & C). apply extend_inv in He as (as_ & Hm & -> & ->).
  assert (E : as_ = seq (List.length (h_cubes h)) (List.length cs)).
  { clear -Hm. revert Hm. generalize (seq (List.length (h_cubes h)) (List.length cs)) as s. intros s. revert as_. induction s as [|x s IH]; intros [|y a]; cbn; try discriminate; auto.
    intros [= -> Hm]. f_equal. auto. }
  subst as_. split; [auto|]. split; [|split].
  - split; [|rewrite fold_wrap_lists; auto]. intros a Hl. rewrite fold_wrap_get.
    destruct (in_dec _ _ _) as [Hi|_]; [apply in_seq in Hi; lia|]. unfold get. rewrite C. now apply app_nth1.
  - rewrite fold_wrap_length, C, app_length. lia.
  - assert (G : forall k c, nth_error cs k = Some c -> as_gridded c (get (fold_left wrap (seq (List.length (h_cubes h)) (List.length cs)) h1) (List.length (h_cubes h) + k))).
    { intros k c Hk. assert (k < List.length cs) by (apply nth_error_Some; congruence). rewrite fold_wrap_get.
      destruct (in_dec _ _ _) as [_|n]; [|exfalso; apply n, in_seq; lia].
      assert (Eg : get h1 (List.length (h_cubes h) + k) = c).
      { unfold get. rewrite C, app_nth2 by lia. replace (_ + k - _) with k by lia. now apply nth_error_nth. }
      rewrite Eg. destruct (lt_dec _ _) as [_|n]; [apply wrap_as_gridded|]. rewrite C, app_length in n. lia. }
    revert G. generalize (fold_left wrap (seq (List.length (h_cubes h)) (List.length cs)) h1) as hf. generalize (List.length (h_cubes h)) as n. clear.
    induction cs as [|c cs IH]; intros n hf G; cbn; constructor.
    + specialize (G 0 c eq_refl). now rewrite Nat.add_0_r in G.
    + apply IH. intros k c' Hk. specialize (G (S k) c' Hk). now rewrite Nat.add_succ_r in G.
Qed.
Lemma Forall2_kept h h' cs bs : kept h h' -> (forall b, In b bs -> b < List.length (h_cubes h)) ->
  Forall2 (fun c b => as_gridded c (get h b)) cs bs -> Forall2 (fun c b => as_gridded c (get h' b)) cs bs.
Proof.
  intros [K _] Hb F. induction F as [|c b cs bs Hcb F IH]; constructor.
  - rewrite K; auto. apply Hb. now left.
  - apply IH. intros; apply Hb; now right.
Qed.
Lemma kept_trans h1 h2 h3 : List.length (h_cubes h1) <= List.length (h_cubes h2) -> kept h1 h2 -> kept h2 h3 -> kept h1 h3.
Proof. intros L [A1 B1] [A2 B2]. split; [|congruence]. intros a Ha. rewrite A2, A1; auto. lia. Qed.

Lemma flat_op_inv op : forall l h out h' out', live h l -> live h out -> flat_op op h l out = (h', Ok out') ->
  exists css new, Forall2 (fun a cs => op (get h a) = Ok cs) l css /\ out' = out ++ new /\ Forall2 (fun c b => as_gridded c (get h' b)) (concat css) new /\
    kept h h' /\ List.length (h_cubes h) <= List.length (h_cubes h') /\ live h' new /\ (forall b, In b new -> List.length (h_cubes h) <= b) /\ NoDup new.
Proof.
  induction l as [|a l IH]; intros h out h' out' Hl Ho; cbn [flat_op].
  - intros [= <- <-]. exists [], []. rewrite app_nil_r. repeat split; auto; try constructor; try easy.
  - destruct (op (get h a)) as [cs|e] eqn:Eop; [|discriminate].
    destruct (alloc_all h cs) as [h1 bs] eqn:Ea. destruct (extend h1 out (map OCube bs)) as [h2 [out2|e]] eqn:Ee; [|discriminate]. intros H.
    pose proof (alloc_all_spec _ _ _ _ Ea) as (_ & Ebs & _).
    destruct (round _ _ _ _ _ _ _ Ea Ee) as (-> & K & L & F).
    assert (Hbs : live h2 bs). { intros b Hb. subst bs. apply in_seq in Hb. lia. }
    apply IH in H as (css & new & F1 & -> & F2 & K2 & L2 & V & Fresh & ND).
    + exists (cs :: css), (bs ++ new). split; [constructor; [exact Eop|]|].
      { eapply Forall2_impl_in; [exact F1|]. intros x y Hx Hop. cbn in *. rewrite (proj1 K) in Hop; auto. apply Hl. now right. }
      split; [now rewrite app_assoc|]. split; [cbn; apply Forall2_app; [|exact F2]; apply (Forall2_kept h2); auto|].
      split; [apply (kept_trans h h2); auto; lia|]. split; [lia|]. split; [|split].
      * intros b Hb. apply in_app_or in Hb as [Hb|Hb]; [|auto]. apply Hbs in Hb. lia.
      * intros b Hb. apply in_app_or in Hb as [Hb|Hb]; [subst bs; apply in_seq in Hb; lia|]. apply Fresh in Hb. lia.
      * subst bs. clear -ND Fresh L. assert (G : forall m n, (forall b, In b new -> n + m <= b) -> NoDup (seq n m ++ new)).
        { induction m as [|m IHm]; intros n Hb; cbn; auto. constructor; [|apply IHm; intros b Hi; apply Hb in Hi; lia].
          intros Hi. apply in_app_or in Hi as [Hi|Hi]; [apply in_seq in Hi; lia|apply Hb in Hi; lia]. }
        apply G. intros b Hb. apply Fresh in Hb. lia.
    + intros b Hb. specialize (Hl b (or_intror Hb)). lia.
    + intros b Hb. apply in_app_or in Hb as [Hb|Hb]; [|auto]. specialize (Ho b Hb). lia.
Qed.
