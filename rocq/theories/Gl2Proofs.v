(** Proofs about lists of gridded data (C93), continued. *)
From Coq Require Import String Ascii.
From Verif Require Import Base PyStr FileListModel FileListProofs UngrModel GlModel GlSpec GlProofs.

Theorem flat_ok : forall op h l h' out, live h l -> flat_op op h l [] = (h', Ok out) ->
  results_of op h h' l out /\ kept h h' /\ (forall b, In b out -> List.length (h_cubes h) <= b) /\ NoDup out.
Proof.
  intros op h l h' out Hl H. apply flat_op_inv in H as (css & new & F1 & -> & F2 & K & _ & _ & Fr & ND); auto; [|intros b []].
  cbn [List.app] in *. repeat split; auto. exists css. auto. all: apply K.
Qed.

Lemma map_op_flat op : forall l h out, map_op op h l out = flat_op (fun c => bind (op c) (fun x => Ok [x])) h l out.
Proof.
  induction l as [|a l IH]; intros h out; cbn [map_op flat_op]; auto.
  destruct (op (get h a)) as [c|e]; cbn [bind]; auto.
  change (alloc_all h [c]) with (let '(h, b) := alloc h c in (h, [b])). destruct (alloc h c) as [h1 b].
  cbn [map extend]. destruct (append h1 out (OCube b)) as [h2 [o2|e2]]; auto.
Qed.
Lemma Forall2_singletons (f : cube -> res cube) h h' : forall l css out,
  Forall2 (fun a cs => bind (f (get h a)) (fun x => Ok [x]) = Ok cs) l css -> Forall2 (fun c b => as_gridded c (get h' b)) (concat css) out ->
  one_result_of f h h' l out.
Proof.
  intros l css out F. revert out. induction F as [|a cs l css Hop F IH]; intros out F2; cbn in F2.
  - inversion F2. constructor.
  - destruct (f (get h a)) as [c|e] eqn:E; [|discriminate]. injection Hop as <-. cbn in F2. inversion F2; subst. constructor; eauto. apply IH. auto.
Qed.
Theorem map_ok : forall op h l h' out, live h l -> map_op op h l [] = (h', Ok out) ->
  one_result_of op h h' l out /\ kept h h' /\ (forall b, In b out -> List.length (h_cubes h) <= b) /\ NoDup out.
Proof.
  intros op h l h' out Hl H. rewrite map_op_flat in H. apply flat_ok in H as ((css & F1 & F2) & R); auto. split; auto.
  eapply Forall2_singletons; eauto.
Qed.

(** all the results have the same coordinate shapes: nothing fails *)
Lemma flat_total op shapes : forall l h out, live h l -> live h out -> (forall b, In b out -> shaped shapes (get h b)) ->
  (forall a, In a l -> exists cs, op (get h a) = Ok cs /\ forall c, In c cs -> shaped shapes c) -> exists h' out', flat_op op h l out = (h', Ok out').
Proof.
  induction l as [|a l IH]; intros h out Hl Ho Hs Hop; cbn [flat_op]; [eauto|].
  destruct (Hop a (or_introl eq_refl)) as (cs & E & Hcs). rewrite E.
  destruct (alloc_all h cs) as [h1 bs] eqn:Ea. pose proof (alloc_all_spec _ _ _ _ Ea) as (_ & Eb & C).
  assert (G1 : forall b, In b out -> shaped shapes (get h1 b)).
  { intros b Hb. unfold get. rewrite C, app_nth1 by (now apply Ho). now apply Hs. }
  assert (G2 : forall b, In b bs -> shaped shapes (get h1 b)).
  { intros b Hb. subst bs. apply in_seq in Hb. unfold get. rewrite C, app_nth2 by lia. apply Hcs, nth_In. lia. }
  pose proof (extend_total shapes bs h1 out G1 G2) as Ex. rewrite Ex.
  destruct (round _ _ _ _ _ _ _ Ea Ex) as (_ & K & L & F).
  apply IH.
  - intros b Hb. specialize (Hl b (or_intror Hb)). lia.
  - intros b Hb. apply in_app_or in Hb as [Hb|Hb]; [specialize (Ho b Hb); lia|]. subst bs. apply in_seq in Hb. lia.
  - intros b Hb. pose proof fold_wrap_get bs h1 b as Eg. unfold shaped. rewrite Eg.
    assert (Hg : shaped shapes (get h1 b)) by (apply in_app_or in Hb as [?|?]; auto).
    destruct (in_dec _ _ _); auto. destruct (lt_dec _ _); auto. rewrite wrap_cube_shapes. auto.
  - intros b Hb. rewrite (proj1 K) by (apply Hl; now right). apply Hop. now right.
Qed.
Theorem map_total : forall op h l shapes, live h l -> (forall a, In a l -> exists c, op (get h a) = Ok c /\ shaped shapes c) ->
  exists h' out, map_op op h l [] = (h', Ok out).
Proof.
  intros op h l shapes Hl H. rewrite map_op_flat. apply (flat_total _ shapes); auto; try (intros b []).
  intros a Ha. destruct (H a Ha) as (c & -> & Hc). exists [c]. split; auto. now intros x [<-|[]].
Qed.
Theorem flat_total0 : forall op h l shapes, live h l -> (forall a, In a l -> exists cs, op (get h a) = Ok cs /\ forall c, In c cs -> shaped shapes c) ->
  exists h' out, flat_op op h l [] = (h', Ok out).
Proof. intros op h l shapes Hl H. apply (flat_total op shapes); auto; intros b []. Qed.

(** ** extract, intersection *)
Definition to_flat (op : cube -> res (option cube)) (c : cube) : res cube :=
  match op c with Ok (Some c) => Ok c | Ok None => Raises OutOfFuel | Raises e => Raises e end.
Lemma filter_op_some op : forall l h out h' out', filter_op op h l out = (h', Ok (Some out')) -> map_op (to_flat op) h l out = (h', Ok out').
Proof.
  induction l as [|a l IH]; intros h out h' out'; cbn [filter_op map_op]; [now intros [= <- <-]|].
  unfold to_flat at 1. destruct (op (get h a)) as [[c|]|e]; try discriminate.
  destruct (alloc h c) as [h1 b]. destruct (append h1 out (OCube b)) as [h2 [o2|e2]]; [apply IH|discriminate].
Qed.
Lemma some_filter_op op : forall l h out h' out', map_op (to_flat op) h l out = (h', Ok out') -> filter_op op h l out = (h', Ok (Some out')).
Proof.
  induction l as [|a l IH]; intros h out h' out'; cbn [filter_op map_op]; [now intros [= <- <-]|].
  unfold to_flat at 1. destruct (op (get h a)) as [[c|]|e]; try discriminate.
  destruct (alloc h c) as [h1 b]. destruct (append h1 out (OCube b)) as [h2 [o2|e2]]; [apply IH|discriminate].
Qed.
Theorem filter_some : forall op h l h' out, live h l -> filter_op op h l [] = (h', Ok (Some out)) ->
  Forall2 (fun a b => exists c, op (get h a) = Ok (Some c) /\ as_gridded c (get h' b)) l out /\ kept h h'.
Proof.
  intros op h l h' out Hl H. apply filter_op_some in H. apply map_ok in H as (F & K & _); auto. split; auto.
  eapply Forall2_impl_in; [exact F|]. intros a b _ (c & Hc & Hg). exists c. split; auto. unfold to_flat in Hc. destruct (op (get h a)) as [[x|]|]; congruence.
Qed.
Theorem filter_total : forall op h l shapes, live h l -> (forall a, In a l -> exists c, op (get h a) = Ok (Some c) /\ shaped shapes c) ->
  exists h' out, filter_op op h l [] = (h', Ok (Some out)).
Proof.
  intros op h l shapes Hl H. destruct (map_total (to_flat op) h l shapes Hl) as (h' & out & E).
  - intros a Ha. destruct (H a Ha) as (c & Hc & Hs). exists c. unfold to_flat. now rewrite Hc.
  - exists h', out. now apply some_filter_op.
Qed.
Lemma alloc_kept h c : kept h (fst (alloc h c)).
Proof. split; auto. intros a Ha. rewrite get_alloc. destruct (Nat.eq_dec _ _); [lia|auto]. Qed.
Lemma wrap_fresh_kept h h1 b : kept h h1 -> List.length (h_cubes h) <= b -> kept h (wrap h1 b).
Proof. intros [A B] Hb. split; auto. intros a Ha. rewrite get_wrap. destruct (Nat.eq_dec _ _); [lia|auto]. Qed.
Lemma filter_op_none op : forall l h0 h out h', kept h0 h -> List.length (h_cubes h0) <= List.length (h_cubes h) -> live h0 l -> filter_op op h l out = (h', Ok None) ->
  exists i a, nth_error l i = Some a /\ op (get h0 a) = Ok None /\ forall j b, j < i -> nth_error l j = Some b -> exists c, op (get h0 b) = Ok (Some c).
Proof.
  induction l as [|a l IH]; intros h0 h out h' K L Hl; cbn [filter_op]; [discriminate|].
  rewrite (proj1 K) by (apply Hl; now left).
  destruct (op (get h0 a)) as [[c|]|e] eqn:Eop; [| |discriminate].
  - pose proof (alloc_kept h c) as Ka. assert (La : List.length (h_cubes (fst (alloc h c))) = S (List.length (h_cubes h))) by (unfold alloc; cbn; rewrite app_length; cbn; lia).
    assert (Eb : snd (alloc h c) = List.length (h_cubes h)) by reflexivity. destruct (alloc h c) as [h1 b]. cbn [fst snd] in *.
    destruct (append h1 out (OCube b)) as [h2 [o2|e2]] eqn:Eap; [|discriminate]. apply append_inv in Eap as (b' & [= <-] & -> & ->). intros H.
    apply (IH h0) in H.
    + destruct H as (i & x & Hi & Hx & Hj). exists (S i), x. split; [exact Hi|]. split; [exact Hx|]. intros [|j] y Hlt Hy; [injection Hy as <-; eauto|]. apply (Hj j); auto. lia.
    + apply wrap_fresh_kept; [apply (kept_trans h0 h); auto|lia].
    + rewrite wrap_length. lia.
    + intros x Hx. apply Hl. now right.
  - intros _. exists 0, a. repeat split; auto. lia.
Qed.
Theorem filter_none : forall op h l h', live h l -> filter_op op h l [] = (h', Ok None) ->
  exists i a, nth_error l i = Some a /\ op (get h a) = Ok None /\ forall j b, j < i -> nth_error l j = Some b -> exists c, op (get h b) = Ok (Some c).
Proof. intros op h l h' Hl. apply filter_op_none; auto. split; auto. Qed.
(** the first item without data decides *)
Lemma filter_op_is_none op shapes : forall l i a h out, live h l -> live h out -> (forall b, In b out -> shaped shapes (get h b)) ->
  nth_error l i = Some a -> op (get h a) = Ok None -> (forall j b, j < i -> nth_error l j = Some b -> exists c, op (get h b) = Ok (Some c) /\ shaped shapes c) ->
  exists h', filter_op op h l out = (h', Ok None).
Proof.
  induction l as [|x l IH]; intros [|i] a h out Hl Ho Hs Hi Ha Hj; cbn [filter_op]; try discriminate.
  - injection Hi as ->. rewrite Ha. eauto.
  - destruct (Hj 0 x) as (c & Hc & Hsc); auto; [lia|]. rewrite Hc.
    pose proof (get_alloc h c) as Ga. assert (La : List.length (h_cubes (fst (alloc h c))) = S (List.length (h_cubes h))) by (unfold alloc; cbn; rewrite app_length; cbn; lia).
    assert (Eb : snd (alloc h c) = List.length (h_cubes h)) by reflexivity.
    destruct (alloc h c) as [h1 b]. cbn [fst snd] in *. subst b.
    assert (G1 : forall b, In b out -> shaped shapes (get h1 b)). { intros b Hb. rewrite Ga. destruct (Nat.eq_dec _ _); auto. }
    assert (G2 : shaped shapes (get h1 (List.length (h_cubes h)))). { rewrite Ga. now destruct (Nat.eq_dec _ _). }
    rewrite (append_ok h1 out _ shapes G1 G2).
    assert (Kp : forall z, z < List.length (h_cubes h) -> get (wrap h1 (List.length (h_cubes h))) z = get h z).
    { intros z Hz. rewrite get_wrap. destruct (Nat.eq_dec z _); [lia|]. rewrite Ga. destruct (Nat.eq_dec z _); [lia|auto]. }
    apply (IH i a); auto.
    + intros z Hz. rewrite wrap_length, La. specialize (Hl z (or_intror Hz)). lia.
    + intros z Hz. rewrite wrap_length, La. apply in_app_or in Hz as [Hz|[<-|[]]]; [specialize (Ho z Hz)|]; lia.
    + intros z Hz. assert (Sz : shaped shapes (get h1 z)) by (apply in_app_or in Hz as [Hz|[<-|[]]]; auto).
      unfold shaped. rewrite get_wrap. destruct (Nat.eq_dec _ _); auto. destruct (lt_dec _ _); auto. subst z. now rewrite wrap_cube_shapes.
    + rewrite Kp; auto. apply Hl. right. eapply nth_error_In; eauto.
    + intros j b Hlt Hb. rewrite Kp by (apply Hl; right; eapply nth_error_In; eauto). apply (Hj (S j)); auto. lia.
Qed.
Theorem filter_is_none : forall op h l shapes i a, live h l -> nth_error l i = Some a -> op (get h a) = Ok None ->
  (forall j b, j < i -> nth_error l j = Some b -> exists c, op (get h b) = Ok (Some c) /\ shaped shapes c) -> exists h', filter_op op h l [] = (h', Ok None).
Proof. intros op h l shapes i a Hl. apply filter_op_is_none; auto; intros b []. Qed.

(** ** Changing every item *)
Lemma in_place_ok_other op : forall l h h' r, in_place op h l = (h', r) ->
  List.length (h_cubes h') = List.length (h_cubes h) /\ h_lists h' = h_lists h /\ forall a, ~ In a l -> get h' a = get h a.
Proof.
  induction l as [|a l IH]; intros h h' r; cbn [in_place]; [intros [= <- <-]; auto|].
  destruct (op (get h a)) as [c|e]; [|intros [= <- <-]; auto]. intros H. apply IH in H as (L & Ls & O). rewrite put_length in L. repeat split; auto.
  intros b Hb. rewrite O by (intros Hi; apply Hb; now right). apply get_put_other. intros ->. apply Hb. now left.
Qed.
Theorem in_place_ok : forall op h l h', live h l -> NoDup l -> in_place op h l = (h', Ok tt) ->
  (forall a, In a l -> op (get h a) = Ok (get h' a)) /\ (forall a, ~ In a l -> get h' a = get h a) /\ h_lists h' = h_lists h.
Proof.
  intros op h l h' Hl ND H. pose proof (in_place_ok_other _ _ _ _ _ H) as (_ & Ls & O). split; auto. clear O Ls.
  revert h Hl H. induction ND as [|a l Ha ND IH]; intros h Hl; cbn [in_place]; [intros _ b []|].
  destruct (op (get h a)) as [c|e] eqn:E; [|discriminate]. intros H b [<-|Hb].
  - apply in_place_ok_other in H as (_ & _ & O). rewrite (O _ Ha), get_put by (apply Hl; now left). now destruct (Nat.eq_dec _ _).
  - rewrite <- (IH _) with (2 := H); auto; [|intros x Hx; rewrite put_length; apply Hl; now right]. rewrite get_put_other; auto. intros ->. auto.
Qed.
Theorem in_place_total : forall op h l, NoDup l -> (forall a, In a l -> exists c, op (get h a) = Ok c) -> exists h', in_place op h l = (h', Ok tt).
Proof.
  intros op h l ND. revert h. induction ND as [|a l Ha ND IH]; intros h H; cbn [in_place]; [eauto|].
  destruct (H a (or_introl eq_refl)) as (c & ->). apply IH. intros b Hb. rewrite get_put_other by (intros ->; auto). apply H. now right.
Qed.
Theorem in_place_fails : forall op h l h' e, live h l -> NoDup l -> in_place op h l = (h', Raises e) ->
  exists done a rest, l = done ++ a :: rest /\ op (get h a) = Raises e /\ (forall b, In b done -> op (get h b) = Ok (get h' b)) /\ (forall b, ~ In b done -> get h' b = get h b).
Proof.
  intros op h l h' e Hl ND. revert h Hl. induction ND as [|a l Ha ND IH]; intros h Hl; cbn [in_place]; [discriminate|].
  destruct (op (get h a)) as [c|e'] eqn:E.
  - intros H. apply IH in H as (d & x & r & -> & Hx & Hd & Ho); [|intros y Hy; rewrite put_length; apply Hl; now right].
    exists (a :: d), x, r. split; auto. split; [|split].
    + rewrite get_put_other in Hx; auto. intros ->. apply Ha, in_or_app. right. now left.
    + intros b [<-|Hb].
      * rewrite Ho by (intros Hi; apply Ha, in_or_app; now left). rewrite get_put by (apply Hl; now left). now destruct (Nat.eq_dec _ _).
      * rewrite <- Hd by auto. rewrite get_put_other; auto. intros ->. apply Ha, in_or_app. now left.
    + intros b Hb. rewrite Ho by (intros Hi; apply Hb; now right). apply get_put_other. intros ->. apply Hb. now left.
  - intros [= <- <-]. exists [], a, l. repeat split; auto. intros b [].
Qed.
