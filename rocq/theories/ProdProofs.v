From Verif Require Import Base PyStr ProdModel ProdSpec.
From Coq Require Import Sorting.Sorted Sorting.Permutation.
Open Scope string_scope. Open Scope list_scope. Open Scope nat_scope.

(** ** Subclasses *)
Fixpoint ctree_nested (P : ctree -> Prop) (H : forall c subs, Forall P subs -> P (Node c subs)) (t : ctree) : P t :=
  match t with
  | Node c subs => H c subs ((fix go l : Forall P l := match l with [] => Forall_nil P | u :: l => Forall_cons u (ctree_nested P H u) (go l) end) subs)
  end.
Lemma descendant_in : forall t c, descendant c t <-> In c (get_all_subclasses t).
Proof.
  intros t c. induction t as [p subs IH] using ctree_nested. cbn [get_all_subclasses]. rewrite in_app_iff, in_flat_map, in_map_iff. rewrite Forall_forall in IH. split.
  - intros D. inversion D as [? ? t I R|? ? t I R]; subst; [right; eauto|left]. exists t. split; [exact I|]. apply IH; auto.
  - intros [(t & I & D)|(t & E & I)]; [eapply d_deeper; [exact I|apply IH; auto]|eapply d_child; eauto].
Qed.
Lemma starts_with_spec : forall p s, starts_with p s = true <-> exists r, s = p ++ r.
Proof.
  induction p as [|a p IH]; intros s; cbn.
  - split; eauto.
  - destruct s as [|b s]; [split; [discriminate|intros (r & H); discriminate]|]. destruct (ascii_dec a b) as [->|N].
    + rewrite IH. split; intros (r & H); exists r; congruence.
    + split; [discriminate|]. intros (r & H). congruence.
Qed.
Lemma is_abstract_spec : forall c, is_abstract c = true <-> marked_abstract c.
Proof.
  intros c. unfold is_abstract, marked_abstract. rewrite orb_true_iff, !starts_with_spec. split.
  - intros [(r & H)|(r & H)]; exists r; auto.
  - intros (r & [H|H]); [left|right]; exists r; auto.
Qed.
Lemma find_plugins_in : forall dir c, In c (find_plugins dir) -> plugin_class c dir.
Proof.
  intros [files|] c; cbn [find_plugins]; [|intros []].
  assert (G : forall l acc, (forall f, In f l -> In f files /\ is_plugin_file (fst f) = true) -> (In c acc -> plugin_class c (Some files)) ->
    In c (fold_left (fun (_ : list pclass) (f : str * list (pclass * bool)) => map fst (filter snd (snd f))) l acc) -> plugin_class c (Some files)).
  { induction l as [|f l IH]; intros acc HL HA; cbn; [exact HA|]. apply IH; [intros g Hg; apply HL; right; auto|]. intros I. destruct (HL f (or_introl eq_refl)) as [I1 I2]. apply in_map_iff in I. destruct I as ([c' b] & <- & I).
    apply filter_In in I. destruct I as [I B]. cbn in B. subst b. destruct f as [n cl]. exists files, n, cl. auto. }
  apply G; [intros f I; apply filter_In in I; exact I|intros []].
Qed.

(** ** Removing while iterating *)
Lemma remove_first_in : forall c l x, In x (remove_first c l) -> In x l.
Proof. induction l as [|y l IH]; cbn; [auto|]. destruct (c_id y =? c_id c); [auto|]. intros x [<-|I]; auto. Qed.
Lemma identities_sub : forall l l', (forall x, In x l' -> In x l) -> identities l -> identities l'.
Proof. intros l l' S I a b A B. apply I; auto. Qed.
Lemma remove_first_filter : forall c l, identities l -> In c l -> is_abstract c = true -> filter (fun x => negb (is_abstract x)) (remove_first c l) = filter (fun x => negb (is_abstract x)) l.
Proof.
  induction l as [|y l IH]; intros ID IN A; [destruct IN|]. cbn [remove_first]. destruct (c_id y =? c_id c) eqn:E.
  - apply Nat.eqb_eq in E. assert (y = c) by (apply ID; auto; left; auto). subst y. cbn. rewrite A. reflexivity.
  - cbn [filter]. rewrite IH; auto; [eapply identities_sub; [|exact ID]; intros; right; auto|]. destruct IN as [->|IN]; [rewrite Nat.eqb_refl in E; discriminate|exact IN].
Qed.
Lemma loop_filter : forall n i l, identities l -> filter (fun x => negb (is_abstract x)) (removal_loop n i l) = filter (fun x => negb (is_abstract x)) l /\ forall x, In x (removal_loop n i l) -> In x l.
Proof.
  induction n as [|n IH]; intros i l ID; cbn; [auto|]. destruct (nth_error l i) as [c|] eqn:E; [|auto]. destruct (is_abstract c) eqn:A; [|apply IH; auto].
  destruct (IH (S i) (remove_first c l)) as [F S]; [eapply identities_sub; [|exact ID]; apply remove_first_in|]. rewrite F. split; [apply remove_first_filter; auto; eapply nth_error_In; eauto|]. intros x I. eapply remove_first_in, S, I.
Qed.
Lemma remove_first_at : forall c pre l, (forall x, In x pre -> c_id x <> c_id c) -> remove_first c (pre ++ c :: l) = pre ++ l.
Proof.
  induction pre as [|y pre IH]; intros l H; cbn; [rewrite Nat.eqb_refl; reflexivity|]. rewrite (proj2 (Nat.eqb_neq _ _)) by (apply H; left; auto). rewrite IH by (intros x I; apply H; right; auto). reflexivity.
Qed.
Lemma nth_app_at : forall {A} (pre : list A) c l, nth_error (pre ++ c :: l) (length pre) = Some c.
Proof. intros. rewrite nth_error_app2, Nat.sub_diag by lia. reflexivity. Qed.
Definition ap (l : list pclass) : Prop := forall i a b, nth_error l i = Some a -> nth_error l (S i) = Some b -> is_abstract a = true -> is_abstract b = false.
Lemma ap_tl : forall x l, ap (x :: l) -> ap l.
Proof. intros x l H i a b. apply (H (S i)). Qed.
Lemma loop_apart : forall n pre l, length l <= n -> identities (pre ++ l) -> (forall x, In x pre -> is_abstract x = false) -> ap l ->
  forall x, In x (removal_loop n (length pre) (pre ++ l)) -> is_abstract x = false.
Proof.
  induction n as [|n IH]; intros pre l LN ID P AP x.
  - destruct l; [|cbn in LN; lia]. rewrite app_nil_r. cbn. apply P.
  - destruct l as [|c l].
    + cbn [removal_loop]. rewrite (proj2 (nth_error_None _ _)) by (rewrite app_length; cbn; lia). rewrite app_nil_r. apply P.
    + cbn [removal_loop]. rewrite nth_app_at. cbn in LN. destruct (is_abstract c) eqn:A.
      * rewrite remove_first_at. 2:{ intros y I E. assert (y = c) by (apply ID; auto; apply in_or_app; [left|right; left]; auto). subst y. rewrite (P c I) in A. discriminate. }
        destruct l as [|d l].
        { rewrite app_nil_r. destruct n; cbn [removal_loop]; [apply P|]. rewrite (proj2 (nth_error_None _ _)) by lia. apply P. }
        replace (pre ++ d :: l) with ((pre ++ [d]) ++ l) by (rewrite <- app_assoc; reflexivity). replace (S (length pre)) with (length (pre ++ [d])) by (rewrite app_length; cbn; lia).
        apply IH; cbn in *; try lia.
        -- eapply identities_sub; [|exact ID]. intros y. rewrite !in_app_iff. cbn. tauto.
        -- intros y I. apply in_app_or in I. destruct I as [I|[<-|[]]]; [apply P, I|]. apply (AP 0 c d); auto.
        -- apply ap_tl with d, ap_tl with c, AP.
      * replace (pre ++ c :: l) with ((pre ++ [c]) ++ l) by (rewrite <- app_assoc; reflexivity). replace (S (length pre)) with (length (pre ++ [c])) by (rewrite app_length; cbn; lia).
        apply IH; try lia.
        -- rewrite <- app_assoc. exact ID.
        -- intros y I. apply in_app_or in I. destruct I as [I|[<-|[]]]; [apply P, I|exact A].
        -- apply ap_tl with c, AP.
Qed.

(** ** Stable sorting *)
Section Sort.
Context {A : Type} (le : A -> A -> bool).
Hypothesis total : forall a b, le a b = true \/ le b a = true.
Hypothesis trans : forall a b c, le a b = true -> le b c = true -> le a c = true.
Lemma insert_perm : forall x l, Permutation (insert_by le x l) (x :: l).
Proof. induction l as [|y l IH]; cbn; [auto|]. destruct (le x y); [auto|]. rewrite IH. apply perm_swap. Qed.
Lemma sort_perm : forall l, Permutation (sort_by le l) l.
Proof. induction l as [|x l IH]; cbn; [auto|]. rewrite insert_perm. constructor. exact IH. Qed.
Lemma insert_sorted : forall x l, StronglySorted (fun a b => le a b = true) l -> StronglySorted (fun a b => le a b = true) (insert_by le x l).
Proof.
  induction l as [|y l IH]; intros S; cbn; [repeat constructor|]. inversion S as [|? ? S1 F]; subst. destruct (le x y) eqn:E.
  - constructor; [exact S|]. constructor; [exact E|]. eapply Forall_impl; [|exact F]. intros z. apply trans, E.
  - constructor; [apply IH, S1|]. assert (le y x = true) by (destruct (total x y); congruence). eapply Permutation_Forall; [symmetry; apply insert_perm|]. constructor; auto.
Qed.
Lemma sort_sorted : forall l, StronglySorted (fun a b => le a b = true) (sort_by le l).
Proof. induction l as [|x l IH]; cbn; [constructor|]. apply insert_sorted, IH. Qed.
(** the elements of a class of equals stay in order *)
Variable same : A -> bool.
Hypothesis same_ok : forall a b, same a = true -> same b = true -> le a b = true.
Lemma insert_filter : forall x l, filter same (insert_by le x l) = filter same (x :: l).
Proof.
  induction l as [|y l IH]; cbn [insert_by]; [reflexivity|]. destruct (le x y) eqn:E; [reflexivity|]. cbn [filter]. rewrite IH. cbn [filter]. destruct (same x) eqn:SX, (same y) eqn:SY; try reflexivity. rewrite (same_ok x y) in E; auto; discriminate.
Qed.
Lemma sort_filter : forall l, filter same (sort_by le l) = filter same l.
Proof. induction l as [|x l IH]; cbn [sort_by fold_right]; [reflexivity|]. rewrite insert_filter. cbn [filter]. fold (sort_by le l). rewrite IH. reflexivity. Qed.
End Sort.

Definition name_le (a b : pclass) : bool := str_leb (c_name a) (c_name b).
Definition prio_ge (a b : pclass) : bool := (c_priority b <=? c_priority a)%Z.
Lemma name_le_total : forall a b, name_le a b = true \/ name_le b a = true.
Proof. intros. apply str_leb_total. Qed.
Lemma name_le_trans : forall a b c, name_le a b = true -> name_le b c = true -> name_le a c = true.
Proof. intros a b c. apply str_leb_trans. Qed.
Lemma prio_ge_total : forall a b, prio_ge a b = true \/ prio_ge b a = true.
Proof. intros. unfold prio_ge. rewrite !Z.leb_le. lia. Qed.
Lemma prio_ge_trans : forall a b c, prio_ge a b = true -> prio_ge b c = true -> prio_ge a c = true.
Proof. intros a b c. unfold prio_ge. rewrite !Z.leb_le. lia. Qed.

(** ** The offered classes *)
Lemma one_identity_ok : forall dir parent, one_identity dir parent -> identities (find_plugins dir ++ get_all_subclasses parent).
Proof.
  intros dir parent H a b A B. apply H; [apply in_app_or in A; destruct A as [A|A]|apply in_app_or in B; destruct B as [B|B]]; try (right; apply find_plugins_in; assumption); left; apply descendant_in; assumption.
Qed.
Lemma offered_ok : forall dir parent, one_identity dir parent -> let offered := find_plugin_classes dir parent in
  (forall c, descendant c parent -> ~ marked_abstract c -> In c offered) /\
  (forall c, In c offered -> descendant c parent \/ plugin_class c dir) /\
  by_name offered /\
  (apart (find_plugins dir ++ get_all_subclasses parent) -> forall c, In c offered -> ~ marked_abstract c).
Proof.
  intros dir parent ID. cbv zeta. unfold find_plugin_classes. set (all := find_plugins dir ++ get_all_subclasses parent). assert (IA := one_identity_ok _ _ ID). fold all in IA. cbv zeta. fold name_le.
  assert (P := sort_perm name_le (removal_loop (length all) 0 all)). destruct (loop_filter (length all) 0 all IA) as [F S].
  split; [|split; [|split]].
  - intros c D N. eapply Permutation_in; [symmetry; exact P|]. assert (I : In c (filter (fun x => negb (is_abstract x)) all)).
    { apply filter_In. split; [apply in_or_app; right; apply descendant_in, D|]. destruct (is_abstract c) eqn:E; [apply is_abstract_spec in E; contradiction|reflexivity]. }
    rewrite <- F in I. apply filter_In in I. apply I.
  - intros c I. eapply Permutation_in in I; [|exact P]. apply S in I. apply in_app_or in I. destruct I as [I|I]; [right; apply find_plugins_in, I|left; apply descendant_in, I].
  - apply sort_sorted; [apply name_le_total|apply name_le_trans].
  - intros AP c I M. eapply Permutation_in in I; [|exact P]. assert (X := loop_apart (length all) [] all (le_n _) IA (fun x (H : In x []) => match H with end)). cbn [length app] in X.
    apply is_abstract_spec in M. rewrite X in M; auto; [discriminate|]. intros i a b A B HA. destruct (is_abstract b) eqn:E; [|reflexivity]. destruct (AP i a b A B); apply is_abstract_spec; auto.
Qed.

(** a plugin class takes the place of others of that name, if there is one plugin file *)
Lemma find_filter : forall {A} (f : A -> bool) l, find f l = hd_error (filter f l).
Proof. induction l as [|x l IH]; cbn; [reflexivity|]. destruct (f x); [reflexivity|exact IH]. Qed.
Lemma filter_comm : forall {A} (f g : A -> bool) l, filter f (filter g l) = filter g (filter f l).
Proof. induction l as [|x l IH]; cbn; [reflexivity|]. destruct (g x) eqn:G, (f x) eqn:F; cbn; rewrite ?F, ?G, IH; reflexivity. Qed.
Lemma named_first : forall dir parent f classes, one_identity dir parent -> dir = Some [(f, classes)] ->
  forall c, plugin_class c dir -> ~ marked_abstract c -> exists c', get_kernel (find_plugin_classes dir parent) (Some (c_name c)) = Ok c' /\ c_name c' = c_name c /\ plugin_class c' dir.
Proof.
  intros dir parent f classes ID ED c PC NA. unfold get_kernel. set (same := fun x : pclass => str_eqb (c_name c) (c_name x)).
  assert (X : filter same (find_plugin_classes dir parent) = filter same (removal_loop (length (find_plugins dir ++ get_all_subclasses parent)) 0 (find_plugins dir ++ get_all_subclasses parent))).
  { unfold find_plugin_classes. cbv zeta. apply sort_filter. intros a b A B. unfold same in A, B. apply str_eqb_eq in A, B. unfold name_le. rewrite <- A, <- B. destruct (str_leb_total (c_name c) (c_name c)); auto. }
  assert (NS : forall x, same x = true -> is_abstract x = false).
  { intros x S. unfold same in S. apply str_eqb_eq in S. destruct (is_abstract x) eqn:E; [|reflexivity]. apply is_abstract_spec in E. destruct NA. unfold marked_abstract in *. rewrite S. exact E. }
  assert (Y : forall l, filter same l = filter same (filter (fun x => negb (is_abstract x)) l)).
  { induction l as [|x l IH]; cbn; [reflexivity|]. destruct (is_abstract x) eqn:E; cbn [negb].
    - destruct (same x) eqn:S; [apply NS in S; congruence|exact IH].
    - cbn. rewrite IH. reflexivity. }
  destruct (loop_filter (length (find_plugins dir ++ get_all_subclasses parent)) 0 _ (one_identity_ok _ _ ID)) as [F _].
  rewrite find_filter. fold same. rewrite X, Y, F, <- Y, filter_app.
  assert (IN : In c (filter same (find_plugins dir))).
  { apply filter_In. split; [|unfold same; apply str_eqb_eq; reflexivity]. rewrite ED in PC |- *. destruct PC as (files & g & cl & [= <-] & [[= -> ->]|[]] & PF & I). cbn [find_plugins filter fst]. rewrite PF. cbn. apply in_map_iff. exists (c, true). split; [reflexivity|]. apply filter_In. auto. }
  destruct (filter same (find_plugins dir)) as [|c' l] eqn:E; [destruct IN|]. cbn. exists c'. split; [reflexivity|].
  assert (I' : In c' (filter same (find_plugins dir))) by (rewrite E; left; auto). apply filter_In in I'. destruct I' as [I1 I2]. unfold same in I2. apply str_eqb_eq in I2. split; [auto|]. apply find_plugins_in, I1.
Qed.

(** ** Choosing *)
Lemma join_snoc : forall c l x, l <> [] -> join_on c (l ++ [x]) = join_on c l ++ c :: x.
Proof.
  induction l as [|p l IH]; intros x N; [contradiction|]. destruct l as [|q l]; [reflexivity|]. change (p ++ c :: join_on c ((q :: l) ++ [x]) = (p ++ c :: join_on c (q :: l)) ++ c :: x).
  rewrite IH by discriminate. rewrite <- app_assoc. reflexivity.
Qed.
Lemma basename_ok : forall f, base_of f (basename f).
Proof.
  intros f. unfold basename, base_of. assert (N := split_on_nonnil "/"%char f). assert (J := join_split "/"%char f). assert (P := split_pieces "/"%char f).
  rewrite (app_removelast_last ([] : str) N) in J. split.
  - apply P. rewrite (app_removelast_last ([] : str) N) at 2. apply in_or_app. right. left. reflexivity.
  - destruct (removelast (split_on "/"%char f)) as [|p ps] eqn:E; rewrite ?E in J; [left; symmetry; exact J|right]. exists (join_on "/"%char (p :: ps)). rewrite <- join_snoc by discriminate. symmetry. exact J.
Qed.
Lemma basename_unique : forall f b, base_of f b -> b = basename f.
Proof.
  intros f b (N & [->|(d & ->)]); unfold basename; [rewrite split_nosep by auto; reflexivity|].
  assert (J := join_split "/"%char d). assert (NN := split_on_nonnil "/"%char d). rewrite <- J, <- join_snoc by exact NN. rewrite split_join.
  - rewrite last_last. reflexivity.
  - destruct (split_on "/"%char d); discriminate.
  - intros p I. apply in_app_or in I. destruct I as [I|[<-|[]]]; [exact (split_pieces _ _ _ I)|exact N].
Qed.

Section Match.
Variable re_match : str -> str -> bool.
Lemma accepts_ok : forall c f ps, accepts re_match c f ps = true <-> (exists p, In p ps /\ re_match (p ++ lit "$") (basename f) = true) /\ c_error c f = false.
Proof.
  induction ps as [|p ps IH]; cbn [accepts]; [split; [discriminate|intros ((p & [] & _) & _)]|]. destruct (re_match (p ++ lit "$") (basename f)) eqn:M.
  - destruct (c_error c f) eqn:E; cbn [negb]; [rewrite IH; split; [intros [_ H]; discriminate|intros [_ H]; discriminate]|]. split; [|auto]. intros _. split; [|reflexivity]. exists p. split; [left; auto|exact M].
  - rewrite IH. split; intros ((q & I & Q) & E); (split; [|exact E]); exists q.
    + split; [right; exact I|exact Q].
    + destruct I as [->|I]; [congruence|]. split; [exact I|exact Q].
Qed.
Lemma right_ok : forall c f, accepts re_match c f (c_signature c) = true <-> right_for re_match f c.
Proof.
  intros c f. rewrite accepts_ok. unfold right_for. split; intros [H E]; (split; [|exact E]).
  - destruct H as (p & I & M). exists (basename f), p. split; [apply basename_ok|auto].
  - destruct H as (b & p & B & I & M). apply basename_unique in B. subst b. eauto.
Qed.
Lemma choose_none_ok : forall f l, match choose re_match f None l with
  | Ok (Some c) => exists pre post, l = pre ++ c :: post /\ right_for re_match f c /\ c_concrete c = true /\ forall x, In x pre -> ~ right_for re_match f x
  | Ok None => forall x, In x l -> ~ right_for re_match f x /\ c_concrete x = true
  | Raises e => e = TypeError /\ exists x, In x l /\ c_concrete x = false
  end.
Proof.
  induction l as [|c l IH]; cbn [choose]; [intros x []|]. destruct (c_concrete c) eqn:C; cbn [negb]; [|split; [reflexivity|exists c; split; [left; auto|exact C]]].
  destruct (accepts re_match c f (c_signature c)) eqn:A.
  - exists [], l. apply right_ok in A. repeat split; auto; try apply A.
  - assert (NR : ~ right_for re_match f c) by (rewrite <- right_ok, A; discriminate). destruct (choose re_match f None l) as [[c'|]|e].
    + destruct IH as (pre & post & -> & R & CC & P). exists (c :: pre), post. split; [reflexivity|]. split; [exact R|]. split; [exact CC|]. intros x [<-|I]; auto.
    + intros x [<-|I]; auto.
    + destruct IH as [-> (x & I & X)]. split; [reflexivity|]. exists x. split; [right; auto|exact X].
Qed.
Lemma choose_named_ok : forall f p l, match choose re_match f (Some p) l with
  | Ok (Some c) => exists pre post, l = pre ++ c :: post /\ c_name c = p /\ forall x, In x pre -> c_name x <> p
  | Ok None => forall x, In x l -> c_name x <> p
  | Raises e => False
  end.
Proof.
  induction l as [|c l IH]; cbn [choose]; [intros x []|]. destruct (str_eqb p (c_name c)) eqn:E.
  - apply str_eqb_eq in E. exists [], l. repeat split; auto.
  - assert (NE : c_name c <> p) by (intros H; rewrite <- H, (proj2 (str_eqb_eq _ _) eq_refl) in E; discriminate). destruct (choose re_match f (Some p) l) as [[c'|]|e]; [| |exact IH].
    + destruct IH as (pre & post & -> & R & P). exists (c :: pre), post. split; [reflexivity|]. split; [exact R|]. intros x [<-|I]; auto.
    + intros x [<-|I]; auto.
Qed.
Definition before (a b : pclass) : Prop := (c_priority b < c_priority a)%Z \/ c_priority a = c_priority b /\ name_le a b = true.
Lemma lex_insert : forall x s, StronglySorted before s -> (forall y, In y s -> name_le x y = true) -> StronglySorted before (insert_by prio_ge x s).
Proof.
  induction s as [|y s IH]; intros S N; cbn; [repeat constructor|]. inversion S as [|? ? S1 F]; subst. rewrite Forall_forall in F. destruct (prio_ge x y) eqn:E.
  - unfold prio_ge in E. apply Z.leb_le in E. constructor; [exact S|]. apply Forall_forall. intros z I. unfold before. rewrite (N z I). destruct I as [<-|I]; [lia|]. destruct (F z I) as [H|[H _]]; lia.
  - unfold prio_ge in E. apply Z.leb_gt in E. constructor; [apply IH; [exact S1|intros z I; apply N; right; auto]|]. eapply Permutation_Forall; [symmetry; apply insert_perm|]. constructor; [left; exact E|]. apply Forall_forall. exact F.
Qed.
Lemma lex_sort : forall l, by_name l -> StronglySorted before (sort_by prio_ge l).
Proof.
  induction l as [|x l IH]; intros S; cbn; [constructor|]. inversion S as [|? ? S1 F]; subst. apply lex_insert; [apply IH, S1|]. intros y I. eapply Permutation_in in I; [|apply sort_perm]. rewrite Forall_forall in F. apply F, I.
Qed.
Lemma sorted_split : forall {A} (R : A -> A -> Prop) pre c post, StronglySorted R (pre ++ c :: post) -> forall x, In x post -> R c x.
Proof.
  induction pre as [|y pre IH]; intros c post S x I; inversion S as [|? ? S1 F]; subst; [rewrite Forall_forall in F; auto|eauto].
Qed.
Lemma get_class_none : forall classes f, by_name classes -> match get_class re_match classes f None with
  | Ok c => In c classes /\ right_for re_match f c /\ c_concrete c = true /\ forall x, In x classes -> right_for re_match f x -> x = c \/ before c x
  | Raises e => (e = ClassNotFoundError /\ forall x, In x classes -> ~ right_for re_match f x) \/ (e = TypeError /\ exists x, In x classes /\ c_concrete x = false)
  end.
Proof.
  intros classes f BN. unfold get_class. cbv zeta. fold prio_ge. assert (P := sort_perm prio_ge classes). assert (L := lex_sort classes BN). set (s := sort_by prio_ge classes) in *. change (sort_by (fun a b : pclass => (c_priority b <=? c_priority a)%Z) classes) with s.
  assert (H := choose_none_ok f s). destruct (choose re_match f None s) as [[c|]|e]; cbn [bind].
  - destruct H as (pre & post & E & R & C & N). split; [eapply Permutation_in; [exact P|]; rewrite E; apply in_or_app; right; left; auto|]. split; [exact R|]. split; [exact C|]. intros x I RX. eapply Permutation_in in I; [|symmetry; exact P].
    rewrite E in I, L. apply in_app_or in I. destruct I as [I|[<-|I]]; [destruct (N x I RX)|left; reflexivity|right; eapply sorted_split; eauto].
  - destruct (forallb c_concrete s) eqn:B.
    + left. split; [reflexivity|]. intros x I. eapply Permutation_in in I; [|symmetry; exact P]. apply (H x I).
    + exfalso. rewrite (proj2 (forallb_forall c_concrete s)) in B; [discriminate|]. intros x I. apply (H x I).
  - right. destruct H as [-> (x & I & C)]. split; [reflexivity|]. exists x. split; [eapply Permutation_in; [exact P|exact I]|exact C].
Qed.
Lemma get_class_named : forall classes f p, by_name classes -> match get_class re_match classes f (Some p) with
  | Ok c => In c classes /\ c_name c = p /\ forall x, In x classes -> c_name x = p -> (c_priority x <= c_priority c)%Z
  | Raises e => forall x, In x classes -> c_name x <> p
  end.
Proof.
  intros classes f p BN. unfold get_class. cbv zeta. assert (P := sort_perm prio_ge classes). assert (L := lex_sort classes BN). set (s := sort_by prio_ge classes) in *. change (sort_by (fun a b : pclass => (c_priority b <=? c_priority a)%Z) classes) with s.
  assert (H := choose_named_ok f p s). destruct (choose re_match f (Some p) s) as [[c|]|e]; cbn [bind]; [| |destruct H].
  - destruct H as (pre & post & E & R & N). split; [eapply Permutation_in; [exact P|]; rewrite E; apply in_or_app; right; left; auto|]. split; [exact R|]. intros x I RX. eapply Permutation_in in I; [|symmetry; exact P].
    rewrite E in I, L. apply in_app_or in I. destruct I as [I|[<-|I]]; [destruct (N x I RX)|lia|]. destruct (sorted_split _ _ _ _ L x I) as [B|[B _]]; lia.
  - assert (G : forall x, In x classes -> c_name x <> p) by (intros x I; apply H; eapply Permutation_in; [symmetry; exact P|exact I]). destruct (forallb c_concrete s); exact G.
Qed.
Lemma offered_names : forall dir parent, by_name (find_plugin_classes dir parent).
Proof. intros. unfold find_plugin_classes. cbv zeta. apply (sort_sorted name_le); [apply name_le_total|apply name_le_trans]. Qed.

Lemma chosen_ok : forall dir parent f c, one_identity dir parent -> product_class re_match dir parent f None = Ok c ->
  (descendant c parent \/ plugin_class c dir) /\ right_for re_match f c /\ c_concrete c = true /\
  (forall x, descendant x parent -> ~ marked_abstract x -> right_for re_match f x ->
     (c_priority x <= c_priority c)%Z /\ (c_priority x = c_priority c -> str_leb (c_name c) (c_name x) = true)).
Proof.
  intros dir parent f c ID E. unfold product_class in E. assert (H := get_class_none _ f (offered_names dir parent)). rewrite E in H. destruct (offered_ok dir parent ID) as (O1 & O2 & _). destruct H as (I & R & C & M).
  split; [apply O2, I|]. split; [exact R|]. split; [exact C|]. intros x D NA RX. destruct (M x (O1 x D NA) RX) as [->|[B|[B N]]].
  - split; [lia|]. intros _. destruct (str_leb_total (c_name c) (c_name c)); auto.
  - split; [lia|]. intros; lia.
  - split; [lia|]. intros _. exact N.
Qed.
Lemma found_ok : forall dir parent f, one_identity dir parent -> apart (find_plugins dir ++ get_all_subclasses parent) ->
  (forall x, descendant x parent \/ plugin_class x dir -> ~ marked_abstract x -> c_concrete x = true) ->
  ((exists x, descendant x parent /\ ~ marked_abstract x /\ right_for re_match f x) -> exists c, product_class re_match dir parent f None = Ok c) /\
  (forall e, product_class re_match dir parent f None = Raises e -> e = ClassNotFoundError) /\
  (forall c, product_class re_match dir parent f None = Ok c -> ~ marked_abstract c).
Proof.
  intros dir parent f ID AP CC. unfold product_class. assert (H := get_class_none _ f (offered_names dir parent)). destruct (offered_ok dir parent ID) as (O1 & O2 & _ & O4).
  assert (CO : forall x, In x (find_plugin_classes dir parent) -> c_concrete x = true) by (intros x I; apply CC; [apply O2, I|apply O4; auto]).
  destruct (get_class re_match (find_plugin_classes dir parent) f None) as [c|e].
  - split; [eauto|]. split; [discriminate|]. intros c' [= <-]. apply O4; [exact AP|apply H].
  - destruct H as [[-> N]|[-> (x & I & C)]]; [|rewrite (CO x I) in C; discriminate]. split; [|split; [congruence|discriminate]].
    intros (x & D & NA & R). destruct (N x (O1 x D NA) R).
Qed.
Lemma named_ok : forall dir parent f p, one_identity dir parent ->
  (forall c, product_class re_match dir parent f (Some p) = Ok c -> (descendant c parent \/ plugin_class c dir) /\ c_name c = p /\
     forall x, descendant x parent -> ~ marked_abstract x -> c_name x = p -> (c_priority x <= c_priority c)%Z) /\
  ((exists x, descendant x parent /\ ~ marked_abstract x /\ c_name x = p) -> exists c, product_class re_match dir parent f (Some p) = Ok c).
Proof.
  intros dir parent f p ID. unfold product_class. assert (H := get_class_named _ f p (offered_names dir parent)). destruct (offered_ok dir parent ID) as (O1 & O2 & _).
  destruct (get_class re_match (find_plugin_classes dir parent) f (Some p)) as [c|e].
  - split; [|eauto]. intros c' [= <-]. destruct H as (I & N & M). split; [apply O2, I|]. split; [exact N|]. intros x D NA E. apply M; auto.
  - split; [discriminate|]. intros (x & D & NA & E). destruct (H x (O1 x D NA) E).
Qed.
End Match.
