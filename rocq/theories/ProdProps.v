From Verif Require Import Base PyStr ProdModel ProdSpec ProdProofs.
From Coq Require Import Sorting.Sorted.
Open Scope string_scope. Open Scope list_scope. Open Scope nat_scope.

(** Every subclass that is not marked abstract is offered, nothing but subclasses and plugin classes is, in alphabetical order; and no class marked abstract
    is, if no two of them follow each other in the list (the general claim is refuted below). *)
Theorem C43_offered_partial : forall dir parent, one_identity dir parent -> let offered := find_plugin_classes dir parent in
  (forall c, descendant c parent -> ~ marked_abstract c -> In c offered) /\
  (forall c, In c offered -> descendant c parent \/ plugin_class c dir) /\
  by_name offered /\
  (apart (find_plugins dir ++ get_all_subclasses parent) -> forall c, In c offered -> ~ marked_abstract c).
Proof. exact offered_ok. Qed.
Print Assumptions C43_offered_partial.

(** With one plugin file, a plugin class is found by its name in place of a built-in class of that name. *)
Theorem C43_override_partial : forall dir parent f classes, one_identity dir parent -> dir = Some [(f, classes)] ->
  forall c, plugin_class c dir -> ~ marked_abstract c -> exists c', get_kernel (find_plugin_classes dir parent) (Some (c_name c)) = Ok c' /\ c_name c' = c_name c /\ plugin_class c' dir.
Proof. exact named_first. Qed.
Print Assumptions C43_override_partial.

Definition cls i n p k := mkClass i (lit n) p k [lit ".*"] (fun _ => false).
Definition any (p s : str) : bool := true.
(** a family with two abstract classes next to each other *)
Definition family : ctree := Node (cls 0 "AProduct" 0 false) [Node (cls 1 "AbstractA" 10 false) []; Node (cls 2 "AbstractB" 10 false) []; Node (cls 3 "Good" 5 true) []].
(** a built-in kernel and a plugin of the same name *)
Definition kernels : ctree := Node (cls 0 "Kernel" 0 false) [Node (cls 1 "mean" 0 true) []; Node (cls 2 "mean" 0 true) []].

(** The general claims are false: a class marked abstract can be offered, no product can then be chosen although there is one that is right for the file; and a
    second plugin file undoes the precedence of the first one's classes. *)
Theorem C43_refuted :
  ~ (forall parent, one_identity None parent -> forall c, In c (find_plugin_classes None parent) -> ~ marked_abstract c) /\
  ~ (forall dir parent, one_identity dir parent -> forall c, plugin_class c dir -> ~ marked_abstract c ->
       exists c', get_kernel (find_plugin_classes dir parent) (Some (c_name c)) = Ok c' /\ plugin_class c' dir).
Proof.
  split.
  - intros H. apply (H family) with (c := cls 2 "AbstractB" 10 false).
    + intros a b [A|(? & ? & ? & [=] & _)] [B|(? & ? & ? & [=] & _)]; apply descendant_in in A, B; cbn in A, B. repeat (destruct A as [<-|A]; [repeat (destruct B as [<-|B]; [cbn; try reflexivity; discriminate|]); destruct B|]). destruct A.
    + vm_compute. auto.
    + exists (lit "B"). right. reflexivity.
  - intros H. destruct (H (Some [(lit "a.py", [(cls 2 "mean" 0 true, true)]); (lit "b.py", [])]) kernels) with (c := cls 2 "mean" 0 true) as (c' & E & P).
    + intros a b A B.
      assert (G : forall x, descendant x kernels \/ plugin_class x (Some [(lit "a.py", [(cls 2 "mean" 0 true, true)]); (lit "b.py", [])]) -> x = cls 1 "mean" 0 true \/ x = cls 2 "mean" 0 true).
      { intros x [X|(fs & f & cl & [= <-] & I & _ & X)].
        - apply descendant_in in X. cbn in X. destruct X as [X|[X|[]]]; auto.
        - destruct I as [[= <- <-]|[[= <- <-]|[]]]; [destruct X as [[= <-]|[]]; auto|destruct X]. }
      destruct (G a A) as [-> | ->], (G b B) as [-> | ->]; cbn; try reflexivity; discriminate.
    + exists [(lit "a.py", [(cls 2 "mean" 0 true, true)]); (lit "b.py", [])], (lit "a.py"), [(cls 2 "mean" 0 true, true)]. repeat split; left; reflexivity.
    + intros (r & [R|R]); discriminate.
    + assert (c' = cls 1 "mean" 0 true) by (cbv in E; injection E as <-; reflexivity). subst c'. destruct P as (fs & f & cl & [= <-] & I & _ & X). destruct I as [[= <- <-]|[[= <- <-]|[]]]; [destruct X as [X|[]]; discriminate X|destruct X].
Qed.
Print Assumptions C43_refuted.

(** The product class chosen for a file is right for it, and no class that is right for it has a higher priority, or the same priority and a name that comes first. *)
Theorem C42_chosen : forall re_match dir parent f c, one_identity dir parent -> product_class re_match dir parent f None = Ok c ->
  (descendant c parent \/ plugin_class c dir) /\ right_for re_match f c /\ c_concrete c = true /\
  (forall x, descendant x parent -> ~ marked_abstract x -> right_for re_match f x ->
     (c_priority x <= c_priority c)%Z /\ (c_priority x = c_priority c -> str_leb (c_name c) (c_name x) = true)).
Proof. exact chosen_ok. Qed.
Print Assumptions C42_chosen.

(** A class is found whenever one is right, and otherwise it is a ClassNotFoundError: if no two abstract classes follow each other and all others can be instantiated. *)
Theorem C42_found_partial : forall re_match dir parent f, one_identity dir parent -> apart (find_plugins dir ++ get_all_subclasses parent) ->
  (forall x, descendant x parent \/ plugin_class x dir -> ~ marked_abstract x -> c_concrete x = true) ->
  ((exists x, descendant x parent /\ ~ marked_abstract x /\ right_for re_match f x) -> exists c, product_class re_match dir parent f None = Ok c) /\
  (forall e, product_class re_match dir parent f None = Raises e -> e = ClassNotFoundError) /\
  (forall c, product_class re_match dir parent f None = Ok c -> ~ marked_abstract c).
Proof. exact found_ok. Qed.
Print Assumptions C42_found_partial.

(** A product named by the user is the one used, whatever the file is called and whatever the other classes say. *)
Theorem C42_named : forall re_match dir parent f p, one_identity dir parent ->
  (forall c, product_class re_match dir parent f (Some p) = Ok c -> (descendant c parent \/ plugin_class c dir) /\ c_name c = p /\
     forall x, descendant x parent -> ~ marked_abstract x -> c_name x = p -> (c_priority x <= c_priority c)%Z) /\
  ((exists x, descendant x parent /\ ~ marked_abstract x /\ c_name x = p) -> exists c, product_class re_match dir parent f (Some p) = Ok c).
Proof. exact named_ok. Qed.
Print Assumptions C42_named.

(** In general a class that is right for the file may not be found. *)
Theorem C42_refuted : ~ (forall re_match dir parent f, one_identity dir parent -> (forall x, descendant x parent \/ plugin_class x dir -> ~ marked_abstract x -> c_concrete x = true) ->
  (exists x, descendant x parent /\ ~ marked_abstract x /\ right_for re_match f x) -> exists c, product_class re_match dir parent f None = Ok c).
Proof.
  intros H. destruct (H any None family (lit "/a/x.nc")) as (c & E).
  - intros a b [A|(? & ? & ? & [=] & _)] [B|(? & ? & ? & [=] & _)]; apply descendant_in in A, B; cbn in A, B. repeat (destruct A as [<-|A]; [repeat (destruct B as [<-|B]; [cbn; try reflexivity; discriminate|]); destruct B|]). destruct A.
  - intros x [X|(? & ? & ? & [=] & _)] NA. apply descendant_in in X. cbn in X. destruct X as [<-|[<-|[<-|[]]]]; [destruct NA; exists (lit "A"); right; reflexivity|destruct NA; exists (lit "B"); right; reflexivity|reflexivity].
  - exists (cls 3 "Good" 5 true). split; [|split].
    + eapply d_child with (t := Node (cls 3 "Good" 5 true) []); [right; right; left; reflexivity|reflexivity].
    + intros (r & [R|R]); discriminate.
    + split; [|reflexivity]. exists (lit "x.nc"), (lit ".*"). split; [|split; [left; reflexivity|reflexivity]]. split.
      * cbn. intuition discriminate.
      * right. exists (lit "/a"). reflexivity.
  - discriminate E.
Qed.
Print Assumptions C42_refuted.

(** a family without neighbouring abstract classes: the highest priority wins, then the name; a named product is taken in any case *)
Definition good_family : ctree :=
  Node (cls 0 "AProduct" 0 false) [Node (cls 1 "AbstractA" 10 false) [Node (mkClass 4 (lit "Zeta") 7 true [lit "y"; lit "x.nc"] (fun _ => false)) []]; Node (cls 3 "Good" 5 true) []; Node (cls 5 "Beta" 7 true) []].
Definition literal (p s : str) : bool := str_eqb p (s ++ lit "$").
Example C42_cases :
  map (fun c => c_name c) (find_plugin_classes None good_family) = map lit ["Beta"; "Good"; "Zeta"] /\
  (product_class any None good_family (lit "/a/x.nc") None = Ok (cls 5 "Beta" 7 true)) /\
  (match product_class literal None good_family (lit "/a/x.nc") None with Ok c => c_id c = 4 | _ => False end) /\
  product_class literal None good_family (lit "/x.nc/a") None = Raises ClassNotFoundError /\
  product_class literal None good_family (lit "a") (Some (lit "Good")) = Ok (cls 3 "Good" 5 true) /\
  product_class literal None good_family (lit "a") (Some (lit "Nil")) = Raises ClassNotFoundError.
Proof. repeat split; vm_compute; reflexivity. Qed.
Example C42_apart : apart (find_plugins None ++ get_all_subclasses good_family) /\ one_identity None good_family.
Proof.
  split.
  - intros i a b A B (r & M) (r' & M'). cbn in A, B. destruct i as [|[|[|[|i]]]]; cbn in A, B; try discriminate; injection A as <-; injection B as <-; cbn in M, M'; destruct M as [M|M], M' as [M'|M']; try discriminate M; discriminate M'.
  - intros a b [A|(? & ? & ? & [=] & _)] [B|(? & ? & ? & [=] & _)]; apply descendant_in in A, B; cbn in A, B. repeat (destruct A as [<-|A]; [repeat (destruct B as [<-|B]; [cbn; try reflexivity; discriminate|]); destruct B|]). destruct A.
Qed.
