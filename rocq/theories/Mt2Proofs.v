(** Proofs for C94: units and times. *)
From Coq Require Import String.
From Verif Require Import Base PyStr QBase DistModel ProdModel RafModel HdfModel UngrProofs MtModel MtSpec MtProofs.
From Coq Require Import List Lia Lqa.
Import ListNotations.
Open Scope string_scope. Open Scope list_scope. Open Scope nat_scope. Notation length := List.length.

(** ** the text of units *)
Lemma is_in_iff p : forall s, is_in p s = true <-> occurs p s.
Proof.
  induction s as [|c s IH]; cbn [is_in]; rewrite orb_true_iff, starts_with_iff.
  - split; [intros [(r & E)|H]; [exists [], r; exact E|discriminate]|]. intros (a & b & E). destruct a; [left; exists b; exact E|discriminate].
  - rewrite IH. split.
    + intros [(r & E)|(a & b & E)]; [exists [], r; exact E|]. exists (c :: a), b. cbn. congruence.
    + intros (a & b & E). destruct a as [|x a]; [left; exists b; exact E|]. right. injection E as <- E. exists a, b. exact E.
Qed.
Lemma strip_prefix_iff p : forall s r, strip_prefix p s = Some r <-> s = p ++ r.
Proof.
  induction p as [|a p IH]; intros s r; [cbn; split; congruence|]. destruct s as [|b s]; cbn [strip_prefix app]; [split; discriminate|].
  destruct (ascii_dec a b) as [->|N]; [rewrite IH; split; congruence|]. split; [discriminate|congruence].
Qed.
Definition sc : str := lit "since:".
Lemma since_border k rest r : 0 < length k < 6 -> k ++ sc ++ rest = sc ++ r -> False.
Proof. intros H E. destruct k as [|c0 [|c1 [|c2 [|c3 [|c4 [|c5 k]]]]]]; cbn in H; try lia; cbn in E; discriminate. Qed.
Lemma no_occ_inside p rest : (rest = [] \/ exists r, rest = sc ++ r) -> p <> [] -> ~ occurs sc p -> strip_prefix sc (p ++ rest) = None.
Proof.
  intros R N O. destruct (strip_prefix sc (p ++ rest)) as [r|] eqn:E; auto. exfalso. apply strip_prefix_iff in E.
  destruct (le_lt_dec 6 (length p)) as [L|L].
  - apply O. exists [], (skipn 6 p). cbn [app]. rewrite <- (firstn_skipn 6 p) at 1. f_equal. apply (f_equal (firstn 6)) in E. rewrite firstn_app in E. replace (6 - length p) with 0 in E by lia. rewrite firstn_O, app_nil_r in E. rewrite E. reflexivity.
  - destruct R as [->|(r' & ->)].
    + rewrite app_nil_r in E. apply (f_equal (@List.length _)) in E. rewrite app_length in E. cbn in E. lia.
    + eapply (since_border p r' r); [|exact E]. destruct p; cbn in *; [congruence|lia].
Qed.
Lemma occurs_tail c p : ~ occurs sc (c :: p) -> ~ occurs sc p.
Proof. intros H (a & b & ->). apply H. exists (c :: a), b. reflexivity. Qed.
Lemma replace_piece new p rest fuel : (rest = [] \/ exists r, rest = sc ++ r) -> ~ occurs sc p -> length p <= fuel ->
  replace_all fuel sc new (p ++ rest) = p ++ replace_all (fuel - length p) sc new rest.
Proof.
  intros R. revert fuel. induction p as [|c p IH]; intros fuel O L; [cbn; rewrite Nat.sub_0_r; reflexivity|]. cbn [length] in L. destruct fuel as [|fuel]; [lia|].
  pose proof (no_occ_inside (c :: p) rest R ltac:(discriminate) O) as S0. cbn [app] in *. cbn [replace_all]. rewrite S0. rewrite IH; [reflexivity|eapply occurs_tail; eauto|lia].
Qed.
Lemma replace_glue new ps : Forall (fun p => ~ occurs sc p) ps -> forall fuel, length (glue sc ps) <= fuel -> replace_all fuel sc new (glue sc ps) = glue new ps.
Proof.
  induction 1 as [|p ps O _ IH]; intros fuel L; [destruct fuel; reflexivity|]. destruct ps as [|q ps].
  - cbn [glue] in *. rewrite <- (app_nil_r p) at 1. rewrite replace_piece; auto. destruct (fuel - length p); cbn; rewrite app_nil_r; reflexivity.
  - change (glue sc (p :: q :: ps)) with (p ++ sc ++ glue sc (q :: ps)) in *. change (glue new (p :: q :: ps)) with (p ++ new ++ glue new (q :: ps)). set (g := glue sc (q :: ps)) in *. rewrite !app_length in L. change (length sc) with 6 in L.
    rewrite replace_piece; [|right; eexists; reflexivity|exact O|lia]. f_equal. destruct (fuel - length p) as [|f] eqn:F; [lia|].
    change (sc ++ g) with ("s"%char :: lit "ince:" ++ g). cbn [replace_all]. change ("s"%char :: lit "ince:" ++ g) with (sc ++ g). assert (S0 : strip_prefix sc (sc ++ g) = Some g) by (apply strip_prefix_iff; reflexivity). rewrite S0. f_equal. apply IH. lia.
Qed.
Lemma glue_exists : forall n s, length s <= n -> exists ps, ps <> [] /\ s = glue sc ps /\ Forall (fun p => ~ occurs sc p) ps.
Proof.
  (* the first occurrence, if any *)
  assert (F : forall s, ~ occurs sc s \/ exists a b, s = a ++ sc ++ b /\ ~ occurs sc a).
  { induction s as [|c s IH]; [left; intros (a & b & E); destruct a; discriminate|]. destruct (strip_prefix sc (c :: s)) as [r|] eqn:E.
    - apply strip_prefix_iff in E. right. exists [], r. split; [exact E|]. intros (a & b & X). destruct a; discriminate.
    - destruct IH as [IH|(a & b & -> & O)].
      + left. intros (a & b & X). destruct a as [|x a]; [|injection X as <- X; apply IH; exists a, b; exact X]. cbn [app] in X. apply strip_prefix_iff in X. congruence.
      + right. exists (c :: a), b. split; [reflexivity|]. intros (x & y & X). destruct x as [|z x]; [|injection X as <- X; apply O; exists x, y; exact X].
        cbn [app] in X. assert (Y : c :: a ++ sc ++ b = sc ++ (y ++ sc ++ b)). { change (c :: a ++ sc ++ b) with ((c :: a) ++ sc ++ b). rewrite X, <- app_assoc. reflexivity. } apply strip_prefix_iff in Y. congruence. }
  induction n as [|n IH]; intros s L.
  - destruct s; [|cbn in L; lia]. exists [[]]. split; [discriminate|]. split; [reflexivity|]. constructor; [|constructor]. intros (a & b & E). destruct a; discriminate.
  - destruct (F s) as [O|(a & b & -> & O)].
    + exists [s]. split; [discriminate|]. split; [reflexivity|]. constructor; auto.
    + rewrite !app_length in L. change (length sc) with 6 in L. destruct (IH b ltac:(lia)) as (ps & N & -> & FO). exists (a :: ps). split; [discriminate|]. split; [destruct ps; [congruence|reflexivity]|]. constructor; auto.
Qed.
Lemma filter_comma l : filter (fun c => negb (if ascii_dec c "," then true else false)) l = filter (fun c => if ascii_dec c "," then false else true) l.
Proof. induction l as [|c l IH]; cbn [filter]; [reflexivity|]. destruct (ascii_dec c ","); cbn [negb]; congruence. Qed.
Theorem tidied_iff s t : tidied s t <-> t = tidy s.
Proof.
  unfold tidy. cbv zeta. destruct (is_in (lit "since") (lower s)) eqn:I.
  - assert (O : occurs (lit "since") (lower s)) by (apply is_in_iff; exact I). split.
    + intros H. destruct H as [ps t _ _ E F ->|t N _]; [|tauto]. rewrite E. change (lit "since:") with sc in *. rewrite (replace_glue _ _ F) by lia. symmetry. apply filter_comma.
    + intros ->. destruct (glue_exists _ (lower s) (le_n _)) as (ps & N & E & F). apply (TidySince s ps); auto. rewrite filter_comma. f_equal. change (lit "since:") with sc. rewrite E. apply replace_glue; auto.
  - assert (O : ~ occurs (lit "since") (lower s)) by (rewrite <- is_in_iff; congruence). split.
    + intros H. destruct H as [ps t X _ _ _ _|t _ F]; [tauto|]. clear - F. induction F as [|c d s t H F IH]; cbn; [reflexivity|]. destruct H as [(-> & ->)|(N & ->)]; [destruct (ascii_dec "#" "#"); congruence|]. destruct (ascii_dec c "#"); congruence.
    + intros ->. apply TidyOther; auto. clear. induction s as [|c s IH]; cbn [map]; constructor; auto. destruct (ascii_dec c "#"); auto.
Qed.
Theorem units_of_text U s t : tidied s t -> (forall u, U t = Some u -> set_units U (UText s) = UUnit u) /\ (U t = None -> set_units U (UText s) = UText t).
Proof. intros H. apply tidied_iff in H. subst t. cbn [set_units]. split; [intros u ->; reflexivity|intros ->; reflexivity]. Qed.
Lemma tidied_total s : exists t, tidied s t.
Proof. exists (tidy s). apply tidied_iff. reflexivity. Qed.
(** setting them again *)
Lemma lower_char_idem c : lower_char (lower_char c) = lower_char c.
Proof. destruct c as [[] [] [] [] [] [] [] []]; vm_compute; reflexivity. Qed.
Lemma replace_none fuel new s : ~ occurs sc s -> length s <= fuel -> replace_all fuel sc new s = s.
Proof. intros O L. rewrite <- (app_nil_r s) at 1. rewrite replace_piece; auto. destruct (fuel - length s); cbn; apply app_nil_r. Qed.
Lemma in_filter_comma l : Forall (fun c => c <> ","%char) (filter (fun c => if ascii_dec c "," then false else true) l).
Proof. apply Forall_forall. intros c H. apply filter_In in H. destruct H as [_ H]. destruct (ascii_dec c ","); congruence. Qed.
Lemma filter_id l : Forall (fun c => c <> ","%char) l -> filter (fun c => if ascii_dec c "," then false else true) l = l.
Proof. induction 1 as [|c l H _ IH]; cbn; [reflexivity|]. destruct (ascii_dec c ","); congruence. Qed.
Lemma in_replace fuel : forall s c, In c (replace_all fuel sc (lit "since") s) -> In c s \/ lower_char c = c.
Proof.
  induction fuel as [|f IH]; intros s c H; [cbn in H; auto|]. cbn [replace_all] in H. destruct s as [|x s]; [destruct H|]. destruct (strip_prefix sc (x :: s)) as [r|] eqn:E.
  - apply strip_prefix_iff in E. rewrite E. apply in_app_or in H. destruct H as [H|H].
    + right. cbn in H. repeat destruct H as [<-|H]; try reflexivity; destruct H.
    + apply IH in H. destruct H as [H|H]; [left|right; exact H]. apply in_or_app. auto.
  - destruct H as [<-|H]; [left; left; reflexivity|]. apply IH in H. destruct H as [H|H]; [left; right; exact H|auto].
Qed.
Lemma map_id_forall {A} (f : A -> A) l : Forall (fun c => f c = c) l -> map f l = l.
Proof. induction 1; cbn; congruence. Qed.
Lemma occurs_filter p l : filter (fun c => if ascii_dec c "," then false else true) p = p -> occurs p l -> occurs p (filter (fun c => if ascii_dec c "," then false else true) l).
Proof. intros E (a & b & ->). rewrite !filter_app, E. eexists _, _. reflexivity. Qed.
Lemma since_stays l : occurs (lit "since") l -> occurs (lit "since") (replace_all (length l) sc (lit "since") l).
Proof.
  intros O. destruct (glue_exists _ l (le_n _)) as (ps & N & E & F). destruct ps as [|p [|q ps]]; [congruence| |].
  - cbn in E. subst p. rewrite replace_none; auto. inversion F; auto.
  - rewrite E at 2. rewrite replace_glue; auto; [|rewrite E; apply le_n]. exists p, (glue (lit "since") (q :: ps)). reflexivity.
Qed.
Lemma one_lower c d : (if ascii_dec c "#" then "1"%char else c) = d -> lower_char d = lower_char c \/ lower_char d = "1"%char.
Proof. destruct (ascii_dec c "#"); intros <-; auto. Qed.
Theorem set_again U s t : tidied s t -> ~ occurs (lit "since:") t -> set_units U (UText t) = set_units U (UText s).
Proof.
  intros T N. cbn [set_units]. assert (E : tidy t = tidy s); [|rewrite E; reflexivity]. apply tidied_iff in T. rewrite <- T. revert N. subst t. unfold tidy at 1 3 4. cbv zeta. destruct (is_in (lit "since") (lower s)) eqn:I; intros N.
  - rewrite !filter_comma in *. change (lit "since:") with sc in *. set (g := replace_all (length (lower s)) sc (lit "since") (lower s)) in *. set (t := filter _ g) in *.
    assert (LT : lower t = t).
    { apply map_id_forall. apply Forall_forall. intros c H. apply filter_In in H. destruct H as [H _]. apply in_replace in H. destruct H as [H|H]; auto. unfold lower in H. apply in_map_iff in H. destruct H as (x & <- & _). apply lower_char_idem. }
    assert (J : is_in (lit "since") t = true) by (apply is_in_iff, occurs_filter; [reflexivity|]; apply since_stays, is_in_iff; exact I).
    unfold tidy. cbv zeta. rewrite LT, J, filter_comma. change (lit "since:") with sc. rewrite replace_none; auto. apply filter_id. apply in_filter_comma.
  - set (f := fun c : ascii => if ascii_dec c "#" then "1"%char else c) in *. assert (J : is_in (lit "since") (lower (map f s)) = false).
    { apply not_true_iff_false. intros H. apply is_in_iff in H. assert (X : occurs (lit "since") (lower s)); [|apply is_in_iff in X; congruence].
      assert (G : forall s p r, lower (map f s) = p ++ r -> Forall (fun c => c <> "1"%char) p -> exists r', lower s = p ++ r').
      { clear. induction s as [|c s IH]; intros [|x p] r H F; cbn in H; [eexists; reflexivity|discriminate|eexists; reflexivity|]. injection H as H1 H2. apply Forall_cons_iff in F. destruct F as [F1 F2]. destruct (IH p r H2 F2) as (r' & R). exists r'. cbn. unfold lower in R. rewrite R. f_equal. unfold f in H1. destruct (ascii_dec c "#") as [->|]; [|exact H1]. exfalso. apply F1. rewrite <- H1. reflexivity. }
      destruct H as (a & b & H). clear - H G. revert a H. induction s as [|c s IH]; intros a H; [destruct a; discriminate|]. destruct a as [|x a].
      - cbn [app] in H. destruct (G (c :: s) (lit "since") b H) as (r' & R); [repeat constructor; discriminate|]. exists [], r'. exact R.
      - cbn in H. injection H as _ H. destruct (IH a H) as (a' & b' & R). exists (lower_char c :: a'), b'. cbn. unfold lower in R. rewrite R. reflexivity. }
    unfold tidy. cbv zeta. rewrite J. fold f. rewrite map_map. apply map_ext. intros c. unfold f. destruct (ascii_dec c "#") as [->|]; [reflexivity|]. destruct (ascii_dec c "#"); congruence.
Qed.
Theorem set_again_changes U : (forall s, U s = None) -> exists s t t', set_units U (UText s) = UText t /\ set_units U (UText t) = UText t' /\ t' <> t.
Proof. intros N. exists (lit "Days Since,: 2000"), (lit "days since: 2000"), (lit "days since 2000"). split; [cbn [set_units]; rewrite N; f_equal; vm_compute; reflexivity|]. split; [cbn [set_units]; rewrite N; f_equal; vm_compute; reflexivity|]. vm_compute. discriminate. Qed.
(** ** equality *)
Lemma same_dim_iff a b : same_dim a b = true <-> a = b.
Proof. destruct a, b; cbn; [rewrite Nat.eqb_eq; split; congruence| | |]; split; congruence. Qed.
Lemma unit_eqb_iff a b : unit_eqb a b = true <-> same_unit a b.
Proof. unfold unit_eqb, same_unit. rewrite !andb_true_iff, same_dim_iff, !Qeq_bool_iff. tauto. Qed.
Lemma std_eq_iff a b : std_eq a b = true <-> a = b.
Proof. destruct a, b; cbn; [rewrite str_eqb_iff; split; congruence| | |]; split; congruence. Qed.
Theorem eq_true U a b : meta_eq U a b = Ok true <-> same_meta U a b.
Proof.
  unfold meta_eq, same_meta. destruct (str_eqb (m_name a) (m_name b)) eqn:E1; cbn [andb]; [|split; [discriminate|intros (H & _); rewrite <- str_eqb_iff in H; congruence]]. destruct (std_eq (m_std a) (m_std b)) eqn:E2; cbn [andb]; [|split; [discriminate|intros (_ & H & _); rewrite <- std_eq_iff in H; congruence]].
  destruct (str_eqb (m_long a) (m_long b)) eqn:E3; [|split; [discriminate|intros (_ & _ & H & _); rewrite <- str_eqb_iff in H; congruence]]. apply str_eqb_iff in E1, E3. apply std_eq_iff in E2.
  assert (X : units_eq U (m_units a) (m_units b) = Ok true <-> same_units U (m_units a) (m_units b)); [|rewrite X; tauto].
  assert (Y : forall u s, match U s with Some b => Ok (unit_eqb u b) | None => Raises ValueError end = Ok true <-> exists b, U s = Some b /\ same_unit u b).
  { intros u s. destruct (U s) as [v|]; [|split; [discriminate|intros (v & [=] & _)]]. rewrite <- (unit_eqb_iff u v) || idtac. split; [intros [= H]; exists v; split; auto; apply unit_eqb_iff; auto|]. intros (w & [= <-] & H). apply unit_eqb_iff in H. congruence. }
  destruct (m_units a) as [u|s], (m_units b) as [v|t]; cbn [units_eq same_units]; [|apply Y|apply Y|].
  - rewrite <- unit_eqb_iff. split; congruence.
  - rewrite <- str_eqb_iff. split; congruence.
Qed.
Theorem eq_total_partial U a b : (forall s, (m_units a = UText s \/ m_units b = UText s) -> (exists t, m_units a = UText t) /\ (exists t, m_units b = UText t)) -> exists r, meta_eq U a b = Ok r.
Proof.
  intros H. unfold meta_eq. destruct (_ && _ && _); [|eauto]. unfold units_eq. destruct (m_units a) as [u|s], (m_units b) as [v|t]; eauto; exfalso.
  - destruct (H t (or_intror eq_refl)) as ((x & X) & _). discriminate.
  - destruct (H s (or_introl eq_refl)) as (_ & (x & X)). discriminate.
Qed.
Theorem eq_raises U u t : U t = None -> exists a b, m_units a = UText t /\ m_units b = UUnit u /\ meta_eq U a b = Raises ValueError.
Proof. intros N. exists (mkMeta [] None [] (UText t) NoRange []), (mkMeta [] None [] (UUnit u) NoRange []). split; auto. split; auto. cbn. rewrite N. reflexivity. Qed.
