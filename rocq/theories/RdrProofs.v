(** Proofs for C62. *)
From Verif Require Import Base PyStr UngrModel UngrSpec UngrProofs FileListModel ParseModel ParseSpec ParseProofs Parse2Proofs RdrModel RdrSpec.
From Coq Require Import List.
Import ListNotations.
Open Scope nat_scope.

Lemma has_wildcard_pattern v : has_wildcard v = true <-> pattern v.
Proof. unfold has_wildcard, pattern. rewrite !orb_true_iff, !has_char_true. tauto. Qed.

Lemma stands_for_fun r fs p v a b : stands_for r fs p v a -> stands_for r fs p v b -> a = b.
Proof. intros [[N ->]|(P & all & E & ->)] [[N' ->]|(P' & all' & E' & ->)]; try tauto. rewrite E in E'. injection E' as <-. reflexivity. Qed.

Lemma expand_each_ok r fs p vs : forall ns, expand_each r fs p vs = Ok ns <-> exists nss, Forall2 (stands_for r fs p) vs nss /\ ns = concat nss.
Proof.
  induction vs as [|v vs IH]; intros ns; cbn [expand_each].
  - split; [intros E; injection E as <-; exists []; split; constructor|]. intros (nss & F & ->). inversion F. reflexivity.
  - assert (H : forall here, (if has_wildcard v then match r_get_vars r fs p with Ok file_variables => Ok (filter (fun n => r_fnmatch r n v) file_variables) | Raises e => Raises e end else Ok [v]) = Ok here <-> stands_for r fs p v here).
    { intros here. unfold stands_for. destruct (has_wildcard v) eqn:W.
      - apply has_wildcard_pattern in W. destruct (r_get_vars r fs p) as [all|e].
        + split; [intros E; injection E as <-; right; split; auto; exists all; auto|]. intros [[N _]|(_ & all' & E & ->)]; [tauto|]. injection E as <-. reflexivity.
        + split; [discriminate|]. intros [[N _]|(_ & all' & E & _)]; [tauto|discriminate].
      - assert (N : ~ pattern v) by (rewrite <- has_wildcard_pattern; congruence). split; [intros E; injection E as <-; left; auto|]. intros [[_ ->]|(P & _)]; [reflexivity|tauto]. }
    set (hd := if has_wildcard v then _ else _) in *. clearbody hd. split.
    + destruct hd as [here|e]; [|discriminate]. destruct (expand_each r fs p vs) as [more|e]; [|discriminate]. intros E. injection E as <-.
      destruct (proj1 (IH more) eq_refl) as (nss & F & ->). exists (here :: nss). split; [constructor; auto; apply H; reflexivity|reflexivity].
    + intros (nss & F & ->). inversion F as [|v' h vs' ns' S F']; subst. apply H in S. rewrite S.
      rewrite (proj2 (IH (concat ns'))); [reflexivity|]. exists ns'. auto.
Qed.

Lemma expand_ok r vs fs p ns : expand_wildcards r vs fs p = Ok ns <-> ns <> [] /\ exists nss, Forall2 (stands_for r fs p) vs nss /\ ns = concat nss.
Proof.
  unfold expand_wildcards. rewrite <- expand_each_ok. destruct (expand_each r fs p vs) as [[|n l]|e]; split; try discriminate.
  - intros [N E]. injection E as <-. tauto.
  - intros E. injection E as <-. split; [discriminate|reflexivity].
  - intros [_ E]. injection E as <-. reflexivity.
  - intros [_ E]. discriminate.
Qed.
Lemma expand_empty r vs fs p nss : Forall2 (stands_for r fs p) vs nss -> concat nss = [] -> expand_wildcards r vs fs p = Raises ValueError.
Proof.
  intros F E. unfold expand_wildcards. rewrite (proj2 (expand_each_ok r fs p vs [])); [reflexivity|]. exists nss. auto.
Qed.

(** what one turn gives *)
Definition the_object (r : reader) fs p (als : option (list str)) i n (o : dobj) : Prop :=
  exists raw, r_get_data r fs n p = Ok raw /\
  o = match als with None => set_files fs raw | Some l => set_alias (nth i l []) (set_files fs raw) end /\ match als with Some l => i < length l | None => True end.
Lemma obj_append_ok g l x l' : obj_append g l x = Ok l' -> l' = l ++ [x].
Proof. unfold obj_append. destruct (list_append _ _ _); congruence. Qed.

Lemma read_loop_ok r fs p als ns : forall i dl out, read_loop r fs p als i ns dl = Ok out ->
  match out with
  | None => dl = None /\ ns = []
  | Some (g, l) => exists new, l = match dl with Some (_, l0) => l0 | None => [] end ++ new /\ length new = length ns /\
      forall j n o, nth_error ns j = Some n -> nth_error new j = Some o -> the_object r fs p als (i + j) n o
  end.
Proof.
  induction ns as [|n ns IH]; intros i dl out; cbn [read_loop].
  - intros E. injection E as <-. destruct dl as [[g l]|]; auto. exists []. rewrite app_nil_r. repeat split; auto. intros [|j] n o H; discriminate H.
  - destruct (r_get_data r fs n p) as [raw|e] eqn:G; [|discriminate].
    destruct (match als with None => Ok (set_files fs raw) | Some l => match nth_error l i with Some a => Ok (set_alias a (set_files fs raw)) | None => Raises ValueError end end) as [vd|e] eqn:V; [|discriminate].
    assert (O : the_object r fs p als i n vd).
    { exists raw. split; auto. destruct als as [l|]; [|injection V as <-; auto]. destruct (nth_error l i) as [a|] eqn:A; [|discriminate]. injection V as <-.
      split; [rewrite (nth_error_nth _ _ _ A); reflexivity|]. apply nth_error_Some. congruence. }
    cbv zeta. destruct (obj_append _ _ vd) as [l|e] eqn:A; [|discriminate]. apply obj_append_ok in A. intros E. apply IH in E.
    destruct out as [[g l']|]; [|destruct E; discriminate]. destruct E as (new & -> & L & H). exists (vd :: new).
    split; [|split; [cbn; lia|]].
    + rewrite A. destruct dl as [[g0 l0]|]; cbn; rewrite <- ?app_assoc; reflexivity.
    + intros [|j] n' o' N' O'; cbn in N', O'.
      * injection N' as <-. injection O' as <-. rewrite Nat.add_0_r. exact O.
      * replace (i + S j) with (S i + j) by lia. apply H; auto.
Qed.

Lemma forall2_nth {A B} (R : A -> B -> Prop) l1 l2 : length l2 = length l1 -> (forall j a b, nth_error l1 j = Some a -> nth_error l2 j = Some b -> R a b) -> Forall2 R l1 l2.
Proof.
  revert l2. induction l1 as [|a l1 IH]; intros [|b l2] L H; try discriminate; constructor.
  - apply (H 0); reflexivity.
  - apply IH; [cbn in L; lia|]. intros j x y X Y. apply (H (S j)); auto.
Qed.

Lemma the_object_variable r fs p als i n o : the_object r fs p als i n o -> is_variable r fs p n o.
Proof. intros (raw & G & -> & _). split; [destruct als; reflexivity|]. exists raw. split; auto. destruct als; repeat split; reflexivity. Qed.

Theorem read_list_ok : forall r files vars product aliases l, read_data_list r files vars product aliases = Ok l ->
  exists nss, Forall2 (stands_for r files product) vars nss /\ l <> [] /\ Forall2 (is_variable r files product) (concat nss) l /\
  forall i n o, nth_error (concat nss) i = Some n -> nth_error l i = Some o -> alias_at aliases r files product i n o.
Proof.
  intros r fs vs p aliases l. unfold read_data_list. destruct (expand_wildcards r vs fs p) as [ns|e] eqn:E; [|discriminate].
  apply expand_ok in E. destruct E as (NN & nss & F & ->). cbv zeta.
  set (als := match aliases with Some [] => None | _ => aliases end). destruct (read_loop _ _ _ als 0 _ None) as [[[g l']|]|e] eqn:R; try discriminate.
  intros E. cbn in E. injection E as <-. apply read_loop_ok in R. cbn in R. destruct R as (new & -> & L & H). exists nss.
  split; auto. split; [|split].
  - cbn. destruct (concat nss); [congruence|]. destruct new; [discriminate|discriminate].
  - apply forall2_nth; auto. intros j n o N O. eapply the_object_variable. eapply H; eauto.
  - intros i n o N O. destruct (H i n o N O) as (raw & G & Eo & Li). unfold alias_at, als in *. destruct aliases as [[|a al]|].
    + intros raw' G'. rewrite G in G'. injection G' as <-. subst o. reflexivity.
    + subst o. cbn [alias_of o_alias set_alias plus]. apply nth_error_nth'. exact Li.
    + intros raw' G'. rewrite G in G'. injection G' as <-. subst o. reflexivity.
Qed.

Lemma append_same g sh l x : Forall (fun o => o_item o = mkItem g sh) l -> o_item x = mkItem g sh -> obj_append g l x = Ok (l ++ [x]).
Proof.
  intros F X. unfold obj_append, list_append. rewrite X. cbn [i_gridded i_shapes]. rewrite eqb_reflx. cbn [negb].
  destruct F as [|o l Ho F]; [reflexivity|]. cbn [map]. rewrite Ho. cbn [i_shapes]. rewrite Nat.eqb_refl. cbn [negb].
  assert (Z : existsb (fun ab : list nat * list nat => zip_differ (fst ab) (snd ab)) (combine sh sh) = false).
  { clear. induction sh as [|s sh IH]; cbn; auto. rewrite IH, orb_false_r. unfold zip_differ. induction s as [|k s IHs]; cbn; auto. rewrite Nat.eqb_refl. exact IHs. }
  rewrite Z. reflexivity.
Qed.

Lemma read_loop_total r fs p als g sh ns : forall i dl,
  (forall n, In n ns -> exists raw, r_get_data r fs n p = Ok raw /\ o_item raw = mkItem g sh) ->
  match dl with Some (g0, l0) => g0 = g /\ Forall (fun o => o_item o = mkItem g sh) l0 | None => True end ->
  (match als with Some l => i + length ns <= length l | None => True end -> exists out, read_loop r fs p als i ns dl = Ok out) /\
  (match als with Some l => i <= length l /\ length l < i + length ns | None => False end -> read_loop r fs p als i ns dl = Raises ValueError).
Proof.
  induction ns as [|n ns IH]; intros i dl G D; cbn [read_loop length].
  - split; [intros _; eexists; reflexivity|]. destruct als; [lia|tauto].
  - destruct (G n) as (raw & Gn & In_); [left; auto|]. rewrite Gn. destruct als as [l|].
    + destruct (nth_error l i) as [a|] eqn:A.
      * cbv zeta.
        set (x := set_alias a (set_files fs raw)). assert (X : o_item x = mkItem g sh) by exact In_.
        set (gl := match dl with Some gl => gl | None => (i_gridded (o_item x), []) end).
        assert (GL : fst gl = g /\ Forall (fun o => o_item o = mkItem g sh) (snd gl)).
        { unfold gl. destruct dl as [[g0 l0]|]; [exact D|]. rewrite X. cbn. auto. }
        destruct GL as [G1 G2]. rewrite G1. rewrite (append_same g sh); auto.
        assert (D' : g = g /\ Forall (fun o => o_item o = mkItem g sh) (snd gl ++ [x])). { split; auto. apply Forall_app. auto. }
        destruct (IH (S i) (Some (g, snd gl ++ [x]))) as [I1 I2]; [intros m Hm; apply G; right; auto|exact D'|]. split; intros H; [apply I1|apply I2]; try lia.
        assert (i < length l) by (apply nth_error_Some; congruence). lia.
      * apply nth_error_None in A. split; [lia|reflexivity].
    + cbv zeta.
      set (x := set_files fs raw). assert (X : o_item x = mkItem g sh) by exact In_.
      set (gl := match dl with Some gl => gl | None => (i_gridded (o_item x), []) end).
      assert (GL : fst gl = g /\ Forall (fun o => o_item o = mkItem g sh) (snd gl)).
      { unfold gl. destruct dl as [[g0 l0]|]; [exact D|]. rewrite X. cbn. auto. }
      destruct GL as [G1 G2]. rewrite G1. rewrite (append_same g sh); auto.
      assert (D' : g = g /\ Forall (fun o => o_item o = mkItem g sh) (snd gl ++ [x])). { split; auto. apply Forall_app. auto. }
      destruct (IH (S i) (Some (g, snd gl ++ [x]))) as [I1 I2]; [intros m Hm; apply G; right; auto|exact D'|]. split; [auto|tauto].
Qed.

Theorem read_list_total : forall r files vars product aliases nss g sh,
  Forall2 (stands_for r files product) vars nss ->
  (forall n, In n (concat nss) -> exists raw, r_get_data r files n product = Ok raw /\ o_item raw = mkItem g sh) ->
  (concat nss = [] -> read_data_list r files vars product aliases = Raises ValueError) /\
  (concat nss <> [] -> match aliases with Some als => als = [] \/ length (concat nss) <= length als | None => True end -> exists l, read_data_list r files vars product aliases = Ok l) /\
  (forall als, aliases = Some als -> als <> [] -> length als < length (concat nss) -> read_data_list r files vars product aliases = Raises ValueError).
Proof.
  intros r fs vs p aliases nss g sh F G. split; [|].
  - intros E. unfold read_data_list. rewrite (expand_empty r vs fs p nss F E). reflexivity.
  - split.
    + intros NN A. unfold read_data_list. cbv zeta. rewrite (proj2 (expand_ok r vs fs p (concat nss))) by (split; auto; exists nss; auto).
      set (als := match aliases with Some [] => None | _ => aliases end).
      destruct (read_loop_total r fs p als g sh (concat nss) 0 None G I) as [T _].
      destruct T as (out & Eo); [unfold als; destruct aliases as [[|a l]|]; auto; destruct A as [A|A]; [discriminate|lia]|]. rewrite Eo.
      destruct out as [[g' l]|]; [eexists; reflexivity|]. apply read_loop_ok in Eo. destruct Eo as [_ Eo]. congruence.
    + intros als -> NA L. unfold read_data_list. cbv zeta. assert (NN : concat nss <> []) by (intros E; rewrite E in L; cbn in L; lia).
      rewrite (proj2 (expand_ok r vs fs p (concat nss))) by (split; auto; exists nss; auto).
      destruct als as [|a al]; [congruence|]. destruct (read_loop_total r fs p (Some (a :: al)) g sh (concat nss) 0 None G I) as [_ T]. rewrite T; [reflexivity|]. cbn in *. lia.
Qed.

Lemma f2_length {A B} (R : A -> B -> Prop) l1 l2 : Forall2 R l1 l2 -> length l2 = length l1.
Proof. induction 1; cbn; congruence. Qed.
Lemma plain_concat r fs p vs : forall nss, Forall (fun v => ~ pattern v) vs -> Forall2 (stands_for r fs p) vs nss -> concat nss = vs.
Proof.
  induction vs as [|v vs IH]; intros nss N F; inversion F; subst; auto. inversion N; subst. cbn. rewrite IH by auto.
  match goal with H : stands_for _ _ _ v _ |- _ => destruct H as [[_ ->]|[P _]]; [reflexivity|tauto] end.
Qed.

Theorem read_plain : forall r files vars product als l, Forall (fun v => ~ pattern v) vars -> length als = length vars ->
  read_data_list r files vars product (Some als) = Ok l -> length l = length vars /\
  forall i v a o, nth_error vars i = Some v -> nth_error als i = Some a -> nth_error l i = Some o -> is_variable r files product v o /\ alias_of o = a.
Proof.
  intros r fs vs p als l N L E. destruct (read_list_ok _ _ _ _ _ _ E) as (nss & F & NN & V & A). rewrite (plain_concat r fs p vs nss N F) in *.
  split; [eapply f2_length; eauto|]. intros i v a o Hv Ha Ho. split.
  - clear -V Hv Ho. revert i Hv Ho. induction V as [|n x ns xs H V IH]; intros [|i] Hv Ho; try discriminate; cbn in *; [congruence|eauto].
  - specialize (A i v o Hv Ho). destruct als as [|a0 al]; [destruct i; discriminate|]. cbn [alias_at] in A. congruence.
Qed.

(** ** From the specifications on the command line to the data *)
Lemma names_plain spec v a : names_variable spec v a -> ~ pattern spec -> ~ pattern v.
Proof. intros (_ & _ & _ & _ & [[-> _]| ->]) N P; apply N; auto. unfold pattern in *. rewrite !in_app_iff. tauto. Qed.

Lemma alias_groups_spec groups : forall r, alias_groups groups = Ok r -> Forall2 (fun g va => alias_vars g = Ok va) groups r.
Proof.
  induction groups as [|g gs IH]; intros r E; cbn [alias_groups] in E; [injection E as <-; constructor|].
  destruct (alias_vars g) as [va|] eqn:A; [|discriminate]. destruct (alias_groups gs) as [r'|]; [|discriminate]. injection E as <-. constructor; auto.
Qed.

Lemma nth_error_none_ge {A} (l : list A) i : nth_error l i = None -> length l <= i.
Proof. apply nth_error_None. Qed.
Lemma read_group_aliases r files product vars als l : Forall (fun v => ~ pattern v) vars -> length als = length vars ->
  read_data_list r files vars product (Some als) = Ok l -> map alias_of l = als.
Proof.
  intros N L E. destruct (read_plain _ _ _ _ _ _ N L E) as [LL H]. apply nth_ext with (d := []) (d' := []); rewrite map_length; [congruence|].
  intros i Hi. assert (Hv : exists v, nth_error vars i = Some v). { destruct (nth_error vars i) eqn:X; eauto. apply nth_error_None in X. lia. } destruct Hv as [v Hv].
  assert (Ha : exists a, nth_error als i = Some a). { destruct (nth_error als i) eqn:X; eauto. apply nth_error_None in X. lia. } destruct Ha as [a Ha].
  assert (Ho : exists o, nth_error l i = Some o). { destruct (nth_error l i) eqn:X; eauto. apply nth_error_None in X. lia. } destruct Ho as [o Ho].
  destruct (H i v a o Hv Ha Ho) as [_ X]. rewrite (nth_error_nth _ _ _ Ha). apply nth_error_nth. rewrite nth_error_map, Ho. cbn. congruence.
Qed.
Lemma read_group_specs r files product specs vars als l : alias_vars specs = Ok (vars, als) -> Forall (fun v => ~ pattern v) specs ->
  read_data_list r files vars product (Some als) = Ok l -> map alias_of l = als /\ Forall2 (spec_object r files product) specs l.
Proof.
  intros A N E. pose proof (alias_vars_ok specs) as V. rewrite A in V. destruct V as (L1 & L2 & V).
  assert (NV : Forall (fun v => ~ pattern v) vars).
  { apply Forall_forall. intros v Hv. apply In_nth_error in Hv. destruct Hv as [j Hj]. assert (Hs : exists s, nth_error specs j = Some s).
    { destruct (nth_error specs j) eqn:X; eauto. apply nth_error_None in X. apply nth_error_Some_ex in Hj || (assert (j < length vars) by (apply nth_error_Some; congruence); lia). }
    destruct Hs as [s Hs]. destruct (V j s Hs) as (v' & a' & Hv' & _ & NM). rewrite Hj in Hv'. injection Hv' as <-. eapply names_plain; eauto.
    rewrite Forall_forall in N. apply N. eapply nth_error_In; eauto. }
  assert (LL : length als = length vars) by congruence. split; [eapply read_group_aliases; eauto|].
  destruct (read_plain _ _ _ _ _ _ NV LL E) as [L H]. apply forall2_nth; [congruence|]. intros j s o Hs Ho. destruct (V j s Hs) as (v & a & Hv & Ha & NM).
  destruct (H j v a o Hv Ha Ho). exists v, a. auto.
Qed.

Theorem read_specs : forall r gs gs' l, with_aliases gs = Ok gs' -> Forall (fun g => Forall (fun s => ~ pattern s) (g_vars g)) gs -> read_datagroups r gs' = Ok l ->
  NoDup (map alias_of l) /\ exists ls, l = concat ls /\ Forall2 (fun g lg => Forall2 (spec_object r (g_files g) (g_product g)) (g_vars g) lg) gs ls.
Proof.
  intros r gs gs' l. unfold with_aliases. destruct (set_aliases (map g_vars gs)) as [va|] eqn:S; [|discriminate]. intros E. injection E as <-. intros N.
  pose proof (set_aliases_ok (map g_vars gs)) as D. rewrite S in D. destruct D as (_ & _ & D).
  unfold set_aliases in S. destruct (alias_groups (map g_vars gs)) as [va'|] eqn:AG; [|discriminate]. destruct (all_unique _); [|discriminate]. injection S as ->.
  apply alias_groups_spec in AG. intros R.
  enough (K : map alias_of l = flat_map snd va /\ exists ls, l = concat ls /\ Forall2 (fun g lg => Forall2 (spec_object r (g_files g) (g_product g)) (g_vars g) lg) gs ls).
  { destruct K as [-> K]. auto. }
  clear D. revert va AG l R. induction gs as [|g gs IH]; intros va AG l R; cbn [map] in AG; inversion AG as [|x y lx ly Hxy AG' e1 e2]; subst.
  - cbn in R. injection R as <-. split; [reflexivity|]. exists []. split; constructor.
  - destruct y as [vars als]. cbn [combine map read_datagroups fst snd read_single_datagroup] in R. unfold read_single_datagroup in R. cbn [g_files g_vars g_product g_aliases] in R.
    destruct (read_data_list r (g_files g) vars (g_product g) (Some als)) as [lg|] eqn:RG; [|discriminate].
    destruct (read_datagroups _ _) as [more|] eqn:RM; [|discriminate]. injection R as <-. inversion N as [|? ? Ng Ns]; subst.
    destruct (read_group_specs _ _ _ _ _ _ _ Hxy Ng RG) as [A1 A2]. destruct (IH Ns ly AG' more RM) as [B1 (ls & -> & B2)].
    split; [cbn [flat_map snd]; rewrite map_app; congruence|]. exists (lg :: ls). split; [reflexivity|constructor; auto].
Qed.

Lemma read_data_one r files v product o : read_data r files v product = Ok o -> ~ pattern v -> is_variable r files product v o.
Proof.
  unfold read_data. destruct (read_data_list r files [v] product None) as [l|] eqn:E; [|discriminate]. intros H N.
  destruct (read_list_ok _ _ _ _ _ _ E) as (nss & F & NN & V & _). rewrite (plain_concat r files product [v] nss) in V by (auto; constructor; auto).
  inversion V as [|? ? ? ? H1 H2]; subst. inversion H2; subst. cbn in H. congruence.
Qed.

Lemma read_data_only : forall r files v product o, read_data r files v product = Ok o -> exists n, stands_for r files product v [n] /\ is_variable r files product n o.
Proof.
  intros r files v product o. unfold read_data. destruct (read_data_list r files [v] product None) as [l|] eqn:E; [|discriminate]. destruct (read_list_ok _ _ _ _ _ _ E) as (nss & S & NE & F & _).
  inversion S as [|? ns ? ? S1 S2]; subst. inversion S2; subst. cbn [concat] in F. rewrite app_nil_r in F. destruct (1 <? length l) eqn:L; [discriminate|]. apply Nat.ltb_ge in L. destruct l as [|a [|b l]]; [discriminate| |cbn in L; lia]. intros [= <-].
  inversion F as [|n ? ns' ? I F']; subst. inversion F'; subst. exists n. auto.
Qed.
