From Coq Require Import String.
From Verif Require AeroProofs.
From Verif Require Import Base PyStr QBase FileListModel FileListProofs ParseModel ParseSpec ParseProofs Parse2Proofs DateModel ArgsModel TopModel TopSpec.
From Coq Require Import List Ascii Lia.
Import ListNotations.
Open Scope string_scope. Open Scope list_scope. Open Scope nat_scope. Notation length := List.length.

Lemma existsb_str x l : existsb (str_eqb x) l = true <-> In x l.
Proof. rewrite existsb_exists. split; [intros (y & I & E); apply str_eqb_eq in E; now subst|intros I; exists x; split; auto; apply str_eqb_refl]. Qed.
Lemma existsb_str_false x l : existsb (str_eqb x) l = false <-> ~ In x l.
Proof. rewrite <- existsb_str. destruct (existsb _ l); split; congruence. Qed.

(** *** commands *)
Theorem commands_ok c r : dispatch (Some c) = Ok r <-> exists x, r = (x, x) /\ invokes c x.
Proof.
  split.
  - unfold dispatch. destruct (existsb (str_eqb c) parser_names) eqn:E; [|discriminate]. apply existsb_str in E. unfold parser_names in E. cbn [In] in E.
    decompose [or] E; subst; try contradiction; intros [= <-]; eexists; (split; [reflexivity|constructor]).
  - intros (x & -> & I). destruct I; reflexivity.
Qed.
Theorem other_command c : (forall x, ~ invokes c x) -> dispatch (Some c) = Raises ParserError.
Proof.
  intros N. unfold dispatch. destruct (existsb (str_eqb c) parser_names) eqn:E; [|reflexivity]. exfalso. apply existsb_str in E. unfold parser_names in E. cbn [In] in E.
  decompose [or] E; subst; try contradiction; eapply N; constructor.
Qed.
(** *** levels *)
Lemma count_v n f : length (filter is_v (repeat Verbose n ++ f)) = n + length (filter is_v f).
Proof. induction n; cbn; auto. Qed.
Lemma repeat_v n : read_flags (repeat Verbose n) = Ok (mkGlobals false (match n with 0 => None | _ => Some n end) false).
Proof.
  unfold read_flags. assert (Q : existsb is_q (repeat Verbose n) = false) by (induction n; auto). assert (F : existsb is_f (repeat Verbose n) = false) by (induction n; auto). rewrite Q, F.
  pose proof (count_v n []) as C. rewrite app_nil_r, Nat.add_0_r in C. rewrite C. cbn [andb]. destruct n; reflexivity.
Qed.
Lemma not_version c r : invokes c r -> r <> Version -> str_eqb c (lit "version") = false.
Proof. intros I N. destruct I; try reflexivity. congruence. Qed.
Theorem levels_ok c r n : invokes c r -> r <> Version -> n <= 2 -> exists g, parse_globals [] (Some c) (repeat Verbose n) = Ok g /\ screen_level g = asked_level n /\ g_force g = false.
Proof. intros I V N. unfold parse_globals. cbn [bind read_flags existsb andb]. change (read_flags []) with (Ok (mkGlobals false None false)). cbn [bind]. rewrite (not_version c r I V), repeat_v. eexists. split; [reflexivity|]. destruct n as [|[|[|]]]; try lia; split; reflexivity. Qed.
Theorem quiet_ok c r : invokes c r -> r <> Version -> exists g, parse_globals [] (Some c) [Quiet] = Ok g /\ screen_level g = ERROR.
Proof. intros I V. unfold parse_globals. change (read_flags []) with (Ok (mkGlobals false None false)). cbn [bind]. rewrite (not_version c r I V). eexists. split; reflexivity. Qed.
Theorem thrice_refuted c r n : invokes c r -> r <> Version -> 2 < n -> exists g, parse_globals [] (Some c) (repeat Verbose n) = Ok g /\ screen_level g = WARNING.
Proof. intros I V N. unfold parse_globals. change (read_flags []) with (Ok (mkGlobals false None false)). cbn [bind]. rewrite (not_version c r I V), repeat_v. eexists. split; [reflexivity|]. destruct n as [|[|[|]]]; try lia; reflexivity. Qed.
Theorem before_refuted c r before g : invokes c r -> r <> Version -> read_flags before = Ok g -> parse_globals before (Some c) [] = Ok (mkGlobals false None false).
Proof. intros I V E. unfold parse_globals. rewrite E. cbn [bind]. now rewrite (not_version c r I V). Qed.
Theorem after_force c r after g : invokes c r -> r <> Version -> parse_globals [] (Some c) after = Ok g -> (g_force g = true <-> In Force after) /\ (g_quiet g = true <-> In Quiet after).
Proof.
  intros I V. unfold parse_globals. change (read_flags []) with (Ok (mkGlobals false None false)). cbn [bind]. rewrite (not_version c r I V). unfold read_flags. destruct (_ && _); [discriminate|]. intros [= <-]. cbn [g_force g_quiet].
  rewrite !existsb_exists. split; (split; [intros (x & J & X); destruct x; try discriminate; auto|intros J; eexists; split; [exact J|reflexivity]]).
Qed.
(** *** checks *)
Definition check_of (w : world) (k : kind) : checker pval :=
  match k with KText => check_nothing | KNumber => check_float w | KInteger => check_int | KNumbers => check_floats w | KYesNo => check_bool | KColour => check_colour w | KProduct => check_product w | KPlot => check_type w end.
Lemma plot_table_eq w : plot_table w = (lit "variables", check_is_not_empty) :: (lit "filenames", check_files w) :: map (fun e => (lit (fst e), check_of w (snd e))) plot_keywords.
Proof. reflexivity. Qed.
Lemma check_made_eq w k kd : In (k, kd) plot_keywords -> check_made w k = Some (check_of w kd).
Proof. cbn [plot_keywords In]. intros I. decompose [or] I; try contradiction; match goal with H : _ = _ |- _ => injection H as <- <- end; reflexivity. Qed.
Lemma check_of_ok w kd s v : kd <> KNumbers -> (check_of w kd s = Ok v <-> reads_as w kd s v).
Proof.
  intros N. destruct kd; cbn [check_of]; try congruence; clear N.
  - split; [intros [= <-]; constructor|intros I; inversion I; reflexivity].
  - unfold check_float. destruct (str_eqb s (lit "None")) eqn:E.
    + apply str_eqb_eq in E. subst s. split; [intros [= <-]; constructor|]. intros I. remember (lit "None") as t. inversion I; subst; congruence.
    + assert (D : s <> lit "None") by (intros ->; rewrite str_eqb_refl in E; discriminate). destruct (w_number w s) as [q|] eqn:W.
      * split; [intros [= <-]; now constructor|intros I]. inversion I; subst; congruence.
      * split; [discriminate|intros I]. inversion I; subst; congruence.
  - destruct s as [|a s]; cbn [check_int]; [split; [intros [= <-]; constructor|intros I; inversion I; subst; congruence]|]. destruct (int_of (a :: s)) as [z|] eqn:E.
    + split; [intros [= <-]; constructor; congruence|intros I]. inversion I; subst; congruence.
    + split; [discriminate|intros I]. inversion I; subst; congruence.
  - unfold check_bool. destruct (str_eqb (lower s) (lit "true")) eqn:E.
    + apply str_eqb_eq in E. split; [intros [= <-]; now constructor|]. intros I; inversion I as [| | | | | |? H|? H| | | | |]; subst; auto. rewrite E in H. discriminate.
    + destruct (str_eqb (lower s) (lit "false")) eqn:F.
      * apply str_eqb_eq in F. split; [intros [= <-]; now constructor|]. intros I; inversion I as [| | | | | |? H|? H| | | | |]; subst; auto. rewrite H, str_eqb_refl in E. discriminate.
      * split; [discriminate|]. intros I. inversion I as [| | | | | |? H|? H| | | | |]; subst; rewrite H in *; rewrite ?str_eqb_refl in *; discriminate.
  - destruct s as [|a s]; cbn [check_colour]; [split; [intros [= <-]; constructor|intros I; inversion I; subst; congruence]|].
    destruct (existsb (str_eqb (lower (a :: s))) (w_colours w) || str_eqb (lower (a :: s)) (lit "grey")) eqn:E.
    + apply orb_true_iff in E. rewrite existsb_str, str_eqb_eq in E. split; [intros [= <-]; apply (as_colour w (a :: s)); [congruence|exact E]|intros I; inversion I; subst; reflexivity].
    + apply orb_false_iff in E. rewrite existsb_str_false in E. destruct E as [E1 E2]. split; [discriminate|]. intros I. inversion I as [| | | | | | | |? H [H'|H']| | | |]; subst; [contradiction|]. rewrite H', str_eqb_refl in E2. discriminate.
  - destruct s as [|a s]; cbn [check_product]; [split; [intros [= <-]; constructor|intros I; inversion I; subst; congruence]|]. destruct (existsb (str_eqb (a :: s)) (w_products w)) eqn:E.
    + apply existsb_str in E. split; [intros [= <-]; constructor; [congruence|auto]|intros I; inversion I; subst; reflexivity].
    + apply existsb_str_false in E. split; [discriminate|]. intros I. inversion I; subst; contradiction.
  - unfold check_type. destruct (existsb (str_eqb s) (w_plots w)) eqn:E.
    + apply existsb_str in E. split; [intros [= <-]; now constructor|intros I; inversion I; subst; reflexivity].
    + apply existsb_str_false in E. split; [discriminate|]. intros I. inversion I; subst; contradiction.
Qed.
Lemma check_of_err w kd s e : kd <> KNumbers -> check_of w kd s = Raises e -> e = ParserError.
Proof.
  intros N. destruct kd; cbn [check_of]; try congruence; unfold check_nothing, check_float, check_int, check_bool, check_colour, check_product, check_type;
  repeat match goal with |- context [if ?b then _ else _] => destruct b | |- context [match ?x with _ => _ end] => destruct x end; congruence.
Qed.
Lemma floats_map w words l : Forall2 (fun x q => w_number w x = Some q) words l -> map_res (float_of w) words = Ok l.
Proof. induction 1 as [|x q xs qs E F IH]; cbn [map_res]; auto. unfold float_of at 1. rewrite E. cbn [bind]. rewrite IH. reflexivity. Qed.
Lemma check_numbers w s v : reads_as w KNumbers s v -> check_of w KNumbers s = Ok v.
Proof.
  intros I. inversion I as [| | | | |words l N C F| | | | | | |]; subst. cbn [check_of]. unfold check_floats. cbn [tl]. rewrite removelast_last. rewrite (split_join "," words N C). rewrite (floats_map w words l F). reflexivity.
Qed.
Theorem checks_ok w k kd : In (k, kd) plot_keywords -> exists chk, check_made w k = Some chk /\
  (forall s v, reads_as w kd s v -> chk s = Ok v) /\ (kd <> KNumbers -> (forall s v, chk s = Ok v -> reads_as w kd s v) /\ forall s e, chk s = Raises e -> e = ParserError).
Proof.
  intros I. exists (check_of w kd). split; [now apply check_made_eq|]. split.
  - intros s v H. destruct kd eqn:E; try (apply check_of_ok; [discriminate|exact H]). now apply check_numbers.
  - intros N. split; [intros s v; now apply check_of_ok|intros s e; now apply check_of_err].
Qed.
Theorem levels_text_refuted w x : In x (lit "[]:7" : list ascii) -> w_number w (lit "10") = Some 10%Q -> exists chk, check_made w "contlevels" = Some chk /\ chk (x :: lit "10" ++ [x]) = Ok (PNumbers [10%Q]) /\
  (forall s, w_number w s = None -> ~ In ","%char s -> chk ("["%char :: s ++ ["]"%char]) = Raises ValueError).
Proof.
  intros _ W. exists (check_floats w). split; [reflexivity|]. split.
  - unfold check_floats. cbn [tl]. rewrite removelast_last. change (split_on "," (lit "10")) with [lit "10"]. cbn [map_res]. unfold float_of. rewrite W. reflexivity.
  - intros s N C. unfold check_floats. cbn [tl]. rewrite removelast_last. rewrite (split_nosep "," s C). cbn [map_res]. unfold float_of. rewrite N. reflexivity.
Qed.

(** *** a datagroup of plot *)
Lemma nodup_plot w : NoDup (map fst (plot_table w)).
Proof. rewrite plot_table_eq. cbn [map fst plot_keywords]. repeat (constructor; [cbn [In]; intros I; decompose [or] I; try contradiction; discriminate|]). constructor. Qed.
Lemma no_index w j nm chk s : nth_error (plot_table w) j = Some (nm, chk) -> chk s <> Raises IndexError.
Proof.
  rewrite plot_table_eq. destruct j as [|[|j]]; cbn [nth_error].
  - intros [= <- <-]. destruct s; discriminate.
  - intros [= <- <-]. unfold check_files. destruct (w_files w s); discriminate.
  - intros E. apply nth_error_In in E. apply in_map_iff in E. destruct E as ([k kd] & E & _). injection E as <- <-. cbn [snd]. assert (D : kd = KNumbers \/ kd <> KNumbers) by (destruct kd; auto; right; discriminate). destruct D as [->|D].
    + cbn [check_of]. unfold check_floats. generalize (split_on "," (removelast (tl s))). intros l.
      assert (H : forall l, map_res (float_of w) l <> Raises IndexError). { clear. induction l as [|x r IH]; cbn [map_res]; [discriminate|]. unfold float_of at 1. destruct (w_number w x); cbn [bind]; [|discriminate]. destruct (map_res (float_of w) r) eqn:M; cbn [bind]; [discriminate|]. exact IH. }
      specialize (H l). destruct (map_res (float_of w) l); cbn [bind]; [discriminate|]. intros X. injection X as ->. now apply H.
    + intros X. apply check_of_err in X; auto. discriminate.
Qed.
Lemma table_at w k kd : In (k, kd) plot_keywords -> exists i, 2 <= i /\ nth_error (plot_table w) i = Some (lit k, check_of w kd).
Proof.
  intros I. apply In_nth_error in I. destruct I as [i I]. exists (S (S i)). split; [lia|]. rewrite plot_table_eq. cbn [nth_error]. now rewrite (map_nth_error (fun e => (lit (fst e), check_of w (snd e))) _ _ I).
Qed.
Lemma three_words a b c : ~ ends_in_backslash a -> ~ ends_in_backslash b -> colon_words (join_on ":" (map escape [a; b; c])) = [a; b; c].
Proof. intros A B. apply colon_words_escape; [discriminate|]. intros x u v y E. destruct x as [|? [|? [|? [|]]]]; try discriminate; injection E; intros; subst; auto. Qed.
Theorem plot_group_ok w variables files fs opts (kws : list (string * str * pval)) :
  variables <> [] -> w_files w files = Some fs -> ~ ends_in_backslash variables -> ~ ends_in_backslash files ->
  NoDup (map (fun e => lit (key_of e)) kws) ->
  Forall2 (fun p (e : string * str * pval) => split_outside_brackets p "=" = [lit (key_of e); snd (fst e)]) (split_outside_brackets opts ",") kws ->
  Forall (fun e : string * str * pval => exists kd, In (key_of e, kd) plot_keywords /\ reads_as w kd (snd (fst e)) (snd e)) kws ->
  exists d, parse_one (plot_table w) 2 (join_on ":" (map escape [variables; files; opts])) = Ok d /\
    dict_get d (lit "variables") = Some (Checked (PText variables)) /\ dict_get d (lit "filenames") = Some (Checked (PFiles fs)) /\
    (forall e, In e kws -> dict_get d (lit (key_of e)) = Some (Checked (snd e))) /\
    (forall k, dict_get d k <> None -> k = lit "variables" \/ k = lit "filenames" \/ In k (map (fun e => lit (key_of e)) kws)).
Proof.
  intros NV F B1 B2 ND P R. set (input := join_on ":" _). pose proof (three_words variables files opts B1 B2 : colon_words input = _) as W.
  set (ps := split_outside_brackets opts ",") in *.
  assert (PO : pieces_of 2 input = ps) by (unfold pieces_of; rewrite W; reflexivity).
  set (full := combine ps (map (fun e => (lit (key_of e), snd e)) kws)).
  assert (Len : length ps = length kws) by (clear -P; induction P; cbn; auto).
  assert (FI : forall p k v, In (p, (k, v)) full -> exists e, In e kws /\ k = lit (key_of e) /\ v = snd e /\ split_outside_brackets p "=" = [lit (key_of e); snd (fst e)]).
  { unfold full. clear -P. induction P as [|p e ps kws E P IH]; [intros ? ? ? []|]. intros q k v [X|X].
    - injection X as <- <- <-. exists e. cbn. auto.
    - destruct (IH _ _ _ X) as (e' & I & ?). exists e'. split; [now right|auto]. }
  assert (FE : forall e, In e kws -> exists p, In (p, (lit (key_of e), snd e)) full).
  { unfold full. clear -P. induction P as [|p e ps kws E P IH]; [intros ? []|]. intros e' [<-|I]; [exists p; now left|]. destruct (IH _ I) as [p' J]. exists p'. now right. }
  rewrite Forall_forall in R.
  destruct (parse_one_complete (plot_table w) 2 input full) as (d & E & D).
  - apply nodup_plot.
  - rewrite plot_table_eq. cbn [length]. rewrite map_length. cbn. lia.
  - rewrite W. cbn. auto.
  - intros i nm chk x Hi. rewrite W, plot_table_eq. destruct i as [|[|i]]; [| |lia]; cbn [nth_error]; intros [= <- <-] [= <-].
    + destruct variables; [congruence|]. cbn. eauto.
    + unfold check_files. rewrite F. eauto.
  - rewrite PO. unfold full. clear -Len. rewrite <- (map_length (fun e => (lit (key_of e), snd e)) kws) in Len. revert Len. generalize (map (fun e => (lit (key_of e), snd e)) kws). induction ps as [|p r IH]; intros [|x l]; cbn; intros; try lia; auto. f_equal. apply IH. lia.
  - replace (map (fun x => fst (snd x)) full) with (map (fun e => lit (key_of e)) kws); auto. unfold full. clear -P. induction P; cbn; auto. f_equal. auto.
  - intros p k v I. destruct (FI _ _ _ I) as (e & J & -> & -> & Sp). destruct (R e J) as (kd & K & Rd). destruct (table_at w _ _ K) as (i & Hi & Ni). exists i, (check_of w kd), (snd (fst e)). do 2 (split; [auto|]). split; [exists []; auto|].
    destruct kd eqn:Ek; try (apply check_of_ok; [discriminate|exact Rd]). now apply check_numbers.
  - exists d. split; [exact E|]. destruct (parse_one_ok (plot_table w) 2 input d (nodup_plot w)) as (_ & C & O & K & _); auto.
    { rewrite plot_table_eq. cbn. lia. } { intros. eapply no_index; eauto. }
    split; [|split; [|split]].
    + destruct (C 0 (lit "variables") check_is_not_empty) as (x & v & X & V & G); [lia|reflexivity|]. rewrite W in X. injection X as <-. destruct variables; [congruence|]. cbn in V. injection V as <-. exact G.
    + destruct (C 1 (lit "filenames") (check_files w)) as (x & v & X & V & G); [lia|reflexivity|]. rewrite W in X. injection X as <-. unfold check_files in V. rewrite F in V. injection V as <-. exact G.
    + intros e I. destruct (FE e I) as [p J]. eauto.
    + intros k NN. destruct (dict_get d k) as [st|] eqn:G; [clear NN|congruence]. pose proof (K k st G) as I. rewrite plot_table_eq in I. cbn [map fst] in I. destruct I as [<-|[<-|I]]; auto. right. right.
      rewrite map_map in I. apply in_map_iff in I. destruct I as ([k0 kd] & <- & I). cbn [fst] in *. destruct (table_at w _ _ I) as (i & Hi & Ni). destruct (O i _ _ st Hi Ni G) as [(v & -> & p & Hp & Gv)|(x & _ & L)].
      * rewrite PO in Hp. destruct Gv as (x & rest & Sp & _). assert (X : exists e, In e kws /\ split_outside_brackets p "=" = [lit (key_of e); snd (fst e)]).
        { clear -P Hp. induction P as [|q e ps kws Eq P IH]; [destruct Hp|]. destruct Hp as [<-|Hp]; [exists e; cbn; auto|]. destruct (IH Hp) as (e' & J & ?). exists e'. cbn. auto. }
        destruct X as (e & J & Sp'). rewrite Sp' in Sp. apply in_map_iff. exists e. split; auto. congruence.
      * rewrite plot_table_eq in L. cbn in L. lia.
Qed.

(** *** outputs *)
Lemma with_output_ok {A} env force ext output inputs (a a' : A) v out : with_output env force ext output inputs a = Runs (a', (v, out)) -> a' = a /\ may_write env force inputs out /\ exists o, output = Some o /\ validate_output_file env force ext o inputs = Proceed v out.
Proof.
  unfold with_output. destruct output as [o|]; [|discriminate]. destruct (validate_output_file env force ext o inputs) as [v' out'| |] eqn:E; try discriminate. intros [= <- <- <-]. split; auto. split; [|eauto].
  destruct (validate_output_ok _ _ _ _ _ _ _ E) as (C & I & _). split; auto.
Qed.
Lemma files_in gs f : In f (flat_map files_of gs) <-> reads_file gs f.
Proof.
  rewrite in_flat_map. unfold reads_file, files_of. split.
  - intros (d & I & J). destruct (dict_get d (lit "filenames")) as [[[]|s|]|] eqn:E; try destruct J. all: exists d; eexists; split; [exact I|]; split; [exact E|auto]. 
  - intros (d & l & I & E & J). exists d. split; auto. now rewrite E.
Qed.
Lemma over env force gs out : may_write env force (flat_map files_of gs) out -> may_write_over env force gs out.
Proof. intros M. exists (flat_map files_of gs). split; auto. intros f. apply files_in. Qed.
Section Outputs.
Variable w : world. Variable env : environment. Variable force : bool.
Lemma within_runs {A B} (x : res A) (k : A -> verdict B) b : within x k = Runs b -> exists a, x = Ok a /\ k a = Runs b.
Proof. destruct x; cbn; [eauto|discriminate]. Qed.
Theorem subset_runs E groups ranges output gs l v out : validate_subset w env force E groups ranges output = Runs ((gs, l), (v, out)) ->
  groups_by (basic_table w) 2 groups = Ok gs /\ get_subset_limits E ranges = Ok l /\ may_write_over env force gs out.
Proof.
  intros H. apply within_runs in H. destruct H as (gs' & G & H). apply within_runs in H. destruct H as (l' & L & H). apply with_output_ok in H. destruct H as (X & M & _). injection X as <- <-. split; auto. split; auto. now apply over.
Qed.
Theorem aggregate_runs E groups text output gs g v out : validate_aggregate w env force E groups text output = Runs ((gs, g), (v, out)) ->
  groups_by (aggregate_table w) 2 groups = Ok gs /\ get_aggregate_grid E text = Ok g /\ may_write_over env force gs out.
Proof.
  intros H. apply within_runs in H. destruct H as (gs' & G & H). apply within_runs in H. destruct H as (l' & L & H). apply with_output_ok in H. destruct H as (X & M & _). injection X as <- <-. split; auto. split; auto. now apply over.
Qed.
Theorem collapse_runs groups dims output gs ds v out : validate_collapse w env force groups dims output = Runs ((gs, ds), (v, out)) ->
  groups_by (aggregate_table w) 2 groups = Ok gs /\ ds = collapse_dims dims /\ may_write_over env force gs out.
Proof.
  intros H. apply within_runs in H. destruct H as (gs' & G & H). apply with_output_ok in H. destruct H as (X & M & _). injection X as <- ->. split; auto. split; auto. now apply over.
Qed.
Theorem eval_runs groups attributes output gs va at_ v out : validate_eval w env force groups attributes output = Runs ((gs, va, at_), (v, out)) ->
  groups_by (basic_table w) 2 groups = Ok gs /\ set_aliases (map variables_of gs) = Ok va /\ create_attributes_dictionary attributes = Ok at_ /\ may_write_over env force gs out.
Proof.
  intros H. apply within_runs in H. destruct H as (gs' & G & H). apply within_runs in H. destruct H as (l' & L & H). apply within_runs in H. destruct H as (m & M' & H). apply with_output_ok in H. destruct H as (X & M & _). injection X as <- <- <-.
  do 3 (split; auto). now apply over.
Qed.
Theorem col_runs sample groups output s gs v out : validate_col w env force sample groups output = Runs ((s, gs), (v, out)) ->
  parse_one (sample_table w) 1 sample = Ok s /\ groups_by (basic_table w) 2 groups = Ok gs /\ may_write_over env force (s :: gs) out.
Proof.
  intros H. apply within_runs in H. destruct H as (s' & P & H). apply within_runs in H. destruct H as (l' & L & H). apply with_output_ok in H. destruct H as (X & M & _). injection X as <- <-. split; auto. split; auto. now apply over.
Qed.
Theorem plot_runs groups output gs o : validate_plot w env force groups output = Runs (gs, o) -> groups_by (plot_table w) 2 groups = Ok gs /\ match o with None => output = None | Some (_, out) => may_write_over env force gs out end.
Proof.
  intros H. apply within_runs in H. destruct H as (gs' & G & H). destruct output as [t|]; [|injection H as <- <-; auto].
  destruct (with_output env force (lit ".png") (Some t) (flat_map files_of gs') gs') as [[a [v out]]| |] eqn:E; try discriminate. injection H as <- <-. apply with_output_ok in E. destruct E as (-> & M & _). split; auto. now apply over.
Qed.
(** parse gives words and files *)
Lemma basic_nodup : NoDup (map fst (basic_table w)).
Proof. cbn [basic_table map fst]. repeat (constructor; [cbn [In]; intros I; decompose [or] I; try contradiction; discriminate|]). constructor. Qed.
Lemma basic_no_index j nm chk s : nth_error (basic_table w) j = Some (nm, chk) -> chk s <> Raises IndexError.
Proof.
  destruct j as [|[|[|j]]]; cbn [basic_table nth_error]; [intros [= <- <-]..|destruct j; discriminate].
  - destruct s; discriminate. - unfold check_files. destruct (w_files w s); discriminate. - unfold check_product. destruct s; [discriminate|]. destruct (existsb _ _); discriminate.
Qed.
Lemma basic_group input d : parse_one (basic_table w) 2 input = Ok d -> exists l, names_of d l /\ variables_of d = l.
Proof.
  intros H. destruct (parse_one_ok (basic_table w) 2 input d basic_nodup) as (_ & C & _); auto. { cbn. lia. } { intros. eapply basic_no_index; eauto. }
  destruct (C 0 (lit "variables") check_words) as (x & v & X & V & G); [lia|reflexivity|]. unfold check_words in V. destruct x; [discriminate|]. injection V as <-. eexists. split; [exact G|]. unfold variables_of. now rewrite G.
Qed.
Lemma map_res_forall2 {A B} (f : A -> res B) l m : map_res f l = Ok m -> Forall2 (fun a b => f a = Ok b) l m.
Proof. revert m. induction l as [|a l IH]; intros m; cbn [map_res]; [intros [= <-]; constructor|]. destruct (f a) eqn:E; cbn [bind]; [|discriminate]. destruct (map_res f l); cbn [bind]; [|discriminate]. intros [= <-]. constructor; auto. Qed.
Lemma groups_named groups gs : groups_by (basic_table w) 2 groups = Ok gs -> exists ls, Forall2 names_of gs ls /\ map (fun d => length (variables_of d)) gs = map (@length str) ls.
Proof.
  intros H. apply map_res_forall2 in H. induction H as [|t d ts ds E H IH]; [exists []; split; constructor|]. destruct IH as (ls & F & M). apply basic_group in E. destruct E as (l & N & V). exists (l :: ls). split; [constructor; auto|]. cbn [map]. rewrite V, M. reflexivity.
Qed.
Lemma names_fun gs ls ms : Forall2 names_of gs ls -> Forall2 names_of gs ms -> ls = ms.
Proof. intros F. revert ms. induction F as [|d l gs ls N F IH]; intros ms G; inversion G as [|? ? ? ? N']; subst; auto. f_equal; auto. unfold names_of in *. congruence. Qed.
Lemma sum_concat (ls : list (list str)) : list_sum (map (@length str) ls) = length (concat ls).
Proof. induction ls; cbn; auto. rewrite app_length. f_equal. exact IHls. Qed.
Theorem stats_ok groups gs output : groups_by (basic_table w) 2 groups = Ok gs ->
  exists ls, Forall2 names_of gs ls /\
  (length (concat ls) <> 2 -> validate_stats w env force groups output = Fails ParserError) /\
  (length (concat ls) = 2 -> output = None \/ output = Some [] -> validate_stats w env force groups output = Runs (gs, None)) /\
  (forall gs' o, validate_stats w env force groups output = Runs (gs', o) -> gs' = gs /\ length (concat ls) = 2 /\ match o with None => output = None \/ output = Some [] | Some (_, out) => may_write_over env force gs out end).
Proof.
  intros G. destruct (groups_named _ _ G) as (ls & F & M). exists ls. split; auto. unfold validate_stats. rewrite G. cbn [within]. rewrite M, sum_concat. split; [|split].
  - intros N. destruct (Nat.eqb_spec (length (concat ls)) 2); [congruence|reflexivity].
  - intros N [->| ->]; rewrite N; reflexivity.
  - intros gs' o. destruct (Nat.eqb_spec (length (concat ls)) 2); [|discriminate]. destruct output as [[|a t]|]; try (intros [= <- <-]; auto).
    match goal with |- context [match ?x with Runs _ => _ | _ => _ end] => destruct x as [[b [v out]]| |] eqn:E end; try discriminate. intros H; injection H as <- <-. apply with_output_ok in E. destruct E as (-> & W & _). split; auto. split; auto. now apply over.
Qed.
Theorem bare_output_refuted E groups gs ranges l : groups_by (basic_table w) 2 groups = Ok gs -> get_subset_limits E ranges = Ok l -> validate_subset w env force E groups ranges None = Fails TypeError.
Proof. intros G L. unfold validate_subset. rewrite G. cbn [within]. rewrite L. reflexivity. Qed.
End Outputs.
Lemma with_output_runs {A} env force ext o out inputs (a : A) : written env ext o out -> may_write env force inputs out -> with_output env force ext (Some o) inputs a = Runs (a, (None, out)).
Proof.
  intros [NC X] [C I]. unfold with_output, validate_output_file. replace (has_char ":" o) with false.
  2: { symmetry. unfold has_char. apply Bool.not_true_is_false. rewrite existsb_exists. intros (c & J & K). destruct (ascii_dec c ":"); [subst; contradiction|discriminate]. }
  replace (if env_has_ext env o then o else o ++ ext) with out by (destruct X as [[-> ->]|[-> ->]]; reflexivity).
  apply consent in C. rewrite C. replace (output_matches_input env out inputs) with false; [reflexivity|]. symmetry. unfold output_matches_input. apply Bool.not_true_is_false. rewrite existsb_exists. intros (f & J & K). apply andb_true_iff in K. exact (I f J K).
Qed.
Lemma over' env force gs out : may_write_over env force gs out -> may_write env force (flat_map files_of gs) out.
Proof. intros (l & L & C & I). split; auto. intros f J. apply I. apply L. now apply files_in. Qed.
Theorem goes_on w env force E groups gs o out : may_write_over env force gs out ->
  (written env (lit ".nc") o out -> groups_by (basic_table w) 2 groups = Ok gs -> forall ranges l, get_subset_limits E ranges = Ok l -> validate_subset w env force E groups ranges (Some o) = Runs ((gs, l), (None, out))) /\
  (written env (lit ".nc") o out -> groups_by (aggregate_table w) 2 groups = Ok gs -> forall text g, get_aggregate_grid E text = Ok g -> validate_aggregate w env force E groups text (Some o) = Runs ((gs, g), (None, out))) /\
  (written env (lit ".nc") o out -> groups_by (aggregate_table w) 2 groups = Ok gs -> forall dims, validate_collapse w env force groups dims (Some o) = Runs ((gs, collapse_dims dims), (None, out))) /\
  (written env (lit ".nc") o out -> groups_by (basic_table w) 2 groups = Ok gs -> forall text va a, set_aliases (map variables_of gs) = Ok va -> create_attributes_dictionary text = Ok a -> validate_eval w env force groups text (Some o) = Runs ((gs, va, a), (None, out))) /\
  (written env (lit ".nc") o out -> forall sample s gs', gs = s :: gs' -> parse_one (sample_table w) 1 sample = Ok s -> groups_by (basic_table w) 2 groups = Ok gs' -> validate_col w env force sample groups (Some o) = Runs ((s, gs'), (None, out))) /\
  (written env (lit ".png") o out -> groups_by (plot_table w) 2 groups = Ok gs -> validate_plot w env force groups (Some o) = Runs (gs, Some (None, out))) /\
  (written env (lit ".nc") o out -> o <> [] -> groups_by (basic_table w) 2 groups = Ok gs -> forall ls, Forall2 names_of gs ls -> length (concat ls) = 2 -> validate_stats w env force groups (Some o) = Runs (gs, Some (None, out))).
Proof.
  intros M. pose proof (over' _ _ _ _ M) as M'. repeat split.
  - intros W G ranges l L. unfold validate_subset. rewrite G. cbn [within]. rewrite L. cbn [within]. now apply with_output_runs.
  - intros W G text g L. unfold validate_aggregate. rewrite G. cbn [within]. rewrite L. cbn [within]. now apply with_output_runs.
  - intros W G dims. unfold validate_collapse. rewrite G. cbn [within]. now apply with_output_runs.
  - intros W G text va a S1 S2. unfold validate_eval. rewrite G. cbn [within]. rewrite S1. cbn [within]. rewrite S2. cbn [within]. now apply with_output_runs.
  - intros W sample s gs' -> P G. unfold validate_col. rewrite P. cbn [within]. rewrite G. cbn [within]. now apply with_output_runs.
  - intros W G. unfold validate_plot. rewrite G. cbn [within]. now rewrite (with_output_runs env force (lit ".png") o out _ gs W M').
  - intros W N G ls F L. unfold validate_stats. rewrite G. cbn [within]. destruct (groups_named w _ _ G) as (ls' & F' & Mm). rewrite Mm, sum_concat. rewrite <- (names_fun _ _ _ F F'), L. cbn [Nat.eqb]. destruct o as [|c o]; [congruence|].
    now rewrite (with_output_runs env force nc (c :: o) out _ gs W M').
Qed.
Theorem dims_ok : (forall names, names <> [] -> (forall n, In n names -> ~ In ","%char n) -> collapse_dims [join_on "," names] = names /\ (length names <> 1 -> collapse_dims names = names)).
Proof. intros names N C. split; [cbn; now apply split_join|]. destruct names as [|a [|b l]]; auto. cbn. congruence. Qed.
Theorem dims_refuted a b c : collapse_dims [a ++ ","%char :: b; c] = [a ++ ","%char :: b; c].
Proof. reflexivity. Qed.
Theorem equals_refuted w fs : w_files w (lit "f") = Some fs -> exists d, parse_one (plot_table w) 2 (lit "v:f:label=a=b,cmap=x") = Ok d /\ dict_get d (lit "label") = Some (Checked (PText (lit "a"))).
Proof.
  intros E. eexists. unfold parse_one. assert (C : colon_words (lit "v:f:label=a=b,cmap=x") = [lit "v"; lit "f"; lit "label=a=b,cmap=x"]) by reflexivity. rewrite C, plot_table_eq. clear C.
  cbn -[lit check_files split_outside_brackets]. unfold check_files. rewrite E. split; reflexivity.
Qed.
(** what a datagroup must have: *)
Lemma mandatory_plot w input d : parse_one (plot_table w) 2 input = Ok d ->
  exists v t l, dict_get d (lit "variables") = Some (Checked (PText v)) /\ v <> [] /\ w_files w t = Some l /\ dict_get d (lit "filenames") = Some (Checked (PFiles l)).
Proof.
  intros E. destruct (parse_one_ok (plot_table w) 2 input d (nodup_plot w)) as (_ & C & _); auto. { rewrite plot_table_eq. cbn. lia. } { intros. eapply no_index; eauto. }
  destruct (C 0 (lit "variables") check_is_not_empty) as (x & v & _ & V & G); [lia|reflexivity|]. destruct (C 1 (lit "filenames") (check_files w)) as (y & u & _ & U & H); [lia|reflexivity|].
  unfold check_is_not_empty in V. destruct x as [|c x]; [discriminate|]. unfold check_files in U. destruct (w_files w y) as [l|] eqn:F; [|discriminate]. injection V as <-. injection U as <-. exists (c :: x), y, l. split; [exact G|]. split; [discriminate|]. auto.
Qed.
Lemma mandatory_words w table input d : In table [basic_table w; aggregate_table w] -> parse_one table 2 input = Ok d ->
  exists v t l, v <> [] /\ dict_get d (lit "variables") = Some (Checked (PWords (multi_split v [","%char]))) /\ w_files w t = Some l /\ dict_get d (lit "filenames") = Some (Checked (PFiles l)).
Proof.
  intros I E. assert (X : NoDup (map fst table) /\ 2 <= length table /\ (forall j nm chk s, nth_error table j = Some (nm, chk) -> chk s <> Raises IndexError) /\
    nth_error table 0 = Some (lit "variables", check_words) /\ nth_error table 1 = Some (lit "filenames", check_files w)).
  { destruct I as [<-|[<-|[]]]; (split; [unfold basic_table, aggregate_table; cbn [map fst]; repeat constructor; cbn [In]; intros X; repeat (destruct X as [X|X]; [apply AeroProofs.lit_inj in X; discriminate|]); destruct X|]); (split; [cbn; lia|]); (split; [|split; reflexivity]);
    intros j nm chk s; destruct j as [|[|[|[|j]]]]; cbn [nth_error basic_table aggregate_table]; try (destruct j; discriminate); try discriminate; intros [= <- <-];
    unfold check_words, check_files, check_product, check_kernel; repeat match goal with |- context [match ?z with _ => _ end] => destruct z end; discriminate. }
  destruct X as (N & L & NI & T0 & T1). destruct (parse_one_ok table 2 input d N L NI E) as (_ & C & _).
  destruct (C 0 _ _ ltac:(lia) T0) as (x & v & _ & V & G). destruct (C 1 _ _ ltac:(lia) T1) as (y & u & _ & U & H).
  unfold check_words in V. destruct x as [|c x]; [discriminate|]. unfold check_files in U. destruct (w_files w y) as [l|] eqn:F; [|discriminate]. injection V as <-. injection U as <-. exists (c :: x), y, l. split; [discriminate|]. auto.
Qed.
(** the optional parts of a datagroup are checked too: *)
Lemma chosen_aggregate w input d : parse_one (aggregate_table w) 2 input = Ok d ->
  (forall st, dict_get d (lit "kernel") = Some st -> exists s, st = Checked (PText s) /\ In s (w_kernels w)) /\
  (forall st, dict_get d (lit "product") = Some st -> st = Checked (PName None) \/ exists s, st = Checked (PName (Some s)) /\ In s (w_products w)).
Proof.
  intros E. assert (N : NoDup (map fst (aggregate_table w))).
  { unfold aggregate_table. cbn [map fst]. repeat constructor; cbn [In]; intros X; repeat (destruct X as [X|X]; [apply AeroProofs.lit_inj in X; discriminate|]); destruct X. }
  assert (NI : forall j nm chk s, nth_error (aggregate_table w) j = Some (nm, chk) -> chk s <> Raises IndexError).
  { intros j nm chk s; destruct j as [|[|[|[|j]]]]; cbn [nth_error aggregate_table]; try (destruct j; discriminate); intros [= <- <-];
    unfold check_words, check_files, check_product, check_kernel; repeat match goal with |- context [match ?z with _ => _ end] => destruct z end; discriminate. }
  destruct (parse_one_ok (aggregate_table w) 2 input d N ltac:(cbn; lia) NI E) as (_ & _ & O & _). split; intros st G.
  - destruct (O 3 _ _ st ltac:(lia) eq_refl G) as [(v & -> & p & _ & (x & r & _ & K))|(s & _ & L)]; [|cbn in L; lia].
    unfold check_kernel in K. destruct (existsb (str_eqb x) (w_kernels w)) eqn:B; [|discriminate]. injection K as <-. exists x. split; auto.
    apply existsb_exists in B. destruct B as (y & I & B). apply str_eqb_eq in B. now subst.
  - destruct (O 2 _ _ st ltac:(lia) eq_refl G) as [(v & -> & p & _ & (x & r & _ & K))|(s & _ & L)]; [|cbn in L; lia].
    unfold check_product in K. destruct x as [|c x]; [injection K as <-; auto|]. destruct (existsb (str_eqb (c :: x)) (w_products w)) eqn:B; [|discriminate]. injection K as <-. right. exists (c :: x). split; auto.
    apply existsb_exists in B. destruct B as (y & I & B). apply str_eqb_eq in B. now subst.
Qed.
