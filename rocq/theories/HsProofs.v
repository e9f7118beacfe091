(** Proofs for C102. *)
From Coq Require Import Reals.
From Verif Require Import Base PyStr FileListModel FileListProofs LstProofs SubsetProofs StatsModel HsModel HsSpec.
From Coq Require Import List Ascii String Permutation.
Import ListNotations.
Open Scope string_scope. Open Scope list_scope. Open Scope nat_scope. Notation length := List.length.

(** ** joining *)
Lemma fold_join sep l : forall x, fold_left (fun a b : str => a ++ sep ++ b) l x = match l with [] => x | _ => x ++ sep ++ join_with sep l end.
Proof.
  induction l as [|y l IH]; intros x; [reflexivity|]. cbn [fold_left]. rewrite IH. destruct l as [|z l]; [reflexivity|].
  change (join_with sep (y :: z :: l)) with (y ++ sep ++ join_with sep (z :: l)). rewrite <- !app_assoc. reflexivity.
Qed.
Lemma joined sep l : join_with sep l = match l with [] => [] | x :: l => fold_left (fun a b : str => a ++ sep ++ b) l x end.
Proof. destruct l as [|x l]; [reflexivity|]. rewrite fold_join. destruct l; reflexivity. Qed.
Lemma comma_join l : comma_separated l = join_with (lit ", ") l.
Proof. symmetry. apply joined. Qed.
Lemma lines_join l : text_of_lines l = join_with newline l.
Proof. symmetry. apply joined. Qed.
Lemma list_text_python repr l : list_text repr l = python_list repr l.
Proof. unfold list_text, python_list. rewrite comma_join. reflexivity. Qed.
Lemma join_cons sep x l : l <> [] -> join_with sep (x :: l) = x ++ sep ++ join_with sep l.
Proof. destruct l; [congruence|reflexivity]. Qed.
Lemma join_app sep a b : a <> [] -> b <> [] -> join_with sep (a ++ b) = join_with sep a ++ sep ++ join_with sep b.
Proof.
  induction a as [|x a IH]; [congruence|]. intros _ Hb. destruct a as [|y a].
  - cbn [app]. rewrite join_cons by exact Hb. reflexivity.
  - change ((x :: y :: a) ++ b) with (x :: ((y :: a) ++ b)). rewrite join_cons by discriminate. rewrite IH by (discriminate || exact Hb).
    rewrite (join_cons sep x (y :: a)) by discriminate. rewrite <- !app_assoc. reflexivity.
Qed.

(** ** entries *)
Lemma more_extended entry stamp new g old : entry = stamp ++ new -> entry <> [] -> extended entry g old (Some (more_history g old stamp new)).
Proof.
  intros -> Hn. unfold more_history. destruct old as [[|c h]|].
  - destruct g; constructor.
  - change (Some ((c :: h) ++ newline ++ stamp ++ new)) with (Some (text_of_lines [c :: h; stamp ++ new])). constructor. discriminate.
  - constructor.
Qed.
Lemma add_to_told stamp new s : new <> [] -> told (stamp ++ new) s (add_to stamp new s).
Proof.
  intros Hn. assert (E : stamp ++ new <> []) by (intros H; apply app_eq_nil in H; tauto).
  assert (P : forall d, d_gridded (add_history stamp new d) = d_gridded d /\ d_name (add_history stamp new d) = d_name d /\ d_alias (add_history stamp new d) = d_alias d /\
    d_files (add_history stamp new d) = d_files d /\ extended (stamp ++ new) (d_gridded d) (d_history d) (d_history (add_history stamp new d))).
  { intros d. repeat (split; [reflexivity|]). apply more_extended; auto. }
  destruct s as [d|l]; split; cbn [items add_to]; auto.
  induction l; constructor; auto.
Qed.

Section Limits.
Variable V : Type.
Variable text : V -> str.
Lemma limits_words l : limits_text text l = comma_separated (map (limit_words text) l).
Proof. unfold limits_text. rewrite comma_join. reflexivity. Qed.
Lemma subset_entry l : lit "Subsetted using limits: " ++ limits_text text l = subset_words text l.
Proof. unfold subset_words. rewrite <- limits_words. reflexivity. Qed.
Lemma add_limit_ok (coordinate : str -> option (str * (V * V))) lon lat k kw e : limits_of coordinate kw e -> ~ In (fst e) (map fst k) -> add_limit coordinate lon lat k kw = Ok (k ++ [e]).
Proof.
  intros H Hn. destruct H as [n a b c lo hi E|n a c lo hi E|n b c lo hi E|n c lo hi E]; cbn [add_limit]; rewrite E; unfold fill; rewrite (dict_set_fresh _ _ _ Hn); reflexivity.
Qed.
Lemma make_limits_from (coordinate : str -> option (str * (V * V))) lon lat kws l : Forall2 (limits_of coordinate) kws l -> forall k, NoDup (map fst (k ++ l)) ->
  fold_left (fun k kw => bind k (fun k => add_limit coordinate lon lat k kw)) kws (Ok k) = Ok (k ++ l).
Proof.
  induction 1 as [|kw e kws l H HF IH]; intros k Hn; cbn [fold_left]; [rewrite app_nil_r; reflexivity|].
  cbn [bind]. rewrite (add_limit_ok _ _ _ _ _ _ H).
  - change (k ++ e :: l) with (k ++ [e] ++ l). rewrite app_assoc. apply IH. rewrite <- app_assoc. exact Hn.
  - rewrite map_app in Hn. cbn [map] in Hn. apply NoDup_remove_2 in Hn. intros Hi. apply Hn. apply in_or_app. auto.
Qed.
Lemma make_limits_ok (coordinate : str -> option (str * (V * V))) lon lat kws l : Forall2 (limits_of coordinate) kws l -> NoDup (map fst l) -> make_limits coordinate lon lat kws = Ok l.
Proof. intros H Hn. unfold make_limits. rewrite (make_limits_from _ _ _ _ _ H); auto. Qed.
Lemma no_shape_none (coordinate : str -> option (str * (V * V))) (kws : list (kwarg V)) l : Forall2 (limits_of coordinate) kws l -> shape_of kws = None.
Proof.
  intros H. unfold shape_of. induction H as [|kw e kws l H HF IH]; cbn [fold_left]; [reflexivity|]. destruct H; exact IH.
Qed.
Lemma subset_words_told (coordinate : str -> option (str * (V * V))) lon lat constrain stamp kws l s : Forall2 (limits_of coordinate) kws l -> NoDup (map fst l) -> constrain None l = Ok (Some s) ->
  exists s', subset_told text coordinate lon lat constrain stamp kws = Ok (Some s') /\ told (stamp ++ subset_words text l) s s'.
Proof.
  intros H Hn Hc. unfold subset_told. rewrite (make_limits_ok _ _ _ _ _ H Hn). cbn [bind]. rewrite (no_shape_none _ _ _ H), Hc. cbn [bind option_map].
  eexists. split; [reflexivity|]. rewrite limits_words. apply add_to_told. discriminate.
Qed.
Lemma subset_none (coordinate : str -> option (str * (V * V))) lon lat constrain stamp kws l : Forall2 (limits_of coordinate) kws l -> NoDup (map fst l) -> constrain None l = Ok None ->
  subset_told text coordinate lon lat constrain stamp kws = Ok None.
Proof.
  intros H Hn Hc. unfold subset_told. rewrite (make_limits_ok _ _ _ _ _ H Hn). cbn [bind]. rewrite (no_shape_none _ _ _ H), Hc. reflexivity.
Qed.
(** a later limit of the same coordinate takes the place of the earlier one *)
Lemma shape_told (coordinate : str -> option (str * (V * V))) lon lat constrain stamp w a b c d s : lon <> lat -> constrain (Some w) [(lon, (a, c)); (lat, (b, d))] = Ok (Some s) ->
  exists s', subset_told text coordinate lon lat constrain stamp [Shape w a b c d] = Ok (Some s') /\ told (stamp ++ subset_words text [(lon, (a, c)); (lat, (b, d))]) s s'.
Proof.
  intros Hn Hc. unfold subset_told, make_limits. cbn [fold_left bind add_limit].
  rewrite (dict_set_fresh (@nil (str * (V * V))) lon) by (intros []). cbn [app].
  rewrite (dict_set_fresh [(lon, (a, c))] lat) by (intros [E|[]]; cbn [fst] in E; congruence). cbn [app bind].
  change (shape_of [Shape w a b c d]) with (Some w). rewrite Hc. cbn [bind option_map]. eexists. split; [reflexivity|]. rewrite limits_words. apply add_to_told. discriminate.
Qed.
(** the text can be read back *)
Lemma cut_unique (c : ascii) x : forall y r r', ~ In c x -> ~ In c y -> x ++ c :: r = y ++ c :: r' -> x = y /\ r = r'.
Proof.
  induction x as [|a x IH]; intros [|b y] r r' Hx Hy E; cbn [app] in E.
  - injection E as ->. auto.
  - injection E as -> E. exfalso. apply Hy. left. reflexivity.
  - injection E as -> E. exfalso. apply Hx. left. reflexivity.
  - injection E as -> E. destruct (IH y r r') as [-> ->]; auto; intros H; [apply Hx|apply Hy]; right; exact H.
Qed.
Lemma words_unique l l' r r' : legible text l -> legible text l' -> limit_words text l ++ r = limit_words text l' ++ r' -> read_back text l = read_back text l' /\ r = r'.
Proof.
  destruct l as [n [a b]], l' as [n' [a' b']]. unfold legible, limit_words, read_back. cbn [fst snd]. intros (H1 & H2 & H3) (H1' & H2' & H3') E.
  rewrite <- !app_assoc in E. change (lit ": [") with (":"%char :: lit " [") in E. cbn [app] in E.
  apply cut_unique in E; auto. destruct E as [-> E]. apply app_inv_head in E. change (lit ", ") with (","%char :: lit " ") in E. cbn [app] in E.
  apply cut_unique in E; auto. destruct E as [-> E]. apply app_inv_head in E. change (lit "]") with ("]"%char :: []) in E. cbn [app] in E.
  apply cut_unique in E; auto. destruct E as [-> E]. auto.
Qed.
Lemma words_nonempty l : limit_words text l <> [].
Proof. unfold limit_words. destruct (fst l); discriminate. Qed.
Lemma limits_unique l : forall l', Forall (legible text) l -> Forall (legible text) l' -> comma_separated (map (limit_words text) l) = comma_separated (map (limit_words text) l') ->
  map (read_back text) l = map (read_back text) l'.
Proof.
  assert (N : forall e k, join_with (lit ", ") (map (limit_words text) (e :: k)) <> []).
  { intros e k. cbn [map]. destruct k; [apply words_nonempty|]. cbn [map join_with]. intros E. apply app_eq_nil in E. destruct E as [E _]. exact (words_nonempty _ E). }
  assert (S1 : forall e k, join_with (lit ", ") (map (limit_words text) (e :: k)) = limit_words text e ++ match k with [] => [] | _ => lit ", " ++ join_with (lit ", ") (map (limit_words text) k) end).
  { intros e [|f k]; cbn [map]; [cbn [join_with]; rewrite app_nil_r; reflexivity|reflexivity]. }
  setoid_rewrite comma_join. induction l as [|e l IH]; intros [|e' l'] H H' E.
  - reflexivity.
  - symmetry in E. destruct (N _ _ E).
  - destruct (N _ _ E).
  - rewrite !S1 in E. inversion H; subst. inversion H'; subst. destruct (words_unique e e' _ _ H2 H4 E) as [E1 E2]. cbn [map]. rewrite E1. f_equal.
    apply IH; auto. destruct l as [|x l], l' as [|x' l'].
    + reflexivity.
    + discriminate E2.
    + discriminate E2.
    + apply app_inv_head in E2. exact E2.
Qed.
Lemma subset_words_unique l l' : Forall (legible text) l -> Forall (legible text) l' -> subset_words text l = subset_words text l' -> map (read_back text) l = map (read_back text) l'.
Proof. intros H H' E. apply limits_unique; auto. unfold subset_words in E. apply app_inv_head in E. exact E. Qed.
End Limits.

(** ** the other entries *)
Lemma lines_cons x l : l <> [] -> text_of_lines (x :: l) = x ++ newline ++ text_of_lines l.
Proof. rewrite !lines_join. apply join_cons. Qed.
Ltac lines := repeat (rewrite lines_cons by discriminate); rewrite ?lines_join; cbn [join_with]; rewrite <- ?app_assoc.
Lemma choose_several c l d : choose c (Several l) = Ok d -> In d l.
Proof. cbn [choose]. destruct (find _ l) eqn:E; [|discriminate]. intros [= <-]. apply find_some in E. tauto. Qed.
Section Entries.
Variable repr : str -> str.
Variable V : Type.
Variables (vrepr text : V -> str) (version : str) (shared : list str).
Lemma grid_words g : grid_text repr vrepr g = lit "{" ++ comma_separated (map (slice_words V repr vrepr) g) ++ lit "}".
Proof.
  unfold grid_text. rewrite comma_join. do 3 f_equal. apply map_ext. intros [n [[a b] s]]. cbn [fst snd slice_words]. rewrite comma_join. cbn [join_with]. rewrite <- ?app_assoc. reflexivity.
Qed.
Lemma aggregate_entry s g k : aggregate_history repr vrepr version shared s g k =
  text_of_lines (aggregate_lines repr vrepr version (names_text repr s) (flat_map (files shared) (items s)) g k).
Proof.
  unfold aggregate_history, aggregate_lines. rewrite grid_words. lines. unfold files_text. rewrite list_text_python.
  destruct s; cbn [items flat_map]; rewrite ?app_nil_r; reflexivity.
Qed.
Lemma collapse_entry s cs k : collapse_history repr version shared s cs k = text_of_lines (collapse_lines repr version (names_text repr s) (flat_map (files shared) (items s)) cs k).
Proof.
  unfold collapse_history, collapse_lines. lines. unfold files_text. rewrite list_text_python, comma_join.
  destruct s; cbn [items flat_map]; rewrite ?app_nil_r; reflexivity.
Qed.
Lemma var_info_introduced d : exists l, files_given shared d l /\ introduced repr l d (var_info repr shared d).
Proof.
  exists (files shared d). split; [unfold files_given, files; destruct (d_files d); auto|]. unfold var_info, alias. destruct (d_alias d) as [a|] eqn:E.
  - destruct (str_eqb a (d_name d)) eqn:Q.
    + apply str_eqb_eq in Q. subst a. rewrite list_text_python. change (@nil ascii ++ lit " from files " ++ python_list repr (files shared d)) with (lit " from files " ++ python_list repr (files shared d)).
      rewrite app_assoc. rewrite <- !app_assoc. constructor. right. exact E.
    + rewrite list_text_python. rewrite <- !app_assoc. change (lit "'" ++ lit " (as '" ++ a ++ lit "')" ++ lit " from files " ++ python_list repr (files shared d)) with
        (lit "' (as '" ++ a ++ lit "') from files " ++ python_list repr (files shared d)). constructor; auto. intros ->. rewrite str_eqb_refl in Q. discriminate.
  - rewrite str_eqb_refl. rewrite list_text_python. constructor. left. exact E.
Qed.
Lemma introductions l : exists ins, Forall2 (fun d i => exists fs, files_given shared d fs /\ introduced repr fs d i) l ins /\ ins = map (var_info repr shared) l.
Proof. eexists. split; [|reflexivity]. induction l; constructor; auto. apply var_info_introduced. Qed.
Lemma closed_join l : l <> [] -> join_with newline (closed l) = join_with (","%char :: newline) l ++ lit ".".
Proof.
  induction l as [|x l IH]; [congruence|]. intros _. destruct l as [|y l]; [reflexivity|].
  change (closed (x :: y :: l)) with ((x ++ lit ",") :: closed (y :: l)).
  rewrite join_cons by (destruct l; discriminate). rewrite IH by discriminate. rewrite (join_cons _ x) by discriminate. rewrite <- !app_assoc. reflexivity.
Qed.
Lemma closed_first p l : l <> [] -> join_with newline (match closed l with [] => [] | x :: k => (p ++ x) :: k end) = p ++ join_with (","%char :: newline) l ++ lit ".".
Proof.
  intros H. rewrite <- closed_join by exact H. destruct l as [|x l]; [congruence|]. destruct l as [|y l]; [reflexivity|].
  change (closed (x :: y :: l)) with ((x ++ lit ",") :: closed (y :: l)). cbv iota. rewrite !join_cons by (destruct l; discriminate). rewrite <- !app_assoc. reflexivity.
Qed.
Lemma evaluate_entry l e : l <> [] -> evaluate_history repr version shared l e = text_of_lines (evaluate_lines version e (map (var_info repr shared) l)).
Proof.
  intros H. unfold evaluate_history, evaluate_lines. rewrite lines_join. assert (Hm : map (var_info repr shared) l <> []) by (destruct l; [congruence|discriminate]).
  change ([?a; ?b] ++ ?c) with (a :: b :: c). cbn [app]. rewrite !join_cons.
  - rewrite closed_first by exact Hm. rewrite <- !app_assoc. reflexivity.
  - destruct l as [|x [|y l]]; [congruence|discriminate|discriminate].
  - discriminate.
Qed.

(** *** one step after the other *)
Definition history_lines (d : data) : list str := match d_history d with None => [] | Some [] => if d_gridded d then [[]] else [] | Some h => [h] end.
Lemma history_lines_before d : before d (history_lines d).
Proof. unfold before, history_lines. destruct (d_history d) as [[|c h]|]; reflexivity. Qed.
Lemma before_unique d l : before d l -> l = history_lines d.
Proof. unfold before, history_lines. destruct (d_history d) as [[|c h]|]; auto. Qed.
Lemma more_lines stamp new d n a f : stamp ++ new <> [] ->
  d_history (add_history stamp new (mkData (d_gridded d) n a f (d_history d))) = Some (text_of_lines (history_lines d ++ [stamp ++ new])) /\
  history_lines (add_history stamp new (mkData (d_gridded d) n a f (d_history d))) = [text_of_lines (history_lines d ++ [stamp ++ new])].
Proof.
  intros H. assert (E : d_history (add_history stamp new (mkData (d_gridded d) n a f (d_history d))) = Some (text_of_lines (history_lines d ++ [stamp ++ new]))).
  { cbn [add_history d_history d_gridded]. unfold more_history, history_lines. destruct (d_history d) as [[|c h]|]; [destruct (d_gridded d)| |]; reflexivity. }
  split; [exact E|]. unfold history_lines at 1. rewrite E. destruct (text_of_lines (history_lines d ++ [stamp ++ new])) eqn:Q; [|reflexivity].
  exfalso. rewrite lines_join in Q. destruct (history_lines d) as [|x k] eqn:K.
  - cbn [app join_with] in Q. exact (H Q).
  - rewrite join_app in Q by discriminate. apply app_eq_nil in Q. destruct Q as [_ Q]. apply app_eq_nil in Q. destruct Q as [Q _]. discriminate Q.
Qed.
(** what one step does to the history *)
Lemma ok_inj {A} (a b : A) : Ok a = Ok b -> a = b.
Proof. congruence. Qed.
Lemma step_history (d : data) stamp (s : step V) d' : perform repr text vrepr version shared d (stamp, s) = Ok d' ->
  exists t, says text version s t /\ t <> [] /\ d_history d' = Some (text_of_lines ((if match s with Aggregate _ _ _ _ | Evaluate _ _ => true | _ => false end then [] else history_lines d) ++ [stamp ++ t])) /\
    history_lines d' = [text_of_lines ((if match s with Aggregate _ _ _ _ | Evaluate _ _ => true | _ => false end then [] else history_lines d) ++ [stamp ++ t])].
Proof.
  assert (NE : forall t, t <> [] -> stamp ++ t <> []) by (intros t H E; apply app_eq_nil in E; tauto).
  destruct s as [l|g k outs c|cs k outs c|op|e o]; unfold perform; cbn [fst snd].
  - intros H; apply ok_inj in H; subst d'. exists (lit "Subsetted using limits: " ++ limits_text text l). split; [exact (subset_entry V text l)|]. split; [discriminate|]. apply more_lines. apply NE. discriminate.
  - destruct (d_gridded d) eqn:G; [discriminate|]. intros H. apply choose_several in H. rewrite map_map in H. apply in_map_iff in H. destruct H as (n & <- & Hn).
    exists (aggregate_history repr vrepr version shared (One d) g k). split; [|split; [discriminate|]].
    + cbn [says]. unfold aggregate_history. set (a := names_text _ _). set (b := files_text _ _ _). set (c2 := grid_text _ _ _).
      exists (newline ++ lit " variables: " ++ a ++ newline ++ lit " from files: " ++ b ++ newline ++ lit " using new grid: " ++ c2 ++ newline).
      rewrite <- !app_assoc. reflexivity.
    + apply (more_lines stamp (aggregate_history repr vrepr version shared (One d) g k) (mkData true n None None None) n None None). apply NE. discriminate.
  - destruct (d_gridded d) eqn:G; [|discriminate]. intros H. apply choose_several in H. rewrite map_map in H. apply in_map_iff in H. destruct H as (n & <- & Hn).
    set (r := Several _). exists (collapse_history repr version shared r cs k). split; [|split; [discriminate|]].
    + cbn [says]. unfold collapse_history. set (a := names_text _ _). set (b := files_text _ _ _). rewrite comma_join.
      exists (newline ++ lit " variables: " ++ a ++ newline ++ lit " from files: " ++ b ++ newline).
      rewrite <- !app_assoc. reflexivity.
    + pose proof (more_lines stamp (collapse_history repr version shared r cs k) d n None None) as M. rewrite G in M. apply M. apply NE. discriminate.
  - destruct (d_gridded d) eqn:G; [discriminate|]. intros H; apply ok_inj in H; subst d'. exists (maths_history op). split; [reflexivity|]. split; [discriminate|].
    pose proof (more_lines stamp (maths_history op) d (d_name d) None None) as M. unfold calculated. apply M. apply NE. discriminate.
  - cbn [evaluated]. intros H; apply ok_inj in H; subst d'. exists (evaluate_history repr version shared [d] e). split; [|split; [discriminate|]].
    + cbn [says]. unfold evaluate_history. set (a := join_with _ _). exists (newline ++ lit "with variables: " ++ a ++ lit "."). rewrite <- ?app_assoc. reflexivity.
    + set (n := match o with Some o => o | None => _ end).
      pose proof (more_lines stamp (evaluate_history repr version shared [d] e) (mkData (d_gridded d) n None None (if d_gridded d then None else Some [])) n None None) as M.
      cbn [d_gridded d_history] in M. unfold history_lines at 1 3 in M. cbn [d_gridded d_history] in M. destruct (d_gridded d); apply M; apply NE; discriminate.
Qed.
End Entries.
Section Chain.
Variable repr : str -> str.
Variable V : Type.
Variables (vrepr text : V -> str) (version : str) (shared : list str).
Notation perform := (perform repr text vrepr version shared).
Notation perform_all := (perform_all repr text vrepr version shared).
Definition told_step (s : str * step V) (e : str) : Prop := exists t, says text version (snd s) t /\ e = fst s ++ t.
Lemma lines_nested a b : a <> [] -> text_of_lines ([text_of_lines a] ++ b) = text_of_lines (a ++ b).
Proof.
  intros H. rewrite !lines_join. destruct b as [|x b]; [rewrite !app_nil_r; reflexivity|].
  rewrite join_app by (discriminate || exact H). rewrite (join_app _ a) by (discriminate || exact H). reflexivity.
Qed.
Lemma perform_all_app d a : forall b d', perform_all d (a ++ b) = Ok d' -> exists d1, perform_all d a = Ok d1 /\ perform_all d1 b = Ok d'.
Proof.
  revert d. induction a as [|s a IH]; intros d b d' H; [exists d; auto|]. cbn [app HsModel.perform_all] in *. destruct (perform d s) as [d0|x]; [|discriminate]. cbn [bind] in *. apply IH. exact H.
Qed.
Lemma chain_from l : forall d d', Forall (fun s => ~ starts_anew (snd s)) l -> perform_all d l = Ok d' ->
  exists es, Forall2 told_step l es /\ (l <> [] -> d_history d' = Some (text_of_lines (history_lines d ++ es)) /\ history_lines d' = [text_of_lines (history_lines d ++ es)]).
Proof.
  induction l as [|[stamp s] l IH]; intros d d' HF H.
  - exists []. split; [constructor|congruence].
  - cbn [HsModel.perform_all] in H. destruct (perform d (stamp, s)) as [d1|x] eqn:P; [|discriminate]. cbn [bind] in H.
    inversion HF as [|? ? HF1 HF2]; subst. cbn [snd] in HF1.
    destruct (step_history _ _ _ _ _ _ _ _ _ _ P) as (t & Ht & _ & E1 & E2).
    replace (match s with Aggregate _ _ _ _ | Evaluate _ _ => true | _ => false end) with false in E1, E2 by (destruct s; auto; destruct HF1; constructor).
    destruct (IH d1 d' HF2 H) as (es & F & K). exists ((stamp ++ t) :: es). split; [constructor; auto; exists t; auto|]. intros _.
    destruct l as [|s2 l].
    + inversion F; subst. cbn [HsModel.perform_all] in H. injection H as <-. auto.
    + destruct (K ltac:(discriminate)) as [K1 K2]. rewrite E2 in K1, K2. rewrite lines_nested in K1, K2 by (destruct (history_lines d); discriminate).
      rewrite <- app_assoc in K1, K2. auto.
Qed.
Lemma recent_exists (l : list (str * step V)) : exists whole r, recent l whole r.
Proof.
  induction l as [|s l (whole & r & H)]; [exists true, []; constructor; constructor|].
  destruct whole.
  - inversion H; subst. destruct s as [stamp s]. assert (D : starts_anew s \/ ~ starts_anew s) by (destruct s; cbn; tauto). destruct D as [D|D].
    + exists false, ((stamp, s) :: r). apply (re_from V [] (stamp, s) r); auto.
    + exists true, ((stamp, s) :: r). constructor. constructor; auto.
  - inversion H; subst. exists false, (s0 :: l0). apply (re_from V (s :: before) s0 l0); auto.
Qed.
Lemma chain l d d' whole r : perform_all d l = Ok d' -> l <> [] -> recent l whole r ->
  exists old es, (if whole then before d old else old = []) /\ Forall2 told_step r es /\ d_history d' = Some (text_of_lines (old ++ es)).
Proof.
  intros H Hl HR. inversion HR; subst.
  - destruct (chain_from _ _ _ H0 H) as (es & F & K). exists (history_lines d), es. split; [apply history_lines_before|]. split; [exact F|]. exact (proj1 (K Hl)).
  - apply perform_all_app in H. destruct H as (d0 & _ & H). cbn [HsModel.perform_all] in H. destruct (perform d0 s) as [d1|x] eqn:P; [|discriminate]. cbn [bind] in H.
    destruct s as [stamp s]. destruct (step_history _ _ _ _ _ _ _ _ _ _ P) as (t & Ht & _ & E1 & E2). cbn [snd] in H0.
    replace (match s with Aggregate _ _ _ _ | Evaluate _ _ => true | _ => false end) with true in E1, E2 by (destruct s; auto; destruct H0).
    destruct (chain_from _ _ _ H1 H) as (es & F & K). exists [], ((stamp ++ t) :: es). split; [reflexivity|]. split; [constructor; auto; exists t; auto|].
    destruct l0 as [|s2 l].
    + inversion F; subst. cbn [HsModel.perform_all] in H. apply ok_inj in H. subst d1. exact E1.
    + destruct (K ltac:(discriminate)) as [K1 _]. rewrite E2 in K1. rewrite lines_nested in K1 by discriminate. exact K1.
Qed.
(** the files are not known any more after a step *)
Lemma files_lost d s d' : perform d s = Ok d' -> d_files d' = None.
Proof.
  destruct s as [stamp [l|g k outs c|cs k outs c|op|e o]]; unfold HsModel.perform; cbn [fst snd].
  - intros H; apply ok_inj in H; subst d'. reflexivity.
  - destruct (d_gridded d); [discriminate|]. intros H. apply choose_several in H. rewrite map_map in H. apply in_map_iff in H. destruct H as (n & <- & _). reflexivity.
  - destruct (d_gridded d); [|discriminate]. intros H. apply choose_several in H. rewrite map_map in H. apply in_map_iff in H. destruct H as (n & <- & _). reflexivity.
  - destruct (d_gridded d); [discriminate|]. intros H; apply ok_inj in H; subst d'. reflexivity.
  - intros H; apply ok_inj in H; subst d'. reflexivity.
Qed.
Lemma collapse_blind stamp d d' cs k outs : d_history d = d_history d' -> collapsed repr version shared stamp d cs k outs = collapsed repr version shared stamp d' cs k outs.
Proof. intros E. unfold collapsed. rewrite E. reflexivity. Qed.
End Chain.

(** ** the comparison *)
Section Comparison.
Variables (repr : str -> str) (set_order : list str -> list str) (version : str) (num_text : rv -> str) (count_text : nat -> str).
Variables (rank : list (rv * rv) -> rv) (regr : list (rv * rv) -> res (rv * rv * rv * rv)).
Notation stats_cmd := (stats_cmd repr set_order version num_text count_text rank regr).
Lemma analyze_shape d1 d2 rs : analyze rank regr d1 d2 = Ok rs -> exists n m1 m2 s1 s2 am asd rm rsd sp g i r e,
  rs = [PointsCount n; DatasetMean m1 1; DatasetMean m2 2; DatasetStddev s1 1; DatasetStddev s2 2; AbsoluteMean am; AbsoluteStddev asd; RelativeMean rm; RelativeStddev rsd; SpearmansRank sp;
        LinearRegressionGradient g; LinearRegressionIntercept i; LinearRegressionRValue r; LinearRegressionStderr e].
Proof.
  unfold analyze. cbn [extend_all]. unfold points_count, means, stddevs, abs_mean, abs_stddev, rel_mean, rel_stddev, spearmans_rank, linear_regression.
  destruct (elementwise rv_add d1 d2); [|discriminate]. cbn [bind]. destruct (common_mask d1 d2) as [c|]; [|discriminate]. cbn [bind].
  destruct (elementwise rv_sub d2 d1) as [dd|]; [|discriminate]. cbn [bind]. destruct (division dd d1); [|discriminate]. cbn [bind].
  destruct (mstats_spearmanr rank d1 d2); [|discriminate]. cbn [bind]. destruct (mstats_linregress regr d1 d2) as [[[[g0 i0] r0] e0]|]; [|discriminate]. cbn [bind app].
  intros [= <-]. repeat eexists.
Qed.
Lemma set_words l : (forall k, Permutation (set_order k) k) -> exists once, each_once l once /\
  set_text repr set_order l = match once with [] => lit "set()" | _ => lit "{" ++ comma_separated (map repr once) ++ lit "}" end.
Proof.
  intros HP. exists (set_order (nodup str_eq_dec l)). split.
  - split; [apply (Permutation_NoDup (Permutation_sym (HP _))); apply NoDup_nodup|]. intros f. split; intros H.
    + apply (Permutation_in _ (HP _)) in H. apply nodup_In in H. exact H.
    + apply (Permutation_in _ (Permutation_sym (HP _))). apply nodup_In. exact H.
  - unfold set_text. destruct (set_order _) as [|x k]; [reflexivity|]. rewrite comma_join. reflexivity.
Qed.
Lemma comparison_told groups : (forall k, Permutation (set_order k) k) -> exists once, each_once (flat_map snd groups) once /\
  stats_history repr set_order version groups = text_of_lines (comparison_lines repr version (flat_map fst groups) once).
Proof.
  intros HP. destruct (set_words (flat_map snd groups) HP) as (once & H & E). exists once. split; auto. unfold stats_history, comparison_lines. rewrite E. lines. rewrite list_text_python. reflexivity.
Qed.
Lemma header_frame : frame stats_header.
Proof. eexists (lit "RESULTS OF STATISTICAL COMPARISON:"), (lit "Compared all points which have non-missing values in both variables"). split; [reflexivity|vm_compute; repeat constructor]. Qed.
Lemma reported_names : NoDup (map (fun r : string * string * bool => lit (snd (fst r))) reported).
Proof. vm_compute. repeat (constructor; [intros H; repeat (destruct H as [H|H]; [discriminate H|]); exact H|]). constructor. Qed.
Lemma comparison n1 d1 n2 d2 groups output stamp rs : count_text 1 = lit "1" -> count_text 2 = lit "2" -> (forall k, Permutation (set_order k) k) ->
  analyze rank regr d1 d2 = Ok rs -> length rs = length reported /\
  exists r head lines once, stats_cmd stamp [(n1, d1); (n2, d2)] groups output = Ok r /\ frame head /\ r_printed r = head ++ lines /\ Forall2 (printed_line num_text count_text) (combine reported rs) lines /\
    each_once (flat_map snd groups) once /\
    match output with
    | None | Some [] => r_saved r = None
    | Some f => exists cubes, r_saved r = Some (f, cubes) /\ NoDup (map sc_name cubes) /\ map sc_long cubes = long_names n1 n2 /\
        Forall2 (saved_variable (stamp ++ text_of_lines (comparison_lines repr version (flat_map fst groups) once))) (combine reported rs) cubes
    end.
Proof.
  intros C1 C2 HP HA. destruct (comparison_told groups HP) as (once & HO & HE).
  destruct (analyze_shape _ _ _ HA) as (n & m1 & m2 & s1 & s2 & am & asd & rm & rsd & sp & g & i & r & e & Er). split; [subst rs; reflexivity|].
  assert (PL : Forall2 (printed_line num_text count_text) (combine reported rs) (map (pprint num_text count_text) rs)).
  { subst rs. unfold reported. cbn [combine map pprint]. rewrite C1, C2. repeat (constructor; [apply pl|]). constructor. }
  assert (EL : map sc_name (map (as_cube count_text n1 n2) rs) = map (fun r : string * string * bool => lit (snd (fst r))) reported).
  { subst rs. unfold reported. cbn [map as_cube sc_name fst snd]. rewrite C1, C2. reflexivity. }
  assert (ELong : map sc_long (map (as_cube count_text n1 n2) rs) = long_names n1 n2) by (subst rs; reflexivity).
  assert (SV : forall h, Forall2 (saved_variable (stamp ++ h)) (combine reported rs) (map (tell stamp h) (map (as_cube count_text n1 n2) rs))).
  { intros h. subst rs. unfold reported. cbn [combine map as_cube]. rewrite C1, C2. repeat (constructor; [apply sv; reflexivity|]). constructor. }
  unfold HsModel.stats_cmd. rewrite HA. cbn [bind]. eexists _, stats_header, _, once. split; [reflexivity|]. split; [apply header_frame|]. split; [reflexivity|]. split; [exact PL|]. split; [exact HO|].
  cbn [r_saved]. destruct output as [[|c f]|]; try reflexivity. eexists. split; [reflexivity|].
  assert (EN : map sc_name (map (tell stamp (stats_history repr set_order version groups)) (map (as_cube count_text n1 n2) rs)) = map sc_name (map (as_cube count_text n1 n2) rs)) by (rewrite map_map; reflexivity).
  assert (EM : map sc_long (map (tell stamp (stats_history repr set_order version groups)) (map (as_cube count_text n1 n2) rs)) = map sc_long (map (as_cube count_text n1 n2) rs)) by (rewrite map_map; reflexivity).
  split; [rewrite EN, EL; apply reported_names|]. split; [rewrite EM; exact ELong|]. rewrite <- HE. apply SV.
Qed.
Lemma comparison_fails n1 d1 n2 d2 groups output stamp x : analyze rank regr d1 d2 = Raises x -> stats_cmd stamp [(n1, d1); (n2, d2)] groups output = Raises x.
Proof. intros E. unfold HsModel.stats_cmd. rewrite E. reflexivity. Qed.
Lemma two_needed vars groups output stamp : length vars <> 2 -> stats_cmd stamp vars groups output = Raises TypeError.
Proof. destruct vars as [|[a b] [|[c d] [|v vars]]]; intros H; try reflexivity. exfalso. apply H. reflexivity. Qed.
End Comparison.
Section Results.
Variable repr : str -> str.
Variable V : Type.
Variables (vrepr text : V -> str) (version : str) (shared : list str).
Lemma aggregated_told stamp s g k outs names fs :
  (exists d, s = One d /\ names = d_name d /\ files_given shared d fs) \/ (exists ds fss, s = Several ds /\ names = python_list repr (map d_name ds) /\ Forall2 (files_given shared) ds fss /\ fs = List.concat fss) ->
  exists l, aggregated repr vrepr version shared stamp s g k outs = Several l /\ map d_name l = outs /\ Forall (fun d => d_history d = Some (stamp ++ text_of_lines (aggregate_lines repr vrepr version names fs g k))) l.
Proof.
  intros H. assert (FG : forall d l, files_given shared d l -> files shared d = l) by (intros d l [E|[E ->]]; unfold files; rewrite E; reflexivity).
  assert (EN : names_text repr s = names /\ flat_map (files shared) (items s) = fs).
  { destruct H as [(d & -> & -> & Hf)|(ds & fss & -> & -> & Hf & ->)].
    - cbn [names_text items flat_map]. rewrite (FG _ _ Hf), app_nil_r. auto.
    - cbn [names_text items]. split; [apply list_text_python|]. induction Hf as [|d l ds ls Hd _ IH]; [reflexivity|]. cbn [flat_map List.concat]. rewrite IH, (FG _ _ Hd). reflexivity. }
  destruct EN as [EN EF]. unfold aggregated, add_to. eexists. split; [reflexivity|]. rewrite aggregate_entry, EN, EF. split.
  - rewrite !map_map. cbn [add_history d_name]. apply map_id.
  - rewrite map_map. apply Forall_forall. intros d Hd. apply in_map_iff in Hd. destruct Hd as (n & <- & _). reflexivity.
Qed.
Lemma collapsed_told stamp d cs k outs : exists l, collapsed repr version shared stamp d cs k outs = Several l /\ map d_name l = outs /\
  Forall (fun r => d_gridded r = true /\ extended (stamp ++ text_of_lines (collapse_lines repr version (python_list repr outs) (List.concat (map (fun _ => shared) outs)) cs k)) true (d_history d) (d_history r)) l.
Proof.
  unfold collapsed, add_to. eexists. split; [reflexivity|]. split.
  - rewrite !map_map. cbn [add_history d_name]. apply map_id.
  - rewrite map_map. apply Forall_forall. intros r Hr. apply in_map_iff in Hr. destruct Hr as (n & <- & _). split; [reflexivity|].
    rewrite collapse_entry. cbn [names_text items]. rewrite list_text_python, map_map. cbn [d_name]. rewrite map_id.
    replace (flat_map (files shared) (map (fun n0 => mkData true n0 None None (d_history d)) outs)) with (List.concat (map (fun _ : str => shared) outs)).
    2: { clear. induction outs as [|o outs IH]; [reflexivity|]. cbn [map flat_map List.concat]. rewrite <- IH. reflexivity. }
    apply more_extended; [reflexivity|]. intros E. apply app_eq_nil in E. destruct E as [_ E]. discriminate E.
Qed.
Lemma evaluated_told stamp l e o : l <> [] -> exists r ins, evaluated repr version shared stamp l e o = Ok r /\ Forall2 (fun d i => exists fs, files_given shared d fs /\ introduced repr fs d i) l ins /\
  d_name r = match o with Some n => n | None => lit "calculated_variable" end /\ d_history r = Some (stamp ++ text_of_lines (evaluate_lines version e ins)).
Proof.
  intros H. destruct (introductions repr shared l) as (ins & HF & EI). destruct l as [|d l]; [congruence|]. eexists _, ins. split; [reflexivity|]. split; [exact HF|]. split; [reflexivity|].
  rewrite evaluate_entry by exact H. rewrite <- EI. cbn [add_history d_history d_gridded]. destruct (d_gridded d); reflexivity.
Qed.
Lemma calculated_told stamp op d : extended (stamp ++ lit "Performed " ++ op ++ lit " operation") (d_gridded d) (d_history d) (d_history (calculated stamp op d)) /\ d_name (calculated stamp op d) = d_name d.
Proof. split; [|reflexivity]. apply more_extended; [reflexivity|]. intros E. apply app_eq_nil in E. destruct E as [_ E]. discriminate E. Qed.
End Results.
