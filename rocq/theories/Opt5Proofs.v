From Coq Require Import String.
From Verif Require Import Base PyStr FileListModel FileListProofs ProdModel ProdProofs OptModel OptSpec OptProofs Opt2Proofs Opt3Proofs Opt4Proofs.
From Coq Require Import List Ascii Lia Arith.
Import ListNotations.
Open Scope list_scope. Open Scope nat_scope. Notation length := List.length.

(** *** words that are not understood *)
Section P.
Context {V : Type}.
Variable read : kind -> str -> option V.
Notation opt := (opt V). Notation parser := (parser V). Notation word := (word V). Notation val := (val V). Notation state := (state V). Notation run := (run read). Notation setting := (@setting V).
Variable p : parser.
Hypothesis PR : proper p.

Lemma long_head w : long_name w -> exists c r, w = "-"%char :: "-"%char :: c :: r /\ cut_eq w = None /\ str_eqb w (lit "--") = false.
Proof. intros (c & r & -> & NE). exists c, r. split; auto. split; [apply cut_none; exact NE|reflexivity]. Qed.
Lemma tuples_of w : long_name w -> option_tuples p w = map (fun e : str * opt => Known (snd e) (fst e) None) (filter (fun e : str * opt => starts_with w (fst e)) (spellings p)).
Proof. intros L. destruct (long_head w L) as (c & r & E & C & _). subst w. unfold option_tuples. rewrite C. reflexivity. Qed.
Lemma classify_stray_long w : stray_long p w -> classify p w = Ok (Unknown w).
Proof.
  intros (L & NB & NO). destruct (long_head w L) as (c & r & E & C & D).
  assert (F : find_option p w = None) by (apply (find_none_iff p PR); intros o N; apply (NO [] o); rewrite app_nil_r; exact N).
  assert (T : option_tuples p w = []).
  { rewrite (tuples_of w L). replace (filter _ (spellings p)) with (@nil (str * opt)); auto. symmetry. destruct (filter _ _) as [|[n o] l] eqn:G; auto. exfalso. assert (I : In (n, o) (filter (fun e : str * opt => starts_with w (fst e)) (spellings p))) by (rewrite G; left; auto).
    apply filter_In in I. destruct I as [I S]. apply starts_with_spec in S. destruct S as (q & S). cbn in S. subst n. apply in_spellings in I. apply (NO _ _ I). }
  assert (H : has_char " " w = false). { unfold has_char. destruct (existsb _ w) eqn:X; auto. exfalso. apply existsb_exists in X. destruct X as (a & I & X). destruct (ascii_dec a " "); [subst; auto|discriminate]. }
  subst w. unfold classify. rewrite F, D, C, T. unfold negative_number. cbn [digits decimals forallb andb orb]. rewrite H. reflexivity.
Qed.
Lemma classify_stray w : stray p w -> classify p w = Ok (Unknown w).
Proof. intros [S|S]; [apply classify_stray_long|apply (classify_stray_short p PR)]; exact S. Qed.
Lemma classify_ambiguous w : ambiguous p w -> exists e, classify p w = Raises e.
Proof.
  intros (L & NO & r1 & r2 & o1 & o2 & N1 & N2 & NE). destruct (long_head w L) as (c & r & E & C & D).
  assert (F : find_option p w = None) by (apply (find_none_iff p PR); exact NO).
  assert (T : exists a b l, option_tuples p w = a :: b :: l).
  { rewrite (tuples_of w L). assert (I1 : In (w ++ r1, o1) (filter (fun e : str * opt => starts_with w (fst e)) (spellings p))) by (apply filter_In; split; [apply in_spellings; exact N1|apply starts_with_spec; exists r1; reflexivity]).
    assert (I2 : In (w ++ r2, o2) (filter (fun e : str * opt => starts_with w (fst e)) (spellings p))) by (apply filter_In; split; [apply in_spellings; exact N2|apply starts_with_spec; exists r2; reflexivity]).
    destruct (filter _ _) as [|a [|b l]]; [destruct I1| |cbn [map]; eauto]. exfalso. destruct I1 as [->|[]], I2 as [I2|[]]. injection I2 as I2 _. apply NE. apply app_inv_head in I2. exact I2. }
  destruct T as (a & b & l & T). exists ParserError. subst w. unfold classify. rewrite F, D, C, T. reflexivity.
Qed.
Lemma classify_all_raises a w b e : classify p w = Raises e -> exists e', classify_all p (a ++ w :: b) = Raises e'.
Proof. intros H. induction a as [|x a IH]; cbn [app classify_all]; [rewrite H; cbn; eauto|]. destruct (classify p x); cbn; [|eauto]. destruct IH as (e' & ->). cbn. eauto. Qed.
Lemma classify_all_in a w b k ks : classify p w = Ok k -> classify_all p (a ++ w :: b) = Ok ks -> In k ks.
Proof.
  intros H. revert ks. induction a as [|x a IH]; intros ks E; cbn [app classify_all] in E.
  - rewrite H in E. cbn in E. destruct (classify_all p b); [|discriminate]. injection E as <-. left. auto.
  - destruct (classify p x); [|discriminate]. cbn in E. destruct (classify_all p (a ++ w :: b)) as [l|]; [|discriminate]. injection E as <-. right. apply IH. auto.
Qed.
Lemma follow_keeps o ws l ws' s : follow o ws = Some (l, ws') -> In (Unknown s) ws -> In (Unknown s : word) ws'.
Proof. unfold follow. destruct (o_act o), ws as [|[] ws]; intros [= <- <-]; auto; intros [I|I]; try discriminate; auto. Qed.
Lemma attached_keeps o name text ws l ws' s : attached_to p o name text ws = Some (l, ws') -> In (Unknown s) ws -> In (Unknown s : word) ws'.
Proof.
  revert o name l ws'. induction text as [|c text IH]; intros o name l ws'; cbn [attached_to].
  - destruct (takes_text o); [intros [= <- <-]; auto|]. destruct name as [|? [|[[] [] [] [] [] [] [] []] ?]]; discriminate.
  - destruct (takes_text o); [intros [= <- <-]; auto|]. assert (G : forall X, match find_option p ["-"%char; c] with None => None | Some o2 => match text with [] => option_map (fun r : list (opt * list str) * list word => ((o, []) :: fst r, snd r)) (follow o2 ws) | _ => option_map (fun r : list (opt * list str) * list word => ((o, []) :: fst r, snd r)) (attached_to p o2 ["-"%char; c] text ws) end end = X -> X = Some (l, ws') -> In (Unknown s) ws -> In (Unknown s) ws').
    { intros X <- E. destruct (find_option p ["-"%char; c]) as [o2|]; [|discriminate]. destruct text as [|c2 text].
      - destruct (follow o2 ws) as [[l2 w2]|] eqn:F; [|discriminate]. injection E as <- <-. cbn [snd]. apply (follow_keeps o2 ws l2); auto.
      - destruct (attached_to p o2 ["-"%char; c] (c2 :: text) ws) as [[l2 w2]|] eqn:F; [|discriminate]. injection E as <- <-. cbn [snd]. apply (IH o2 ["-"%char; c] l2); auto. }
    destruct name as [|? [|d ?]]; try (intros E; apply (G _ eq_refl E)). destruct d as [[] [] [] [] [] [] [] []]; try (intros E; apply (G _ eq_refl E)). discriminate.
Qed.
Lemma leading_skip (ws : list word) s : In (Unknown s) ws -> In (Unknown s) (skipn (length (leading ws)) ws).
Proof. induction ws as [|w ws IH]; intros I; [destruct I|]. destruct w; cbn; auto. apply IH. destruct I as [I|I]; [discriminate|exact I]. Qed.
Lemma take_all_extras l : forall st st', take_all read l st = Next st' -> s_extras st' = s_extras st.
Proof.
  induction l as [|[o args] l IH]; intros st st' E; cbn in E; [injection E as <-; auto|]. destruct (take read o args st) as [st1|] eqn:T; [|discriminate]. rewrite (IH _ _ E). clear -T. unfold take in T. destruct (excluded _ _); [discriminate|]. unfold set_value in T.
  destruct (o_act o); try (injection T as <-; reflexivity); try discriminate; (destruct args; [injection T as <-; reflexivity|]; destruct (convert read _ _); [injection T as <-; reflexivity|discriminate]).
Qed.
Lemma take_all_stop l : forall st r, take_all read l st = Stop r -> forall ns, r <> Parsed ns.
Proof.
  induction l as [|[o args] l IH]; intros st r E ns; cbn in E; [discriminate|]. destruct (take read o args st) as [st1|r1] eqn:T; [apply (IH _ _ E)|]. injection E as <-. clear -T. unfold take in T. destruct (excluded _ _); [congruence|]. unfold set_value in T.
  destruct (o_act o); try congruence; (destruct args; [congruence|]; destruct (convert read _ _); congruence).
Qed.
Lemma run_unknown fuel : forall ws ps st, (s_extras st <> [] \/ exists s, In (Unknown s) ws) -> forall ns, run fuel p ws ps st <> Parsed ns.
Proof.
  induction fuel as [|fuel IH]; intros ws ps st H ns; cbn [OptModel.run]; [discriminate|]. destruct ws as [|[a|o name attached|s] ws].
  - destruct H as [H|(s & [])]. destruct ps; [|discriminate]. destruct (s_extras st); [congruence|discriminate].
  - destruct (distribute_next (firstn (Nat.min (length ps) (length (leading (Arg a :: ws)))) ps) (leading (Arg a :: ws)) st) as (st' & rest & D & E). rewrite D. apply IH. cbn [s_extras]. rewrite E.
    destruct H as [H|(s & I)]; [left; intros X; apply app_eq_nil in X; tauto|right; exists s; apply leading_skip; exact I].
  - assert (K : forall l ws', match attached with Some t => attached_to p o name t ws | None => follow o ws end = Some (l, ws') -> forall s, In (Unknown s) ws -> In (Unknown s) ws').
    { intros l ws' E s I. destruct attached; [eapply attached_keeps; eauto|eapply follow_keeps; eauto]. }
    destruct (match attached with Some t => attached_to p o name t ws | None => follow o ws end) as [[l ws']|]; [|discriminate].
    destruct (take_all read l st) as [st'|r] eqn:T; [|apply (take_all_stop _ _ _ T)]. apply IH. rewrite (take_all_extras _ _ _ T). destruct H as [H|(s & [I|I])]; [auto|discriminate|right; exists s; apply (K l ws' eq_refl); exact I].
  - apply IH. left. cbn. intros X. apply app_eq_nil in X. destruct X. discriminate.
Qed.
Theorem stray_refused a w b ns : stray p w -> parse_words read p (a ++ w :: b) <> Parsed ns.
Proof.
  intros H. unfold parse_words. destruct (classify_all p (a ++ w :: b)) as [ks|] eqn:E; [|discriminate]. apply run_unknown. right. exists w. eapply classify_all_in; eauto. apply classify_stray. exact H.
Qed.
Theorem ambiguous_refused a w b : ambiguous p w -> parse_words read p (a ++ w :: b) = Refused.
Proof. intros H. destruct (classify_ambiguous w H) as (e & E). destruct (classify_all_raises a w b e E) as (e' & E'). unfold parse_words. rewrite E'. reflexivity. Qed.
End P.

(** *** the tables *)
Section T.
Context {V : Type}.
Notation opt := (opt V). Notation parser := (parser V).
Definition good_name (n : str) : bool :=
  match n with
  | ["-"%char; c] => negb (if ascii_dec c "-" then true else false) && negb (if ascii_dec c "=" then true else false)
  | "-"%char :: "-"%char :: _ :: _ => negb (has_char "=" n)
  | _ => false
  end.
Fixpoint distinct (l : list str) : bool := match l with [] => true | x :: l => negb (existsb (str_eqb x) l) && distinct l end.
Lemma distinct_nodup l : distinct l = true -> NoDup l.
Proof. induction l as [|x l IH]; intros H; [constructor|]. cbn in H. apply andb_true_iff in H. destruct H as [A B]. constructor; auto. intros I. assert (existsb (str_eqb x) l = true); [apply existsb_exists; exists x; split; auto; apply eqb_iff; auto|]. rewrite H in A. discriminate. Qed.
Lemma has_char_in c s : has_char c s = false -> ~ In c s.
Proof. intros H I. unfold has_char in H. assert (X : existsb (fun a => if ascii_dec a c then true else false) s = true); [|congruence]. apply existsb_exists. exists c. split; auto. destruct (ascii_dec c c); congruence. Qed.
Lemma good_spec n : good_name n = true -> short_name n \/ long_name n.
Proof.
  destruct n as [|a [|b r]]; [discriminate|destruct a as [[] [] [] [] [] [] [] []]; discriminate|].
  intros H. assert (A : a = "-"%char). { destruct a as [[] [] [] [] [] [] [] []]; try discriminate H; try reflexivity. } subst a. destruct r as [|c r].
  - left. exists b. split; [reflexivity|]. destruct b as [[] [] [] [] [] [] [] []]; first [discriminate H|split; discriminate].
  - right. assert (B : b = "-"%char). { destruct b as [[] [] [] [] [] [] [] []]; try discriminate H; try reflexivity. } subst b. exists c, r. split; auto. cbn [good_name] in H. apply negb_true_iff in H. apply has_char_in. exact H.
Qed.
Definition good_parser (p : parser) : bool := forallb (fun o => forallb good_name (o_names o)) (p_options p) && distinct (flat_map o_names (p_options p)) && distinct (map o_dest (p_options p) ++ map fst (p_positionals p)).
Definition good_option (p : parser) (o : opt) : Prop :=
  (forall d, o_against o = Some d -> d <> o_dest o /\ exists o', In o' (p_options p) /\ o_dest o' = d /\ (o_act o' = StoreTrue \/ o_act o' = CountUp) /\ o_against o' = Some (o_dest o)) /\
  (forall n, o_default o <> Some (VCount n)) /\ o_default o <> Some (VBool true).
Lemma good_proper p : good_parser p = true -> (forall o, In o (p_options p) -> good_option p o) -> (forall a d b, p_positionals p = a ++ (d, AtLeastOne) :: b -> forall d', ~ In (d', AtLeastOne) (a ++ b)) -> proper p.
Proof.
  intros G O M. unfold good_parser in G. apply andb_true_iff in G. destruct G as [G G3]. apply andb_true_iff in G. destruct G as [G1 G2]. constructor.
  - intros o n [I N]. rewrite forallb_forall in G1. specialize (G1 o I). rewrite forallb_forall in G1. apply good_spec. auto.
  - apply distinct_nodup. exact G2.
  - apply distinct_nodup. exact G3.
  - exact M.
  - intros o d I A. destruct (O o I) as (X & _). apply X. exact A.
  - intros o I A. destruct (O o I) as (X & _). destruct (X _ A). congruence.
  - intros o I n. destruct (O o I) as (_ & X & Y). auto.
Qed.
Ltac each := intros o I; cbn [In common_options p_options plot_parser info_parser col_parser aggregate_parser collapse_parser subset_parser eval_parser stats_parser app] in I; repeat (destruct I as [I|I]; [subst o; split; [intros d E; first [discriminate E|injection E as <-; split; [discriminate|]]|split; [intros n; discriminate|discriminate]]|]); [..|destruct I].
Lemma once_head (d : str) (r : list (str * many)) : (forall d', ~ In (d', AtLeastOne) r) -> forall a d1 b, (d, AtLeastOne) :: r = a ++ (d1, AtLeastOne) :: b -> forall d', ~ In (d', AtLeastOne) (a ++ b).
Proof. intros H a d1 b E d' I. destruct a as [|x a]; cbn in E; [injection E as _ <-; apply (H d'); exact I|]. injection E as _ E. apply (H d1). rewrite E. apply in_app_iff. right. left. auto. Qed.
Lemma once_none (ps : list (str * many)) : (forall d', ~ In (d', AtLeastOne) ps) -> forall a d1 b, ps = a ++ (d1, AtLeastOne) :: b -> forall d', ~ In (d', AtLeastOne) (a ++ b).
Proof. intros H a d1 b E. exfalso. apply (H d1). rewrite E. apply in_app_iff. right. left. auto. Qed.
Lemma once_second (x : str) m (d : str) : m <> AtLeastOne -> forall a d1 b, [(x, m); (d, AtLeastOne)] = a ++ (d1, AtLeastOne) :: b -> forall d', ~ In (d', AtLeastOne) (a ++ b).
Proof.
  intros M a d1 b E d' I. destruct a as [|y [|z a]]; cbn in E.
  - injection E as _ E _. congruence.
  - injection E as <- _ <-. destruct I as [I|[]]. congruence.
  - injection E as _ _ E. destruct a; discriminate.
Qed.
Ltac against := first [exists (mkOpt [lit "-q"; lit "--quiet"] (lit "quiet") StoreTrue KText (Some (VBool false)) (Some (lit "verbose"))); repeat split; auto; cbn; tauto |
  exists (mkOpt [lit "-v"; lit "--verbose"] (lit "verbose") CountUp KText (Some VNone) (Some (lit "quiet"))); repeat split; auto; cbn; tauto].
Theorem plot_proper types colours projections : proper (plot_parser V types colours projections).
Proof.
  apply good_proper; [vm_compute; reflexivity| |].
  - each; against.
  - apply once_head. intros d' [].
Qed.
Theorem info_proper : proper (info_parser V).
Proof. apply good_proper; [vm_compute; reflexivity|each; against|]. apply once_none. intros d' [E|[]]; discriminate. Qed.
Theorem col_proper : proper (col_parser V).
Proof. apply good_proper; [vm_compute; reflexivity|each; against|]. apply once_head. intros d' [E|[]]; discriminate. Qed.
Theorem aggregate_proper : proper (aggregate_parser V).
Proof. apply good_proper; [vm_compute; reflexivity|each; against|]. apply once_none. intros d' [E|[E|[]]]; discriminate. Qed.
Theorem collapse_proper : proper (collapse_parser V).
Proof. apply good_proper; [vm_compute; reflexivity|each; against|]. apply once_second. discriminate. Qed.
Theorem subset_proper : proper (subset_parser V).
Proof. apply good_proper; [vm_compute; reflexivity|each; against|]. apply once_none. intros d' [E|[E|[]]]; discriminate. Qed.
Theorem eval_proper : proper (eval_parser V).
Proof. apply good_proper; [vm_compute; reflexivity|each; against|]. apply once_head. intros d' [E|[E|[]]]; discriminate. Qed.
Theorem stats_proper : proper (stats_parser V).
Proof. apply good_proper; [vm_compute; reflexivity|each; against|]. apply once_head. intros d' []. Qed.
End T.
