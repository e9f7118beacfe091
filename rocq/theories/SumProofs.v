From Coq Require Import String.
From Verif Require Import Base PyStr QBase MtModel MtSpec Mt3Proofs AeroModel SumModel SumSpec.
From Coq Require Import List Ascii Lia.
Import ListNotations.
Open Scope string_scope. Open Scope list_scope. Open Scope nat_scope. Notation length := List.length.

Section P.
Variable U : str -> option unit.
Variable unit_text : unit -> str.
Variable number_end date_end : option Q -> str.
Notation refresh := (refresh U). Notation refresh_all := (refresh_all U). Notation post_process := (post_process U).
Notation meta_summary := (meta_summary unit_text number_end date_end). Notation coord_summaries := (coord_summaries U unit_text number_end date_end). Notation summary := (summary U unit_text number_end date_end).
Notation about := (about unit_text number_end date_end). Notation about_coord := (about_coord U unit_text number_end date_end). Notation described := (described U unit_text number_end date_end).
Notation range_now := (range_now U). Notation has_range := (has_range U).

Lemma same_refl t : same_but_range t t.
Proof. repeat split. Qed.
Lemma same_trans a b c : same_but_range a b -> same_but_range b c -> same_but_range a c.
Proof. unfold same_but_range. intuition congruence. Qed.
Lemma update_same l l' e : update_range U l = (l', e) -> l_data l' = l_data l /\ l_flat l' = l_flat l /\ l_ordered l' = l_ordered l /\ m_name (l_meta l') = m_name (l_meta l) /\ m_std (l_meta l') = m_std (l_meta l) /\ m_long (l_meta l') = m_long (l_meta l) /\ m_units (l_meta l') = m_units (l_meta l) /\ m_history (l_meta l') = m_history (l_meta l).
Proof.
  unfold update_range. cbv zeta. destruct (l_data l) as [[|x v]|[|x v]] eqn:D; [..|destruct (match units_eq U _ _ with Ok b => b | Raises _ => false end)]; intros [= <- <-]; cbn; rewrite ?D; repeat split.
Qed.
Lemma refresh_same t t' e : refresh t = (t', e) -> same_but_range t t'.
Proof.
  unfold SumModel.refresh. destruct (update_range U (t_lazy t)) as [l e0] eqn:E. intros [= <- <-]. apply update_same in E. unfold same_but_range, t_meta. cbn [t_lazy t_shape t_missing t_misc]. intuition congruence.
Qed.
Lemma refresh_ok t : has_range t -> exists t', refresh t = (t', None) /\ range_now t (m_range (t_meta t')).
Proof.
  intros [NE ND]. unfold SumModel.refresh, range_now, t_meta in *. unfold values in NE. pose proof (standard_iff U (m_units (l_meta (t_lazy t)))) as ST.
  destruct (l_data (t_lazy t)) as [x|x] eqn:D.
  - destruct (range_numbers U (t_lazy t) x D) as (l' & E & _ & _ & _ & R1 & R2). rewrite E. eexists. split; [reflexivity|]. cbn [t_lazy]. split; auto.
    destruct (match units_eq U (m_units (l_meta (t_lazy t))) (UUnit cis_standard_time_unit) with Ok b => b | Raises _ => false end) eqn:S.
    + destruct (R2 NE (proj1 ST eq_refl)) as (a & b & R & L & G). exists a, b. repeat split; auto. left. split; [apply ST; reflexivity|exact R].
    + assert (NS : ~ standard_time U (m_units (l_meta (t_lazy t)))) by (intros H; apply ST in H; discriminate). destruct (R1 NE NS) as (a & b & R & L & G). exists a, b. auto 6.
  - unfold update_range. cbv zeta. rewrite D. specialize (ND x eq_refl). destruct (match units_eq U (m_units (l_meta (t_lazy t))) (UUnit cis_standard_time_unit) with Ok b => b | Raises _ => false end) eqn:S; [exfalso; apply ND, ST; reflexivity|].
    destruct x as [|o x]; [congruence|]. eexists. split; [reflexivity|]. split; [discriminate|]. split; [exact ND|]. eexists _, _. split; [apply min_least|]. split; [apply max_greatest|reflexivity].
Qed.
Lemma refresh_twice t t' : refresh t = (t', None) -> refresh t' = (t', None).
Proof.
  unfold SumModel.refresh. destruct t as [[m d o f] sh mi ms]. cbn [t_lazy t_shape t_missing t_misc]. destruct (update_range U (mkLazy m d o f)) as [l e0] eqn:E. intros [= <- ->]. cbn [t_lazy t_shape t_missing t_misc].
  assert (F : update_range U l = (l, None)); [|rewrite F; reflexivity]. revert E. unfold update_range. cbv zeta. cbn [l_meta l_data].
  destruct d as [[|x v]|[|x v]]; [..|destruct (match units_eq U _ _ with Ok b => b | Raises _ => false end) eqn:S; [discriminate|]]; intros [= <-]; cbn [l_data put_range with_meta l_meta m_units]; try reflexivity. rewrite S. reflexivity.
Qed.
Lemma range_now_told t r : range_now t r -> told r.
Proof. unfold range_now. destruct (l_data (t_lazy t)); [intros (_ & a & b & _ & _ & [[_ ->]|[_ ->]])|intros (_ & _ & a & b & _ & _ & ->)]; split; discriminate. Qed.
Lemma of_lines_app a b : of_lines (a ++ b) = of_lines a ++ of_lines b.
Proof. induction a as [|s a IH]; auto. cbn [app of_lines]. rewrite IH, <- !app_assoc. reflexivity. Qed.
Lemma lit_app a b : lit (a ++ b) = lit a ++ lit b.
Proof. unfold lit. induction a; cbn; congruence. Qed.
Lemma letter_iff c : letter c = true <-> cased c.
Proof. unfold letter, cased. rewrite Bool.negb_true_iff. split; [intros H E; apply Ascii.eqb_eq in E; rewrite E in H; discriminate|intros H; destruct (Ascii.eqb (lower_char c) (upper_char c)) eqn:E; [exfalso; apply H, Ascii.eqb_eq, E|reflexivity]]. Qed.
Lemma title_at b s i c : nth_error s i = Some c -> nth_error (title_after b s) i = Some (if match i with O => b | S j => match nth_error s j with Some d => letter d | None => false end end then lower_char c else upper_char c).
Proof.
  revert b i. induction s as [|a s IH]; intros b [|i] H; try discriminate; cbn [nth_error title_after] in *; [injection H as ->; reflexivity|]. rewrite (IH _ _ H). destruct i; reflexivity.
Qed.
Lemma title_ok s : titled s (title s).
Proof.
  split; [unfold title; generalize false; induction s; cbn; auto|]. intros i c H. unfold title. rewrite (title_at _ _ _ _ H). split.
  - intros (j & b & -> & J & C). rewrite J. rewrite (proj2 (letter_iff b) C). reflexivity.
  - intros N. destruct i as [|j]; [reflexivity|]. destruct (nth_error s j) as [b|] eqn:J; [|reflexivity]. destruct (letter b) eqn:L; [|reflexivity]. exfalso. apply N. exists j, b. rewrite letter_iff in L. auto.
Qed.
Lemma commas_glue l : commas l = glue (lit ", ") l.
Proof. induction l as [|a [|b l] IH]; auto. cbn [commas glue] in *. rewrite IH. reflexivity. Qed.
Lemma shape_ok l : shape_read l (shape_text l).
Proof. destruct l as [|a [|b l]]; [right; split; [discriminate|reflexivity]|left; exists a; auto|right; split; [discriminate|]]. unfold shape_text. rewrite commas_glue. reflexivity. Qed.
Lemma attributes_ok n l : Forall2 (attribute n) l (map (fun kv : str * str => blank (n + 2) (title (fst kv) ++ lit " = " ++ snd kv)) l).
Proof. induction l; constructor; auto. eexists. split; [apply title_ok|reflexivity]. Qed.
Lemma meta_ok n t : told (m_range (t_meta t)) -> exists ls, meta_summary n t = Ok (of_lines ls) /\ about n t (m_range (t_meta t)) ls.
Proof.
  intros [T1 T2]. unfold SumModel.meta_summary.
  assert (R : exists e, range_text number_end date_end (m_range (t_meta t)) = Ok e /\ ends_read number_end date_end (m_range (t_meta t)) e).
  { destruct (m_range (t_meta t)) as [| |a b|a b]; try congruence; eexists; (split; [reflexivity|]); exists a, b; auto. }
  destruct R as (e & -> & RE). cbn [bind]. eexists. split; [|exists (std_text (m_std (t_meta t))), (units_text unit_text (m_units (t_meta t))), e, (map (fun kv : str * str => blank (n + 2) (title (fst kv) ++ lit " = " ++ snd kv)) (t_misc t)); split; [apply attributes_ok|]; split; [destruct (m_std (t_meta t)); [left|right]; auto|]; split; [destruct (m_units (t_meta t)); reflexivity|]; split; [exact RE|reflexivity]].
  f_equal. rewrite of_lines_app. unfold entry, blank. cbn [of_lines]. unfold pad, nl.
  assert (M : match t_misc t with [] => [] | l => repeat " "%char n ++ lit "Misc attributes: " ++ ["010"%char] ++ flat_map (fun kv : str * str => repeat " "%char (n + 2) ++ title (fst kv) ++ lit " = " ++ snd kv ++ ["010"%char]) l end =
    of_lines (match t_misc t with [] => [] | _ => (repeat " "%char n ++ lit "Misc attributes: ") :: map (fun kv : str * str => repeat " "%char (n + 2) ++ title (fst kv) ++ lit " = " ++ snd kv) (t_misc t) end)).
  { destruct (t_misc t) as [|x l]; auto. cbn [of_lines]. rewrite <- !app_assoc. do 3 f_equal. generalize (x :: l). clear. induction l as [|y l IH]; auto. cbn [flat_map map of_lines]. rewrite IH, <- !app_assoc. reflexivity. }
  rewrite M. rewrite <- !app_assoc. reflexivity.
Qed.
Lemma name_ok t : goes_by (t_meta t) (item_name t).
Proof.
  unfold item_name, name_of. fold (t_meta t). destruct (m_std (t_meta t)) as [[|a s]|] eqn:S.
  - destruct (m_long (t_meta t)) as [|b l] eqn:L; [destruct (m_name (t_meta t)) as [|c v] eqn:N; [apply by_none; auto|rewrite <- N; apply by_variable; auto; congruence]|rewrite <- L; apply by_long; auto; congruence].
  - apply by_standard; [exact S|discriminate].
  - destruct (m_long (t_meta t)) as [|b l] eqn:L; [destruct (m_name (t_meta t)) as [|c v] eqn:N; [apply by_none; auto|rewrite <- N; apply by_variable; auto; congruence]|rewrite <- L; apply by_long; auto; congruence].
Qed.
Lemma about_same n t t' r ls : same_but_range t t' -> about n t' r ls -> about n t r ls.
Proof.
  intros (_ & _ & _ & _ & M & X & N & S & L & UU & H) (std & u & e & at_ & AT & A & B & C & ->). exists std, u, e, at_. rewrite X in AT. rewrite S in A. rewrite UU in B. rewrite M, X, L, H. auto.
Qed.
Lemma goes_same t t' s : same_but_range t t' -> goes_by (t_meta t') s -> goes_by (t_meta t) s.
Proof.
  intros (_ & _ & _ & _ & _ & _ & N & S & L & _) G. destruct G as [s A B|A B|A B C|A B C]; rewrite ?N, ?S, ?L in *; [apply by_standard|apply by_long|apply by_variable|apply by_none]; auto.
Qed.
Lemma range_same t t' r : same_but_range t t' -> range_now t' r <-> range_now t r.
Proof. intros (D & _ & _ & _ & _ & _ & _ & _ & _ & UU & _). unfold range_now. rewrite D, UU. tauto. Qed.
Lemma has_same t t' : same_but_range t t' -> has_range t -> has_range t'.
Proof. intros (D & _ & _ & _ & _ & _ & _ & _ & _ & UU & _). unfold has_range, values. rewrite D, UU. tauto. Qed.
Lemma coord_same t t' l : same_but_range t t' -> about_coord t' l -> about_coord t l.
Proof. intros S (name & r & ls & A & B & C & ->). exists name, r, ls. split; [exact (goes_same _ _ _ S A)|]. split; [exact (proj1 (range_same _ _ _ S) B)|]. split; [exact (about_same _ _ _ _ _ S C)|reflexivity]. Qed.
Lemma coords_ok l : Forall has_range l -> exists l' cs, coord_summaries l = (l', Ok (of_lines (concat cs))) /\ Forall2 about_coord l cs /\ Forall2 same_but_range l l' /\ Forall (fun t => refresh t = (t, None)) l'.
Proof.
  induction 1 as [|t l H HS (l' & cs & E & A & S & F)]; [exists [], []; auto|]. cbn [SumModel.coord_summaries]. destruct (refresh_ok t H) as (t' & R & N). rewrite R. pose proof (refresh_same _ _ _ R) as SA.
  destruct (meta_ok 10 t' (range_now_told _ _ N)) as (ls & M & AB). rewrite M, E. cbn [bind]. exists (t' :: l'), ((blank 7 (item_name t') :: ls) :: cs). split.
  - do 2 f_equal. cbn [concat]. rewrite of_lines_app. cbn [of_lines]. unfold blank, pad, nl. rewrite <- !app_assoc. reflexivity.
  - split; [constructor; [|exact A]|split; constructor; auto; eapply refresh_twice; eauto].
    exists (item_name t'), (m_range (t_meta t')), ls. split; [apply (goes_same t t' _ SA), name_ok|]. split; [exact N|]. split; [apply (about_same _ _ _ _ _ SA AB)|reflexivity].
Qed.
Lemma refresh_all_ok l : Forall has_range l -> exists l', refresh_all l = (l', None) /\ Forall2 same_but_range l l' /\ Forall (fun t => refresh t = (t, None)) l'.
Proof.
  induction 1 as [|t l H HS (l' & E & S & F)]; [exists []; auto|]. cbn [SumModel.refresh_all]. destruct (refresh_ok t H) as (t' & R & N). rewrite R, E. exists (t' :: l'). split; auto. split; constructor; auto; [eapply refresh_same|eapply refresh_twice]; eauto.
Qed.
Lemma refresh_all_fixed l : Forall (fun t => refresh t = (t, None)) l -> refresh_all l = (l, None).
Proof. induction 1 as [|t l H HS IH]; auto. cbn [SumModel.refresh_all]. rewrite H, IH. reflexivity. Qed.
Lemma coords_fixed l l' r : Forall (fun t => refresh t = (t, None)) l -> coord_summaries l = (l', r) -> l' = l.
Proof.
  intros F. revert l' r. induction F as [|t l H HS IH]; cbn [SumModel.coord_summaries]; intros l' r E; [injection E as <- _; auto|]. rewrite H in E. destruct (meta_summary 10 t); [|injection E as <- _; auto].
  destruct (coord_summaries l) as [l1 r1] eqn:E1. injection E as <- _. f_equal. eapply IH. reflexivity.
Qed.
Lemma all_same l l' : Forall2 same_but_range l l' -> Forall has_range l -> Forall has_range l'.
Proof. induction 1 as [|a b l l' S SS IH]; intros H; [constructor|]. inversion H; subst. constructor; auto. eapply has_same; eauto. Qed.
Lemma all_about l l' cs : Forall2 same_but_range l l' -> Forall2 about_coord l' cs -> Forall2 about_coord l cs.
Proof. intros S. revert cs. induction S as [|a b l l' S SS IH]; intros cs A; inversion A; subst; constructor; auto. eapply coord_same; eauto. Qed.
Lemma all_trans l l' l'' : Forall2 same_but_range l l' -> Forall2 same_but_range l' l'' -> Forall2 same_but_range l l''.
Proof. intros S. revert l''. induction S as [|a b l l' S SS IH]; intros l'' A; inversion A; subst; constructor; auto. eapply same_trans; eauto. Qed.
Lemma count_ok t : unmasked (values t) (count t).
Proof. unfold count, values, cells. destruct (l_data (t_lazy t)) as [l|l]; (induction l as [|[x|] l IH]; cbn; [constructor|constructor|constructor]; exact IH). Qed.
Theorem summary_ok d : has_range (s_item d) -> Forall has_range (s_coords d) -> told (m_range (t_meta (s_item d))) ->
  exists d' text, summary false d = (d', Ok text) /\ described d (m_range (t_meta (s_item d))) text /\ same_but_range (s_item d) (s_item d') /\ Forall2 same_but_range (s_coords d) (s_coords d') /\
    range_now (s_item d) (m_range (t_meta (s_item d'))) /\ refresh (s_item d') = (s_item d', None) /\ Forall (fun t => refresh t = (t, None)) (s_coords d').
Proof.
  intros H HC T. unfold SumModel.summary. destruct (meta_ok 5 (s_item d) T) as (ls & M & AB). rewrite M. unfold SumModel.post_process. destruct (refresh_all_ok _ HC) as (cs1 & E1 & S1 & F1). rewrite E1.
  destruct (refresh_ok _ H) as (t' & R & N). rewrite R. cbn [s_coords s_item]. destruct (coords_ok cs1 (all_same _ _ S1 HC)) as (cs2 & cl & E2 & A2 & S2 & F2). rewrite E2. cbn [bind]. eexists _, _. split; [reflexivity|]. cbn [s_item s_coords].
  split; [|split; [eapply refresh_same; eauto|split; [eapply all_trans; eauto|split; [exact N|split; [eapply refresh_twice; eauto|exact F2]]]]].
  exists (item_name (s_item d)), (units_text unit_text (m_units (t_meta (s_item d)))), (count (s_item d)), (shape_text (t_shape (s_item d))), ls, cl. split; [apply shape_ok|]. split; [apply name_ok|]. split; [destruct (m_units _); reflexivity|]. split; [apply count_ok|]. split; [exact AB|]. split; [eapply all_about; eauto|].
  rewrite !of_lines_app. unfold header, entry, blank. cbn [of_lines]. unfold nl. rewrite <- !app_assoc. reflexivity.
Qed.
Theorem summary_again d d1 t1 : has_range (s_item d) -> Forall has_range (s_coords d) -> summary false d = (d1, Ok t1) ->
  exists t2, summary false d1 = (d1, Ok t2) /\ described d1 (m_range (t_meta (s_item d1))) t2 /\ range_now (s_item d1) (m_range (t_meta (s_item d1))) /\ (refresh (s_item d) = (s_item d, None) -> t2 = t1).
Proof.
  intros H HC E. assert (T : told (m_range (t_meta (s_item d)))).
  { unfold SumModel.summary in E. destruct (meta_summary 5 (s_item d)) eqn:M; [|discriminate]. unfold SumModel.meta_summary, range_text in M. destruct (m_range (t_meta (s_item d))); try discriminate; split; discriminate. }
  destruct (summary_ok d H HC T) as (d' & text & E' & D & S & SC & N & R & RC). rewrite E in E'. injection E' as <- <-.
  pose proof (has_same _ _ S H) as H1. pose proof (all_same _ _ SC HC) as HC1. assert (N1 : range_now (s_item d1) (m_range (t_meta (s_item d1)))) by (apply (range_same _ _ _ S); exact N).
  destruct (summary_ok d1 H1 HC1 (range_now_told _ _ N1)) as (d2 & t2 & E2 & D2 & _). assert (d2 = d1).
  { unfold SumModel.summary in E2. destruct (meta_summary 5 (s_item d1)); [|discriminate]. unfold SumModel.post_process in E2. rewrite (refresh_all_fixed _ RC), R in E2. cbn [s_coords s_item] in E2. destruct (coord_summaries (s_coords d1)) as [cs r] eqn:C. apply (coords_fixed _ _ _ RC) in C. subst cs. injection E2 as E2 _. rewrite <- E2. clear. destruct d1; reflexivity. }
  subst d2. exists t2. split; [exact E2|]. split; [exact D2|]. split; [exact N1|]. intros F.
  (* the data have their range already *)
  revert E E2. unfold SumModel.summary. destruct (meta_summary 5 (s_item d)) as [s|] eqn:M; [|discriminate]. unfold SumModel.post_process. destruct (refresh_all_ok _ HC) as (cs1 & E1 & S1 & F1). rewrite E1, F. cbn [s_coords s_item].
  destruct (coord_summaries cs1) as [cs2 r] eqn:C. intros E. assert (cs2 = cs1) by (eapply coords_fixed; eauto). subst cs2. injection E as <- E. cbn [s_item s_coords]. rewrite M, (refresh_all_fixed _ F1), F. cbn [s_item s_coords]. rewrite C.
  unfold header. cbn [s_item]. intros [= E2]. fold (header unit_text d) in *. unfold header in E. congruence.
Qed.
Theorem summary_fails d : (m_range (t_meta (s_item d)) = NoRange -> summary false d = (d, Raises TypeError)) /\ (m_range (t_meta (s_item d)) = EmptyRange -> summary false d = (d, Raises IndexError)).
Proof. unfold SumModel.summary, SumModel.meta_summary, range_text. split; intros ->; reflexivity. Qed.
(** one that has no values, the data or a coordinate *)
Lemma coord_empty_fails l : (exists c, In c l /\ values c = []) -> forall l' t, coord_summaries l <> (l', Ok t).
Proof.
  induction l as [|c l IH]; intros (x & I & V) l' t; [destruct I|]. cbn [SumModel.coord_summaries]. destruct (refresh c) as [c' [e|]] eqn:R; [discriminate|]. destruct (meta_summary 10 c') as [s|] eqn:M; [|discriminate]. destruct I as [->|I].
  - exfalso. clear IH. assert (Q : m_range (t_meta c') = EmptyRange).
    { clear M. revert R. unfold SumModel.refresh, update_range. unfold values in V. cbv zeta. destruct (l_data (t_lazy x)) as [v|v]; subst v; intros [= <-]; reflexivity. }
    unfold SumModel.meta_summary in M. rewrite Q in M. discriminate.
  - destruct (coord_summaries l) as [l1 [r|e]] eqn:E; [|discriminate]. exfalso. apply (IH (ex_intro _ x (conj I V)) l1 r). reflexivity.
Qed.
Lemma refresh_all_empty l l' : refresh_all l = (l', None) -> (exists c, In c l /\ values c = []) -> exists c, In c l' /\ values c = [].
Proof.
  revert l'. induction l as [|c l IH]; intros l' E (x & I & V); [destruct I|]. cbn [SumModel.refresh_all] in E. destruct (refresh c) as [c' [e|]] eqn:R; [discriminate|]. destruct (refresh_all l) as [l1 e1]. injection E as <- ->. destruct I as [->|I].
  - exists c'. split; [left; auto|]. apply refresh_same in R. destruct R as (D & _). unfold values in *. rewrite D. exact V.
  - destruct (IH l1 eq_refl (ex_intro _ x (conj I V))) as (y & J & W). exists y. split; [right; auto|exact W].
Qed.
Theorem summary_empty d d' t : (exists c, In c (s_coords d) /\ values c = []) -> summary false d <> (d', Ok t).
Proof.
  intros H. unfold SumModel.summary. destruct (meta_summary 5 (s_item d)); [|discriminate]. unfold SumModel.post_process. destruct (refresh_all (s_coords d)) as [cs [e|]] eqn:R; [discriminate|]. pose proof (refresh_all_empty _ _ R H) as HE.
  destruct (refresh (s_item d)) as [x [e|]]; [discriminate|]. cbn [s_coords s_item]. destruct (coord_summaries cs) as [c2 [r|]] eqn:C; [|discriminate]. exfalso. apply (coord_empty_fails cs HE c2 r C).
Qed.
Theorem summary_short d : exists name u, goes_by (t_meta (s_item d)) name /\ units_read unit_text (m_units (t_meta (s_item d))) u /\ summary true d = (d, Ok (of_lines [lit "Ungridded data: " ++ name ++ lit " / (" ++ u ++ lit ") "])) /\
  repr_of unit_text d = lit "<cis 'UngriddedData' of " ++ of_lines [lit "Ungridded data: " ++ name ++ lit " / (" ++ u ++ lit ") "] ++ lit ">".
Proof.
  exists (item_name (s_item d)), (units_text unit_text (m_units (t_meta (s_item d)))). split; [apply name_ok|]. split; [destruct (m_units _); reflexivity|]. unfold SumModel.summary, repr_of, header. cbn [of_lines]. unfold nl. rewrite <- !app_assoc. split; reflexivity.
Qed.
Theorem describes d : has_range (s_item d) -> Forall has_range (s_coords d) -> told (m_range (t_meta (s_item d))) ->
  exists d' text, summary false d = (d', Ok text) /\ described d (m_range (t_meta (s_item d))) text /\ same_but_range (s_item d) (s_item d') /\ Forall2 same_but_range (s_coords d) (s_coords d') /\ range_now (s_item d) (m_range (t_meta (s_item d'))).
Proof. intros H HC T. destruct (summary_ok d H HC T) as (d' & t & E & D & S & SC & N & _). exists d', t. auto. Qed.
Theorem again d d1 t1 : has_range (s_item d) -> Forall has_range (s_coords d) -> summary false d = (d1, Ok t1) ->
  exists t2, summary false d1 = (d1, Ok t2) /\ described d1 (m_range (t_meta (s_item d1))) t2 /\ range_now (s_item d1) (m_range (t_meta (s_item d1))) /\ (s_item d1 = s_item d -> t2 = t1).
Proof.
  intros H HC E. destruct (summary_again d d1 t1 H HC E) as (t2 & A & B & C & D). exists t2. repeat (split; auto). intros Q. apply D.
  destruct (summary false d1) eqn:X. injection A as -> ->. assert (T : told (m_range (t_meta (s_item d)))).
  { unfold SumModel.summary in E. destruct (meta_summary 5 (s_item d)) eqn:M; [|discriminate]. unfold SumModel.meta_summary, range_text in M. destruct (m_range (t_meta (s_item d))); try discriminate; split; discriminate. }
  destruct (summary_ok d H HC T) as (d' & text & E' & _ & _ & _ & _ & R & _). rewrite E in E'. injection E' as <- _. rewrite Q in R. exact R.
Qed.
End P.

Lemma no_standard s : ~ standard_time (fun _ => None) (UText s).
Proof. intros (b & H & _). discriminate. Qed.
Lemma example_ranges : has_range (fun _ => None) (s_item example) /\ Forall (has_range (fun _ => None)) (s_coords example).
Proof. split; [|constructor; [|constructor]]; (split; [discriminate|intros x _; apply no_standard]). Qed.
Lemma example_ok : has_range (fun _ => None) (s_item example) /\ Forall (has_range (fun _ => None)) (s_coords example) /\ told (m_range (t_meta (s_item example))) /\ s_coords example <> [] /\
  exists d text, summary (fun _ => None) (fun _ => []) example_end example_end false example = (d, Ok text) /\ text = of_lines (map lit
    ["Ungridded data: smoke / (K) "; "     Shape = (2,)"; ""; "     Total number of points = 2"; "     Number of non-masked points = 1";
     "     Long name = smoke"; "     Standard name = None"; "     Units = K"; "     Missing value = None"; "     Range = (1, 1)"; "     History = h"; "     Misc attributes: "; "       Note_A = b";
     "     Coordinates: "; "       latitude"; "          Long name = "; "          Standard name = latitude"; "          Units = degrees"; "          Missing value = None"; "          Range = (3, 7)"; "          History = "])%string.
Proof.
  destruct example_ranges as [A B]. split; [exact A|]. split; [exact B|]. split; [split; discriminate|]. split; [discriminate|]. eexists _, _. split; [vm_compute; reflexivity|]. vm_compute. reflexivity.
Qed.
Lemma example_unset_ok : m_range (t_meta (s_item example_unset)) = NoRange /\ exists c, In c (s_coords example_unset) /\ values c = [].
Proof. split; [reflexivity|]. eexists. split; [left; reflexivity|reflexivity]. Qed.
Lemma stale : exists U unit_text number_end date_end d v d1 d2 t1 t2,
  has_range U (s_item d) /\ Forall (has_range U) (s_coords d) /\ range_now U (s_item d) (m_range (t_meta (s_item d))) /\
  has_range U (s_item (put_values d [2] v)) /\ ~ range_now U (s_item (put_values d [2] v)) (m_range (t_meta (s_item (put_values d [2] v)))) /\
  summary U unit_text number_end date_end false (put_values d [2] v) = (d1, Ok t1) /\ summary U unit_text number_end date_end false d1 = (d2, Ok t2) /\ t1 <> t2 /\
  described U unit_text number_end date_end (put_values d [2] v) (m_range (t_meta (s_item d))) t1.
Proof.
  set (U := fun _ : str => @None unit). set (ut := fun _ : unit => [] : str). set (v := Nums [Some (5 # 1); Some (7 # 1)]). set (p := put_values example [2] v).
  destruct example_ranges as [A B]. assert (H : has_range U (s_item p)) by (split; [discriminate|intros x _; apply no_standard]).
  destruct (describes U ut example_end example_end p H B) as (d1 & t1 & E1 & D1 & _); [split; discriminate|].
  destruct (again U ut example_end example_end p d1 t1 H B E1) as (t2 & E2 & _).
  exists U, ut, example_end, example_end, example, v, d1, d1, t1, t2. split; [exact A|]. split; [exact B|]. split.
  { split; [discriminate|]. exists (Some (1 # 1)), (Some (1 # 1)). split; [|split; [|right; split; [apply no_standard|reflexivity]]]; (split; [left; reflexivity|]); intros y [[= <-]|[|[]]]; try discriminate; apply Qle_refl. }
  split; [exact H|]. split.
  { intros (_ & a & b & La & _ & [[_ R]|[_ R]]); [discriminate|]. injection R as <- <-. destruct La as [La _]. destruct La as [[=]|[[=]|[]]]. }
  split; [exact E1|]. split; [exact E2|]. split; [|exact D1]. intros <-. clear D1. vm_compute in E1. injection E1 as <- <-. vm_compute in E2. discriminate.
Qed.
