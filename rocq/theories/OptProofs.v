From Coq Require Import String.
From Verif Require Import Base PyStr FileListModel FileListProofs ProdModel ProdProofs OptModel OptSpec.
From Coq Require Import List Ascii Lia.
Import ListNotations.
Open Scope list_scope. Open Scope nat_scope. Notation length := List.length.

Section P.
Context {V : Type}.
Variable read : kind -> str -> option V.
Notation opt := (opt V). Notation parser := (parser V). Notation word := (word V). Notation val := (val V). Notation state := (state V). Notation take := (take read). Notation run := (run read). Notation setting := (@setting V).
Variable p : parser.
Hypothesis PR : proper p.

Lemma eqb_iff a b : str_eqb a b = true <-> a = b.
Proof. unfold str_eqb. destruct (str_eq_dec a b); split; congruence. Qed.
Lemma in_spellings n (o : opt) : In (n, o) (spellings p) <-> option_named p n o.
Proof.
  unfold spellings, option_named. rewrite in_flat_map. split.
  - intros (o' & A & B). apply in_map_iff in B. destruct B as (n' & B & C). injection B as -> ->. auto.
  - intros [A B]. exists o. split; auto. apply in_map_iff. eauto.
Qed.
Lemma fst_spellings : map fst (spellings p) = flat_map (o_names) (p_options p).
Proof. unfold spellings. induction (p_options p) as [|o l IH]; auto. simpl. rewrite map_app, IH, map_map. f_equal. apply map_id. Qed.
Lemma nodup_key {A B} (l : list (A * B)) k a b : NoDup (map fst l) -> In (k, a) l -> In (k, b) l -> a = b.
Proof.
  induction l as [|[x y] l IH]; intros N HA HB; [destruct HA|]. inversion N; subst. destruct HA as [E|HA], HB as [E'|HB]; try congruence; auto.
  - injection E as -> ->. exfalso. apply H1. apply in_map_iff. exists (k, b). auto.
  - injection E' as -> ->. exfalso. apply H1. apply in_map_iff. exists (k, a). auto.
Qed.
Lemma named_unique n o o' : option_named p n o -> option_named p n o' -> o' = o.
Proof. intros A B. apply in_spellings in A, B. refine (nodup_key (spellings p) n _ _ _ B A). rewrite fst_spellings. apply (proper_distinct _ PR). Qed.
Lemma find_some_iff n o : find_option p n = Some o <-> option_named p n o.
Proof.
  unfold find_option. split.
  - destruct (find _ _) as [[n' o']|] eqn:E; [|discriminate]. intros [= <-]. apply find_some in E. destruct E as [I E]. apply eqb_iff in E. cbn in E. subst. apply in_spellings. exact I.
  - intros H. destruct (find (fun e : str * opt => str_eqb (fst e) n) (spellings p)) as [[n' o']|] eqn:E.
    + apply find_some in E. destruct E as [I E]. apply eqb_iff in E. cbn in E. subst. apply in_spellings in I. cbn. f_equal. apply (named_unique n); auto.
    + exfalso. apply in_spellings in H. apply (find_none _ _ E) in H. cbn in H. assert (str_eqb n n = true) by (apply eqb_iff; auto). congruence.
Qed.
Lemma find_none_iff n : find_option p n = None <-> forall o, ~ option_named p n o.
Proof.
  split; intros H.
  - intros o N. apply find_some_iff in N. congruence.
  - destruct (find_option p n) eqn:E; auto. apply find_some_iff in E. destruct (H _ E).
Qed.
Lemma cut_none s : ~ In "="%char s -> cut_eq s = None.
Proof. induction s as [|c s IH]; intros H; auto. simpl. destruct (ascii_dec c "="); [exfalso; apply H; left; auto|]. rewrite IH; auto. intros I. apply H. right. auto. Qed.
Lemma cut_at n t : ~ In "="%char n -> cut_eq (n ++ "="%char :: t) = Some (n, t).
Proof. induction n as [|c n IH]; intros H; auto. simpl. destruct (ascii_dec c "="); [exfalso; apply H; left; auto|]. rewrite IH; auto. intros I. apply H. right. auto. Qed.
Lemma named_no_eq n o : option_named p n o -> ~ In "="%char n.
Proof. intros H. destruct (proper_names _ PR _ _ H) as [(c & -> & C & D)|(c & r & -> & E)]; auto. intros [E|[E|[]]]; congruence. Qed.
Lemma called_no_eq n o : called p n o -> ~ In "="%char n.
Proof. intros [H|(L & _)]; [eapply named_no_eq; eauto|destruct L as (c & r & -> & E); auto]. Qed.
Lemma filter_one {A} (f : A -> bool) l x : NoDup l -> In x l -> f x = true -> (forall y, In y l -> f y = true -> y = x) -> filter f l = [x].
Proof.
  induction l as [|a l IH]; intros N I F U; [destruct I|]. inversion N; subst. simpl. destruct (f a) eqn:E.
  - rewrite (U a (or_introl eq_refl) E) in *. f_equal. destruct (filter f l) as [|b m] eqn:G; auto. exfalso. assert (B : In b (filter f l)) by (rewrite G; left; auto). apply filter_In in B. destruct B as [B C]. rewrite (U b (or_intror B) C) in B. auto.
  - destruct I as [->|I]; [congruence|]. apply IH; auto. intros; apply U; auto. right; auto.
Qed.
Lemma spellings_nodup : NoDup (spellings p).
Proof. apply (NoDup_map_inv fst). rewrite fst_spellings. apply (proper_distinct _ PR). Qed.
(** abbreviations *)
Lemma tuples_long n attached o w : long_name n -> (w = n /\ attached = None \/ exists t, w = n ++ "="%char :: t /\ attached = Some t) ->
  (exists rest, option_named p (n ++ rest) o /\ forall o' rest', option_named p (n ++ rest') o' -> rest' = rest /\ o' = o) ->
  exists full, option_tuples p w = [Known o full attached].
Proof.
  intros (c & r & -> & NE) W (rest & N & U).
  assert (T : option_tuples p w = map (fun e : str * opt => Known (snd e) (fst e) attached) (filter (fun e : str * opt => starts_with ("-"%char :: "-"%char :: c :: r) (fst e)) (spellings p))).
  { destruct W as [[-> ->]|(t & -> & ->)]; unfold option_tuples.
    - rewrite (cut_none _ NE). reflexivity.
    - change ((("-"%char :: "-"%char :: c :: r) ++ "="%char :: t)) with ("-"%char :: "-"%char :: (c :: r) ++ "="%char :: t) at 1. cbv iota. rewrite (cut_at _ t NE). reflexivity. }
  rewrite T. exists (("-"%char :: "-"%char :: c :: r) ++ rest). rewrite (filter_one _ _ (("-"%char :: "-"%char :: c :: r) ++ rest, o)); [reflexivity|apply spellings_nodup|apply in_spellings; exact N|apply starts_with_spec; exists rest; reflexivity|].
  intros [n' o'] I S. apply starts_with_spec in S. destruct S as (r' & E). cbn [fst] in E. subst n'. apply in_spellings in I. destruct (U _ _ I) as [-> ->]. reflexivity.
Qed.
Lemma not_dashes n : long_name n -> n <> lit "--".
Proof. intros (c & r & -> & _). discriminate. Qed.
Lemma dash n o : called p n o -> exists c r, n = "-"%char :: c :: r /\ str_eqb n (lit "--") = false.
Proof.
  intros [H|(L & _)].
  - destruct (proper_names _ PR _ _ H) as [(c & -> & C & D)|(c & r & -> & E)].
    + exists c, []. split; auto. destruct (str_eqb _ _) eqn:Q; auto. apply eqb_iff in Q. injection Q. congruence.
    + exists "-"%char, (c :: r). split; reflexivity.
  - destruct L as (c & r & -> & E). exists "-"%char, (c :: r). split; reflexivity.
Qed.
Lemma dashes_eq n t : str_eqb (n ++ "="%char :: t) (lit "--") = false.
Proof. destruct (str_eqb _ _) eqn:Q; auto. apply eqb_iff in Q. exfalso. assert (I : In "="%char (n ++ "="%char :: t)) by (apply in_app_iff; right; left; auto). rewrite Q in I. destruct I as [I|[I|[]]]; discriminate. Qed.
Lemma classify_called n o : called p n o -> exists full, classify p n = Ok (Known o full None).
Proof.
  intros H. destruct (dash n o H) as (c & r & E & Q). destruct H as [H|(L & NN & U)].
  - exists n. subst. unfold classify. apply find_some_iff in H. rewrite H. reflexivity.
  - pose proof (proj2 (find_none_iff n) NN) as F. destruct (tuples_long n None o n L (or_introl (conj eq_refl eq_refl)) U) as (full & T). exists full.
    assert (NE : ~ In "="%char n) by (destruct L as (? & ? & -> & ?); auto). pose proof (cut_none n NE) as CN. subst n. unfold classify. rewrite F, Q, CN, T. reflexivity.
Qed.
Lemma classify_equals n o t : called p n o -> exists full, classify p (n ++ "="%char :: t) = Ok (Known o full (Some t)).
Proof.
  intros H. pose proof (called_no_eq n o H) as NE. destruct (dash n o H) as (c & r & E & Q). assert (F : find_option p (n ++ "="%char :: t) = None).
  { apply find_none_iff. intros o' N. apply named_no_eq in N. apply N. apply in_app_iff. right. left. auto. }
  pose proof (cut_at n t NE) as CE. pose proof (dashes_eq n t) as DE. destruct H as [H|(L & NN & U)].
  - exists n. apply find_some_iff in H. subst n. cbn [app] in *. unfold classify. rewrite F, DE, CE, H. reflexivity.
  - destruct (tuples_long n (Some t) o (n ++ "="%char :: t) L (or_intror (ex_intro _ t (conj eq_refl eq_refl))) U) as (full & T). exists full. pose proof (proj2 (find_none_iff n) NN) as FN. subst n. cbn [app] in *. unfold classify. rewrite F, DE, CE, FN. cbn [option_map]. rewrite T. reflexivity.
Qed.
Lemma flat_map_one {A B} (f : A -> list B) l x b : NoDup l -> In x l -> f x = [b] -> (forall y, In y l -> y <> x -> f y = []) -> flat_map f l = [b].
Proof.
  induction l as [|a l IH]; intros N I F U; [destruct I|]. inversion N; subst. simpl. destruct I as [->|I].
  - rewrite F. cbn. f_equal. clear IH N. induction l as [|y l IH]; auto. simpl. rewrite (U y); [apply IH|right; left; auto|]. 4: { intros ->. apply H1. left. auto. } 3: { inversion H2; auto. } + intros C. apply H1. right. auto. + intros z [Z|Z] NZ; apply U; auto; [left; auto|right; right; auto].
  - rewrite (U a (or_introl eq_refl)); [|intros ->; auto]. cbn. apply IH; auto. intros; apply U; auto. right. auto.
Qed.
Lemma flat_map_nil {A B} (f : A -> list B) l : (forall y, In y l -> f y = []) -> flat_map f l = [].
Proof. induction l as [|a l IH]; intros H; auto. simpl. rewrite H; [|left; auto]. apply IH. intros; apply H; right; auto. Qed.
Lemma starts_short c rest n : (exists o, option_named p n o) -> c <> "-"%char -> starts_with ("-"%char :: c :: rest) n = true -> n = ["-"%char; c].
Proof.
  intros (o & N) C S. apply starts_with_spec in S. destruct S as (r & E). destruct (proper_names _ PR _ _ N) as [(d & -> & _)|(d & r' & -> & _)]; [|injection E; congruence]. injection E as -> E. destruct rest; [|discriminate]. destruct r; [reflexivity|discriminate].
Qed.
Lemma classify_joined c o t : option_named p ["-"%char; c] o -> t <> [] -> (forall rest, t <> "="%char :: rest) -> classify p ("-"%char :: c :: t) = Ok (Known o ["-"%char; c] (Some t)).
Proof.
  intros N T NE. assert (C : c <> "-"%char /\ c <> "="%char). { destruct (proper_names _ PR _ _ N) as [(d & E & X)|(d & r & E & _)]; [injection E as ->; auto|discriminate]. } destruct C as [C1 C2].
  assert (F : forall r, r <> [] -> find_option p ("-"%char :: c :: r) = None). { intros r R0. apply find_none_iff. intros o' N'. destruct (proper_names _ PR _ _ N') as [(d & E & _)|(d & r' & E & _)]; [injection E; intros; subst; congruence|injection E; congruence]. }
  assert (D : str_eqb ("-"%char :: c :: t) (lit "--") = false). { destruct (str_eqb _ _) eqn:Q; auto. apply eqb_iff in Q. injection Q; congruence. }
  assert (CU : match cut_eq ("-"%char :: c :: t) with Some (l, r) => option_map (fun o => Known o l (Some r)) (find_option p l) | None => None end = None).
  { destruct t as [|x t]; [congruence|]. assert (X : x <> "="%char) by (intros ->; apply (NE t); reflexivity). simpl. destruct (ascii_dec c "="); [congruence|]. destruct (ascii_dec x "="); [congruence|]. destruct (cut_eq t) as [[l r]|]; auto. cbn [option_map fst snd]. rewrite F; [reflexivity|discriminate]. }
  assert (TT : option_tuples p ("-"%char :: c :: t) = [Known o ["-"%char; c] (Some t)]).
  { unfold option_tuples. assert (M : forall (X : Type) (a b : X), (match c with "-"%char => a | _ => b end) = b).
    { intros. destruct c as [[] [] [] [] [] [] [] []]; try reflexivity. exfalso. apply C1. reflexivity. }
    rewrite M. apply (flat_map_one _ _ (["-"%char; c], o)); [apply spellings_nodup|apply in_spellings; exact N|cbn [fst snd]; replace (str_eqb _ _) with true by (symmetry; apply eqb_iff; auto); reflexivity|].
    intros [n' o'] I D'. cbn [fst snd]. apply in_spellings in I. destruct (str_eqb n' ["-"%char; c]) eqn:E1.
    - apply eqb_iff in E1. subst. exfalso. apply D'. f_equal. apply (named_unique _ _ _ N I).
    - destruct (starts_with ("-"%char :: c :: t) n') eqn:E2; auto. apply starts_short in E2; eauto. subst. assert (str_eqb ["-"%char; c] ["-"%char; c] = true) by (apply eqb_iff; auto). congruence. }
  unfold classify. rewrite F by auto. rewrite D, CU, TT. reflexivity.
Qed.
End P.
