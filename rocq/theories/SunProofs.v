(** Proofs for C74: one Aeronet file. *)
From Coq Require Import String.
From Verif Require Import Base PyStr QBase DateModel DateProofs FileListModel FileListProofs AeroModel AeroSpec AeroProofs ProdModel UngrModel UngrSpec UngrProofs GG3Proofs RafModel Raf2Proofs HdfModel HdfSpec HdfProofs Hdf2Proofs SunModel SunSpec.
From Coq Require Import List Ascii Lia.
Import ListNotations.
Open Scope string_scope. Open Scope list_scope. Open Scope nat_scope. Notation length := List.length.

Lemma nth_error_same {A} (l m : list A) : (forall i, nth_error l i = nth_error m i) -> l = m.
Proof. revert m. induction l as [|x l IH]; intros [|y m] H; auto; [specialize (H 0); discriminate|specialize (H 0); discriminate|]. f_equal; [specialize (H 0); cbn in H; congruence|apply IH; intros i; apply (H (S i))]. Qed.
Lemma isin_iff x l : isin x l = true <-> In x l.
Proof. unfold isin. rewrite existsb_exists. split; [intros (y & H & E); apply str_eqb_eq in E; subst; auto|intros H; exists x; split; [auto|apply str_eqb_refl]]. Qed.
Lemma isin_not x l : isin x l = false <-> ~ In x l.
Proof. rewrite <- isin_iff. destruct (isin x l); split; congruence. Qed.
Lemma nodups_iff l : nodups l = true <-> NoDup l.
Proof.
  induction l as [|x l IH]; cbn [nodups]; [split; [constructor|auto]|]. rewrite Bool.andb_true_iff, Bool.negb_true_iff, isin_not, IH. split; [intros [A B]; constructor; auto|intros H; inversion H; auto].
Qed.
Lemma index_at names : NoDup names -> forall i c, nth_error names i = Some c -> index_of c names = i.
Proof.
  induction 1 as [|n names NI ND IH]; intros [|i] c E; cbn in *; try discriminate.
  - injection E as ->. rewrite str_eqb_refl. reflexivity.
  - destruct (str_eqb c n) eqn:X; [apply str_eqb_eq in X; subst; exfalso; apply NI; eapply nth_error_In; eauto|]. f_equal. auto.
Qed.
Lemma filter_all {A} (p : A -> bool) l : (forall x, In x l -> p x = true) -> filter p l = l.
Proof. induction l as [|x l IH]; intros H; [reflexivity|]. cbn. rewrite (H x) by (left; auto). f_equal. apply IH. intros y Hy. apply H. right; auto. Qed.
Lemma blank_iff l : forallb is_blank l = true <-> blank l.
Proof. unfold blank. rewrite forallb_forall, Forall_forall. reflexivity. Qed.
Lemma not_blank l : ~ blank l -> negb (forallb is_blank l) = true.
Proof. intros H. destruct (forallb is_blank l) eqn:E; [apply blank_iff in E; contradiction|reflexivity]. Qed.
Lemma header_lines v : header_length v = S (lines_before v).
Proof. destruct v; reflexivity. Qed.
Lemma data_after_header f : (forall l, In l (firstn (S (lines_before (snd f))) (fst f)) -> ~ blank l) -> S (lines_before (snd f)) <= length (fst f) ->
  skipn (header_length (snd f)) (filter (fun l => negb (blank_line l)) (fst f)) = data_lines f.
Proof.
  intros H L. rewrite header_lines. unfold data_lines. rewrite <- (firstn_skipn (S (lines_before (snd f))) (fst f)) at 1. rewrite filter_app, (filter_all _ (firstn _ _)) by (intros l Hl; apply not_blank, H, Hl).
  rewrite skipn_app. assert (LF : length (firstn (S (lines_before (snd f))) (fst f)) = S (lines_before (snd f))) by (rewrite firstn_length; lia). rewrite skipn_all2 by lia. rewrite LF, Nat.sub_diag. reflexivity.
Qed.
Lemma keyed_columns {V} (g : str -> res V) cs ns : map_res (fun c => bind (g c) (fun l => Ok (c, l))) cs = Ok ns -> map fst ns = cs /\ forall c, In c cs -> NoDup cs -> exists l, dict_get ns c = Some l /\ g c = Ok l.
Proof.
  intros E. apply map_res_ok in E. induction E as [|c [k l] cs ns H F [I1 I2]]; [split; [auto|intros c []]|]. destruct (g c) as [l'|] eqn:G; [|discriminate]. cbn [bind] in H. injection H as <- <-. split; [cbn; congruence|].
  intros x Hx ND. inversion ND as [|? ? NI ND']; subst. cbn [dict_get]. destruct (str_eq_dec c x) as [->|N]; [exists l'; auto|]. destruct Hx as [Hx|Hx]; [congruence|]. apply I2; auto.
Qed.
Lemma column_names_vars f names : file_version (fst f) (snd f) -> column_names f names -> get_file_variables (fst f) = Ok names.
Proof.
  intros V (before & header & data & rest & cs & E & L & C & LN & NM). rewrite (variables_of _ _ _ _ _ _ _ V E L C). f_equal. destruct (names_of cs) as [L1 H1]. apply nth_error_same. intros i.
  destruct (nth_error cs i) as [c|] eqn:Ec.
  - destruct (H1 i c Ec) as (s & Es & N1). destruct (NM i c Ec) as (s' & Es' & N2). rewrite Es, Es'. f_equal. destruct N1 as [[A ->]|[A ->]], N2 as [[B ->]|[B ->]]; auto; lia.
  - apply nth_error_None in Ec. transitivity (@None str); [|symmetry]; apply nth_error_None; lia.
Qed.
Lemma names_length f names : column_names f names -> S (lines_before (snd f)) <= length (fst f) /\ names <> [].
Proof.
  intros (before & header & data & rest & cs & E & L & C & LN & NM). split; [rewrite E, app_length; cbn; lia|]. assert (NC : cs <> []). { inversion C; subst; [destruct front; discriminate|destruct before0; discriminate|].
    match goal with |- repeat _ ?n <> [] => destruct n eqn:X; [lia|discriminate] end. }
  destruct cs; [congruence|]. destruct names; [discriminate|discriminate].
Qed.
Section Sun.
Variable float_of : str -> option Q.
Variable stamp : str -> str -> option Q.
Notation number := (number float_of). Notation in_header := (in_header float_of). Notation in_column := (in_column float_of).
Lemma na_marker v q : existsb (Qeq_bool q) (na_numbers v) = true <-> missing_number v q.
Proof.
  assert (X : forall a, (existsb (Qeq_bool q) [a] = true <-> (q == a)%Q)) by (intros a; cbn [existsb]; rewrite Bool.orb_false_r; apply Qeq_bool_iff).
  destruct v; cbn [na_numbers missing_number]; try apply X; try (split; [discriminate|contradiction]).
  cbn [existsb]. rewrite Bool.orb_false_r, Bool.orb_true_iff, !Qeq_bool_iff. reflexivity.
Qed.
Lemma csv_number_ok v s : is_number_text float_of s -> exists o, csv_number float_of v s = Ok o /\ number v s o.
Proof.
  intros H. unfold csv_number. destruct (isin s na_texts) eqn:I.
  - apply isin_iff in I. unfold na_texts in I. apply in_map_iff in I. destruct I as (t & <- & Ht). exists None. split; [reflexivity|]. apply (n_missing _ _ _ t); auto.
  - apply isin_not in I. change na_texts with (map lit missing_texts) in I. destruct H as [H|(q & E)]; [contradiction|]. rewrite E. eexists. split; [reflexivity|]. destruct (existsb (Qeq_bool q) (na_numbers v)) eqn:M.
    + apply na_marker in M. apply (n_marker _ _ _ q); auto.
    + apply (n_value _ _ _ q); auto. intros X. apply na_marker in X. congruence.
Qed.
Lemma header_number_ok f i q : in_header f i q -> header_number float_of (fst f) i = Ok q.
Proof.
  intros (l & t & ps & a & b & E & N & P & Ei & Na & Nb & F). unfold header_number. rewrite E. apply newlines_iff in N. rewrite N. apply pieces_iff in P. rewrite P, Ei. rewrite split_app_sep by auto. rewrite (split_nosep _ b) by auto. rewrite F. reflexivity.
Qed.
Lemma field_cell names l c t fs : NoDup names -> In c names -> without_newlines l t -> pieces t fs -> field names l c (cell names c (split_on "," (remove_char newline l))).
Proof.
  intros ND Hc N P. apply In_nth_error in Hc. destruct Hc as (i & Hi). exists t, fs, i. split; [auto|]. split; [auto|]. split; [exact Hi|]. unfold cell. rewrite (index_at names ND i c Hi). apply newlines_iff in N. rewrite N. apply pieces_iff in P. rewrite P. reflexivity.
Qed.
Section File.
Variables (f : afile) (names : list str) (variable : str).
Hypothesis H : header_ok f.
Hypothesis WF : well_formed float_of stamp f names.
Notation recs := (records (snd f) names (fst f)).
Lemma recs_are : recs = map (fun l => split_on "," (remove_char newline l)) (data_lines f).
Proof.
  unfold records. rewrite data_after_header; [|apply H|apply (names_length f names (w_names _ _ _ _ WF))]. apply filter_all. intros r Hr. apply in_map_iff in Hr. destruct Hr as (l & <- & Hl). destruct (w_fields _ _ _ _ WF l Hl) as (t & fs & N & P & L).
  apply newlines_iff in N. rewrite N. apply pieces_iff in P. rewrite P. apply Nat.leb_le. exact L.
Qed.
Lemma cell_field c l : In c names -> In l (data_lines f) -> field names l c (cell names c (split_on "," (remove_char newline l))).
Proof. intros Hc Hl. destruct (w_fields _ _ _ _ WF l Hl) as (t & fs & N & P & L). apply (field_cell names l c t fs); auto. apply (w_distinct _ _ _ _ WF). Qed.
Lemma numbers_column c : numbers_in float_of f names c -> exists l, map_res (fun r => csv_number float_of (snd f) (cell names c r)) recs = Ok l /\ Forall2 (fun line o => in_column f names line c o) (data_lines f) l.
Proof.
  intros [Hc HN]. rewrite recs_are. destruct (map_res_F2 (fun r => csv_number float_of (snd f) (cell names c r)) (fun r o => exists line, In line (data_lines f) /\ r = split_on "," (remove_char newline line) /\ in_column f names line c o) (map (fun l => split_on "," (remove_char newline l)) (data_lines f))) as (m & E & _).
  { intros r Hr. apply in_map_iff in Hr. destruct Hr as (l & <- & Hl). pose proof (cell_field c l Hc Hl) as FC. destruct (csv_number_ok (snd f) _ (HN l _ Hl FC)) as (o & E & N). exists o. split; [exact E|]. exists l. split; [auto|]. split; [auto|]. eexists. split; [exact FC|exact N]. }
  exists m. split; [exact E|]. apply map_res_ok in E. apply F2_map_l in E. eapply F2_imp; [|apply F2_in_l; exact E]. cbn beta. intros l o (Hl & Eo). pose proof (cell_field c l Hc Hl) as FC. destruct (csv_number_ok (snd f) _ (HN l _ Hl FC)) as (o' & E' & N). rewrite Eo in E'. injection E' as <-. eexists. split; [exact FC|exact N].
Qed.
Lemma times_column : exists l, map_res (fun r => match stamp (cell names (lit "date") r) (cell names (lit "time") r) with Some t => Ok (Some t) | None => Raises ValueError end) recs = Ok l /\ Forall2 (time_of_line stamp names) (data_lines f) l.
Proof.
  rewrite recs_are. assert (D : forall l, In l (data_lines f) -> let r := split_on "," (remove_char newline l) in exists q, stamp (cell names (lit "date") r) (cell names (lit "time") r) = Some q /\ time_of_line stamp names l (Some q)).
  { intros l Hl. pose proof (cell_field _ l (w_date _ _ _ _ WF) Hl) as F1. pose proof (cell_field _ l (w_time _ _ _ _ WF) Hl) as F2. destruct (w_dates _ _ _ _ WF l _ _ Hl F1 F2) as (q & E). exists q. split; [exact E|]. eexists. eexists. exists q. split; [exact F1|]. split; [exact F2|]. auto. }
  destruct (map_res_F2 (fun r => match stamp (cell names (lit "date") r) (cell names (lit "time") r) with Some t => Ok (Some t) | None => Raises ValueError end) (fun _ _ => True) (map (fun l => split_on "," (remove_char newline l)) (data_lines f))) as (m & E & _).
  { intros r Hr. apply in_map_iff in Hr. destruct Hr as (l & <- & Hl). destruct (D l Hl) as (q & E & _). exists (Some q). rewrite E. auto. }
  exists m. split; [exact E|]. apply map_res_ok in E. apply F2_map_l in E. eapply F2_imp; [|apply F2_in_l; exact E]. cbn beta. intros l o (Hl & Eo). destruct (D l Hl) as (q & Eq & T). rewrite Eq in Eo. injection Eo as <-. exact T.
Qed.
End File.
End Sun.
