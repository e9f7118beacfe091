(** Proofs for C74: the names of the variables; a test of well-formed files, for the examples. *)
From Coq Require Import String.
From Verif Require Import Base PyStr QBase DateModel DateProofs FileListModel FileListProofs AeroModel AeroSpec AeroProofs ProdModel UngrModel UngrSpec UngrProofs GG3Proofs RafModel Raf2Proofs HdfModel HdfSpec HdfProofs Hdf2Proofs SunModel SunSpec SunProofs Sun2Proofs Sun3Proofs.
From Coq Require Import List Ascii Lia.
Import ListNotations.
Open Scope string_scope. Open Scope list_scope. Open Scope nat_scope. Notation length := List.length.

Lemma vars_column_names f names : file_version (fst f) (snd f) -> get_file_variables (fst f) = Ok names -> names <> [] -> column_names f names.
Proof.
  intros V E NE. unfold get_file_variables in E. rewrite (proj2 (version_of _ _) V) in E. cbn [bind] in E. destruct (skipn (header_length (snd f) - 1) (fst f)) as [|a [|b l]] eqn:S; try (injection E as <-; congruence).
  destruct (columns a b) as [cs|] eqn:C; [|discriminate]. cbn [bind] in E. assert (EN : names = name_columns (repeated_items cs) cs) by congruence. clear E. destruct (names_of cs) as [L NM].
  exists (firstn (header_length (snd f) - 1) (fst f)), a, b, l, cs. split; [rewrite <- S, firstn_skipn; reflexivity|]. split; [|split; [apply columns_of; exact C|rewrite EN; auto]].
  rewrite header_lines in *. cbn [Nat.sub] in *. rewrite Nat.sub_0_r in *. rewrite firstn_length. apply (f_equal (@List.length _)) in S. rewrite skipn_length in S. cbn in S. lia.
Qed.
Lemma sun_names_ok files l : (forall f, In f files -> file_version (fst f) (snd f)) -> aeronet_names (map fst files) = Ok l -> forall n, In n l <-> exists f names, In f files /\ column_names f names /\ In n names.
Proof.
  intros HV E n. unfold aeronet_names in E. destruct (map_res get_file_variables (map fst files)) as [ls|] eqn:M; [|discriminate]. cbn [bind] in E. injection E as <-. apply map_res_ok in M. apply F2_map_l in M. rewrite in_concat. split.
  - intros (names & Hn & Hi). apply In_nth_error in Hn. destruct Hn as (i & Hn). destruct (F2_nth _ _ _ M _ _ Hn) as (f & Hf & E). apply nth_error_In in Hf. exists f, names. split; [exact Hf|]. split; [|exact Hi]. apply vars_column_names; auto. intros ->. destruct Hi.
  - intros (f & names & Hf & CN & Hi). pose proof (column_names_vars f names (HV f Hf) CN) as E. apply In_nth_error in Hf. destruct Hf as (i & Hf). destruct (F2_nth_l _ _ _ M _ _ Hf) as (ns & Hns & E'). cbn beta in E'. rewrite E in E'. injection E' as <-. exists names. split; [eapply nth_error_In; eauto|exact Hi].
Qed.
Section Sun.
Variable float_of : str -> option Q.
Variable stamp : str -> str -> option Q.
Definition number_textb (s : str) : bool := isin s na_texts || match float_of s with Some _ => true | None => false end.
Lemma number_textb_ok s : number_textb s = true -> is_number_text float_of s.
Proof. unfold number_textb. intros H. apply Bool.orb_true_iff in H. destruct H as [H|H]; [left; apply isin_iff; exact H|right]. destruct (float_of s); [eauto|discriminate]. Qed.
Definition in_headerb (f : afile) (i : nat) : bool :=
  match nth_error (fst f) 2 with Some l => match nth_error (split_on "," (remove_char newline l)) i with Some s => match split_on "=" s with [a; b] => match float_of b with Some _ => true | None => false end | _ => false end | None => false end | None => false end.
Lemma in_headerb_ok f i : in_headerb f i = true -> exists q, in_header float_of f i q.
Proof.
  unfold in_headerb. destruct (nth_error (fst f) 2) as [l|] eqn:E; [|discriminate]. destruct (nth_error (split_on _ _) i) as [s|] eqn:S; [|discriminate]. destruct (split_on "=" s) as [|a [|b [|? ?]]] eqn:P; try discriminate. destruct (float_of b) as [q|] eqn:F; [|discriminate]. intros _. exists q, l.
  eexists. eexists. exists a, b. split; [exact E|]. split; [apply newlines_iff; reflexivity|]. split; [apply pieces_iff; reflexivity|].
  assert (J : s = a ++ "="%char :: b) by (rewrite <- (join_split "=" s), P; reflexivity). rewrite <- J. split; [exact S|]. pose proof (split_pieces "=" s) as N. rewrite P in N. split; [apply N; left; auto|]. split; [apply N; right; left; auto|exact F].
Qed.
Definition cell_of (names : list str) (c l : str) : str := cell names c (split_on "," (remove_char newline l)).
Definition ver2 (v : version) : bool := is_2 v && negb (is_man v).
Definition numbersb (f : afile) (names : list str) (c : str) : bool := isin c names && forallb (fun l => number_textb (cell_of names c l)) (data_lines f).
Definition checkb (f : afile) (names : list str) : bool :=
  (negb (match names with [] => true | _ => false end) && nodups names && isin (lit "date") names && isin (lit "time") names) &&
  (ver2 (snd f) || (isin (lit "latitude") names && isin (lit "longitude") names)) && (ver2 (snd f) || is_man (snd f) || isin (lit "altitude") names) &&
  (negb (ver2 (snd f)) || (in_headerb f 1 && in_headerb f 2 && in_headerb f 3)) &&
  forallb (fun l => (length (split_on "," (remove_char newline l)) <=? length names) && match stamp (cell_of names (lit "date") l) (cell_of names (lit "time") l) with Some _ => true | None => false end) (data_lines f) &&
  forallb (fun c => negb (isin c names) || numbersb f names c) [lit "latitude"; lit "longitude"; lit "altitude"].
Lemma field_is names l c s : NoDup names -> field names l c s -> s = cell_of names c l.
Proof. intros ND (t & fs & i & N & P & Hi & ->). unfold cell_of, cell. rewrite (index_at names ND i c Hi). apply newlines_iff in N. apply pieces_iff in P. rewrite N, P. reflexivity. Qed.
Lemma ver2_iff v : ver2 v = true <-> version2 v.
Proof. unfold version2. destruct v; cbn; split; auto; try discriminate; intros [?|?]; discriminate. Qed.
Lemma numbersb_ok f names c : NoDup names -> numbersb f names c = true -> numbers_in float_of f names c.
Proof.
  intros ND H. unfold numbersb in H. apply Bool.andb_true_iff in H. destruct H as [H1 H2]. split; [apply isin_iff; exact H1|]. rewrite forallb_forall in H2. intros l s Hl F. rewrite (field_is _ _ _ _ ND F). apply number_textb_ok, H2, Hl.
Qed.
Lemma checkb_ok f names : file_version (fst f) (snd f) -> get_file_variables (fst f) = Ok names -> checkb f names = true -> well_formed float_of stamp f names.
Proof.
  intros V E H. unfold checkb in H. rewrite !Bool.andb_true_iff, !Bool.orb_true_iff, !Bool.negb_true_iff in H. destruct H as [[[[[[[[H1 H2] H3] H4] H5] H6] H7] H8] H9].
  assert (NE : names <> []) by (destruct names; congruence). apply nodups_iff in H2. apply isin_iff in H3, H4. rewrite forallb_forall in H8, H9.
  constructor; auto; [apply vars_column_names; auto|..].
  - intros N. destruct H5 as [H5|H5]; [apply ver2_iff in H5; contradiction|]. apply Bool.andb_true_iff in H5. apply isin_iff, H5.
  - intros N. destruct H5 as [H5|H5]; [apply ver2_iff in H5; contradiction|]. apply Bool.andb_true_iff in H5. apply isin_iff, H5.
  - intros N M. destruct H6 as [[H6|H6]|H6]; [apply ver2_iff in H6; contradiction|apply man_cases in H6; contradiction|apply isin_iff, H6].
  - intros N. apply ver2_iff in N. destruct H7 as [H7|H7]; [congruence|]. rewrite !Bool.andb_true_iff in H7. destruct H7 as [[A B] C]. auto using in_headerb_ok.
  - intros l Hl. specialize (H8 l Hl). apply Bool.andb_true_iff in H8. destruct H8 as [A _]. apply Nat.leb_le in A. eexists. eexists. split; [apply newlines_iff; reflexivity|]. split; [apply pieces_iff; reflexivity|exact A].
  - intros l d t Hl F1 F2. specialize (H8 l Hl). apply Bool.andb_true_iff in H8. destruct H8 as [_ B]. rewrite (field_is _ _ _ _ H2 F1), (field_is _ _ _ _ H2 F2). destruct (stamp _ _); [eauto|discriminate].
  - intros l c s Hl Hc F. specialize (H9 c Hc). apply Bool.orb_true_iff in H9. destruct H9 as [H9|H9]; [exfalso|apply (proj2 (numbersb_ok _ _ _ H2 H9) l s Hl F)]. apply Bool.negb_true_iff, isin_not in H9. apply H9. destruct F as (t & fs & i & _ & _ & Hi & _). eapply nth_error_In; eauto.
Qed.
Lemma header_okb f : file_version (fst f) (snd f) -> forallb (fun l => negb (forallb is_blank l)) (firstn (S (lines_before (snd f))) (fst f)) = true -> header_ok f.
Proof. intros V H. split; [exact V|]. rewrite forallb_forall in H. intros l Hl B. specialize (H l Hl). apply Bool.negb_true_iff in H. apply blank_iff in B. congruence. Qed.
End Sun.
