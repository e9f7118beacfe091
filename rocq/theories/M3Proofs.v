(** Proofs for C85. *)
From Coq Require Import String.
From Verif Require Import Base PyStr QBase DateModel DateProofs DistModel ProdModel AeroModel AeroSpec AeroProofs HdfProofs GG3Proofs M3Model M3Spec.
From Coq Require Import List Lia Arith Ascii ZArith Lqa.
Import ListNotations.
Open Scope string_scope. Open Scope list_scope. Open Scope nat_scope. Notation length := List.length.

(** ** find and slices *)
Lemma find_first p : forall pre s post, s = pre ++ p ++ post -> (forall x y, s = x ++ p ++ y -> length pre <= length x) -> find_from p s = Some (length pre).
Proof.
  induction pre as [|c pre IH]; intros s post E H.
  - cbn [app] in E. assert (X : starts_with p s = true) by (apply starts_iff; exists post; exact E). destruct s; cbn [find_from]; rewrite X; reflexivity.
  - cbn [app] in E. subst s. cbn [find_from]. destruct (starts_with p (c :: pre ++ p ++ post)) eqn:X.
    + exfalso. apply starts_iff in X. destruct X as (r & X). specialize (H [] r X). cbn in H. lia.
    + rewrite (IH _ post eq_refl); [reflexivity|]. intros x y E. specialize (H (c :: x) y). cbn [app length] in H. rewrite E in H. specialize (H eq_refl). lia.
Qed.
Lemma find_none_occurs p s : ~ occurs p s -> find_from p s = None.
Proof.
  induction s as [|c s IH]; intros H; cbn [find_from].
  - destruct (starts_with p []) eqn:X; [|reflexivity]. exfalso. apply starts_iff in X. destruct X as (r & X). apply H. exists [], r. exact X.
  - destruct (starts_with p (c :: s)) eqn:X; [exfalso; apply starts_iff in X; destruct X as (r & X); apply H; exists [], r; exact X|]. rewrite IH; [reflexivity|]. intros (a & b & E). apply H. exists (c :: a), b. rewrite E. reflexivity.
Qed.
Lemma find_is_first p : forall x s y i, find_from p s = Some i -> s = x ++ p ++ y -> i <= length x.
Proof.
  induction x as [|c x IH]; intros s y i F E; cbn [app] in E.
  - assert (X : starts_with p s = true) by (apply starts_iff; exists y; exact E). destruct s; cbn [find_from] in F; rewrite X in F; injection F as <-; lia.
  - subst s. cbn [find_from] in F. destruct (starts_with p (c :: x ++ p ++ y)); [injection F as <-; lia|]. destruct (find_from p (x ++ p ++ y)) as [j|] eqn:G; [|discriminate]. injection F as <-. specialize (IH _ y j G eq_refl). cbn [length]. lia.
Qed.
Lemma occurs_found p s : occurs p s -> exists i, find_from p s = Some i.
Proof.
  intros (x & y & X). revert x X. induction s as [|c s IH]; intros x X; cbn [find_from]; destruct (starts_with p _) eqn:S; [eexists; reflexivity| |eexists; reflexivity|].
  - exfalso. destruct x; [|discriminate]. apply Bool.not_true_iff_false in S. apply S, starts_iff. exists y. exact X.
  - destruct x as [|c' x]; [exfalso; apply Bool.not_true_iff_false in S; apply S, starts_iff; exists y; exact X|]. injection X as -> X. destruct (IH x X) as (i & ->). eexists. reflexivity.
Qed.
Lemma find_len p s i : find_from p s = Some i -> length p <= length s.
Proof.
  revert i. induction s as [|c s IH]; intros i; cbn [find_from].
  - destruct (starts_with p []) eqn:X; [|discriminate]. intros _. apply starts_iff in X. destruct X as (r & X). rewrite X at 1. rewrite app_length in *. destruct p; [cbn; lia|discriminate].
  - destruct (starts_with p (c :: s)) eqn:X; [intros _; apply starts_iff in X; destruct X as (r & X); rewrite X, app_length; lia|]. destruct (find_from p s) as [j|]; [|discriminate]. intros _. specialize (IH j eq_refl). cbn [length]. lia.
Qed.
Lemma slice_mid (a b c : str) i j : i = Z.of_nat (length a) -> j = Z.of_nat (length a + length b) -> py_slice (a ++ b ++ c) i j = b.
Proof.
  intros -> ->. unfold py_slice, bound. rewrite !app_length. destruct (Z.ltb_spec (Z.of_nat (length a)) 0); [lia|]. destruct (Z.ltb_spec (Z.of_nat (length a + length b)) 0); [lia|]. rewrite !Z.min_l by lia. rewrite !Nat2Z.id.
  rewrite skipn_app, skipn_all, Nat.sub_diag. cbn [app skipn]. replace (length a + length b - length a) with (length b) by lia. rewrite firstn_app, firstn_all, Nat.sub_diag. cbn [firstn]. apply app_nil_r.
Qed.
Lemma slice_absent s kw : ~ occurs kw s -> let i := py_find kw s in py_slice s i (i + py_find (lit "END_OBJECT") (py_slice s i (Z.of_nat (length s)))) = [].
Proof.
  intros H. cbv zeta. assert (PF : py_find kw s = (-1)%Z) by (unfold py_find; rewrite (find_none_occurs _ _ H); reflexivity). rewrite PF. set (t := py_slice s (-1) (Z.of_nat (length s))).
  assert (L : length t <= 1). { unfold t, py_slice, bound. change (-1 <? 0)%Z with true. destruct (Z.ltb_spec (Z.of_nat (length s)) 0); [lia|]. cbn beta iota. rewrite firstn_length, skipn_length. lia. }
  assert (F : py_find (lit "END_OBJECT") t = (-1)%Z). { unfold py_find. destruct (find_from (lit "END_OBJECT") t) eqn:E; [|reflexivity]. apply find_len in E. change (length (lit "END_OBJECT")) with 10 in E. lia. }
  rewrite F. unfold py_slice, bound. change (-1 <? 0)%Z with true. change (-1 + -1 <? 0)%Z with true. cbn beta iota. replace (_ - _) with 0 by lia. reflexivity.
Qed.
(** ** the quotation *)
Lemma quotes : quotation = quote. Proof. reflexivity. Qed.
Lemma line_ends : line_end = newline. Proof. reflexivity. Qed.
Lemma is_quote_iff c : is_quote c = true <-> c = quote. Proof. unfold is_quote. destruct (ascii_dec c quote); split; intros; congruence. Qed.
Lemma no_quotes l : ~ In quote l -> filter is_quote l = [] /\ forall r, from_quote (l ++ r) = from_quote r.
Proof.
  induction l as [|c l IH]; intros H; [split; reflexivity|]. assert (C : is_quote c = false) by (destruct (is_quote c) eqn:E; [apply is_quote_iff in E; exfalso; apply H; left; auto|reflexivity]). destruct IH as (A & B); [intros X; apply H; right; exact X|].
  split; [cbn [filter]; rewrite C; exact A|]. intros r. cbn [app from_quote]. rewrite C. apply B.
Qed.
Lemma line_skip c p : c <> quote -> line_match (c :: p) = line_match p.
Proof. intros H. unfold line_match. assert (C : is_quote c = false) by (destruct (is_quote c) eqn:E; [apply is_quote_iff in E; congruence|reflexivity]). cbn [filter from_quote]. rewrite C. reflexivity. Qed.
Lemma line_found v b : ~ In quote v -> ~ In quote b -> line_match (quote :: v ++ quote :: b) = Some (quote :: v ++ [quote]).
Proof.
  intros V B. destruct (no_quotes v V) as (V1 & _). destruct (no_quotes b B) as (B1 & _). assert (Q1 : is_quote quote = true) by (apply is_quote_iff; reflexivity). unfold line_match. cbn [filter]. rewrite Q1, filter_app, V1. cbn [filter app]. rewrite Q1, B1. cbn [length Nat.leb].
  cbn [from_quote]. rewrite Q1. f_equal. assert (RB : ~ In quote (rev b)) by (rewrite <- in_rev; exact B). destruct (no_quotes (rev b) RB) as (_ & RB2).
  replace (rev (quote :: v ++ quote :: b)) with (rev b ++ quote :: rev v ++ [quote]) by (cbn [rev]; rewrite rev_app_distr; cbn [rev]; rewrite <- !app_assoc; reflexivity). rewrite RB2. cbn [from_quote]. rewrite Q1. cbn [rev]. rewrite rev_app_distr, rev_involutive. reflexivity.
Qed.
Lemma split_head c x b : ~ In c x -> exists h t, split_on c b = h :: t /\ split_on c (x ++ b) = (x ++ h) :: t.
Proof.
  induction x as [|a x IH]; intros H.
  - destruct (split_on c b) as [|h t] eqn:E; [exfalso; eapply split_on_nonnil; eauto|]. exists h, t. auto.
  - destruct IH as (h & t & A & B); [intros X; apply H; right; exact X|]. exists h, t. split; [exact A|]. cbn [app split_on]. destruct (ascii_dec a c); [exfalso; apply H; left; auto|]. rewrite B. reflexivity.
Qed.
Lemma piece_in c b h t x : split_on c b = h :: t -> In x h -> In x b.
Proof.
  revert h t. induction b as [|a b IH]; intros h t E I; cbn [split_on] in E; [injection E as <- <-; destruct I|]. destruct (ascii_dec a c); [injection E as <- _; destruct I|]. destruct (split_on c b) as [|h' t'] eqn:S; [injection E as <- <-; destruct I as [I|[]]; left; exact I|].
  injection E as <- <-. destruct I as [<-|I]; [left; reflexivity|]. right. eapply IH; eauto.
Qed.
Lemma match_found pre v b : ~ In quote pre -> ~ In quote v -> ~ In newline v -> ~ In quote b -> first_match (split_on newline (pre ++ quote :: v ++ quote :: b)) = Some (quote :: v ++ [quote]).
Proof.
  intros P V N B. induction pre as [|c pre IH].
  - cbn [app]. destruct (split_head newline (quote :: v ++ [quote]) b) as (h & t & S1 & S2); [intros [X|X]; [discriminate|]; apply in_app_or in X; destruct X as [X|[X|[]]]; [auto|discriminate]|].
    replace (quote :: v ++ quote :: b) with ((quote :: v ++ [quote]) ++ b) by (cbn [app]; rewrite <- app_assoc; reflexivity). rewrite S2. cbn [first_match]. replace ((quote :: v ++ [quote]) ++ h) with (quote :: v ++ quote :: h) by (cbn [app]; rewrite <- app_assoc; reflexivity).
    rewrite line_found; auto. intros X. apply B. eapply piece_in; eauto.
  - assert (P' : ~ In quote pre) by (intros X; apply P; right; exact X). specialize (IH P'). cbn [app split_on]. destruct (ascii_dec c newline); [cbn [first_match]; exact IH|].
    destruct (split_on newline (pre ++ quote :: v ++ quote :: b)) as [|h t] eqn:S; [exfalso; eapply split_on_nonnil; eauto|]. cbn [first_match] in *. rewrite line_skip by (intros ->; apply P; left; reflexivity). exact IH.
Qed.
Lemma quote_removed v : ~ In quote v -> remove_char quote (quote :: v ++ [quote]) = v.
Proof.
  intros V. unfold remove_char. cbn [filter]. destruct (ascii_dec quote quote); [|contradiction]. rewrite filter_app. cbn [filter]. destruct (ascii_dec quote quote); [|contradiction]. rewrite app_nil_r. induction v as [|c v IH]; [reflexivity|]. cbn [filter].
  destruct (ascii_dec c quote) as [->|_]; [exfalso; apply V; left; reflexivity|]. f_equal. apply IH. intros X. apply V. right. exact X.
Qed.
(** ** attributes *)
Lemma text_states s kw val acc rest : states s kw val -> parse_datetime acc (Text s :: rest) kw = Ok val.
Proof.
  intros (pre & a & b & post & E & F1 & F2 & QK & QA & QB & NE & QV & NV). rewrite quotes, line_ends in *. cbn [parse_datetime]. assert (PF : py_find kw s = Z.of_nat (length pre)) by (unfold py_find; rewrite (find_first kw pre s _ E F1); reflexivity). rewrite PF. set (obj := kw ++ a ++ [quote] ++ val ++ [quote] ++ b) in *. set (tail := lit "END_OBJECT" ++ post) in *.
  assert (E' : s = pre ++ obj ++ tail) by (rewrite E; unfold obj, tail; rewrite <- !app_assoc; reflexivity).
  assert (S1 : py_slice s (Z.of_nat (length pre)) (Z.of_nat (length s)) = obj ++ tail). { rewrite E' at 1. rewrite <- (app_nil_r (obj ++ tail)) at 1. apply slice_mid; [reflexivity|]. rewrite E', !app_length. reflexivity. }
  rewrite S1. assert (S2 : find_from (lit "END_OBJECT") (obj ++ tail) = Some (length obj)). { apply (find_first _ obj _ post eq_refl). intros x y X. apply (F2 x y). rewrite <- X. unfold obj, tail. rewrite <- !app_assoc. reflexivity. }
  unfold py_find. rewrite S2. assert (S3 : py_slice s (Z.of_nat (length pre)) (Z.of_nat (length pre) + Z.of_nat (length obj)) = obj) by (rewrite E'; apply slice_mid; [reflexivity|lia]). rewrite S3.
  replace obj with ((kw ++ a) ++ quote :: val ++ quote :: b) by (unfold obj; rewrite <- !app_assoc; reflexivity). rewrite match_found; auto; [|intros X; apply in_app_or in X; tauto]. rewrite quote_removed by auto. destruct val; [contradiction|reflexivity].
Qed.
Lemma text_silent s kw acc rest : ~ occurs kw s -> parse_datetime acc (Text s :: rest) kw = parse_datetime acc rest kw.
Proof. intros H. pose proof (slice_absent s kw H) as X. cbv zeta in X. cbn [parse_datetime]. rewrite X. reflexivity. Qed.
Theorem date_found attrs kw val : described attrs kw val -> parse_datetime [] attrs (lit kw) = Ok val.
Proof.
  intros (l & t & r & -> & S & F). induction F as [|x l (s & -> & H) F IH]; cbn [app]; [apply text_states; exact S|]. rewrite text_silent by exact H. exact IH.
Qed.
Theorem date_absent attrs kw : not_described attrs kw -> parse_datetime [] attrs (lit kw) = Ok [].
Proof. unfold not_described. intros F. induction F as [|x l (s & -> & H) F IH]; [reflexivity|]. rewrite text_silent by exact H. exact IH. Qed.
Theorem not_a_text l r kw : not_described l kw -> parse_datetime [] (l ++ Other :: r) (lit kw) = Raises AttributeError.
Proof. unfold not_described. intros F. induction F as [|x l (s & -> & H) F IH]; [reflexivity|]. cbn [app]. rewrite text_silent by exact H. exact IH. Qed.
(** ** cubes *)
Lemma all_there_some p : all_there (map Some p) = Some p.
Proof. induction p as [|x p IH]; [reflexivity|]. cbn [map all_there]. rewrite IH. reflexivity. Qed.
Lemma steps_iff (lt : Q -> Q -> bool) p : steps lt p = true <-> forall i x y, nth_error p i = Some x -> nth_error p (S i) = Some y -> lt x y = true.
Proof.
  induction p as [|a p IH]; [split; [intros _ i x y H; destruct i; discriminate|reflexivity]|]. destruct p as [|b p]; [split; [intros _ i x y H H2; destruct i; [discriminate|]; destruct i; discriminate|reflexivity]|].
  change (steps lt (a :: b :: p)) with (lt a b && steps lt (b :: p))%bool. rewrite Bool.andb_true_iff, IH. split.
  - intros (A & B) [|i] x y H1 H2; [cbn in H1, H2; congruence|]. exact (B i x y H1 H2).
  - intros H. split; [exact (H 0 a b eq_refl eq_refl)|]. intros i x y H1 H2. exact (H (S i) x y H1 H2).
Qed.
Lemma axis_dim l p : axis l p -> dim_coord l = Ok p.
Proof.
  intros (-> & NE & H). unfold dim_coord. rewrite all_there_some. assert (X : (steps Qltb p || steps (fun x y => Qltb y x) p)%bool = true).
  { apply Bool.orb_true_iff. destruct H as [H|H]; [left|right]; apply steps_iff; intros i x y H1 H2; apply Qltb_lt; eapply H; eauto. }
  rewrite X. destruct p; [contradiction|reflexivity].
Qed.
Section Cubes.
Variable parse : str -> res Q.
Lemma file_ok f lat lon s e : good_file parse f lat lon s e -> exists c, file_cube parse f = Ok c /\ cube_of f lat lon s e c.
Proof.
  intros (A1 & A2 & L1 & L2 & sd & st & ed & et & D1 & D2 & D3 & D4 & P1 & P2). unfold file_cube. rewrite (axis_dim _ _ A1), (axis_dim _ _ A2). cbn [bind]. unfold get_start_date, get_end_date, range_date.
  rewrite (date_found _ _ _ D1), (date_found _ _ _ D2), (date_found _ _ _ D3), (date_found _ _ _ D4). cbn [bind]. rewrite P1, P2. cbn [bind]. rewrite L1, Nat.eqb_refl. assert (FB : forallb (fun r : list (option Q) => length r =? length lon) (m_var f) = true).
  { apply forallb_forall. intros r I. rewrite Forall_forall in L2. rewrite (L2 r I). apply Nat.eqb_refl. }
  rewrite FB. cbn [andb]. eexists. split; [reflexivity|]. split; [reflexivity|]. split; [reflexivity|]. split; [reflexivity|]. split; [reflexivity|]. cbn [c_point]. unfold calculate_mid_time. field.
Qed.
Theorem reads_cubes together files : Forall (fun f => exists lat lon s e, good_file parse f lat lon s e) files ->
  exists cs, Forall2 (fun f c => forall lat lon s e, good_file parse f lat lon s e -> cube_of f lat lon s e c) files cs /\ create_data_object parse together files = match cs with [c] => Ok c | _ => together cs end.
Proof.
  intros F. assert (X : exists cs, map_res (file_cube parse) files = Ok cs /\ Forall2 (fun f c => forall lat lon s e, good_file parse f lat lon s e -> cube_of f lat lon s e c) files cs).
  { induction F as [|f files (lat & lon & s & e & G) F (cs & M & IH)]; [exists []; split; [reflexivity|constructor]|]. destruct (file_ok f lat lon s e G) as (c & E & _). exists (c :: cs). split; [cbn [map_res]; rewrite E; cbn [bind]; rewrite M; reflexivity|].
    constructor; [|exact IH]. intros lat' lon' s' e' G'. destruct (file_ok f lat' lon' s' e' G') as (c' & E' & C). rewrite E in E'. injection E' as <-. exact C. }
  destruct X as (cs & M & X). exists cs. split; [exact X|]. unfold create_data_object. rewrite M. reflexivity.
Qed.
Theorem undated together f rest lat lon : axis (m_lat f) lat -> axis (m_lon f) lon -> not_described (m_attrs f) "RANGEBEGINNINGDATE" -> not_described (m_attrs f) "RANGEBEGINNINGTIME" -> parse (lit " ") = Raises ValueError -> create_data_object parse together (f :: rest) = Raises ValueError.
Proof.
  intros A1 A2 D1 D2 P. unfold create_data_object. cbn [map_res]. unfold file_cube. rewrite (axis_dim _ _ A1), (axis_dim _ _ A2). cbn [bind]. unfold get_start_date, range_date. rewrite (date_absent _ _ D1), (date_absent _ _ D2). cbn [bind]. change (parse ([] ++ lit " " ++ [])) with (parse (lit " ")). rewrite P. reflexivity.
Qed.
End Cubes.
Theorem offered_iff files n : In n (offered files) <-> exists f, In f files /\ In (n, [lit "YDim:mod08"; lit "XDim:mod08"]) f.
Proof.
  unfold offered. rewrite nodup_In, in_flat_map. split.
  - intros (f & I & H). exists f. split; [exact I|]. apply in_map_iff in H. destruct H as ((m & ds) & <- & H). apply filter_In in H. destruct H as (H & E). cbn [snd fst] in *. destruct ds as [|a [|b [|? ?]]]; try discriminate. apply Bool.andb_true_iff in E. destruct E as (E1 & E2). apply str_eqb_eq in E1, E2. subst. exact H.
  - intros (f & I & H). exists f. split; [exact I|]. apply in_map_iff. exists (n, [lit "YDim:mod08"; lit "XDim:mod08"]). split; [reflexivity|]. apply filter_In. split; [exact H|]. cbn [snd]. rewrite !str_eqb_refl. reflexivity.
Qed.
Lemma offered_nodup files : NoDup (offered files). Proof. apply NoDup_nodup. Qed.

(** ** texts without a quotation *)
Definition marks (l : str) : nat := length (filter is_quote l).
Lemma marks_app a b : marks (a ++ b) = marks a + marks b.
Proof. unfold marks. rewrite filter_app, app_length. reflexivity. Qed.
Lemma marks_part a l : marks (firstn a l) <= marks l /\ marks (skipn a l) <= marks l.
Proof. rewrite <- (firstn_skipn a l) at 2 4. rewrite marks_app. lia. Qed.
Lemma marks_split (s : str) : Forall (fun l => marks l <= marks s) (split_on newline s).
Proof.
  induction s as [|c s IH]; [repeat constructor|]. assert (M : marks s <= marks (c :: s)) by (unfold marks; cbn [filter]; destruct (is_quote c); cbn [length]; lia).
  assert (U : forall ls : list str, Forall (fun l => marks l <= marks s) ls -> Forall (fun l => marks l <= marks (c :: s)) ls) by (intros ls F; eapply Forall_impl; [|exact F]; cbv beta; intros a Ha; lia).
  cbn [split_on]. destruct (ascii_dec c newline); [constructor; [unfold marks; cbn; lia|apply U; exact IH]|].
  destruct (split_on newline s) as [|h t]; [constructor; [|constructor]|inversion IH as [|? ? H1 H2]; subst; constructor; [|apply U; exact H2]]; unfold marks in *; cbn [filter]; destruct (is_quote c); cbn [filter length] in *; lia.
Qed.
Lemma first_match_none ls : Forall (fun l => marks l < 2) ls -> first_match ls = None.
Proof. induction 1 as [|l ls H F IH]; [reflexivity|]. cbn [first_match]. unfold line_match. unfold marks in H. destruct (Nat.leb_spec 2 (length (filter is_quote l))); [lia|]. exact IH. Qed.
Theorem unquoted s kw acc rest : count_occ ascii_dec s quotation < 2 -> parse_datetime acc (Text s :: rest) kw = parse_datetime acc rest kw.
Proof.
  intros H. assert (M : marks s < 2).
  { assert (E : marks s = count_occ ascii_dec s quotation); [|lia]. clear. unfold marks. induction s as [|c s IH]; [reflexivity|]. cbn [filter count_occ]. unfold is_quote at 1. rewrite quotes in *. destruct (ascii_dec c quote); cbn [length]; lia. }
  cbn [parse_datetime]. rewrite first_match_none; [reflexivity|]. eapply Forall_impl; [|apply marks_split]. cbv beta. intros l L. unfold py_slice in L.
  pose proof (marks_part) as P. eapply Nat.le_lt_trans; [exact L|]. eapply Nat.le_lt_trans; [apply P|]. eapply Nat.le_lt_trans; [apply P|exact M].
Qed.
