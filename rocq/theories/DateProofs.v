From Coq Require Import Ascii.
From Verif Require Import Base PyStr FileListModel QBase DistModel DistSpec DistProofs DateModel DateSpec.
Open Scope Z_scope.

(** ** C11 *)
Lemma valid_datetime_iff t : valid_datetime t = true <->
  1 <= year t <= 9999 /\ 1 <= month t <= 12 /\ 1 <= day t <= days_in_month (year t) (month t)
  /\ 0 <= hour t <= 23 /\ 0 <= minute t <= 59 /\ 0 <= second t <= 59.
Proof. unfold valid_datetime. rewrite !andb_true_iff, !Z.leb_le. tauto. Qed.
Lemma dim_range y m : 28 <= days_in_month y m <= 31.
Proof. unfold days_in_month. destruct (m =? 2), (is_leap y), ((m =? 4) || (m =? 6) || (m =? 9) || (m =? 11)); lia. Qed.
Lemma new_datetime_ok t : valid_datetime t = true -> new_datetime t = Ok t.
Proof. unfold new_datetime. intros ->. auto. Qed.

Lemma month_cases m : 1 <= m <= 12 -> m = 1 \/ m = 2 \/ m = 3 \/ m = 4 \/ m = 5 \/ m = 6 \/ m = 7 \/ m = 8 \/ m = 9 \/ m = 10 \/ m = 11 \/ m = 12.
Proof. lia. Qed.

Lemma find_last_day y m : 1 <= y <= 9999 -> 1 <= m <= 12 -> (y < 9999 \/ m < 12) -> find_last_day_of_month y m = Ok (days_in_month y m).
Proof.
  intros Hy Hm Hl. unfold find_last_day_of_month. rewrite new_datetime_ok.
  2:{ apply valid_datetime_iff. cbn [year month day hour minute second]. pose proof (dim_range y m). lia. }
  cbn [bind].
  destruct (month_cases m Hm) as [E|[E|[E|[E|[E|[E|[E|[E|[E|[E|[E|E]]]]]]]]]]]; subst m;
    cbn [iter_res bind]; unfold next_day, prev_day, days_in_month; cbn; try reflexivity.
  - destruct (is_leap y) eqn:EL; repeat (progress (cbv -[is_leap]; rewrite ?EL)); reflexivity.
  - destruct (Z.ltb_spec y 9999); [|lia]. cbn. change (Pos.to_nat 1) with 1%nat. cbn. replace (1 <? y + 1) with true by (symmetry; apply Z.ltb_lt; lia). reflexivity.
Qed.
Lemma find_last_day_9999 : find_last_day_of_month 9999 12 = Raises OverflowError.
Proof. reflexivity. Qed.

Definition last_december (p : partial) : Prop :=
  p_year p = 9999 /\ (nth 0 (p_rest p) None = None \/ (nth 0 (p_rest p) None = Some 12 /\ nth 1 (p_rest p) None = None)).

Lemma all6 {A} (P : nat -> A -> Prop) (c0 c1 c2 c3 c4 c5 : A) :
  (forall i c, nth_error [c0; c1; c2; c3; c4; c5] i = Some c -> P i c) <-> P 0%nat c0 /\ P 1%nat c1 /\ P 2%nat c2 /\ P 3%nat c3 /\ P 4%nat c4 /\ P 5%nat c5.
Proof.
  split.
  - intros H. repeat split; apply H; reflexivity.
  - intros (H0 & H1 & H2 & H3 & H4 & H5) i c.
    do 6 (destruct i as [|i]; [cbn; intros [= <-]; auto|]). destruct i; discriminate.
Qed.
Lemma has_components_iff y c1 c2 c3 c4 c5 t : has_components (mkPartial y [c1; c2; c3; c4; c5]) t <->
  year t = y /\ (forall v, c1 = Some v -> month t = v) /\ (forall v, c2 = Some v -> day t = v) /\ (forall v, c3 = Some v -> hour t = v)
  /\ (forall v, c4 = Some v -> minute t = v) /\ (forall v, c5 = Some v -> second t = v).
Proof.
  unfold has_components, components. cbn [p_year p_rest].
  transitivity (forall i c, nth_error [Some y; c1; c2; c3; c4; c5] i = Some c -> forall v, c = Some v -> nth_error (fields t) i = Some v).
  { split; intros H i; [intros c Hc v ->; auto|intros v Hv; eauto]. }
  rewrite (all6 (fun i c => forall v, c = Some v -> nth_error (fields t) i = Some v)). unfold fields. cbn [nth_error].
  assert (E : forall (c : option Z) z, (forall v, c = Some v -> Some z = Some v) <-> (forall v, c = Some v -> z = v)).
  { intros c z. split; intros H v Hv; specialize (H v Hv); congruence. }
  rewrite !E. split; intros (H0 & H1); (split; [|exact H1]); [auto|intros v [= <-]; auto].
Qed.

Ltac split_valid H := apply valid_datetime_iff in H; cbn [year month day hour minute second] in H.
Lemma of_six_ok y m d h mi s t : of_six [y; m; d; h; mi; s] = Ok t -> t = mkDT y m d h mi s /\ valid_datetime t = true.
Proof. unfold of_six, new_datetime. destruct (valid_datetime _) eqn:E; [|discriminate]. intros [= <-]. auto. Qed.
Lemma of_six_valid y m d h mi s : valid_datetime (mkDT y m d h mi s) = true -> of_six [y; m; d; h; mi; s] = Ok (mkDT y m d h mi s).
Proof. unfold of_six, new_datetime. intros ->. auto. Qed.

Lemma partial_range y rest p : length rest = 5%nat -> new_partial y rest = Ok p -> ~ last_december p ->
  exists lo hi, pdt_range p = Ok (lo, hi) /\ valid_datetime lo = true /\ valid_datetime hi = true
    /\ forall t, valid_datetime t = true -> (has_components p t <-> not_later lo t /\ not_later t hi).
Proof.
  intros HL HN HD. unfold new_partial in HN. destruct (has_gap (components (mkPartial y rest))) eqn:HG; [discriminate|].
  destruct (pdt_min (mkPartial y rest)) as [lo|e] eqn:EM; [|destruct e; discriminate]. injection HN as <-.
  unfold pdt_range. rewrite EM. cbn [bind].
  destruct rest as [|c1 [|c2 [|c3 [|c4 [|c5 [|? ?]]]]]]; try discriminate.
  assert (CASES :
    (c1 = None /\ c2 = None /\ c3 = None /\ c4 = None /\ c5 = None)
    \/ (c1 <> None /\ c2 = None /\ c3 = None /\ c4 = None /\ c5 = None)
    \/ (c1 <> None /\ c2 <> None /\ c3 = None /\ c4 = None /\ c5 = None)
    \/ (c1 <> None /\ c2 <> None /\ c3 <> None /\ c4 = None /\ c5 = None)
    \/ (c1 <> None /\ c2 <> None /\ c3 <> None /\ c4 <> None /\ c5 = None)
    \/ (c1 <> None /\ c2 <> None /\ c3 <> None /\ c4 <> None /\ c5 <> None)).
  { clear -HG. destruct c1 as [v1|], c2 as [v2|], c3 as [v3|], c4 as [v4|], c5 as [v5|]; cbn in HG; try discriminate;
    repeat (first [left; repeat split; (reflexivity || discriminate) | right]); repeat split; try reflexivity; discriminate. }
  assert (NL : forall t1 t2, not_later t1 t2 <-> lex_le (fields t1) (fields t2)) by reflexivity.
  unfold last_december in HD. cbn [p_year p_rest nth] in HD.
  destruct CASES as [C|[C|[C|[C|[C|C]]]]]; destruct C as (C1 & C2 & C3 & C4 & C5);
    repeat match goal with
    | H : ?c <> None |- _ => destruct c as [|]; [clear H|congruence]
    | H : ?c = None |- _ => subst c
    end;
    unfold pdt_min, components in EM; cbn [p_year p_rest given length app skipn] in EM; apply of_six_ok in EM; destruct EM as [-> V0];
    unfold pdt_max, components; cbn [p_year p_rest given length app seq fill_max Nat.sub Nat.eqb nth];
    pose proof V0 as V; split_valid V;
    pose proof (dim_range y 1) as D1; pose proof (dim_range y 12) as D12.
  - assert (Y9 : y < 9999) by (destruct (Z.eq_dec y 9999); [exfalso; apply HD; auto|lia]). rewrite find_last_day by lia. cbn [bind app]. rewrite of_six_valid.
    2:{ apply valid_datetime_iff. cbn. lia. }
    cbn [bind]. eexists _, _. split; [reflexivity|]. split; [auto|]. split; [apply valid_datetime_iff; cbn; lia|].
    intros t Ht. split_valid Ht. rewrite has_components_iff. unfold not_later, fields. cbn [lex_le year month day hour minute second].
    change (days_in_month y 12) with 31. pose proof (dim_range (year t) (month t)) as Dt.
    split; [intros (H0 & _); lia|]. intros [H1 H2]. split; [lia|]. repeat split; discriminate.
  - assert (Y9 : y < 9999 \/ z < 12).
    { destruct (Z.eq_dec y 9999); [|lia]. destruct (Z.eq_dec z 12); [|lia]. exfalso. apply HD. subst. auto. }
    rewrite find_last_day by lia. cbn [bind app]. pose proof (dim_range y z) as Dm. rewrite of_six_valid.
    2:{ apply valid_datetime_iff. cbn. lia. }
    cbn [bind]. eexists _, _. split; [reflexivity|]. split; [auto|]. split; [apply valid_datetime_iff; cbn; lia|].
    intros t Ht. split_valid Ht. rewrite has_components_iff. unfold not_later, fields. cbn [lex_le year month day hour minute second].
    split.
    + intros (H0 & H1 & _). specialize (H1 _ eq_refl). subst. lia.
    + intros [H1 H2]. repeat split; try discriminate; [lia|]. intros v [= <-]. lia.
  - cbn [bind app]. rewrite of_six_valid by (apply valid_datetime_iff; cbn; lia).
    cbn [bind]. eexists _, _. split; [reflexivity|]. split; [auto|]. split; [apply valid_datetime_iff; cbn; lia|].
    intros t Ht. split_valid Ht. rewrite has_components_iff. unfold not_later, fields. cbn [lex_le year month day hour minute second].
    split.
    + intros (H0 & H1 & H2 & _). specialize (H1 _ eq_refl). specialize (H2 _ eq_refl). lia.
    + intros [H1 H2]. repeat split; try discriminate; try (intros v [= <-]); lia.
  - cbn [bind app]. rewrite of_six_valid by (apply valid_datetime_iff; cbn; lia).
    cbn [bind]. eexists _, _. split; [reflexivity|]. split; [auto|]. split; [apply valid_datetime_iff; cbn; lia|].
    intros t Ht. split_valid Ht. rewrite has_components_iff. unfold not_later, fields. cbn [lex_le year month day hour minute second].
    split.
    + intros (H0 & H1 & H2 & H3 & _). specialize (H1 _ eq_refl). specialize (H2 _ eq_refl). specialize (H3 _ eq_refl). lia.
    + intros [H1 H2]. repeat split; try discriminate; try (intros v [= <-]); lia.
  - cbn [bind app]. rewrite of_six_valid by (apply valid_datetime_iff; cbn; lia).
    cbn [bind]. eexists _, _. split; [reflexivity|]. split; [auto|]. split; [apply valid_datetime_iff; cbn; lia|].
    intros t Ht. split_valid Ht. rewrite has_components_iff. unfold not_later, fields. cbn [lex_le year month day hour minute second].
    split.
    + intros (H0 & H1 & H2 & H3 & H4 & _). specialize (H1 _ eq_refl). specialize (H2 _ eq_refl). specialize (H3 _ eq_refl). specialize (H4 _ eq_refl). lia.
    + intros [H1 H2]. repeat split; try discriminate; try (intros v [= <-]); lia.
  - cbn [bind app]. rewrite of_six_valid by (apply valid_datetime_iff; cbn; lia).
    cbn [bind]. eexists _, _. split; [reflexivity|]. split; [auto|]. split; [apply valid_datetime_iff; cbn; lia|].
    intros t Ht. split_valid Ht. rewrite has_components_iff. unfold not_later, fields. cbn [lex_le year month day hour minute second].
    split.
    + intros (H0 & H1 & H2 & H3 & H4 & H5). specialize (H1 _ eq_refl). specialize (H2 _ eq_refl). specialize (H3 _ eq_refl). specialize (H4 _ eq_refl). specialize (H5 _ eq_refl). lia.
    + intros [H1 H2]. repeat split; try (intros v [= <-]); lia.
Qed.

Lemma partial_accepts y rest : length rest = 5%nat ->
  (exists p, new_partial y rest = Ok p) \/ new_partial y rest = Raises ValueError.
Proof.
  intros HL. unfold new_partial. destruct (has_gap _); auto. destruct (pdt_min _) as [|e] eqn:E; [eauto|].
  right. unfold pdt_min in E. unfold of_six, new_datetime in E.
  destruct (given (components (mkPartial y rest)) ++ _) as [|? [|? [|? [|? [|? [|? [|? ?]]]]]]]; try (injection E as <-; reflexivity).
  destruct (valid_datetime _); [discriminate|]. injection E as <-. reflexivity.
Qed.
Lemma partial_gap y rest : (exists i j v, (i < j)%nat /\ nth_error rest i = Some None /\ nth_error rest j = Some (Some v)) -> new_partial y rest = Raises ValueError.
Proof.
  intros (i & j & v & Hij & Hi & Hj). unfold new_partial. replace (has_gap (components (mkPartial y rest))) with true; auto. symmetry.
  unfold components. cbn [has_gap p_rest]. clear y. revert i j Hij Hi Hj. induction rest as [|c rest IH]; intros [|i] [|j] Hij Hi Hj; simpl in *; try discriminate; try lia.
  - injection Hi as ->. apply existsb_exists. exists (Some v). split; auto. eapply nth_error_In; eauto.
  - destruct c as [w|].
    + apply (IH i j); auto. lia.
    + apply existsb_exists. exists (Some v). split; auto. eapply nth_error_In; eauto.
Qed.

(** text *)
Lemma text_digits ds : numeral ds -> Forall (fun c => is_digit c = true) (text ds).
Proof. intros [_ H]. apply digits_all; auto. Qed.
Lemma int_of_text ds : numeral ds -> int_of (text ds) = Ok (number ds).
Proof.
  intros H. pose proof H as [HN HF]. unfold int_of. pose proof (match_sign_render NoSign (text ds)) as E. cbn [render_sign app] in E. rewrite E.
  2:{ destruct ds as [|x ds]; [congruence|]. cbn. inversion HF; subst. apply digit_facts; auto. }
  cbn [sign_val]. destruct ds as [|x ds]; [congruence|]. cbn [text map]. change (render_digit x :: map render_digit ds) with (text (x :: ds)).
  replace (forallb is_digit (text (x :: ds))) with true.
  2:{ symmetry. apply forallb_forall. pose proof (text_digits _ H) as T. rewrite Forall_forall in T. auto. }
  unfold text, number. rewrite digits_val_render by auto. f_equal. lia.
Qed.
Lemma map_res_text parts : Forall numeral parts -> map_res int_of (map text parts) = Ok (map number parts).
Proof. induction 1 as [|ds parts H _ IH]; simpl; auto. rewrite int_of_text by auto. simpl. rewrite IH. auto. Qed.
Lemma digit_not c d : is_digit c = true -> is_digit d = false -> c <> d.
Proof. congruence. Qed.
Lemma text_no c ds : is_digit c = false -> numeral ds -> ~ In c (text ds).
Proof. intros Hc H Hi. pose proof (text_digits _ H) as T. rewrite Forall_forall in T. specialize (T _ Hi). congruence. Qed.
Lemma split_text c parts : is_digit c = false -> parts <> [] -> Forall numeral parts -> split_on c (join_on c (map text parts)) = map text parts.
Proof.
  intros Hc HN H. apply split_join; [destruct parts; simpl; congruence|]. intros p Hp. apply in_map_iff in Hp. destruct Hp as (ds & <- & Hd).
  apply text_no; auto. rewrite Forall_forall in H. auto.
Qed.
Lemma join_chars c ps x : In x (join_on c ps) -> x = c \/ exists p, In p ps /\ In x p.
Proof.
  induction ps as [|p ps IH]; [intros []|]. destruct ps as [|q ps].
  - simpl. intros H. right. exists p. auto.
  - cbn [join_on]. intros H. apply in_app_or in H. destruct H as [H|[H|H]]; [right; exists p; simpl; auto|auto|].
    destruct (IH H) as [->|(r & H1 & H2)]; auto. right. exists r. split; auto. simpl. auto.
Qed.
Lemma date_text_no_sep parts : Forall numeral parts -> Forall (fun c => negb (is_dt_sep c) = true) (join_on "-" (map text parts)).
Proof.
  intros H. apply Forall_forall. intros c Hc. apply join_chars in Hc. destruct Hc as [->|(p & Hp & Hc)]; [reflexivity|].
  apply in_map_iff in Hp. destruct Hp as (ds & <- & Hd). rewrite Forall_forall in H. specialize (H _ Hd).
  unfold is_dt_sep. destruct (ascii_dec c "T"); [subst; exfalso; revert Hc; apply text_no; auto|].
  destruct (ascii_dec c " "); [subst; exfalso; revert Hc; apply text_no; auto|].
  destruct (ascii_dec c ":"); [subst; exfalso; revert Hc; apply text_no; auto|]. reflexivity.
Qed.
Lemma join_text_nonnil c parts : parts <> [] -> Forall numeral parts -> join_on c (map text parts) <> [].
Proof.
  intros HN H. destruct parts as [|ds parts]; [congruence|]. inversion H as [|? ? [Hn Hd] _]; subst. destruct ds as [|x ds]; [congruence|].
  destruct parts; simpl; discriminate.
Qed.

Lemma parse_partial_text dparts tparts sep :
  dparts <> [] -> Forall numeral dparts -> Forall numeral tparts -> is_dt_sep sep = true ->
  parse_partial_datetime (join_on "-" (map text dparts) ++ match tparts with [] => [] | _ => sep :: join_on ":" (map text tparts) end)
  = if (3 <? length dparts)%nat || (3 <? length tparts)%nat || ((length dparts <? 3)%nat && (0 <? length tparts)%nat) then Raises ValueError
    else match map number (dparts ++ tparts) with y :: r => new_partial y (pad5 r) | [] => Raises TypeError end.
Proof.
  intros HN HD HT HS. unfold parse_partial_datetime.
  destruct tparts as [|t0 tparts].
  - rewrite !app_nil_r. unfold match_date_time.
    pose proof (span_stop (fun c => negb (is_dt_sep c)) (join_on "-" (map text dparts)) [] (date_text_no_sep _ HD) I) as SP. rewrite app_nil_r in SP.
    rewrite SP. assert (E : forall x : str, match x with [] => None | _ :: _ => None end = (None : option (str * str))) by (destruct x; auto).
    rewrite E. cbn [bind fst snd]. rewrite split_text by auto. rewrite map_res_text by auto. cbn [bind length]. rewrite map_length, app_nil_r. reflexivity.
  - unfold match_date_time.
    rewrite span_stop; [|apply date_text_no_sep; auto|rewrite HS; reflexivity].
    pose proof (join_text_nonnil "-" dparts HN HD) as N1. pose proof (join_text_nonnil ":" (t0 :: tparts) ltac:(discriminate) HT) as N2.
    destruct (join_on "-" (map text dparts)) as [|dc dr] eqn:E1; [congruence|]. rewrite <- E1.
    destruct (join_on ":" (map text (t0 :: tparts))) as [|tc tr] eqn:E2; [congruence|]. rewrite <- E2.
    rewrite split_text by (auto; discriminate). rewrite map_res_text by auto. cbn [bind fst snd].
    rewrite split_text by auto. rewrite map_res_text by auto. cbn [bind]. rewrite !map_length, map_app. reflexivity.
Qed.

(** ** C12 *)
Lemma upper_digit c : is_digit c = true -> upper_char c = c.
Proof.
  unfold is_digit, upper_char. intros H. apply andb_true_iff in H. destruct H as [H1 H2]. apply Nat.leb_le in H1, H2.
  destruct (Nat.leb_spec 97 (nat_of_ascii c)); simpl; auto. lia.
Qed.
Lemma upper_text ds : numeral ds -> upper (text ds) = text ds.
Proof.
  intros H. pose proof (text_digits _ H) as T. unfold upper. induction T as [|c l Hc _ IH]; simpl; auto. rewrite upper_digit, IH; auto.
Qed.
Definition up_tokens (ks : list token) : str := concat (map (fun k => text (fst k) ++ [unit_of k]) ks).
Lemma upper_tokens ks : Forall token_ok ks -> upper (tokens_text ks) = up_tokens ks.
Proof.
  unfold upper, tokens_text, up_tokens. induction 1 as [|k ks [Hn Hu] _ IH]; simpl; auto. rewrite map_app, IH. f_equal.
  unfold token_text. rewrite map_app. f_equal. apply upper_text. auto.
Qed.
Lemma upper_char_facts c : is_upper c = true -> is_digit c = false.
Proof.
  unfold is_upper, is_digit. intros H. apply andb_true_iff in H. destruct H as [H1 H2]. apply Nat.leb_le in H1, H2.
  destruct (Nat.leb_spec (nat_of_ascii c) 57); [lia|]. apply andb_false_r.
Qed.
Lemma findall_up ks : Forall token_ok ks -> forall fuel, (length (up_tokens ks) <= fuel)%nat -> findall_tokens fuel (up_tokens ks) = map (fun k => (text (fst k), unit_of k)) ks.
Proof.
  induction 1 as [|k ks [Hn Hu] _ IH]; intros fuel HF.
  - destruct fuel; reflexivity.
  - change (up_tokens (k :: ks)) with ((text (fst k) ++ [unit_of k]) ++ up_tokens ks) in *. rewrite <- app_assoc in *. cbn [app] in *.
    rewrite app_length in HF. simpl in HF. destruct fuel as [|fuel]; [lia|].
    assert (SP : span is_digit (text (fst k) ++ unit_of k :: up_tokens ks) = (text (fst k), unit_of k :: up_tokens ks)).
    { apply span_stop; [apply text_digits; auto|apply upper_char_facts; auto]. }
    cbn [findall_tokens]. destruct (text (fst k) ++ unit_of k :: up_tokens ks) as [|c r] eqn:E; [destruct (text (fst k)); discriminate|].
    rewrite SP. fold (unit_of k) in Hu. rewrite Hu. simpl. rewrite IH by lia. reflexivity.
Qed.
Definition reg (u : ascii) (ks : list token) (init : Z) : Z := fold_left (fun acc k => if ascii_dec (unit_of k) u then number (fst k) else acc) ks init.
Lemma reg_none u ks : existsb (fun k' => if ascii_dec (unit_of k') u then true else false) ks = false -> forall i, reg u ks i = i.
Proof.
  unfold reg. induction ks as [|k ks IH]; simpl; auto. intros H i. apply orb_false_iff in H. destruct H as [H1 H2].
  destruct (ascii_dec (unit_of k) u); [discriminate|]. auto.
Qed.
Lemma reg_some u ks : existsb (fun k' => if ascii_dec (unit_of k') u then true else false) ks = true -> forall i j, reg u ks i = reg u ks j.
Proof.
  induction ks as [|k ks IH]; simpl; [discriminate|]. intros H i j. unfold reg. simpl. fold (reg u ks).
  destruct (ascii_dec (unit_of k) u); auto. simpl in H. apply (IH H).
Qed.
Lemma reg_amount u ks : reg u ks 0 = amount u ks.
Proof.
  induction ks as [|k ks IH]; auto. cbn [amount]. unfold reg. cbn [fold_left]. fold (reg u ks (if ascii_dec (unit_of k) u then number (fst k) else 0)).
  destruct (existsb _ ks) eqn:E.
  - rewrite <- IH. apply reg_some. auto.
  - rewrite reg_none by auto. destruct (ascii_dec (unit_of k) u); auto.
Qed.
Lemma token_loop_ok u1 u2 u3 ks : u1 <> u2 -> u1 <> u3 -> u2 <> u3 -> Forall token_ok ks -> Forall (fun k => In (unit_of k) [u1; u2; u3]) ks ->
  forall a b c, token_loop u1 u2 u3 (map (fun k => (text (fst k), unit_of k)) ks) (a, b, c) = Ok (reg u1 ks a, reg u2 ks b, reg u3 ks c).
Proof.
  intros D1 D2 D3 HK. induction HK as [|k ks [Hn Hu] _ IH]; intros HU a b c; [reflexivity|]. inversion HU as [|? ? HI HU']; subst.
  cbn [map token_loop]. rewrite int_of_text by auto. cbn [bind]. unfold reg. cbn [fold_left].
  destruct HI as [HI|[HI|[HI|[]]]]; rewrite <- HI.
  - destruct (ascii_dec u1 u1); [|congruence]. destruct (ascii_dec u1 u2); [congruence|]. destruct (ascii_dec u1 u3); [congruence|]. apply IH; auto.
  - destruct (ascii_dec u2 u2); [|congruence]. destruct (ascii_dec u2 u1); [congruence|]. destruct (ascii_dec u2 u3); [congruence|]. apply IH; auto.
  - destruct (ascii_dec u3 u3); [|congruence]. destruct (ascii_dec u3 u1); [congruence|]. destruct (ascii_dec u3 u2); [congruence|]. apply IH; auto.
Qed.
Lemma token_loop_bad u1 u2 u3 ks : Forall token_ok ks -> Exists (fun k => ~ In (unit_of k) [u1; u2; u3]) ks ->
  forall acc, token_loop u1 u2 u3 (map (fun k => (text (fst k), unit_of k)) ks) acc = Raises ValueError.
Proof.
  intros HK. induction HK as [|k ks [Hn Hu] _ IH]; intros HX [[a b] c]; [inversion HX|].
  cbn [map token_loop]. rewrite int_of_text by auto. cbn [bind].
  destruct (ascii_dec (unit_of k) u1), (ascii_dec (unit_of k) u2), (ascii_dec (unit_of k) u3); auto;
    apply IH; inversion HX as [? ? C|]; subst; auto; exfalso; apply C; simpl; auto.
Qed.
Lemma up_tokens_no_sep ks : Forall token_ok ks -> Forall (fun k => unit_of k <> "T"%char) ks -> Forall (fun c => negb (is_dt_sep c) = true) (up_tokens ks).
Proof.
  intros HK HT. unfold up_tokens. induction HK as [|k ks [Hn Hu] _ IH]; simpl; [constructor|]. inversion HT; subst.
  apply Forall_app. split; [|auto]. apply Forall_app. split.
  - apply Forall_forall. intros c Hc. unfold is_dt_sep. destruct (ascii_dec c "T"); [subst; exfalso; revert Hc; apply text_no; auto|].
    destruct (ascii_dec c " "); [subst; exfalso; revert Hc; apply text_no; auto|].
    destruct (ascii_dec c ":"); [subst; exfalso; revert Hc; apply text_no; auto|]. reflexivity.
  - constructor; [|constructor]. unfold is_dt_sep. destruct (ascii_dec (unit_of k) "T"); [congruence|].
    fold (unit_of k) in Hu. destruct (ascii_dec (unit_of k) " ") as [E|]; [rewrite E in Hu; discriminate|].
    destruct (ascii_dec (unit_of k) ":") as [E|]; [rewrite E in Hu; discriminate|]. reflexivity.
Qed.

Definition period (p sep : ascii) (ds ts : list token) : str :=
  p :: tokens_text ds ++ match ts with [] => [] | _ => sep :: tokens_text ts end.
Lemma match_period p sep ds ts : upper_char p = "P"%char -> is_dt_sep (upper_char sep) = true -> Forall token_ok ds -> Forall token_ok ts ->
  Forall (fun k => unit_of k <> "T"%char) ds -> match_delta (upper (period p sep ds ts)) = Some (up_tokens ds, up_tokens ts).
Proof.
  intros HP HS HD HT HU. unfold period, upper. cbn [map match_delta]. rewrite HP. destruct (ascii_dec "P" "P"); [|congruence].
  rewrite map_app. fold (upper (tokens_text ds)). rewrite upper_tokens by auto.
  destruct ts as [|t ts].
  - rewrite span_stop; [reflexivity|apply up_tokens_no_sep; auto|exact I].
  - cbn [map]. fold (upper (tokens_text (t :: ts))). rewrite upper_tokens by auto.
    rewrite span_stop; [reflexivity|apply up_tokens_no_sep; auto|rewrite HS; reflexivity].
Qed.
Lemma period_value p sep ds ts : upper_char p = "P"%char -> is_dt_sep (upper_char sep) = true -> Forall token_ok ds -> Forall token_ok ts ->
  Forall (fun k => In (unit_of k) ["Y"; "M"; "D"]%char) ds -> Forall (fun k => In (unit_of k) ["H"; "M"; "S"]%char) ts ->
  parse_datetime_delta (period p sep ds ts) =
    Ok (amount "S" ts + 60 * amount "M" ts + 3600 * amount "H" ts + 86400 * (amount "D" ds + 30 * amount "M" ds + 365 * amount "Y" ds)).
Proof.
  intros HP HS HD HT HU1 HU2. unfold parse_datetime_delta. rewrite match_period; auto.
  2:{ eapply Forall_impl; [|exact HU1]. intros k Hk E. cbn beta in Hk. rewrite E in Hk. simpl in Hk. intuition discriminate. }
  rewrite !findall_up by auto. rewrite !token_loop_ok by (auto; discriminate). cbn [bind]. rewrite !reg_amount. f_equal. ring.
Qed.
Lemma period_bad_unit p sep ds ts : upper_char p = "P"%char -> is_dt_sep (upper_char sep) = true -> Forall token_ok ds -> Forall token_ok ts ->
  Forall (fun k => unit_of k <> "T"%char) ds ->
  (Exists (fun k => ~ In (unit_of k) ["Y"; "M"; "D"]%char) ds \/ Exists (fun k => ~ In (unit_of k) ["H"; "M"; "S"]%char) ts) ->
  parse_datetime_delta (period p sep ds ts) = Raises ValueError.
Proof.
  intros HP HS HD HT HU HX. unfold parse_datetime_delta. rewrite match_period; auto. rewrite !findall_up by auto.
  assert (G : forall u1 u2 u3 ks acc, Forall token_ok ks -> u1 <> u2 -> u1 <> u3 -> u2 <> u3 ->
     (exists r, token_loop u1 u2 u3 (map (fun k => (text (fst k), unit_of k)) ks) acc = Ok r) \/ token_loop u1 u2 u3 (map (fun k => (text (fst k), unit_of k)) ks) acc = Raises ValueError).
  { intros u1 u2 u3 ks [[a b] c] HK D1 D2 D3. destruct (Forall_dec (fun k : token => In (unit_of k) [u1; u2; u3]) (fun k => in_dec ascii_dec (unit_of k) [u1; u2; u3]) ks) as [F|F].
    - left. rewrite token_loop_ok; eauto.
    - right. apply token_loop_bad; auto. apply Exists_Forall_neg in F; auto. intros k. destruct (in_dec ascii_dec (unit_of k) [u1; u2; u3]); tauto. }
  destruct HX as [HX|HX].
  - rewrite token_loop_bad by auto. reflexivity.
  - destruct (G "Y"%char "M"%char "D"%char ds (0, 0, 0)) as [[r E]|E]; auto; try discriminate; rewrite E; cbn [bind]; auto.
    rewrite token_loop_bad by auto. reflexivity.
Qed.
Lemma period_days s secs : parse_datetime_delta s = Ok secs -> exists q, parse_datetimestr_delta_to_float_days s = Ok q /\ (q * 86400 == inject_Z secs)%Q.
Proof. intros H. unfold parse_datetimestr_delta_to_float_days. rewrite H. cbn [bind]. eexists. split; [reflexivity|]. field. Qed.

(** ** C13, C14 *)
Lemma days_before_year_succ y : days_before_year (y + 1) = days_before_year y + (if is_leap y then 366 else 365).
Proof.
  unfold days_before_year, is_leap. replace (y + 1 - 1) with y by ring.
  destruct (Z.eqb_spec (y mod 4) 0), (Z.eqb_spec (y mod 100) 0), (Z.eqb_spec (y mod 400) 0); cbn [andb orb negb];
  Z.to_euclidean_division_equations; lia.
Qed.
Lemma days_of_months y : days_before_month y 12 = if is_leap y then 366 else 365.
Proof. cbn -[days_in_month]. unfold days_in_month. cbn. destruct (is_leap y); reflexivity. Qed.
Lemma next_day_ordinal t t' : valid_datetime t = true -> next_day t = Ok t' ->
  valid_datetime t' = true /\ toordinal t' = toordinal t + 1 /\ seconds_of_day t' = seconds_of_day t.
Proof.
  intros V H. apply valid_datetime_iff in V. unfold next_day in H.
  destruct (Z.ltb_spec (day t) (days_in_month (year t) (month t))).
  - injection H as <-. split; [apply valid_datetime_iff; cbn; lia|]. split; [|reflexivity]. unfold toordinal. cbn [year month day]. lia.
  - destruct (Z.ltb_spec (month t) 12).
    + injection H as <-. pose proof (dim_range (year t) (month t + 1)). split; [apply valid_datetime_iff; cbn; lia|]. split; [|reflexivity].
      unfold toordinal. cbn [year month day]. replace (Z.to_nat (month t + 1 - 1)) with (S (Z.to_nat (month t - 1))) by lia.
      cbn [days_before_month]. replace (Z.of_nat (S (Z.to_nat (month t - 1)))) with (month t) by lia. lia.
    + destruct (Z.ltb_spec (year t) 9999); [|discriminate]. injection H as <-. pose proof (dim_range (year t + 1) 1). split; [apply valid_datetime_iff; cbn [year month day hour minute second]; lia|]. split; [|reflexivity].
      unfold toordinal. cbn [year month day]. rewrite days_before_year_succ. replace (month t) with 12 in * by lia.
      change (Z.to_nat (1 - 1)) with 0%nat. change (Z.to_nat (12 - 1)) with 11%nat. pose proof (days_of_months (year t)) as E.
      change (days_before_month (year t) 12) with (days_before_month (year t) 11 + days_in_month (year t) 12) in E.
      change (days_before_month (year t + 1) 0) with 0. change (days_in_month (year t) 12) with 31 in *. lia.
Qed.
Lemma sec_since_error ref s : valid_datetime ref = true ->
  (convert_sec_since_to_std_time ref s * 86400 ==
    (inject_Z ((toordinal ref - toordinal std_ref) * 86400) + s))%Q.
Proof.
  intros V. apply valid_datetime_iff in V. unfold convert_sec_since_to_std_time, offset_days.
  assert (E : ((toordinal ref - toordinal std_ref) * 86400 + (seconds_of_day ref - seconds_of_day std_ref)) / 86400 = toordinal ref - toordinal std_ref).
  { change (seconds_of_day std_ref) with 0. assert (0 <= seconds_of_day ref < 86400) by (unfold seconds_of_day; lia).
    rewrite Z.add_comm, Z.div_add by lia. rewrite Z.div_small by lia. lia. }
  rewrite E, inject_Z_mult. field.
Qed.
Lemma sec_since_midnight ref s : valid_datetime ref = true ->
  (convert_sec_since_to_std_time ref s * 86400 ==
    inject_Z ((toordinal ref * 86400 + seconds_of_day ref) - (toordinal std_ref * 86400 + seconds_of_day std_ref)) + s)%Q
  <-> seconds_of_day ref = 0.
Proof.
  intros V. rewrite sec_since_error by auto. change (seconds_of_day std_ref) with 0. split.
  - intros H. assert (E : (inject_Z ((toordinal ref - toordinal std_ref) * 86400) ==
      inject_Z ((toordinal ref * 86400 + seconds_of_day ref) - (toordinal std_ref * 86400 + 0)))%Q) by lra.
    rewrite inject_Z_injective in E. lia.
  - intros H. rewrite H. assert (E : (toordinal ref - toordinal std_ref) * 86400 = toordinal ref * 86400 + 0 - (toordinal std_ref * 86400 + 0)) by lia.
    rewrite E. reflexivity.
Qed.

Lemma set_year_spec t y : valid_datetime t = true -> 1 <= y <= 9999 ->
  (set_year t y = None <-> month t = 2 /\ day t = 29 /\ is_leap y = false)
  /\ forall t', set_year t y = Some t' -> valid_datetime t' = true /\ year t' = y /\ tl (fields t') = tl (fields t).
Proof.
  intros V Hy. pose proof V as V'. apply valid_datetime_iff in V'. unfold set_year, new_datetime.
  destruct (valid_datetime (mkDT y (month t) (day t) (hour t) (minute t) (second t))) eqn:E.
  - split; [|intros t' [= <-]; auto]. split; [discriminate|]. intros (H1 & H2 & H3). apply valid_datetime_iff in E. cbn [year month day hour minute second] in E.
    rewrite H1, H2 in E. unfold days_in_month in E. cbn in E. rewrite H3 in E. lia.
  - split; [|discriminate]. split; auto. intros _.
    assert (~ (day t <= days_in_month y (month t))).
    { intros H. assert (C : valid_datetime (mkDT y (month t) (day t) (hour t) (minute t) (second t)) = true); [|congruence].
      apply valid_datetime_iff. cbn. lia. }
    unfold days_in_month in *. destruct (Z.eqb_spec (month t) 2) as [M|M]; [|exfalso; lia].
    destruct (is_leap y), (is_leap (year t)); repeat split; auto; lia.
Qed.
Lemma map_res_ok {A B} (f : A -> res B) l r : map_res f l = Ok r <-> Forall2 (fun x y => f x = Ok y) l r.
Proof.
  revert r. induction l as [|x l IH]; intros r; simpl.
  - split; [intros [= <-]; constructor|intros H; inversion H; auto].
  - destruct (f x) as [y|e] eqn:E; cbn [bind].
    + destruct (map_res f l) as [ys|e] eqn:E2; cbn [bind].
      * split; [intros [= <-]; constructor; auto; apply IH; auto|]. intros H. inversion H as [|? y' ? ys' H1 H2]; subst. apply IH in H2. congruence.
      * split; [discriminate|]. intros H. inversion H as [|? y' ? ys' H1 H2]; subst. apply IH in H2. discriminate.
    + split; [discriminate|]. intros H. inversion H; congruence.
Qed.
Lemma change_year_spec ts y ts' : Forall (fun t => valid_datetime t = true) ts -> 1 <= y <= 9999 -> change_year ts y = Ok ts' ->
  Forall2 (fun t t' => valid_datetime t' = true /\ year t' = y /\ tl (fields t') = tl (fields t)) ts ts'.
Proof.
  intros V Hy H. apply map_res_ok in H. revert V. induction H as [|t t' ts ts' H1 H2 IH]; intros V; constructor.
  - inversion V; subst. destruct (set_year t y) as [u|] eqn:E; [|discriminate]. injection H1 as <-. apply (set_year_spec t y); auto.
  - apply IH. inversion V; auto.
Qed.
