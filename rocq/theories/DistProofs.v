From Coq Require Import Ascii.
From Verif Require Import Base PyStr QBase DistModel DistSpec.
Open Scope Q_scope.

Lemma span_stop {A} (p : A -> bool) a r : Forall (fun c => p c = true) a -> match r with [] => True | c :: _ => p c = false end ->
  span p (a ++ r) = (a, r).
Proof.
  intros Ha Hr. induction Ha as [|c a Hc Ha IH]; simpl.
  - destruct r as [|c r]; simpl; auto. rewrite Hr. auto.
  - rewrite Hc, IH. auto.
Qed.
Lemma span_none {A} (p : A -> bool) r : match r with [] => True | c :: _ => p c = false end -> span p r = ([], r).
Proof. apply (span_stop p []). constructor. Qed.

Lemma digit_facts d : (d < 10)%nat -> let c := render_digit d in
  is_digit c = true /\ is_sign c = false /\ is_dot c = false /\ is_e c = false /\ digit_val c = Z.of_nat d /\ c <> " "%char.
Proof. intros H. do 10 (destruct d as [|d]; [repeat split; try reflexivity; discriminate|]). lia. Qed.
Lemma digits_all ds : Forall (fun x => (x < 10)%nat) ds -> Forall (fun c => is_digit c = true) (map render_digit ds).
Proof. induction 1; simpl; constructor; auto. apply digit_facts; auto. Qed.
Lemma digits_val_render ds : Forall (fun x => (x < 10)%nat) ds -> digits_val (map render_digit ds) = digits_value ds 0.
Proof.
  intros H. unfold digits_val. generalize 0%Z. induction H as [|d ds Hd H IH]; intros acc; cbn [map fold_left digits_value]; auto.
  rewrite IH. destruct (digit_facts d Hd) as (_ & _ & _ & _ & E & _). rewrite E. f_equal. ring.
Qed.

(** text after a number: no digits and no dots *)
Definition plain (r : str) : Prop := Forall (fun c => is_digit c = false /\ is_dot c = false) r.
Lemma plain_head r : plain r -> match r with [] => True | c :: _ => is_digit c = false end.
Proof. intros H. destruct H; auto. tauto. Qed.

Lemma match_sign_render s r : match r with [] => True | c :: _ => is_sign c = false end -> match_sign (render_sign s ++ r) = (render_sign s, r).
Proof. intros H. destruct s; simpl; auto. destruct r as [|c r]; simpl; auto. rewrite H. auto. Qed.
Lemma match_sign_plain r : plain r -> exists sg r1, match_sign r = (sg, r1) /\ plain r1.
Proof. intros H. destruct H as [|c r Hc H]; simpl; [exists [], []; split; auto; constructor|]. destruct (is_sign c); [eauto|]. exists [], (c :: r). split; auto. constructor; auto. Qed.
Lemma match_exponent_plain r : plain r -> match_exponent r = ([], r).
Proof.
  intros H. destruct H as [|c r Hc H]; simpl; auto. destruct (is_e c); auto.
  destruct (match_sign_plain r H) as (sg & r1 & E & H1). rewrite E, span_none by (apply plain_head; auto). auto.
Qed.
Lemma match_mantissa_plain r : plain r -> match_mantissa r = None.
Proof.
  intros H. unfold match_mantissa. rewrite span_none by (apply plain_head; auto). destruct H as [|c r [_ Hc] H]; auto. rewrite Hc. auto.
Qed.
Lemma match_number_plain r : plain r -> match_number r = None.
Proof.
  intros H. unfold match_number. destruct (match_sign_plain r H) as (sg & r1 & E & H1). rewrite E, match_mantissa_plain by auto. auto.
Qed.

Definition exp_text (e : option (bool * sgn * list nat)) : str :=
  match e with Some (up, s, e) => (if up : bool then "E"%char else "e"%char) :: render_sign s ++ map render_digit e | None => [] end.
Definition exp_ok (e : option (bool * sgn * list nat)) : Prop := match e with Some (_, _, e) => e <> [] /\ Forall (fun x => (x < 10)%nat) e | None => True end.
Definition mant_text (d : decimal) : str := map render_digit (d_int d) ++ match d_frac d with Some f => "."%char :: map render_digit f | None => [] end.
Lemma render_split d : render d = render_sign (d_sign d) ++ mant_text d ++ exp_text (d_exp d).
Proof. unfold render, mant_text, exp_text. rewrite <- !app_assoc. reflexivity. Qed.

Lemma match_exponent_render e r : exp_ok e -> plain r -> match_exponent (exp_text e ++ r) = (exp_text e, r).
Proof.
  intros He Hr. destruct e as [[[up s] ds]|]; [|apply match_exponent_plain; auto]. destruct He as [Hn Hd].
  destruct ds as [|x ds]; [congruence|]. inversion Hd as [|? ? Hx Hds]; subst.
  cbn [exp_text app]. unfold match_exponent.
  replace (is_e (if up then "E"%char else "e"%char)) with true by (destruct up; reflexivity).
  rewrite <- app_assoc. rewrite match_sign_render by (cbn; apply digit_facts; auto).
  rewrite span_stop; [|apply (digits_all (x :: ds)); auto|apply plain_head; auto]. cbn [map]. reflexivity.
Qed.
(** after the mantissa: an exponent or plain text *)
Lemma after_mantissa e r : exp_ok e -> plain r -> match exp_text e ++ r with [] => True | c :: _ => is_digit c = false /\ is_dot c = false end.
Proof. intros He Hr. destruct e as [[[[|] s] ds]|]; simpl; [split; auto|split; auto|]. destruct Hr; auto. Qed.

Lemma match_mantissa_render d r : decimal_ok d -> match r with [] => True | c :: _ => is_digit c = false /\ is_dot c = false end ->
  match_mantissa (mant_text d ++ r) = Some (mant_text d, r).
Proof.
  intros (HI & HF & HN & HE) Hr. unfold match_mantissa, mant_text. rewrite <- app_assoc.
  assert (Hr' : match r with [] => True | c :: _ => is_digit c = false end) by (destruct r; tauto).
  destruct (d_frac d) as [f|] eqn:EF.
  - rewrite span_stop; [|apply digits_all; auto|reflexivity].
    destruct (d_int d) as [|x ds] eqn:EI.
    + cbn [map app]. cbn [is_dot]. change (is_dot ".") with true. cbn iota.
      rewrite span_stop by (auto; apply digits_all; auto). destruct HN as (y & f' & Ef); auto. injection Ef as ->. reflexivity.
    + cbn [map app]. change (is_dot ".") with true. cbn iota. rewrite span_stop by (auto; apply digits_all; auto). reflexivity.
  - rewrite app_nil_r. cbn [app]. rewrite span_stop by (auto; apply digits_all; auto).
    destruct (d_int d) as [|x ds] eqn:EI; [destruct HN as (? & ? & ?); auto; discriminate|].
    cbn [map]. destruct r as [|c r]; auto. destruct Hr as [_ ->]. reflexivity.
Qed.
Lemma mant_head d r : decimal_ok d -> exists c t, mant_text d ++ r = c :: t /\ is_sign c = false /\ c <> " "%char.
Proof.
  intros (HI & HF & HN & HE). unfold mant_text. destruct (d_int d) as [|x ds] eqn:EI.
  - destruct HN as (y & f & Ef); auto. rewrite Ef. simpl. exists "."%char. eexists. split; eauto. split; [reflexivity|discriminate].
  - simpl. exists (render_digit x). eexists. split; eauto. inversion HI; subst. destruct (digit_facts x); auto. tauto.
Qed.
Lemma match_number_render d r : decimal_ok d -> plain r -> match_number (render d ++ r) = Some (render d, r).
Proof.
  intros OK Hr. unfold match_number. rewrite render_split. rewrite <- !app_assoc.
  rewrite match_sign_render.
  2:{ destruct (mant_head d (exp_text (d_exp d) ++ r) OK) as (c & t & -> & H & _). auto. }
  assert (exp_ok (d_exp d)) by apply OK.
  rewrite match_mantissa_render by (auto; apply after_mantissa; auto).
  rewrite match_exponent_render by auto. reflexivity.
Qed.
Lemma render_head d : decimal_ok d -> exists c t, render d = c :: t /\ c <> " "%char.
Proof.
  intros OK. rewrite render_split. destruct (mant_head d (exp_text (d_exp d)) OK) as (c & t & -> & _ & H).
  destruct (d_sign d); simpl; eauto; eexists _, _; split; eauto; discriminate.
Qed.
Lemma render_has_digit d : decimal_ok d -> exists c, In c (render d) /\ is_digit c = true.
Proof.
  intros (HI & HF & HN & HE). unfold render. destruct (d_int d) as [|x ds] eqn:EI.
  - destruct HN as (y & f & Ef); auto. rewrite Ef in *. inversion HF; subst. exists (render_digit y). split; [|apply digit_facts; auto].
    apply in_or_app. right. simpl. auto.
  - inversion HI; subst. exists (render_digit x). split; [|apply digit_facts; auto]. apply in_or_app. right. simpl. auto.
Qed.
Lemma float_of_render d : decimal_ok d -> float_of (render d) = value d.
Proof.
  intros OK. pose proof OK as (HI & HF & HN & HE). unfold float_of. rewrite render_split.
  rewrite match_sign_render.
  2:{ destruct (mant_head d (exp_text (d_exp d)) OK) as (c & t & -> & H & _). auto. }
  unfold mant_text. rewrite <- app_assoc.
  assert (AE : match exp_text (d_exp d) with [] => True | c :: _ => is_digit c = false /\ is_dot c = false end).
  { pose proof (after_mantissa (d_exp d) [] HE ltac:(constructor)) as A. rewrite app_nil_r in A. auto. }
  assert (AE' : match exp_text (d_exp d) with [] => True | c :: _ => is_digit c = false end) by (destruct (exp_text (d_exp d)); tauto).
  assert (SV : sign_val (render_sign (d_sign d)) = sgn_value (d_sign d)) by (destruct (d_sign d); reflexivity).
  assert (EV : match exp_text (d_exp d) with
    | c :: r' => if is_e c then let '(es, dd) := match_sign r' in (sign_val es * digits_val dd)%Z else 0%Z
    | [] => 0%Z end = match d_exp d with Some (_, s, e) => (sgn_value s * digits_value e 0)%Z | None => 0%Z end).
  { destruct (d_exp d) as [[[up s] e]|]; [|reflexivity]. destruct HE as [He1 He2]. cbn [exp_text].
    replace (is_e (if up then "E"%char else "e"%char)) with true by (destruct up; reflexivity).
    rewrite match_sign_render. 2:{ destruct e as [|x e]; simpl; auto. inversion He2; subst. apply digit_facts; auto. }
    rewrite digits_val_render by auto. destruct s; reflexivity. }
  destruct (d_frac d) as [f|] eqn:EF.
  - rewrite span_stop; [|apply digits_all; auto|reflexivity]. cbn [app]. change (is_dot ".") with true. cbn iota.
    rewrite span_stop by (auto; apply digits_all; auto).
    rewrite EV, SV, !digits_val_render, map_length by auto. unfold value. rewrite EF. reflexivity.
  - cbn [app]. rewrite span_stop by (auto; apply digits_all; auto).
    destruct (exp_text (d_exp d)) as [|c t].
    + rewrite SV, digits_val_render by auto. unfold value. rewrite EF, <- EV. reflexivity.
    + destruct AE as [_ AE]. rewrite AE, EV, SV, digits_val_render by auto. unfold value. rewrite EF. reflexivity.
Qed.

Lemma findall_plain fuel r : plain r -> findall_numbers fuel r = [].
Proof.
  revert r. induction fuel as [|fuel IH]; intros r H; simpl; auto. destruct H as [|c r Hc H]; auto.
  rewrite match_number_plain by (constructor; auto). auto.
Qed.
Lemma match_number_blank r : match_number (" "%char :: r) = None.
Proof. reflexivity. Qed.
Lemma findall_one pre d rest : decimal_ok d -> Forall blank pre -> plain rest -> forall fuel, (length (pre ++ render d ++ rest) <= fuel)%nat ->
  findall_numbers fuel (pre ++ render d ++ rest) = [render d].
Proof.
  intros OK HP HR. induction HP as [|c pre Hc HP IH]; intros fuel HF; simpl in HF |- *.
  - destruct (render_head d OK) as (c & t & E & _). destruct fuel as [|fuel]; [rewrite E in HF; simpl in HF; lia|].
    assert (E1 : findall_numbers (S fuel) (render d ++ rest) = match match_number (render d ++ rest) with Some (m, r) => m :: findall_numbers fuel r | None => findall_numbers fuel (t ++ rest) end).
    { rewrite E. reflexivity. }
    rewrite E1, match_number_render by auto. rewrite findall_plain by auto. auto.
  - red in Hc. subst c. destruct fuel as [|fuel]; [lia|]. cbn [findall_numbers]. rewrite match_number_blank. apply IH. lia.
Qed.

Lemma strip_prefix_app p s : strip_prefix p (p ++ s) = Some s.
Proof. induction p as [|a p IH]; simpl; auto. destruct (ascii_dec a a); congruence. Qed.
Lemma strip_prefix_some p : forall s r, strip_prefix p s = Some r -> s = p ++ r.
Proof. induction p as [|a p IH]; intros [|b s] r; simpl; try congruence. destruct (ascii_dec a b); [|discriminate]. subst. intros H. f_equal. auto. Qed.
Lemma replace_plain d fuel : decimal_ok d -> forall r, plain r -> replace_all fuel (render d) [" "%char] r = r.
Proof.
  intros OK. induction fuel as [|fuel IH]; intros r H; auto. cbn [replace_all]. destruct r as [|c r]; auto.
  destruct (strip_prefix (render d) (c :: r)) as [x|] eqn:E.
  - apply strip_prefix_some in E. destruct (render_has_digit d OK) as (y & Hy & Hd). unfold plain in H. rewrite E in H. rewrite Forall_forall in H.
    destruct (H y) as [C _]; [apply in_or_app; auto|congruence].
  - inversion H; subst. rewrite IH; auto.
Qed.
Lemma replace_one pre d rest : decimal_ok d -> Forall blank pre -> plain rest -> forall fuel, (length (pre ++ render d ++ rest) <= fuel)%nat ->
  replace_all fuel (render d) [" "%char] (pre ++ render d ++ rest) = pre ++ " "%char :: rest.
Proof.
  intros OK HP HR. destruct (render_head d OK) as (c0 & t0 & E & NB). induction HP as [|c pre Hc HP IH]; intros fuel HF; simpl in HF |- *.
  - destruct fuel as [|fuel]; [rewrite E in HF; simpl in HF; lia|].
    assert (E1 : replace_all (S fuel) (render d) [" "%char] (render d ++ rest) =
       match strip_prefix (render d) (render d ++ rest) with Some r => [" "%char] ++ replace_all fuel (render d) [" "%char] r | None => c0 :: replace_all fuel (render d) [" "%char] (t0 ++ rest) end).
    { rewrite E. reflexivity. }
    rewrite E1, strip_prefix_app, replace_plain by auto. auto.
  - red in Hc. subst c. destruct fuel as [|fuel]; [lia|]. cbn [replace_all].
    destruct (strip_prefix (render d) (" "%char :: pre ++ render d ++ rest)) as [x|] eqn:Es.
    + apply strip_prefix_some in Es. rewrite E in Es. injection Es as Es. congruence.
    + rewrite IH by lia. auto.
Qed.

Lemma letter_facts c : is_letter c -> is_unit_char c = true /\ is_digit c = false /\ is_dot c = false.
Proof.
  unfold is_letter, is_unit_char, is_digit, is_dot. intros H. repeat split.
  - destruct (Nat.leb_spec 65 (nat_of_ascii c)), (Nat.leb_spec (nat_of_ascii c) 122); simpl; auto; lia.
  - destruct (Nat.leb_spec 48 (nat_of_ascii c)), (Nat.leb_spec (nat_of_ascii c) 57); simpl; auto; lia.
  - destruct (ascii_dec c "."); auto. subst c. change (nat_of_ascii ".") with 46%nat in H. lia.
Qed.
Lemma findall_units_blank fuel pre r : Forall blank pre -> (length (pre ++ r) <= fuel)%nat -> exists fuel', (length r <= fuel')%nat /\ findall_units fuel (pre ++ r) = findall_units fuel' r.
Proof.
  intros H. revert fuel. induction H as [|c pre Hc H IH]; intros fuel HF; simpl in *; [eauto|].
  red in Hc. subst c. destruct fuel as [|fuel]; [lia|]. simpl. apply IH. lia.
Qed.
Lemma findall_units_word fuel u post : u <> [] -> Forall is_letter u -> Forall blank post -> (length (u ++ post) <= fuel)%nat -> findall_units fuel (u ++ post) = [u].
Proof.
  intros Hu HL HB HF. destruct u as [|c u]; [congruence|]. simpl in HF. destruct fuel as [|fuel]; [lia|].
  assert (SP : span is_unit_char ((c :: u) ++ post) = (c :: u, post)).
  { apply span_stop; [eapply Forall_impl; [|exact HL]; intros; apply letter_facts; auto|]. destruct HB as [|x post Hx HB]; auto. red in Hx. subst. reflexivity. }
  inversion HL; subst. cbn [findall_units app] in *. destruct (letter_facts c) as [E _]; auto. rewrite E. rewrite SP.
  destruct (findall_units_blank fuel post []) as (f' & _ & E'); auto; [rewrite app_nil_r; rewrite app_length in HF; lia|].
  rewrite app_nil_r in E'. rewrite E'. destruct f'; reflexivity.
Qed.

Lemma blanks_plain l : Forall blank l -> plain l.
Proof. intros H. eapply Forall_impl; [|exact H]. intros c ->. split; reflexivity. Qed.
Lemma letters_plain l : Forall is_letter l -> plain l.
Proof. intros H. eapply Forall_impl; [|exact H]. intros c Hc. destruct (letter_facts c Hc). tauto. Qed.

Lemma split_float_units pre d mid u post : decimal_ok d -> Forall blank pre -> Forall blank mid -> Forall is_letter u -> Forall blank post ->
  split_into_float_and_units (pre ++ render d ++ mid ++ u ++ post) = Ok (value d, match u with [] => None | _ => Some u end).
Proof.
  intros OK HP HM HU HO.
  assert (PL : plain (mid ++ u ++ post)).
  { apply Forall_app; split; [apply blanks_plain; auto|]. apply Forall_app; split; [apply letters_plain; auto|apply blanks_plain; auto]. }
  unfold split_into_float_and_units. rewrite findall_one by auto. rewrite replace_one by auto.
  rewrite float_of_render by auto.
  set (s' := pre ++ " "%char :: mid ++ u ++ post).
  assert (ES : s' = (pre ++ " "%char :: mid) ++ (u ++ post)) by (unfold s'; rewrite <- app_assoc; reflexivity).
  destruct (findall_units_blank (length s') (pre ++ " "%char :: mid) (u ++ post)) as (f' & Hf & E).
  { apply Forall_app. split; auto. constructor; auto. reflexivity. }
  { rewrite ES. auto. }
  rewrite ES at 2. rewrite E. destruct u as [|c u].
  - cbn [app]. destruct (findall_units_blank f' post []) as (f2 & _ & E2); auto; [rewrite app_nil_r; auto|].
    rewrite app_nil_r in E2. rewrite E2. destruct f2; reflexivity.
  - rewrite findall_units_word by (auto; congruence). reflexivity.
Qed.

Lemma distances pre d mid u post : decimal_ok d -> Forall blank pre -> Forall blank mid -> Forall is_letter u -> Forall blank post ->
  let s := pre ++ render d ++ mid ++ u ++ post in
  (u = [] -> parse_distance_km s = Ok (value d) /\ parse_distance_m s = Ok (value d))
  /\ (u = lit "km"%string -> parse_distance_km s = Ok (value d) /\ exists q, parse_distance_m s = Ok q /\ q == 1000 * value d)
  /\ (u = lit "m"%string -> (exists q, parse_distance_km s = Ok q /\ 1000 * q == value d) /\ exists q, parse_distance_m s = Ok q /\ q == value d)
  /\ (u <> [] -> u <> lit "km"%string -> u <> lit "m"%string ->
        parse_distance_km s = Raises InvalidCommandLineOptionError /\ parse_distance_m s = Raises InvalidCommandLineOptionError).
Proof.
  intros OK HP HM HU HO s.
  assert (E : split_into_float_and_units s = Ok (value d, match u with [] => None | _ => Some u end)) by (apply split_float_units; auto).
  unfold parse_distance_m, parse_distance_km. rewrite E. cbn [bind snd fst]. repeat split.
  - subst u. reflexivity.
  - subst u. reflexivity.
  - subst u. reflexivity.
  - subst u. eexists. split; [reflexivity|]. ring.
  - subst u. eexists. split; [reflexivity|]. field.
  - subst u. eexists. split; [reflexivity|]. field.
  - destruct u as [|c u]; [congruence|]. apply str_eqb_neq in H0, H1. rewrite H0, H1. reflexivity.
  - destruct u as [|c u]; [congruence|]. apply str_eqb_neq in H0, H1. rewrite H0, H1. reflexivity.
Qed.

(** whatever is accepted: exactly one number in the text *)
Lemma accepted_has_one_number s q u : split_into_float_and_units s = Ok (q, u) ->
  exists v, findall_numbers (length s) s = [v] /\ q = float_of v.
Proof.
  unfold split_into_float_and_units. destruct (findall_numbers (length s) s) as [|v [|? ?]]; try discriminate.
  intros H. exists v. split; auto. destruct (findall_units _ _) as [|? [|? ?]]; congruence.
Qed.
