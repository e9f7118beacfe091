From Verif Require Import Base PyStr FileListModel FileListSpec FileListProofs ParseModel ParseSpec ParseProofs.

(** ** multi_split *)
Lemma split_any_nonnil seps s : split_any seps s <> [].
Proof. destruct s; simpl; [congruence|]. destruct in_dec; [congruence|]. destruct (split_any seps s); congruence. Qed.
Lemma flat_map_split sep seps s : flat_map (split_on sep) (split_any seps s) = split_any (sep :: seps) s.
Proof.
  induction s as [|a s IH]; [reflexivity|]. cbn [split_any].
  pose proof (split_any_nonnil seps s) as NN. pose proof (split_any_nonnil (sep :: seps) s) as NN2.
  destruct (in_dec ascii_dec a seps) as [H|H].
  - destruct (in_dec ascii_dec a (sep :: seps)) as [H2|H2]; [|simpl in H2; tauto].
    cbn [flat_map split_on app]. rewrite IH. reflexivity.
  - destruct (split_any seps s) as [|p ps] eqn:E; [congruence|].
    cbn [flat_map split_on] in *. pose proof (split_on_nonnil sep p) as NP.
    destruct (ascii_dec a sep) as [->|n].
    + destruct (in_dec ascii_dec sep (sep :: seps)) as [H2|H2]; [|simpl in H2; tauto]. rewrite <- IH. reflexivity.
    + destruct (in_dec ascii_dec a (sep :: seps)) as [[H2|H2]|H2]; [congruence|tauto|]. rewrite <- IH.
      destruct (split_on sep p); [congruence|]. reflexivity.
Qed.
Lemma multi_split_seps_any s seps0 : forall seps, exists seps', (forall c, In c seps' <-> In c seps \/ In c seps0) /\
  multi_split_seps (split_any seps0 s) seps = split_any seps' s.
Proof.
  intros seps. revert seps0. induction seps as [|c seps IH]; intros seps0; simpl.
  - exists seps0. split; auto. intros; tauto.
  - rewrite flat_map_split. destruct (IH (c :: seps0)) as (seps' & H & E). exists seps'. split; auto.
    intros d. rewrite H. simpl. tauto.
Qed.
Lemma split_any_ext seps seps' s : (forall c, In c seps <-> In c seps') -> split_any seps s = split_any seps' s.
Proof.
  intros H. induction s as [|a s IH]; simpl; auto. rewrite IH.
  destruct (in_dec ascii_dec a seps), (in_dec ascii_dec a seps'); auto; exfalso; firstorder.
Qed.
Lemma split_any_nil s : split_any [] s = [s].
Proof. induction s as [|a s IH]; simpl; auto. rewrite IH. auto. Qed.
Lemma multi_split_seps_eq s seps : multi_split_seps [s] seps = split_any seps s.
Proof.
  rewrite <- (split_any_nil s). destruct (multi_split_seps_any s [] seps) as (seps' & H & E). rewrite E.
  apply split_any_ext. intros c. rewrite H. simpl. tauto.
Qed.

Lemma nonblank_app l1 l2 : nonblank (l1 ++ l2) = nonblank l1 ++ nonblank l2.
Proof. apply filter_app. Qed.
Lemma remove_empty l : In [] l -> nonblank (remove_at (index_of_empty l) l) = nonblank l.
Proof.
  induction l as [|x l IH]; simpl; auto. intros H. destruct x as [|a x]; simpl; auto.
  destruct H as [H|H]; [discriminate|]. f_equal. auto.
Qed.
Lemma drop_blanks_nonblank fuel : forall pos l, nonblank (drop_blanks fuel pos l) = nonblank l.
Proof.
  induction fuel as [|fuel IH]; intros pos l; simpl; auto.
  destruct (nth_error l pos) as [[|a x]|] eqn:E; auto.
  rewrite IH. apply remove_empty. eapply nth_error_In; eauto.
Qed.
Lemma multi_split_nonblank s seps : nonblank (multi_split s seps) = nonblank (split_any seps s).
Proof. unfold multi_split. rewrite drop_blanks_nonblank, multi_split_seps_eq. reflexivity. Qed.

Lemma drop_blanks_skip (l1 l2 : list str) : (forall x, In x l1 -> x <> []) -> forall fuel pos,
  pos <= length l1 -> length l1 <= pos + fuel ->
  drop_blanks fuel pos (l1 ++ l2) = drop_blanks (fuel - (length l1 - pos)) (length l1) (l1 ++ l2).
Proof.
  intros H. induction fuel as [|fuel IH]; intros pos Hp Hf.
  - replace pos with (length l1) by lia. simpl. reflexivity.
  - destruct (Nat.eq_dec pos (length l1)) as [->|n].
    + rewrite Nat.sub_diag, Nat.sub_0_r. reflexivity.
    + cbn [drop_blanks]. rewrite nth_error_app1 by lia.
      destruct (nth_error l1 pos) as [x|] eqn:E; [|apply nth_error_None in E; lia].
      assert (x <> []) by (apply H; eapply nth_error_In; eauto). destruct x; [congruence|].
      rewrite IH by lia. f_equal. lia.
Qed.
Lemma remove_empty_end (l1 : list str) : (forall x, In x l1 -> x <> []) -> remove_at (index_of_empty (l1 ++ [[]])) (l1 ++ [[]]) = l1.
Proof.
  induction l1 as [|x l1 IH]; intros H; simpl; auto.
  destruct x as [|a x]; [exfalso; apply (H []); simpl; auto|]. cbn [app remove_at index_of_empty]. f_equal. apply IH. intros y Hy. apply H. simpl; auto.
Qed.
Lemma drop_blanks_end (l1 : list str) n : (forall x, In x l1 -> x <> []) -> n = length l1 + 1 ->
  drop_blanks n 0 (l1 ++ [[]]) = l1.
Proof.
  intros H ->. rewrite drop_blanks_skip by (auto; lia).
  rewrite Nat.sub_0_r. replace (length l1 + 1 - length l1) with 1 by lia.
  cbn [drop_blanks]. rewrite nth_error_app2, Nat.sub_diag by lia. simpl. apply remove_empty_end; auto.
Qed.

Lemma split_any_word seps w s : (forall c, In c w -> ~ In c seps) ->
  split_any seps (w ++ s) = match split_any seps s with [] => [w] | p :: ps => (w ++ p) :: ps end.
Proof.
  intros H. induction w as [|a w IH]; simpl.
  - pose proof (split_any_nonnil seps s). destruct (split_any seps s); [congruence|reflexivity].
  - destruct (in_dec ascii_dec a seps) as [Hin|_]; [exfalso; apply (H a); simpl; auto|].
    rewrite IH by (intros c Hc; apply H; simpl; auto). destruct (split_any seps s); reflexivity.
Qed.
Definition mseps : list ascii := ["["%char; ","%char; "]"%char].
Lemma plain_no_sep w : plain_word w -> forall c, In c w -> ~ In c mseps.
Proof. intros (_ & H1 & H2 & H3) c Hc [<-|[<-|[<-|[]]]]; tauto. Qed.
Lemma split_any_args args : args <> [] -> Forall plain_word args ->
  split_any mseps (join_on "," args ++ ["]"%char]) = args ++ [[]].
Proof.
  induction args as [|w args IH]; intros NN HF; [congruence|]. inversion HF as [|? ? Hw HF2]; subst.
  destruct args as [|w2 args].
  - cbn [join_on]. rewrite split_any_word by (apply plain_no_sep; auto). vm_compute split_any. simpl. rewrite app_nil_r. reflexivity.
  - change (join_on "," (w :: w2 :: args)) with (w ++ ","%char :: join_on "," (w2 :: args)).
    rewrite <- app_assoc. rewrite split_any_word by (apply plain_no_sep; auto).
    change ((","%char :: join_on "," (w2 :: args)) ++ ["]"%char]) with (","%char :: (join_on "," (w2 :: args) ++ ["]"%char])).
    assert (forall s, split_any mseps (","%char :: s) = [] :: split_any mseps s) as -> by (intros; reflexivity).
    rewrite IH by (auto; congruence). rewrite app_nil_r. reflexivity.
Qed.
Lemma extract_method_spec name args : plain_word name -> args <> [] -> Forall plain_word args ->
  extract_method_and_args (method_text name args) = (name, parse_key_val_list args).
Proof.
  intros Hn NN HF. unfold extract_method_and_args, multi_split. fold mseps. rewrite multi_split_seps_eq.
  assert (E : split_any mseps (method_text name args) = (name :: args) ++ [[]]).
  { unfold method_text. rewrite split_any_word by (apply plain_no_sep; auto).
    assert (forall s, split_any mseps ("["%char :: s) = [] :: split_any mseps s) as -> by (intros; reflexivity).
    rewrite split_any_args by auto. rewrite app_nil_r. reflexivity. }
  rewrite E, drop_blanks_end; [reflexivity| |rewrite app_length; reflexivity].
  intros x [<-|Hx]; [apply Hn|]. rewrite Forall_forall in HF. apply HF; auto.
Qed.
Lemma extract_method_bare name : plain_word name -> extract_method_and_args name = (name, []).
Proof.
  intros Hn. unfold extract_method_and_args, multi_split. fold mseps. rewrite multi_split_seps_eq.
  assert (E : split_any mseps name = [name]).
  { rewrite <- (app_nil_r name) at 1. rewrite split_any_word by (apply plain_no_sep; auto). simpl. rewrite app_nil_r. reflexivity. }
  rewrite E. destruct name; [destruct Hn; congruence|]. reflexivity.
Qed.
Lemma multi_split_keeps_blanks :
  multi_split (lit "a,,,b"%string) [","%char] = [lit "a"%string; []; lit "b"%string]
  /\ extract_method_and_args (lit "bin[]"%string) = (lit "bin"%string, [([], VTrue)]).
Proof. vm_compute. split; reflexivity. Qed.

(** ** aliases *)
Lemma names_variable_split spec v a : names_variable spec v a <->
  match split_on "=" spec with
  | [p] => p <> [] /\ v = spec /\ a = spec
  | [p; q] => p <> [] /\ q <> [] /\ v = p /\ a = q
  | _ => False
  end.
Proof.
  split.
  - intros (Hv & Ha & Nv & Na & [[-> ->]| ->]).
    + rewrite split_nosep by auto. auto.
    + rewrite split_app_sep, (split_nosep _ a) by auto. auto.
  - pose proof (join_split "=" spec) as J. pose proof (split_pieces "=" spec) as P.
    destruct (split_on "=" spec) as [|p [|q [|? ?]]]; try tauto.
    + intros (Hp & -> & ->). simpl in J. subst p. specialize (P spec ltac:(simpl; auto)).
      repeat split; auto.
    + intros (Hp & Hq & -> & ->). simpl in J. repeat split; auto; apply P; simpl; auto.
Qed.

Lemma alias_vars_ok specs : 
  match alias_vars specs with
  | Ok (vs, als) => length vs = length specs /\ length als = length specs /\
      forall i spec, nth_error specs i = Some spec -> exists v a, nth_error vs i = Some v /\ nth_error als i = Some a /\ names_variable spec v a
  | Raises e => e = ParserError /\ exists spec, In spec specs /\ forall v a, ~ names_variable spec v a
  end.
Proof.
  induction specs as [|spec specs IH]; simpl.
  - repeat split; auto. intros [|i] s; discriminate.
  - pose proof (names_variable_split spec) as NS. pose proof (split_on_nonnil "=" spec) as NN.
    assert (Bad : (forall v a, ~ names_variable spec v a) -> exists sp, (spec = sp \/ In sp specs) /\ forall v a, ~ names_variable sp v a) by eauto.
    assert (Good : forall v a, names_variable spec v a ->
      match match alias_vars specs with Ok (vs, als) => Ok (v :: vs, a :: als) | Raises e => Raises e end with
      | Ok (vs, als) => length vs = S (length specs) /\ length als = S (length specs) /\
          forall i sp, nth_error (spec :: specs) i = Some sp -> exists v a, nth_error vs i = Some v /\ nth_error als i = Some a /\ names_variable sp v a
      | Raises e => e = ParserError /\ exists sp, (spec = sp \/ In sp specs) /\ forall v a, ~ names_variable sp v a
      end).
    { intros v a H. destruct (alias_vars specs) as [[vs als]|e].
      - destruct IH as (L1 & L2 & IH). simpl. repeat split; auto. intros [|i] sp E; simpl in E.
        + injection E as <-. exists v, a. auto.
        + simpl. auto.
      - destruct IH as (-> & sp & Hin & Hb). split; auto. eauto. }
    destruct (split_on "=" spec) as [|p [|q [|r rs]]] eqn:E; [congruence| | |].
    + destruct p as [|c p].
      * split; auto. apply Bad. intros v a H. apply NS in H. tauto.
      * apply Good. apply NS. repeat split; congruence.
    + destruct p as [|c p]; [|destruct q as [|c' q]].
      * split; auto. apply Bad. intros v a H. apply NS in H. tauto.
      * split; auto. apply Bad. intros v a H. apply NS in H. tauto.
      * apply Good. apply NS. repeat split; congruence.
    + split; auto. apply Bad. intros v a H. apply NS in H. tauto.
Qed.

Lemma alias_groups_ok groups :
  match alias_groups groups with
  | Ok r => length r = length groups /\
      forall i g vs als, nth_error groups i = Some g -> nth_error r i = Some (vs, als) ->
        length vs = length g /\ length als = length g /\
        forall j spec, nth_error g j = Some spec -> exists v a, nth_error vs j = Some v /\ nth_error als j = Some a /\ names_variable spec v a
  | Raises e => e = ParserError /\ exists g spec, In g groups /\ In spec g /\ forall v a, ~ names_variable spec v a
  end.
Proof.
  induction groups as [|g groups IH]; simpl.
  - split; auto. intros [|i]; discriminate.
  - pose proof (alias_vars_ok g) as HV. destruct (alias_vars g) as [[vs als]|e].
    + destruct (alias_groups groups) as [r|e].
      * destruct IH as [L IH]. split; [simpl; lia|]. intros [|i] g' vs' als' E1 E2; simpl in *.
        -- injection E1 as <-. injection E2 as <- <-. auto.
        -- eauto.
      * destruct IH as (-> & g' & sp & Hg & Hs & Hb). split; auto. exists g', sp. auto.
    + destruct HV as (-> & sp & Hs & Hb). split; auto. exists g, sp. auto.
Qed.

Lemma nodup_length_eq (l : list str) : length (nodup str_eq_dec l) = length l <-> NoDup l.
Proof.
  split.
  - induction l as [|x l IH]; simpl; intros H; [constructor|].
    destruct (in_dec str_eq_dec x l) as [Hin|Hn].
    + exfalso. assert (length (nodup str_eq_dec l) <= length l) by (apply NoDup_incl_length; [apply NoDup_nodup|intros y; apply nodup_In]). lia.
    + simpl in H. constructor; auto.
  - intros H. rewrite nodup_fixed_point; auto.
Qed.
Lemma set_aliases_ok groups :
  match set_aliases groups with
  | Ok r => length r = length groups /\
      (forall i g vs als, nth_error groups i = Some g -> nth_error r i = Some (vs, als) ->
        length vs = length g /\ length als = length g /\
        forall j spec, nth_error g j = Some spec -> exists v a, nth_error vs j = Some v /\ nth_error als j = Some a /\ names_variable spec v a)
      /\ NoDup (flat_map snd r)
  | Raises e => e = ParserError /\
      ((exists g spec, In g groups /\ In spec g /\ forall v a, ~ names_variable spec v a)
       \/ exists r, alias_groups groups = Ok r /\ ~ NoDup (flat_map snd r))
  end.
Proof.
  unfold set_aliases. pose proof (alias_groups_ok groups) as H. destruct (alias_groups groups) as [r|e].
  - unfold all_unique. destruct (Nat.eqb_spec (length (nodup str_eq_dec (flat_map snd r))) (length (flat_map snd r))) as [E|E].
    + destruct H as [H1 H2]. split; auto. split; auto. apply nodup_length_eq; auto.
    + split; auto. right. exists r. split; auto. rewrite <- nodup_length_eq. auto.
  - destruct H as [-> H]. auto.
Qed.

(** ** consent *)
Lemma prompt_yes answers : prompt answers = Some (lit "y"%string) <-> answers_yes answers.
Proof.
  split.
  - induction answers as [|a answers IH]; cbn [prompt]; [discriminate|].
    destruct (str_eqb a (lit "y"%string)) eqn:E1; cbn [orb].
    { intros _. apply str_eqb_eq in E1. subst. exists [], answers. split; auto. }
    destruct (str_eqb a (lit "n"%string)) eqn:E2; cbn [orb].
    { intros [= ->]. discriminate. }
    destruct (str_eqb a []) eqn:E3.
    { intros [= ->]. discriminate. }
    intros H. destruct (IH H) as (junk & rest & -> & HF). exists (a :: junk), rest. split; auto.
    constructor; auto. apply str_eqb_neq in E1, E2, E3. split; auto.
  - intros (junk & rest & -> & HF). induction HF as [|a junk Ha HF IH]; [reflexivity|].
    cbn [prompt app]. destruct Ha as (H1 & H2 & H3). apply str_eqb_neq in H1, H2, H3. rewrite H1, H2, H3. exact IH.
Qed.

Lemma consent env force out : exists_and_no_overwrite env force out = Go <->
  env_isfile env out = false \/ force = true
  \/ (env_overwrite env <> [] /\ lower (env_overwrite env) <> lit "false"%string)
  \/ (env_overwrite env = [] /\ answers_yes (env_answers env)).
Proof.
  unfold exists_and_no_overwrite. rewrite <- prompt_yes.
  destruct (env_isfile env out); [|tauto]. destruct force; [tauto|].
  destruct (env_overwrite env) as [|c o].
  - cbn [lower map]. destruct (prompt (env_answers env)) as [a|].
    + destruct (str_eqb a (lit "y"%string)) eqn:E.
      * apply str_eqb_eq in E. subst. tauto.
      * apply str_eqb_neq in E. split; [discriminate|]. intros [?|[?|[[? _]|[_ ?]]]]; try congruence.
    + split; [discriminate|]. intros [?|[?|[[? _]|[_ ?]]]]; congruence.
  - destruct (lower (c :: o)) as [|a l] eqn:E0; [discriminate|].
    destruct (str_eqb (a :: l) (lit "false"%string)) eqn:E.
    + apply str_eqb_eq in E. split; [discriminate|]. intros [?|[?|[[_ ?]|[? _]]]]; congruence.
    + apply str_eqb_neq in E. split; auto. intros _. right. right. left. split; congruence.
Qed.

Lemma validate_output_ok env force ext output inputs var out :
  validate_output_file env force ext output inputs = Proceed var out ->
  (env_isfile env out = false \/ force = true
   \/ (env_overwrite env <> [] /\ lower (env_overwrite env) <> lit "false"%string)
   \/ (env_overwrite env = [] /\ answers_yes (env_answers env)))
  /\ (forall f, In f inputs -> ~ (env_exists env out = true /\ env_samefile env out f = true))
  /\ (exists out0, (output = out0 /\ var = None /\ ~ In ":"%char output
                    \/ exists v, output = v ++ ":"%char :: out0 /\ var = Some v)
        /\ (out = out0 /\ env_has_ext env out0 = true \/ out = out0 ++ ext /\ env_has_ext env out0 = false)).
Proof.
  unfold validate_output_file.
  set (sp := if has_char ":" output then _ else _).
  assert (HS : forall v o, sp = Some (v, o) -> (output = o /\ v = None /\ ~ In ":"%char output
                    \/ exists v', output = v' ++ ":"%char :: o /\ v = Some v')).
  { unfold sp. intros v o. destruct (has_char ":" output) eqn:E.
    - pose proof (join_split ":" output) as J. destruct (split_on ":" output) as [|p [|q [|? ?]]]; try discriminate.
      intros [= <- <-]. right. exists p. simpl in J. auto.
    - intros [= <- <-]. left. apply has_char_false in E. auto. }
  destruct sp as [[v o]|]; [|discriminate]. specialize (HS v o eq_refl).
  set (o' := if env_has_ext env o then o else o ++ ext).
  destruct (exists_and_no_overwrite env force o') eqn:EG; try discriminate.
  destruct (output_matches_input env o' inputs) eqn:EM; [discriminate|]. intros [= <- <-].
  split; [apply consent; auto|]. split.
  - intros f Hf [H1 H2]. assert (output_matches_input env o' inputs = true); [|congruence].
    unfold output_matches_input. apply existsb_exists. exists f. rewrite H1, H2. auto.
  - exists o. split; auto. unfold o'. destruct (env_has_ext env o); auto.
Qed.
