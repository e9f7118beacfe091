From Verif Require Import Base PyStr FileListModel FileListProofs ParseModel ParseSpec.

Lemma ascii_in_spec c l : ascii_in c l = true <-> In c l.
Proof.
  unfold ascii_in. rewrite existsb_exists. split.
  - intros (x & H & E). apply Ascii.eqb_eq in E. subst; auto.
  - intros H. exists c. split; auto. apply Ascii.eqb_refl.
Qed.

Lemma skipn_skipn {A} (l : list A) : forall m n, skipn n (skipn m l) = skipn (m + n) l.
Proof. induction l as [|x l IH]; intros [|m] n; simpl; auto; destruct n; auto. Qed.

Lemma skipn_cons {A} (l : list A) x r : forall n, x :: r = skipn n l -> r = skipn (S n) l.
Proof. induction l as [|y l IH]; intros [|n] H; simpl in *; try discriminate; [congruence|]. apply IH in H. destruct l; auto. Qed.

Section Br.
Variable br : list (ascii * ascii).
Hypothesis ND : NoDup (map fst br).

Lemma bracket_get_some c cl : bracket_get c br = Some cl <-> In (c, cl) br.
Proof.
  revert ND. induction br as [|[o x] b IH]; simpl; intros ND'.
  - split; [discriminate|tauto].
  - inversion ND' as [|? ? Hn ND2]; subst. destruct (Ascii.eqb_spec c o) as [->|n].
    + split.
      * intros [= ->]. auto.
      * intros [[= ->]|H]; auto. exfalso. apply Hn. apply in_map_iff. exists (o, cl). auto.
    + rewrite IH by auto. split; auto. intros [[= -> ->]|H]; congruence.
Qed.
Lemma bracket_get_none c : bracket_get c br = None <-> ~ opener br c.
Proof.
  destruct (bracket_get c br) as [cl|] eqn:E.
  - split; [discriminate|]. intros H. exfalso. apply H. exists cl. apply bracket_get_some; auto.
  - split; auto. intros _ (cl & H). apply bracket_get_some in H. congruence.
Qed.

(** abstract stack machine *)
Definition sstep (stk : list ascii) (c : ascii) : list ascii :=
  match bracket_get c br with
  | Some cl => cl :: stk
  | None => match stk with m :: r => if Ascii.eqb c m then r else stk | [] => [] end
  end.
Definition srun (stk : list ascii) (p : str) : list ascii := fold_left sstep p stk.

Lemma srun_app stk p q : srun stk (p ++ q) = srun (srun stk p) q.
Proof. apply fold_left_app. Qed.

Lemma srun_cons stk c p : srun stk (c :: p) = srun (sstep stk c) p.
Proof. reflexivity. Qed.
Lemma sstep_open stk o cl : In (o, cl) br -> sstep stk o = cl :: stk.
Proof. intros H. unfold sstep. apply bracket_get_some in H. rewrite H. reflexivity. Qed.

Lemma inside_srun cl u : inside br cl u -> forall stk, srun (cl :: stk) u = cl :: stk.
Proof.
  induction 1 as [cl|cl t c H IH Ho Hc|cl t o cl' u H IH Ho Hno H2 IH2]; intros stk; auto.
  - rewrite srun_app, IH. simpl. unfold sstep. apply bracket_get_none in Ho. rewrite Ho.
    destruct (Ascii.eqb_spec c cl); congruence.
  - rewrite srun_app, IH, srun_cons, (sstep_open _ _ _ Ho), srun_app, IH2. simpl. unfold sstep.
    apply bracket_get_none in Hno. rewrite Hno, Ascii.eqb_refl. auto.
Qed.
Lemma closed_srun p : closed br p -> srun [] p = [].
Proof.
  induction 1 as [|t c H IH Ho|t o cl u H IH Ho Hno Hin]; auto.
  - rewrite srun_app, IH. simpl. unfold sstep. apply bracket_get_none in Ho. rewrite Ho. auto.
  - rewrite srun_app, IH, srun_cons, (sstep_open _ _ _ Ho), srun_app, (inside_srun _ _ Hin). simpl. unfold sstep.
    apply bracket_get_none in Hno. rewrite Hno, Ascii.eqb_refl. auto.
Qed.

Inductive shape : str -> list ascii -> Prop :=
| sh0 p : closed br p -> shape p []
| shS p stk o cl u : shape p stk -> In (o, cl) br -> inside br cl u -> shape (p ++ o :: u) (cl :: stk).

Lemma shape_char p stk c : shape p stk -> ~ opener br c -> (forall m r, stk = m :: r -> c <> m) -> shape (p ++ [c]) stk.
Proof.
  intros H Ho Hm. destruct H as [p H|p stk o cl u H Hin Hu].
  - apply sh0. apply cl_char; auto.
  - rewrite <- app_assoc. simpl. apply shS; auto. apply in_char; auto. eapply Hm; eauto.
Qed.
Lemma shape_nest p stk o cl u : shape p stk -> In (o, cl) br -> ~ opener br cl -> inside br cl u ->
  shape (p ++ o :: u ++ [cl]) stk.
Proof.
  intros H Ho Hno Hu. destruct H as [p H|p stk o' cl' u' H Hin Hu'].
  - apply sh0. apply cl_nest; auto.
  - rewrite <- app_assoc. simpl. apply shS; auto. apply in_nest; auto.
Qed.
Lemma srun_shape p : shape p (srun [] p).
Proof.
  induction p as [|c p IH] using rev_ind.
  - apply sh0. constructor.
  - rewrite srun_app. simpl. unfold sstep. destruct (bracket_get c br) as [cl|] eqn:E.
    + apply bracket_get_some in E. apply shS with (u := []); auto. constructor.
    + apply bracket_get_none in E. destruct (srun [] p) as [|m r] eqn:R.
      * apply shape_char; auto. discriminate.
      * destruct (Ascii.eqb_spec c m) as [->|n].
        -- inversion IH as [|p' stk o cl u H Hin Hu]; subst. rewrite <- app_assoc. simpl. apply shape_nest; auto.
        -- apply shape_char; auto. intros m' r' [= <- <-]. auto.
Qed.
Lemma closed_iff p : closed br p <-> srun [] p = [].
Proof.
  split; [apply closed_srun|]. intros E. pose proof (srun_shape p) as H. rewrite E in H. inversion H; auto.
Qed.

(** the loop state represents the stack *)
Definition rep (st : bstate) (stk : list ascii) : Prop :=
  in_brackets st = length stk /\
  match stk with
  | [] => match_brackets st = []
  | m :: r => match_bracket st = Some m /\ match_brackets st = r
  end.
Lemma rep_step seps st stk idx c : rep st stk ->
  rep (bstep seps br st idx c) (sstep stk c)
  /\ sep_idxs (bstep seps br st idx c) =
     sep_idxs st ++ (if match bracket_get c br with Some _ => false | None => true end
                        && ascii_in c seps && (match stk with [] => true | _ => false end) then [idx] else []).
Proof.
  intros [HL HS]. unfold bstep, sstep. destruct (bracket_get c br) as [cl|] eqn:E; simpl.
  - split; [|rewrite app_nil_r; auto]. unfold rep; simpl. rewrite HL. destruct stk as [|m r]; simpl.
    + split; auto.
    + destruct HS as [-> ->]. split; [lia|auto].
  - destruct stk as [|m r]; simpl in *.
    + rewrite HL. simpl. destruct (ascii_in c seps); simpl.
      * split; auto. unfold rep. simpl. auto.
      * split; [unfold rep; simpl; auto|rewrite app_nil_r; auto].
    + destruct HS as [HM HR]. rewrite HL, HM. simpl.
      destruct (Ascii.eqb c m) eqn:EM; simpl.
      * rewrite Nat.sub_0_r. rewrite HR. destruct r as [|m' r']; simpl; (split; [unfold rep; simpl; auto|]);
          rewrite andb_false_r, app_nil_r; auto.
      * rewrite !andb_false_r. simpl. split; [unfold rep; simpl; auto|]. rewrite app_nil_r. auto.
Qed.

Definition is_sep (seps : list ascii) (stk : list ascii) (c : ascii) : bool :=
  (match bracket_get c br with Some _ => false | None => true end)
  && ascii_in c seps && (match stk with [] => true | _ => false end).

Fixpoint positions (seps : list ascii) (stk : list ascii) (idx : nat) (s : str) : list nat :=
  match s with
  | [] => []
  | c :: s' => (if is_sep seps stk c then [idx] else []) ++ positions seps (sstep stk c) (S idx) s'
  end.
Lemma bloop_positions seps s : forall st stk idx, rep st stk ->
  sep_idxs (bloop seps br st idx s) = sep_idxs st ++ positions seps stk idx s.
Proof.
  induction s as [|c s IH]; intros st stk idx R; simpl.
  - rewrite app_nil_r; auto.
  - destruct (rep_step seps st stk idx c R) as [R2 E]. rewrite (IH _ _ _ R2), E, <- app_assoc. reflexivity.
Qed.

Lemma positions_spec seps s : forall stk idx i,
  In i (positions seps stk idx s) <->
  exists p c q, s = p ++ c :: q /\ i = idx + length p /\ is_sep seps (srun stk p) c = true.
Proof.
  induction s as [|c s IH]; intros stk idx i; simpl.
  - split; [tauto|]. intros (p & c & q & E & _). destruct p; discriminate.
  - rewrite in_app_iff, IH. split.
    + intros [H|(p & d & q & -> & -> & HS)].
      * destruct (is_sep seps stk c) eqn:E; [|destruct H]. destruct H as [<-|[]].
        exists [], c, s. simpl. repeat split; auto.
      * exists (c :: p), d, q. simpl. repeat split; auto.
    + intros (p & d & q & E & -> & HS). destruct p as [|a p]; simpl in *.
      * injection E as -> ->. left. rewrite HS. simpl. auto.
      * injection E as -> ->. right. exists p, d, q. repeat split; auto; try lia.
Qed.
Lemma positions_lt seps s : forall stk idx, StronglySorted lt (positions seps stk idx s)
  /\ Forall (fun i => idx <= i < idx + length s) (positions seps stk idx s).
Proof.
  induction s as [|c s IH]; intros stk idx; simpl.
  - split; constructor.
  - destruct (IH (sstep stk c) (S idx)) as [H1 H2]. destruct (is_sep seps stk c); simpl.
    + split.
      * constructor; auto. eapply Forall_impl; [|exact H2]. simpl. intros; lia.
      * constructor; [lia|]. eapply Forall_impl; [|exact H2]. simpl. intros; lia.
    + split; auto. eapply Forall_impl; [|exact H2]. simpl. intros; lia.
Qed.

Lemma cut_loop_spec s : forall idxs start out,
  StronglySorted lt idxs -> Forall (fun i => start <= i < length s) idxs -> start <= length s ->
  exists parts tail, skipn start s = assemble parts tail
    /\ cut_loop s start idxs out = out ++ map fst parts ++ (match tail with [] => [] | _ => [tail] end)
    /\ cut_positions start parts = idxs.
Proof.
  induction idxs as [|i idxs IH]; intros start out HS HF Hle; simpl.
  - exists [], (skipn start s). split; [reflexivity|]. split; [|reflexivity].
    destruct (Nat.ltb_spec start (length s)) as [H|H].
    + simpl. destruct (skipn start s) eqn:E; auto.
      apply (f_equal (@length ascii)) in E. rewrite skipn_length in E. simpl in E. lia.
    + rewrite skipn_all2 by auto. simpl. rewrite app_nil_r. auto.
  - inversion HS as [|? ? HS2 HL]; subst. inversion HF as [|? ? Hi HF2]; subst.
    destruct (IH (i + 1) (out ++ [slice s start i])) as (parts & tail & E1 & E2 & E3); auto.
    { apply Forall_forall. intros j Hj. rewrite Forall_forall in HL, HF2. specialize (HL j Hj). specialize (HF2 j Hj). lia. }
    { lia. }
    assert (exists c, skipn i s = c :: skipn (i + 1) s) as [c Ec].
    { clear -Hi. destruct Hi as [_ Hi]. revert i Hi. induction s as [|a s IH]; intros i Hi; simpl in *; [lia|].
      destruct i; simpl; eauto. apply IH. lia. }
    assert (skipn start s = slice s start i ++ c :: skipn (i + 1) s) as Es.
    { unfold slice. rewrite <- Ec. rewrite <- (firstn_skipn (i - start) (skipn start s)) at 1. f_equal.
      rewrite skipn_skipn. f_equal. lia. }
    exists ((slice s start i, c) :: parts), tail. split; [|split].
    + rewrite Es. rewrite E1. unfold assemble. simpl. rewrite <- !app_assoc. reflexivity.
    + rewrite E2. rewrite <- app_assoc. reflexivity.
    + assert (start + length (slice s start i) = i) as EL.
      { unfold slice. rewrite firstn_length, skipn_length. lia. }
      simpl. rewrite EL. f_equal. exact E3.
Qed.

Lemma split_outside_brackets_correct seps s :
  exists parts tail,
    s = assemble parts tail
    /\ split_outside_brackets_gen s seps br = map fst parts ++ (match tail with [] => [] | _ => [tail] end)
    /\ forall i, In i (cut_positions 0 parts) <-> outside_separator br seps s i.
Proof.
  unfold split_outside_brackets_gen. rewrite (bloop_positions seps s _ []) by (split; simpl; auto). simpl.
  destruct (positions_lt seps s [] 0) as [HS HF].
  destruct (cut_loop_spec s (positions seps [] 0 s) 0 []) as (parts & tail & E1 & E2 & E3); auto; [lia|].
  exists parts, tail. split; [exact E1|]. split; [exact E2|].
  intros i. rewrite E3, positions_spec. unfold outside_separator, is_sep. split.
  - intros (p & c & q & -> & -> & H). apply andb_prop in H. destruct H as [H H3]. apply andb_prop in H.
    destruct H as [H1 H2]. exists p, c, q. split; auto. split; auto. split; [apply ascii_in_spec; auto|].
    split.
    + apply bracket_get_none. destruct (bracket_get c br); congruence.
    + apply closed_iff. destruct (srun [] p); congruence.
  - intros (p & c & q & -> & <- & H1 & H2 & H3). exists p, c, q. split; auto. split; auto.
    apply bracket_get_none in H2. rewrite H2. apply ascii_in_spec in H1. rewrite H1.
    apply closed_iff in H3. rewrite H3. auto.
Qed.
End Br.

(** ** colon splitting *)
Lemma colon_split_nonnil b s : colon_split b s <> [].
Proof.
  destruct s as [|a s]; simpl; [congruence|]. destruct (Ascii.eqb a ":" && negb b); [congruence|].
  destruct (colon_split (Ascii.eqb a "\") s); congruence.
Qed.

Fixpoint ends_bs (w : str) (b : bool) : bool :=
  match w with [] => b | a :: w' => ends_bs w' (Ascii.eqb a "\") end.
Lemma ends_bs_spec w b : ends_bs w b = true -> ends_in_backslash w \/ (w = [] /\ b = true).
Proof.
  revert b. induction w as [|a w IH]; simpl; intros b H; auto.
  left. destruct (IH _ H) as [[u ->]|[-> E]].
  - exists (a :: u). auto.
  - apply Ascii.eqb_eq in E. subst. exists []. auto.
Qed.
Lemma ends_bs_escape w b : ends_bs (escape w) b = true -> ends_in_backslash w \/ (w = [] /\ b = true).
Proof.
  revert b. induction w as [|a w IH]; simpl; intros b H; auto.
  left. destruct (ascii_dec a ":") as [->|n]; simpl in H.
  - destruct (IH _ H) as [[u ->]|[-> E]]; [|discriminate]. exists (":"%char :: u). auto.
  - destruct (IH _ H) as [[u ->]|[-> E]].
    + exists (a :: u). auto.
    + apply Ascii.eqb_eq in E. subst. exists []. auto.
Qed.

Lemma colon_split_escape w : forall b s,
  colon_split b (escape w ++ s) =
  match colon_split (ends_bs (escape w) b) s with [] => [escape w] | p :: ps => (escape w ++ p) :: ps end.
Proof.
  induction w as [|a w IH]; intros b s; simpl.
  - pose proof (colon_split_nonnil b s). destruct (colon_split b s); auto. congruence.
  - destruct (ascii_dec a ":") as [->|n]; simpl.
    + rewrite IH. destruct (colon_split (ends_bs (escape w) false) s); reflexivity.
    + replace (Ascii.eqb a ":") with false by (symmetry; apply Ascii.eqb_neq; auto). simpl.
      rewrite IH. destruct (colon_split (ends_bs (escape w) (Ascii.eqb a "\")) s); reflexivity.
Qed.

Lemma escape_head w a s : escape w = a :: s -> a <> ":"%char.
Proof.
  destruct w as [|c w]; simpl; [discriminate|]. destruct (ascii_dec c ":"); intros [= <- _]; congruence.
Qed.
Lemma unescape_escape w : unescape (escape w) = w.
Proof.
  induction w as [|a w IH]; simpl; auto.
  destruct (ascii_dec a ":") as [->|n].
  - simpl. rewrite IH. reflexivity.
  - simpl. destruct (escape w) as [|b s] eqn:E.
    + destruct w; [auto|]. simpl in E. destruct (ascii_dec a0 ":"); discriminate.
    + assert (b <> ":"%char) as Hb by (eapply escape_head; eauto).
      replace (Ascii.eqb b ":") with false by (symmetry; apply Ascii.eqb_neq; auto).
      rewrite andb_false_r. rewrite IH. reflexivity.
Qed.

Lemma colon_split_join ws : ws <> [] -> all_but_last (fun w => ~ ends_in_backslash w) ws ->
  colon_split false (join_on ":" (map escape ws)) = map escape ws.
Proof.
  induction ws as [|w ws IH]; intros NN H; [congruence|].
  destruct ws as [|w2 ws].
  - simpl. rewrite <- (app_nil_r (escape w)) at 1. rewrite colon_split_escape. simpl. rewrite app_nil_r. reflexivity.
  - change (join_on ":" (map escape (w :: w2 :: ws))) with (escape w ++ ":"%char :: join_on ":" (map escape (w2 :: ws))).
    rewrite colon_split_escape.
    destruct (ends_bs (escape w) false) eqn:E.
    { apply ends_bs_escape in E. destruct E as [E|[_ E]]; [|discriminate].
      exfalso. apply (H [] w w2 ws); auto. }
    change (colon_split false (":"%char :: join_on ":" (map escape (w2 :: ws))))
      with ([] :: colon_split false (join_on ":" (map escape (w2 :: ws)))).
    rewrite IH; [|congruence|].
    + rewrite app_nil_r. reflexivity.
    + intros ws1 x y ws2 E2. apply (H (w :: ws1) x y ws2). simpl. rewrite E2. reflexivity.
Qed.

Lemma colon_words_escape ws : ws <> [] -> all_but_last (fun w => ~ ends_in_backslash w) ws ->
  colon_words (join_on ":" (map escape ws)) = ws.
Proof.
  intros NN H. unfold colon_words. rewrite colon_split_join by auto. rewrite map_map.
  rewrite <- (map_id ws) at 2. apply map_ext. apply unescape_escape.
Qed.

(** ** option parsing *)
Section Opt.
Context {V : Type}.
Implicit Types (options : list (str * checker V)) (d : list (str * stored V)).

Lemma remove_first_incl j l p : In p (remove_first j l) -> In p l.
Proof.
  induction l as [|x l IH]; simpl; auto. destruct (str_eq_dec x j); simpl; auto. intros [->|H]; auto.
Qed.
Lemma remove_first_keep j l p : In p l -> p <> j -> In p (remove_first j l).
Proof.
  induction l as [|x l IH]; simpl; auto. intros [->|H] n; destruct (str_eq_dec _ j); simpl; auto; congruence.
Qed.
Lemma remove_first_length j l : length (remove_first j l) <= length l.
Proof. induction l as [|x l IH]; simpl; auto. destruct (str_eq_dec x j); simpl; lia. Qed.

(** [gives name chk p w]: piece [p] is [name=text...] and the check of [text] gives [w] *)
Definition gives (name : str) (chk : checker V) (p : str) (w : V) : Prop :=
  exists v rest, split_outside_brackets p "=" = name :: v :: rest /\ chk v = Ok w.

Lemma option_loop_ok fuel : forall pos name chk pieces d pieces' d',
  option_loop fuel pos name chk pieces d = Ok (pieces', d') ->
  (forall p, In p pieces' -> In p pieces)
  /\ (forall k, k <> name -> dict_get d' k = dict_get d k)
  /\ ((pieces' = pieces /\ d' = d)
      \/ exists f, chk = Some f
         /\ (forall p, In p pieces -> In p pieces' \/ exists w, gives name f p w)
         /\ exists p w, In p pieces /\ gives name f p w /\ dict_get d' name = Some (Checked w)).
Proof.
  induction fuel as [|fuel IH]; intros pos name chk pieces d pieces' d' H; cbn [option_loop] in H.
  - destruct (nth_error pieces pos); [discriminate|]. injection H as <- <-. auto.
  - destruct (nth_error pieces pos) as [j|] eqn:En; [|injection H as <- <-; auto].
    destruct (split_outside_brackets j "=") as [|k rest] eqn:Ej; [discriminate|].
    destruct (str_eq_dec k name) as [->|nk].
    + destruct chk as [f|]; [|discriminate]. destruct rest as [|v rest]; [discriminate|].
      destruct (f v) as [w|e] eqn:Ef; [|discriminate].
      assert (G : gives name f j w) by (exists v, rest; auto).
      apply nth_error_In in En.
      apply IH in H. destruct H as (H1 & H2 & H3). split; [|split].
      * intros p Hp. apply remove_first_incl with (j := j). auto.
      * intros k Hk. rewrite H2 by auto. rewrite dict_get_set. destruct (str_eq_dec name k); congruence.
      * right. exists f. split; auto. destruct H3 as [[-> ->]|(f' & [= <-] & H4 & p & w' & Hp & Gp & Hd)].
        -- split.
           ++ intros p Hp. destruct (str_eq_dec p j) as [->|n]; [right; eauto|left; apply remove_first_keep; auto].
           ++ exists j, w. split; auto. split; auto. rewrite dict_get_set. destruct (str_eq_dec name name); congruence.
        -- split.
           ++ intros q Hq. destruct (str_eq_dec q j) as [->|n]; [right; eauto|]. apply H4. apply remove_first_keep; auto.
           ++ exists p, w'. split; [eapply remove_first_incl; eauto|]. auto.
    + apply IH in H. auto.
Qed.

Lemma options_loop_ok comp options : forall names i pieces d pieces' d',
  NoDup names ->
  options_loop i comp options names pieces d = Ok (pieces', d') ->
  (forall k, ~ In k names -> dict_get d' k = dict_get d k)
  /\ (forall p, In p pieces' -> In p pieces)
  /\ (forall p, In p pieces -> In p pieces' \/
        exists n name f w, nth_error names n = Some name /\ nth_error options (i + n + comp) = Some (fst (nth (i + n + comp) options ([], f)), f)
           /\ gives name f p w)
  /\ (forall n name, nth_error names n = Some name ->
        dict_get d' name = dict_get d name
        \/ exists f p w, nth_error options (i + n + comp) = Some (fst (nth (i + n + comp) options ([], f)), f)
            /\ In p pieces /\ gives name f p w /\ dict_get d' name = Some (Checked w)).
Proof.
  induction names as [|name names IH]; intros i pieces d pieces' d' ND H; simpl in H.
  - injection H as <- <-. repeat split; auto.
  - inversion ND as [|? ? Hn ND']; subst.
    destruct (option_loop (length pieces) 0 name
                match nth_error options (i + comp) with Some (_, c) => Some c | None => None end pieces d)
      as [[pcs1 d1]|e] eqn:E; [|discriminate].
    apply option_loop_ok in E. destruct E as (A1 & A2 & A3).
    apply IH in H; auto. destruct H as (B1 & B2 & B3 & B4).
    assert (HO : forall f, match nth_error options (i + comp) with Some (_, c) => Some c | None => None end = Some f ->
                 nth_error options (i + 0 + comp) = Some (fst (nth (i + 0 + comp) options ([], f)), f)).
    { intros f Hf. rewrite Nat.add_0_r. destruct (nth_error options (i + comp)) as [[o c]|] eqn:Eo; [|discriminate].
      injection Hf as ->. rewrite (nth_error_nth options (i + comp) ([], f) Eo). reflexivity. }
    split; [|split; [|split]].
    + intros k Hk. simpl in Hk. rewrite B1 by tauto. apply A2. intros ->. tauto.
    + auto.
    + intros p Hp. assert (In p pcs1 \/ exists f w, match nth_error options (i + comp) with Some (_, c) => Some c | None => None end = Some f /\ gives name f p w) as [Hp1|(f & w & Hf & G)].
      { destruct A3 as [[-> _]|(f & Hf & A4 & _)]; auto. destruct (A4 p Hp) as [?|[w G]]; eauto. }
      * destruct (B3 p Hp1) as [?|(n & nm & f & w & Hn1 & Ho & G)]; auto.
        right. exists (S n), nm, f, w. replace (i + S n + comp) with (S i + n + comp) by lia. auto.
      * right. exists 0, name, f, w. split; auto.
    + intros [|n] nm Hnm; simpl in Hnm.
      * injection Hnm as <-. rewrite B1 by auto. destruct A3 as [[_ ->]|(f & Hf & _ & p & w & Hp & G & Hd)]; auto.
        right. exists f, p, w. auto.
      * destruct (B4 n nm Hnm) as [Hd|(f & p & w & Ho & Hp & G & Hd)].
        -- left. rewrite Hd. apply A2. intros ->. apply Hn. eapply nth_error_In; eauto.
        -- right. exists f, p, w. replace (i + S n + comp) with (S i + n + comp) by lia. auto.
Qed.

Lemma compulsory_loop_ok options words : forall n i option d option' d',
  (forall j nm chk w, nth_error options j = Some (nm, chk) -> chk w <> Raises IndexError) ->
  i + n <= length options -> i + n <= length words -> option = skipn i (map fst options) ->
  compulsory_loop n i options words option d = Ok (option', d') ->
  option' = skipn (i + n) (map fst options)
  /\ (NoDup (map fst options) ->
      (forall j nm chk, i <= j < i + n -> nth_error options j = Some (nm, chk) ->
         exists w v, nth_error words j = Some w /\ chk w = Ok v /\ dict_get d' nm = Some (Checked v)))
  /\ (forall k, (forall j, i <= j < i + n -> nth_error (map fst options) j <> Some k) -> dict_get d' k = dict_get d k).
Proof.
  induction n as [|n IH]; intros i option d option' d' HI HO HW Eo H; simpl in H.
  - injection H as <- <-. rewrite Nat.add_0_r. split; auto. split; auto. intros _ j nm chk Hj; lia.
  - destruct (nth_error options i) as [[nm chk]|] eqn:En; [|apply nth_error_None in En; lia].
    destruct (nth_error words i) as [w|] eqn:Ew; [|apply nth_error_None in Ew; lia].
    assert (exists r, option = nm :: r /\ r = skipn (S i) (map fst options)) as (r & Eo2 & Er).
    { subst option. exists (skipn (S i) (map fst options)). split; auto.
      apply (map_nth_error fst) in En. simpl in En. clear -En. revert i En.
      induction (map fst options) as [|x l IHl]; intros [|i] E; simpl in *; try discriminate; [congruence|].
      apply IHl in E. rewrite E. destruct l; auto. }
    rewrite Eo2 in H. simpl in H.
    destruct (chk w) as [v|e] eqn:Ec.
    2:{ destruct e; try discriminate. exfalso. eapply HI; eauto. }
    apply IH in H; auto; try lia. destruct H as (H1 & H2 & H3).
    split; [rewrite H1; f_equal; lia|]. split.
    + intros ND j nm' chk' Hj Hn'. destruct (Nat.eq_dec j i) as [->|nij].
      * rewrite En in Hn'. injection Hn' as <- <-. exists w, v. split; auto. split; auto.
        rewrite H3.
        -- rewrite dict_get_set. destruct (str_eq_dec nm nm); congruence.
        -- intros j Hj' E. apply (map_nth_error fst) in En. simpl in En.
           rewrite NoDup_nth_error in ND. assert (i = j); [|lia]. apply ND; [|congruence].
           apply nth_error_Some. congruence.
      * apply H2; auto. lia.
    + intros k Hk. rewrite H3.
      * rewrite dict_get_set. destruct (str_eq_dec nm k) as [->|]; auto. exfalso. apply (Hk i); [lia|].
        apply (map_nth_error fst) in En. auto.
      * intros j Hj. apply Hk. lia.
Qed.

(** the optional pieces of an argument *)
Definition pieces_of (comp : nat) (input : str) : list str :=
  if length (colon_words input) =? comp + 1 then split_outside_brackets (last (colon_words input) []) "," else [].

Lemma nth_error_skipn {A} (l : list A) : forall i n, nth_error (skipn i l) n = nth_error l (i + n).
Proof. induction l as [|x l IH]; intros [|i] n; simpl; auto. destruct n; auto. Qed.
Lemma NoDup_skipn {A} (l : list A) i : NoDup l -> NoDup (skipn i l).
Proof.
  revert i. induction l as [|x l IH]; intros [|i] H; simpl; auto. inversion H; auto.
Qed.

Lemma parse_one_ok options comp input d :
  NoDup (map fst options) -> comp <= length options ->
  (forall j nm chk w, nth_error options j = Some (nm, chk) -> chk w <> Raises IndexError) ->
  parse_one options comp input = Ok d ->
  (length (colon_words input) = comp \/ length (colon_words input) = comp + 1)
  /\ (forall i nm chk, i < comp -> nth_error options i = Some (nm, chk) ->
        exists w v, nth_error (colon_words input) i = Some w /\ chk w = Ok v /\ dict_get d nm = Some (Checked v))
  /\ (forall i nm chk st, comp <= i -> nth_error options i = Some (nm, chk) -> dict_get d nm = Some st ->
        (exists v, st = Checked v /\ exists p, In p (pieces_of comp input) /\ gives nm chk p v)
        \/ (exists s, st = Raw s /\ length options = comp + 1))
  /\ (forall k st, dict_get d k = Some st -> In k (map fst options))
  /\ (forall p, In p (pieces_of comp input) ->
        (exists i nm chk v, comp <= i /\ nth_error options i = Some (nm, chk) /\ gives nm chk p v)
        \/ (length options = comp + 1 /\ pieces_of comp input = [p])).
Proof.
  intros ND HC HI H. unfold parse_one in H.
  destruct (Nat.ltb_spec (length (colon_words input)) comp) as [?|H1]; [discriminate|].
  destruct (Nat.ltb_spec (comp + 1) (length (colon_words input))) as [?|H2]; [discriminate|].
  destruct (compulsory_loop comp 0 options (colon_words input) (map fst options) []) as [[option d0]|e] eqn:EC; [|discriminate].
  apply compulsory_loop_ok in EC; auto; try lia. destruct EC as (Eopt & C1 & C2). simpl in Eopt.
  specialize (C1 ND).
  fold (pieces_of comp input) in H.
  destruct (length option <? length (pieces_of comp input)); [discriminate|].
  split; [lia|].
  assert (Hsk : forall n, nth_error option n = nth_error (map fst options) (comp + n)) by (intros; subst option; apply nth_error_skipn).
  assert (NDo : NoDup option) by (subst option; apply NoDup_skipn; auto).
  assert (Hlen : length option = length options - comp) by (subst option; rewrite skipn_length, map_length; lia).
  assert (Hd0 : forall k st, dict_get d0 k = Some st -> exists j, j < comp /\ nth_error (map fst options) j = Some k).
  { intros k st Hk. destruct (in_dec str_eq_dec k (firstn comp (map fst options))) as [Hin|Hnin].
    - apply In_nth_error in Hin. destruct Hin as [j Hj]. exists j.
      assert (j < comp). { assert (j < length (firstn comp (map fst options))) by (apply nth_error_Some; congruence). rewrite firstn_length in H0. lia. }
      split; auto. clear -Hj H0. revert j comp Hj H0. induction (map fst options) as [|x l IHl]; intros [|j] [|c] Hj H0; simpl in *; try discriminate; auto; try lia.
      eapply IHl; eauto. lia.
    - rewrite C2 in Hk; [discriminate|]. intros j Hj E. apply Hnin.
      clear -E Hj. revert j comp Hj E. induction (map fst options) as [|x l IHl]; intros [|j] [|c] Hj E; simpl in *; try discriminate; try lia.
      + left; congruence.
      + right. eapply IHl; eauto. lia. }
  assert (Hopt_not_d0 : forall n nm, nth_error option n = Some nm -> dict_get d0 nm = None).
  { intros n nm Hn. destruct (dict_get d0 nm) as [st|] eqn:E; auto. destruct (Hd0 _ _ E) as (j & Hj & Ej).
    rewrite Hsk in Hn. rewrite NoDup_nth_error in ND. assert (j = comp + n); [|lia]. apply ND; [|congruence].
    apply nth_error_Some. congruence. }
  destruct (shortcut option (pieces_of comp input) d0) as [[[option' pieces'] d1]|e] eqn:ES; [|discriminate].
  assert (ES' : (option' = option /\ pieces' = pieces_of comp input /\ d1 = d0)
     \/ exists name piece v, option = [name] /\ pieces_of comp input = [piece] /\ option' = [] /\ pieces' = [] /\ d1 = dict_set d0 name (Raw v)).
  { clear -ES. unfold shortcut in ES. destruct option as [|name [|? ?]]; try (injection ES as <- <- <-; auto; fail).
    destruct (pieces_of comp input) as [|piece [|? ?]]; try (injection ES as <- <- <-; auto; fail).
    destruct (split_outside_brackets piece "=") as [|a [|b [|? ?]]]; try discriminate.
    - injection ES as <- <- <-. right. exists name, piece, a. auto.
    - destruct (str_eq_dec name a).
      + injection ES as <- <- <-. right. exists name, piece, b. auto 6.
      + injection ES as <- <- <-. auto. }
  destruct (options_loop 0 comp options option' pieces' d1) as [[[|? ?] d2]|e] eqn:EO; try discriminate.
  injection H as <-.
  destruct ES' as [(-> & -> & ->)|(name & piece & v & Eo & Ep & -> & -> & ->)].
  - apply options_loop_ok in EO; auto. destruct EO as (O1 & O2 & O3 & O4).
    split; [|split; [|split]].
    + intros i nm chk Hi Hn. destruct (C1 i nm chk ltac:(lia) Hn) as (w & v & Hw & Hv & Hd). exists w, v. split; auto. split; auto.
      rewrite O1; auto. intros Hin. apply In_nth_error in Hin. destruct Hin as [n Hn2].
      rewrite (Hopt_not_d0 _ _ Hn2) in Hd. discriminate.
    + intros i nm chk st Hi Hn Hd. left.
      assert (En : nth_error option (i - comp) = Some nm).
      { rewrite Hsk. replace (comp + (i - comp)) with i by lia. apply (map_nth_error fst) in Hn. auto. }
      destruct (O4 _ _ En) as [E|(f & p & w & Ho & Hp & G & E)].
      * rewrite (Hopt_not_d0 _ _ En) in E. congruence.
      * simpl in Ho. replace (i - comp + comp) with i in Ho by lia. rewrite Hn in Ho. injection Ho as _ ->.
        exists w. split; [congruence|]. exists p. auto.
    + intros k st Hd. destruct (in_dec str_eq_dec k option) as [Hin|Hnin].
      * apply In_nth_error in Hin. destruct Hin as [n Hn]. rewrite Hsk in Hn. eapply nth_error_In; eauto.
      * rewrite O1 in Hd by auto. apply Hd0 in Hd. destruct Hd as (j & _ & Hj). eapply nth_error_In; eauto.
    + intros p Hp. left. destruct (O3 p Hp) as [[]|(n & nm & f & w & Hn & Ho & G)].
      simpl in Ho. exists (n + comp), (fst (nth (n + comp) options ([], f))), f, w. split; [lia|]. split; auto.
      assert (fst (nth (n + comp) options ([], f)) = nm) as ->; auto.
      rewrite Hsk in Hn. apply (map_nth_error fst) in Ho. simpl in Ho. replace (comp + n) with (n + comp) in Hn by lia. congruence.
  - simpl in EO. injection EO as <-.
    assert (Hl1 : length options = comp + 1) by (rewrite Eo in Hlen; simpl in Hlen; lia).
    assert (En : nth_error option 0 = Some name) by (rewrite Eo; auto).
    split; [|split; [|split]].
    + intros i nm chk Hi Hn. destruct (C1 i nm chk ltac:(lia) Hn) as (w & v' & Hw & Hv & Hd). exists w, v'. split; auto. split; auto.
      rewrite dict_get_set. destruct (str_eq_dec name nm) as [->|]; auto. rewrite (Hopt_not_d0 _ _ En) in Hd. discriminate.
    + intros i nm chk st Hi Hn Hd. right.
      assert (i < length options) by (apply nth_error_Some; congruence).
      assert (i = comp) by lia. subst i.
      rewrite Hsk, Nat.add_0_r in En. apply (map_nth_error fst) in Hn. simpl in Hn.
      assert (nm = name) by congruence. subst nm. rewrite dict_get_set in Hd. destruct (str_eq_dec name name); [|congruence].
      exists v. split; [congruence|auto].
    + intros k st Hd. rewrite dict_get_set in Hd. destruct (str_eq_dec name k) as [->|].
      * rewrite Hsk in En. eapply nth_error_In; eauto.
      * apply Hd0 in Hd. destruct Hd as (j & _ & Hj). eapply nth_error_In; eauto.
    + intros p Hp. rewrite Ep in Hp. destruct Hp as [<-|[]]. right. auto.
Qed.

(** completeness: distinct known keys whose checks pass are accepted, in any order *)
Definition keyed (p k : str) (v : str) : Prop := exists rest, split_outside_brackets p "=" = k :: v :: rest.

Lemma option_loop_none name chk pieces d : forall fuel pos, length pieces <= pos + fuel ->
  (forall p, In p pieces -> exists k v, keyed p k v) ->
  (forall n p v, pos <= n -> nth_error pieces n = Some p -> ~ keyed p name v) ->
  @option_loop V fuel pos name chk pieces d = Ok (pieces, d).
Proof.
  induction fuel as [|fuel IH]; intros pos HL HK HN; cbn [option_loop].
  - destruct (nth_error pieces pos) as [j|] eqn:E; auto.
    assert (pos < length pieces) by (apply nth_error_Some; congruence). lia.
  - destruct (nth_error pieces pos) as [j|] eqn:E; auto.
    destruct (HK j) as (k & v & rest & Ej); [eapply nth_error_In; eauto|]. rewrite Ej.
    destruct (str_eq_dec k name) as [->|n].
    + exfalso. eapply (HN pos j v); [lia|eauto|]. exists rest; auto.
    + apply IH; auto; [lia|]. intros n' p' v' Hn'. apply HN. lia.
Qed.

Lemma option_loop_one name f p v w l1 l2 d : forall fuel pos,
  pos <= length l1 -> length (l1 ++ p :: l2) <= pos + fuel ->
  (forall q, In q (l1 ++ l2) -> exists k u, keyed q k u /\ k <> name) ->
  keyed p name v -> f v = Ok w ->
  @option_loop V fuel pos name (Some f) (l1 ++ p :: l2) d = Ok (l1 ++ l2, dict_set d name (Checked w)).
Proof.
  assert (HU : forall q k u k' u', keyed q k u -> keyed q k' u' -> k = k' /\ u = u').
  { intros q k u k' u' [r E] [r' E']. rewrite E in E'. injection E' as -> ->. auto. }
  induction fuel as [|fuel IH]; intros pos Hpos HL HK Hp Hf; cbn [option_loop].
  - rewrite app_length in HL. simpl in HL. lia.
  - destruct (Nat.eq_dec pos (length l1)) as [->|ne].
    + rewrite nth_error_app2, Nat.sub_diag by lia. simpl.
      destruct Hp as [rest Ep]. rewrite Ep. destruct (str_eq_dec name name); [|congruence]. rewrite Hf.
      assert (Hnin : ~ In p l1).
      { intros Hin. destruct (HK p) as (k & u & Hk & n); [apply in_app_iff; auto|].
        assert (k = name) by (apply (HU p k u name v); auto; exists rest; auto). congruence. }
      assert (remove_first p (l1 ++ p :: l2) = l1 ++ l2) as ->.
      { clear -Hnin. induction l1 as [|x l1 IHl]; simpl.
        - destruct (str_eq_dec p p); congruence.
        - simpl in Hnin. destruct (str_eq_dec x p) as [->|]; [tauto|]. rewrite IHl; tauto. }
      apply option_loop_none.
      * rewrite app_length in *. simpl in HL. lia.
      * intros q Hq. destruct (HK q Hq) as (k & u & Hk & _). eauto.
      * intros n' q u _ Hq Hk. apply nth_error_In in Hq. destruct (HK q Hq) as (k & u' & Hk' & n).
        destruct (HU _ _ _ _ _ Hk Hk'). congruence.
    + rewrite nth_error_app1 by lia. destruct (nth_error l1 pos) as [j|] eqn:E; [|apply nth_error_None in E; lia].
      destruct (HK j) as (k & u & [rest Ej] & n). { apply in_app_iff. left. eapply nth_error_In; eauto. }
      rewrite Ej. destruct (str_eq_dec k name); [congruence|]. apply IH; auto; lia.
Qed.

(** each piece with its key, text and checked value *)
Definition good_piece options (comp : nat) (p k : str) (w : V) : Prop :=
  exists i chk v, comp <= i /\ nth_error options i = Some (k, chk) /\ keyed p k v /\ chk v = Ok w.

Lemma options_loop_complete comp options : NoDup (map fst options) ->
  forall names i d (kws : list (str * (str * V))),
  names = skipn (i + comp) (map fst options) ->
  NoDup (map (fun x => fst (snd x)) kws) ->
  (forall p k w, In (p, (k, w)) kws -> In k names /\ good_piece options comp p k w) ->
  exists d', options_loop i comp options names (map fst kws) d = Ok ([], d')
    /\ (forall p k w, In (p, (k, w)) kws -> dict_get d' k = Some (Checked w))
    /\ (forall k, ~ In k (map (fun x => fst (snd x)) kws) -> dict_get d' k = dict_get d k).
Proof.
  intros ND. induction names as [|name names IH]; intros i d kws En NDk HG.
  - destruct kws as [|[p [k w]] kws]; [|exfalso; destruct (HG p k w); simpl; auto].
    simpl. exists d. split; auto. split; [intros p k w []|auto].
  - assert (Hi : exists chk, nth_error options (i + comp) = Some (name, chk)).
    { assert (nth_error (map fst options) (i + comp) = Some name).
      { pose proof (nth_error_skipn (map fst options) (i + comp) 0) as Hs. rewrite <- En, Nat.add_0_r in Hs. simpl in Hs. auto. }
      rewrite nth_error_map in H. destruct (nth_error options (i + comp)) as [[a c]|]; [|discriminate].
      simpl in H. injection H as ->. eauto. }
    destruct Hi as [chk Hi]. cbn [options_loop]. rewrite Hi.
    assert (En' : names = skipn (S i + comp) (map fst options)).
    { change (S i + comp) with (S (i + comp)). eapply skipn_cons; eauto. }
    assert (NDn : NoDup (name :: names)) by (rewrite En; apply NoDup_skipn; auto).
    destruct (in_dec str_eq_dec name (map (fun x => fst (snd x)) kws)) as [Hin|Hnin].
    + apply in_map_iff in Hin. destruct Hin as ([p [k w]] & E & Hin). simpl in E. subst k.
      apply in_split in Hin. destruct Hin as (k1 & k2 & ->).
      assert (Hk12 : forall q k u, In (q, (k, u)) (k1 ++ k2) -> k <> name).
      { intros q k u Hin ->. rewrite map_app in NDk. simpl in NDk. apply NoDup_remove_2 in NDk. apply NDk.
        rewrite <- map_app. apply in_map_iff. exists (q, (name, u)). auto. }
      destruct (HG p name w) as [_ (i' & chk' & v & Hi' & Hn' & Hkv & Hv)]; [apply in_app_iff; simpl; auto|].
      assert (i' = i + comp).
      { rewrite NoDup_nth_error in ND. apply ND.
        - rewrite map_length. apply nth_error_Some. congruence.
        - apply (map_nth_error fst) in Hi, Hn'. simpl in *. congruence. }
      subst i'. assert (chk' = chk) by congruence. subst chk'.
      rewrite map_app. simpl map.
      rewrite (option_loop_one name chk p v w (map fst k1) (map fst k2)); auto; try lia.
      2:{ intros q Hq. rewrite <- map_app in Hq. apply in_map_iff in Hq. destruct Hq as ([q' [k u]] & <- & Hq).
          destruct (HG q' k u) as [_ (i'' & c'' & v'' & _ & _ & Hk & _)].
          { apply in_app_iff. simpl. apply in_app_iff in Hq. tauto. }
          exists k, v''. split; auto. eapply Hk12; eauto. }
      rewrite <- map_app.
      destruct (IH (S i) (dict_set d name (Checked w)) (k1 ++ k2)) as (d' & E & D1 & D2); auto.
      { rewrite map_app in NDk. simpl in NDk. apply NoDup_remove_1 in NDk. rewrite map_app. auto. }
      { intros q k u Hq. destruct (HG q k u) as [Hk G]. { apply in_app_iff. simpl. apply in_app_iff in Hq. tauto. }
        split; auto. destruct Hk as [->|Hk]; auto. exfalso. eapply Hk12; eauto. }
      exists d'. split; [exact E|]. split.
      * intros q k u Hq. apply in_app_iff in Hq. simpl in Hq.
        assert (In (q, (k, u)) (k1 ++ k2) \/ (p, (name, w)) = (q, (k, u))) as [Hq'|[= <- <- <-]] by (rewrite in_app_iff; tauto).
        -- eauto.
        -- rewrite D2.
           ++ rewrite dict_get_set. destruct (str_eq_dec name name); congruence.
           ++ intros Hx. apply in_map_iff in Hx. destruct Hx as ([q [k u]] & Ek & Hx). simpl in Ek. subst k. eapply Hk12; eauto.
      * intros k Hk. rewrite D2.
        -- rewrite dict_get_set. destruct (str_eq_dec name k) as [->|]; auto. exfalso. apply Hk. rewrite map_app, in_app_iff. simpl. auto.
        -- intros Hx. apply Hk. rewrite map_app, in_app_iff in *. simpl. tauto.
    + rewrite option_loop_none; try (simpl; lia).
      * destruct (IH (S i) d kws) as (d' & E & D1 & D2); auto.
        { intros q k u Hq. destruct (HG q k u Hq) as [[->|Hk] G]; auto. exfalso. apply Hnin. apply in_map_iff. exists (q, (k, u)). auto. }
        exists d'. auto.
      * intros p Hp. apply in_map_iff in Hp. destruct Hp as ([q [k u]] & <- & Hq). destruct (HG _ _ _ Hq) as [_ (? & ? & v & _ & _ & Hk & _)]. simpl. eauto.
      * intros n p v _ Hp Hk. apply nth_error_In in Hp. apply in_map_iff in Hp. destruct Hp as ([q [k u]] & E & Hq). simpl in E. subst q.
        destruct (HG _ _ _ Hq) as [_ (? & ? & v' & _ & _ & [r Hk'] & _)]. destruct Hk as [r' Hk]. rewrite Hk' in Hk. injection Hk as -> _ _.
        apply Hnin. apply in_map_iff. exists (p, (name, u)). auto.
Qed.

Lemma compulsory_loop_complete options words : forall n i option d,
  i + n <= length options -> i + n <= length words -> option = skipn i (map fst options) ->
  (forall j nm chk w, i <= j < i + n -> nth_error options j = Some (nm, chk) -> nth_error words j = Some w -> exists v, chk w = Ok v) ->
  exists d', compulsory_loop n i options words option d = Ok (skipn (i + n) (map fst options), d').
Proof.
  induction n as [|n IH]; intros i option d HO HW Eo HC; simpl.
  - rewrite Nat.add_0_r. subst option. eauto.
  - destruct (nth_error options i) as [[nm chk]|] eqn:En; [|apply nth_error_None in En; lia].
    destruct (nth_error words i) as [w|] eqn:Ew; [|apply nth_error_None in Ew; lia].
    assert (exists r, option = nm :: r /\ r = skipn (S i) (map fst options)) as (r & Eo2 & Er).
    { subst option. exists (skipn (S i) (map fst options)). split; auto.
      apply (map_nth_error fst) in En. simpl in En. clear -En. revert i En.
      induction (map fst options) as [|x l IHl]; intros [|i] E; simpl in *; try discriminate; [congruence|].
      apply IHl in E. rewrite E. destruct l; auto. }
    rewrite Eo2. simpl. destruct (HC i nm chk w ltac:(lia) En Ew) as [v ->].
    replace (i + S n) with (S i + n) by lia. apply IH; auto; try lia.
    intros j nm' chk' w' Hj. apply HC. lia.
Qed.

Lemma parse_one_complete options comp input (kws : list (str * (str * V))) :
  NoDup (map fst options) -> comp + 2 <= length options ->
  (length (colon_words input) = comp \/ length (colon_words input) = comp + 1) ->
  (forall i nm chk w, i < comp -> nth_error options i = Some (nm, chk) -> nth_error (colon_words input) i = Some w -> exists v, chk w = Ok v) ->
  pieces_of comp input = map fst kws ->
  NoDup (map (fun x => fst (snd x)) kws) ->
  (forall p k w, In (p, (k, w)) kws -> good_piece options comp p k w) ->
  exists d, parse_one options comp input = Ok d /\ forall p k w, In (p, (k, w)) kws -> dict_get d k = Some (Checked w).
Proof.
  intros ND HO HW HC HP NDk HG. unfold parse_one.
  destruct (Nat.ltb_spec (length (colon_words input)) comp); [lia|].
  destruct (Nat.ltb_spec (comp + 1) (length (colon_words input))); [lia|].
  destruct (compulsory_loop_complete options (colon_words input) comp 0 (map fst options) []) as [d0 ->]; auto; try lia.
  { intros j nm chk w Hj. apply HC. lia. }
  fold (pieces_of comp input). rewrite HP. simpl plus.
  assert (HGn : forall p k w, In (p, (k, w)) kws -> In k (skipn comp (map fst options)) /\ good_piece options comp p k w).
  { intros p k w Hin. split; auto. destruct (HG _ _ _ Hin) as (i & chk & v & Hi & Hn & _).
    apply nth_error_In with (n := i - comp). rewrite nth_error_skipn. replace (comp + (i - comp)) with i by lia.
    apply (map_nth_error fst) in Hn. auto. }
  destruct (Nat.ltb_spec (length (skipn comp (map fst options))) (length (map fst kws))) as [HL|HL].
  { exfalso. assert (length (map (fun x => fst (snd x)) kws) <= length (skipn comp (map fst options))).
    { apply NoDup_incl_length; auto. intros k Hk. apply in_map_iff in Hk. destruct Hk as ([p [k' w]] & <- & Hin). apply (HGn _ _ _ Hin). }
    rewrite map_length in *. lia. }
  assert (HS : shortcut (skipn comp (map fst options)) (map fst kws) d0 = Ok (skipn comp (map fst options), map fst kws, d0)).
  { assert (Hl : 2 <= length (skipn comp (map fst options))) by (rewrite skipn_length, map_length; lia).
    unfold shortcut. destruct (skipn comp (map fst options)) as [|x [|y r]]; simpl in Hl; try lia. auto. }
  rewrite HS.
  destruct (options_loop_complete comp options ND (skipn comp (map fst options)) 0 d0 kws) as (d' & E & D1 & D2); auto.
  rewrite E. eauto.
Qed.
End Opt.
