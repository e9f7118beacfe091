From Coq Require Import String.
From Verif Require Import Base PyStr QBase FileListModel FileListProofs ParseModel ParseSpec ParseProofs DistModel DateModel ProdModel ReModel ReProofs ArgsModel ArgsSpec.
From Coq Require Import List Sorted.
Import ListNotations.
Open Scope string_scope. Open Scope list_scope. Open Scope nat_scope. Notation length := List.length.

(** ** Pieces *)
Lemma cut_positions_ge parts : forall s i, In i (cut_positions s parts) -> s <= i.
Proof.
  induction parts as [|[p c] parts IH]; simpl; intros s i H; [tauto|]. destruct H as [<-|H]; [lia|]. apply IH in H. lia.
Qed.
Lemma app_same_length {A} (a b c d : list A) : a ++ b = c ++ d -> length a = length c -> a = c /\ b = d.
Proof.
  revert c. induction a as [|x a IH]; intros [|y c]; simpl; intros E L; try discriminate; auto.
  inversion E; subst. destruct (IH c H1) as [-> ->]; auto.
Qed.
Lemma assemble_unique parts : forall parts' tail tail' s, assemble parts tail = assemble parts' tail' ->
  (forall i, In i (cut_positions s parts) <-> In i (cut_positions s parts')) -> parts = parts' /\ tail = tail'.
Proof.
  induction parts as [|[p c] parts IH]; intros [|[p' c'] parts'] tail tail' s A P.
  - auto.
  - exfalso. apply (P (s + length p')). simpl. auto.
  - exfalso. apply (proj1 (P (s + length p))). simpl. auto.
  - assert (L : length p = length p').
    { simpl in P. destruct (proj1 (P (s + length p)) (or_introl eq_refl)) as [H|H]; [lia|].
      destruct (proj2 (P (s + length p')) (or_introl eq_refl)) as [H'|H']; [lia|].
      apply cut_positions_ge in H. apply cut_positions_ge in H'. lia. }
    unfold assemble in A. simpl in A. rewrite <- !app_assoc in A. simpl in A. apply app_same_length in A; auto. destruct A as [-> A]. inversion A; subst.
    destruct (IH parts' tail tail' (s + length p' + 1)) as [-> ->]; auto.
    intros i. specialize (P i). simpl in P.
    split; intros H; pose proof (cut_positions_ge _ _ _ H); (destruct P as [P1 P2]; first [destruct (P1 (or_intror H)) as [E|E] | idtac]); try lia; auto.
    destruct (P2 (or_intror H)) as [E|E]; [lia|auto].
Qed.
Lemma cut_at_commas_iff text pieces : cut_at_commas text pieces <-> pieces = split_outside_brackets text ",".
Proof.
  assert (ND : NoDup (map fst default_brackets)) by (repeat constructor; simpl; intuition discriminate).
  destruct (split_outside_brackets_correct default_brackets ND [","%char] text) as (parts & tail & Et & Es & P).
  unfold split_outside_brackets. split.
  - intros (parts' & tail' & Et' & -> & P'). rewrite Es.
    destruct (assemble_unique parts parts' tail tail' 0) as [-> ->]; auto; [congruence|]. intros i. rewrite P, P'. tauto.
  - intros ->. exists parts, tail. auto.
Qed.

(** ** Dictionaries *)
Lemma dictionary_nil {V} : dictionary (@nil (str * V)) [].
Proof. split; [constructor|]. intros k v. split; [intros []|]. intros (p1 & p2 & E & _). destruct p1; discriminate. Qed.
Lemma dict_get_entry {V} (d : list (str * V)) : NoDup (map fst d) -> forall k v, In (k, v) d <-> dict_get d k = Some v.
Proof.
  induction d as [|[k' v'] d IH]; simpl; intros ND k v; [split; [intros []|discriminate]|].
  inversion ND; subst. destruct (str_eq_dec k' k) as [->|N].
  - split; [intros [E|H]; [inversion E; auto|]|intros E; inversion E; auto]. destruct H1. apply (in_map fst) in H. exact H.
  - rewrite <- IH by auto. split; [intros [E|H]; [inversion E; congruence|auto]|auto].
Qed.
Lemma dictionary_snoc {V} (pairs d : list (str * V)) k v : dictionary pairs d -> dictionary (pairs ++ [(k, v)]) (dict_set d k v).
Proof.
  intros [ND H]. pose proof (dict_set_nodup d k v ND) as ND'. split; auto. intros k0 v0.
  rewrite (dict_get_entry _ ND'), dict_get_set. destruct (str_eq_dec k k0) as [->|N].
  - split.
    + intros E. inversion E; subst. exists pairs, []. simpl. auto.
    + intros (p1 & p2 & E & NI). destruct p2 as [|kv p2] using rev_ind.
      * apply app_inj_tail in E. destruct E as [_ E]. inversion E; auto.
      * rewrite app_comm_cons, app_assoc in E. apply app_inj_tail in E. destruct E as [_ <-]. destruct NI. rewrite map_app, in_app_iff. simpl. auto.
  - rewrite <- (dict_get_entry _ ND), H. split.
    + intros (p1 & p2 & -> & NI). exists p1, (p2 ++ [(k, v)]). rewrite <- app_assoc. split; auto. rewrite map_app, in_app_iff. simpl. tauto.
    + intros (p1 & p2 & E & NI). destruct p2 as [|kv p2] using rev_ind.
      * apply app_inj_tail in E. destruct E as [_ E]. inversion E; congruence.
      * rewrite app_comm_cons, app_assoc in E. apply app_inj_tail in E. destruct E as [-> <-]. exists p1, p2. split; auto.
        rewrite map_app, in_app_iff in NI. tauto.
Qed.
Lemma into_dict_spec {V} (f : str -> res (str * V)) (piece : str -> str -> V -> Prop) :
  (forall seg k v, f seg = Ok (k, v) <-> piece seg k v) ->
  forall segs done d, dictionary done d ->
  match into_dict f segs d with
  | Ok d' => exists pairs, meaning piece segs pairs /\ dictionary (done ++ pairs) d'
  | Raises _ => ~ exists pairs, meaning piece segs pairs
  end.
Proof.
  intros P. induction segs as [|seg segs IH]; simpl; intros done d D.
  - exists []. rewrite app_nil_r. split; [constructor|auto].
  - destruct (f seg) as [[k v]|e] eqn:F; simpl.
    + specialize (IH (done ++ [(k, v)]) _ (dictionary_snoc _ _ k v D)). destruct (into_dict f segs (dict_set d k v)) as [d'|e].
      * destruct IH as (pairs & M & D'). exists ((k, v) :: pairs). rewrite <- app_assoc in D'. split; auto. constructor; auto. simpl. apply P; auto.
      * intros (pairs & M). inversion M; subst. apply IH. eauto.
    + intros (pairs & M). inversion M as [|? [k v] ? ? H]; subst. simpl in H. apply P in H. congruence.
Qed.

(** ** Values *)
Lemma is_none_some s t : is_none s = Some t <-> s = Some t /\ t <> lit "None".
Proof.
  destruct s as [s|]; cbn [is_none]; [|intuition discriminate]. destruct (str_eqb s (lit "None")) eqn:E.
  - apply str_eqb_eq in E. split; [discriminate|]. intros [H N]. inversion H; subst. congruence.
  - apply str_eqb_neq in E. split; [intros H; inversion H; subst; auto|intros [H N]; auto].
Qed.
Lemma is_none_none s : is_none s = None <-> s = None \/ s = Some (lit "None").
Proof.
  destruct s as [s|]; cbn [is_none]; [|intuition]. destruct (str_eqb s (lit "None")) eqn:E.
  - apply str_eqb_eq in E. subst. intuition.
  - apply str_eqb_neq in E. split; [discriminate|]. intros [H|H]; [discriminate|]. inversion H; congruence.
Qed.
Section E.
Variable E : readers.
Lemma any_iff s v : number_or_datetime E s = Ok v <-> means_any E s v.
Proof.
  unfold number_or_datetime. destruct (is_none s) as [t|] eqn:N.
  - apply is_none_some in N. destruct N as [-> N]. split.
    + destruct (number E t) eqn:Q; [intros H; inversion H; constructor; auto|]. destruct (date E t) eqn:D; [|discriminate]. intros H; inversion H. constructor; auto.
    + intros H. inversion H; subst; [destruct N; reflexivity| |]; repeat match goal with H : number E t = _ |- _ => rewrite H | H : date E t = _ |- _ => rewrite H end; auto.
  - apply is_none_none in N. split.
    + intros H; inversion H. destruct N as [->| ->]; constructor.
    + intros H. destruct N as [->| ->]; inversion H; subst; auto; try (match goal with N : _ <> lit "None" |- _ => destruct N; reflexivity end).
Qed.
Lemma float_iff s v : float_arg E s = Ok v <-> means_number E s v.
Proof.
  unfold float_arg. destruct (is_none s) as [t|] eqn:N.
  - apply is_none_some in N. destruct N as [-> N]. split.
    + destruct (number E t) eqn:Q; [|discriminate]. intros H; inversion H; constructor; auto.
    + intros H. inversion H; subst; [destruct N; reflexivity|]. rewrite H2. auto.
  - apply is_none_none in N. split.
    + intros H; inversion H. destruct N as [->| ->]; constructor.
    + intros H. destruct N as [->| ->]; inversion H; subst; auto; try (match goal with N : _ <> lit "None" |- _ => destruct N; reflexivity end).
Qed.
Lemma date_iff s v : datetime_arg E s = Ok v <-> means_date E s v.
Proof.
  unfold datetime_arg. destruct (is_none (Some s)) as [t|] eqn:N.
  - apply is_none_some in N. destruct N as [N' N]. inversion N'; subst. split.
    + destruct (date E t) eqn:D; [|discriminate]. intros H; inversion H; constructor; auto.
    + intros H. inversion H; subst; [destruct N; reflexivity|]. rewrite H1. auto.
  - apply is_none_none in N. destruct N as [N|N]; [discriminate|]. inversion N; subst. split.
    + intros H; inversion H. constructor.
    + intros H. inversion H; subst; auto; try (match goal with N : _ <> lit "None" |- _ => destruct N; reflexivity end).
Qed.
Lemma period_iff s v : partial_arg s = Ok v <-> means_period s v.
Proof.
  unfold partial_arg. destruct (is_none (Some s)) as [t|] eqn:N.
  - apply is_none_some in N. destruct N as [N' N]. inversion N'; subst. split.
    + destruct (parse_partial_datetime t) as [p|e] eqn:D; [|destruct e; discriminate]. intros H; inversion H; constructor; auto.
    + intros H. inversion H; subst; [destruct N; reflexivity|]. rewrite H1. auto.
  - apply is_none_none in N. destruct N as [N|N]; [discriminate|]. inversion N; subst. split.
    + intros H; inversion H. constructor.
    + intros H. inversion H; subst; auto; try (match goal with N : _ <> lit "None" |- _ => destruct N; reflexivity end).
Qed.
Lemma step_iff s v : number_or_delta E s = Ok v <-> means_step E s v.
Proof.
  unfold number_or_delta. split.
  - destruct (number E s) eqn:Q; [intros H; inversion H; constructor; auto|].
    destruct (parse_datetime_delta s) as [z|e] eqn:D; [|destruct e; discriminate]. intros H; inversion H; constructor; auto.
  - intros H. inversion H; subst; rewrite H0; auto. rewrite H1. auto.
Qed.
Lemma one_of_iff names dim : one_of names dim = true <-> named names dim.
Proof.
  unfold one_of, named. rewrite existsb_exists. split; intros (n & I & H); exists n; split; auto; apply str_eqb_eq; auto.
Qed.
Lemma one_of_false names dim : one_of names dim = false <-> ~ named names dim.
Proof. rewrite <- one_of_iff. destruct (one_of names dim); intuition congruence. Qed.
End E.

(** ** Runs of characters *)
Lemma run_unique (p : ascii -> bool) w1 c1 r1 : forall w2 c2 r2, Forall (fun c => p c = true) w1 -> Forall (fun c => p c = true) w2 -> p c1 = false -> p c2 = false ->
  w1 ++ c1 :: r1 = w2 ++ c2 :: r2 -> w1 = w2 /\ c1 = c2 /\ r1 = r2.
Proof.
  induction w1 as [|a w1 IH]; intros [|b w2] c2 r2 F1 F2 P1 P2 H; simpl in H; inversion H; subst.
  - auto.
  - inversion F2; subst. congruence.
  - inversion F1; subst. congruence.
  - inversion F1; subst. inversion F2; subst. edestruct (IH w2 c2 r2) as (-> & -> & ->); eauto.
Qed.
Lemma is_true c a : is c a = true <-> a = c.
Proof. unfold is. destruct (ascii_dec a c); intuition congruence. Qed.
Lemma isnt_true c a : isnt c a = true <-> a <> c.
Proof. unfold isnt, is. destruct (ascii_dec a c); simpl; intuition congruence. Qed.
Lemma isnt_run c w : Forall (fun a => isnt c a = true) w <-> ~ In c w.
Proof.
  rewrite Forall_forall. split; intros H; [intros I; apply H in I; apply isnt_true in I; congruence|]. intros x I. apply isnt_true. congruence.
Qed.
Lemma value_run w : Forall (fun a => value_char a = true) w <-> ~ In "]"%char w /\ ~ In ","%char w.
Proof.
  rewrite Forall_forall. unfold value_char. split.
  - intros H. split; intros I; apply H in I; discriminate.
  - intros [A B] x I. rewrite andb_true_iff, !isnt_true. split; congruence.
Qed.
Lemma without_eq w : text_without ["="%char] w <-> w <> [] /\ Forall (fun a => isnt "=" a = true) w.
Proof. unfold text_without. rewrite isnt_run. split; intros [A B]; split; auto; [apply B; simpl; auto|]. intros c [<-|[]]. auto. Qed.
Lemma without_close w : text_without ["]"%char] w <-> w <> [] /\ Forall (fun a => isnt "]" a = true) w.
Proof. unfold text_without. rewrite isnt_run. split; intros [A B]; split; auto; [apply B; simpl; auto|]. intros c [<-|[]]. auto. Qed.
Lemma without_value w : text_without ["]"; ","]%char w <-> w <> [] /\ Forall (fun a => value_char a = true) w.
Proof.
  unfold text_without. rewrite value_run. split; intros [A B]; split; auto; [split; apply B; simpl; auto|]. intros c [<-|[<-|[]]]; tauto.
Qed.

(** ** The pieces of the limits *)
Definition the_groups (dim a : str) (b : option str) : groups := match b with Some b => [(END, b); (START, a); (DIM, dim)] | None => [(START, a); (DIM, dim)] end.
Ltac inv H := inversion H; subst; clear H.
Ltac invs := repeat match goal with H : accepts (Seq _ _) _ _ _ _ |- _ => inv H | H : accepts (Chr _) _ _ _ _ |- _ => inv H | H : accepts (Plus _) _ _ _ _ |- _ => inv H
  | H : accepts (Group _ _) _ _ _ _ |- _ => inv H | H : accepts End _ _ _ _ |- _ => inv H end.
Ltac apply_is := repeat match goal with H : is _ _ = true |- _ => apply is_true in H; subst end.
Lemma accepts_subset w rest g g' : accepts subset_re w rest g g' -> g = [] -> exists dim a b, g' = the_groups dim a b /\ written dim a b (w ++ rest).
Proof.
  intros H ->. unfold subset_re in H. invs.
  assert (exists b, g' = the_groups w1 w3 b /\ w4 = second b /\ forall t, b = Some t -> text_without ["]"; ","]%char t) as (b & -> & -> & Wb).
  { inv H5.
    - invs. apply_is. match goal with H : accepts _ _ _ _ _ |- _ => fail | |- exists b, (_, ?t) :: _ = _ /\ _ => exists (Some t) end.
      repeat split; auto; match goal with E : Some _ = Some _ |- _ => inv E end; apply without_value; auto.
    - exists None. repeat split; auto; discriminate. }
  exists w1, w3, b.
  apply_is. split; auto. split; [apply without_eq; auto|]. split; [apply without_value; auto|]. split; auto.
  exists rest. split; auto. repeat (rewrite <- app_assoc; simpl). reflexivity.
Qed.

Lemma written_accepts dim a b seg : written dim a b seg -> exists w rest, seg = w ++ rest /\ accepts subset_re w rest [] (the_groups dim a b).
Proof.
  intros (Wd & Wa & Wb & nl & N & ->). apply without_eq in Wd. apply without_value in Wa.
  exists (dim ++ ["="%char] ++ ["["%char] ++ a ++ second b ++ ["]"%char] ++ []), nl. split.
  { repeat (rewrite <- app_assoc; simpl). reflexivity. }
  unfold subset_re. eapply ac_seq with (g1 := [(DIM, dim)]); [constructor; constructor; tauto|].
  eapply ac_seq; [constructor; reflexivity|]. eapply ac_seq; [constructor; reflexivity|].
  eapply ac_seq with (g1 := [(START, a); (DIM, dim)]); [constructor; constructor; tauto|].
  eapply ac_seq with (g1 := the_groups dim a b); [|eapply ac_seq; [constructor; reflexivity|constructor; auto]].
  destruct b as [b|]; simpl.
  - apply ac_opt. apply (ac_seq _ _ [","%char] b _ _ [(START, a); (DIM, dim)]); [constructor; reflexivity|]. constructor. constructor; apply (proj1 (without_value b) (Wb b eq_refl)).
  - apply ac_skip.
Qed.
Lemma stop_value c : c = ","%char \/ c = "]"%char -> value_char c = false.
Proof. intros [->| ->]; reflexivity. Qed.
Lemma written_unique dim a b dim' a' b' seg : written dim a b seg -> written dim' a' b' seg -> dim = dim' /\ a = a' /\ b = b'.
Proof.
  intros (Wd & Wa & Wb & nl & N & ->) (Wd' & Wa' & Wb' & nl' & N' & Eq).
  apply without_eq in Wd, Wd'. apply without_value in Wa, Wa'.
  change (lit "=[") with ["="%char; "["%char] in Eq. simpl in Eq.
  apply (run_unique (isnt "=")) in Eq; try tauto; try reflexivity. destruct Eq as (-> & _ & Eq). inversion Eq as [Eq']. clear Eq.
  assert (exists c t, second b ++ "]"%char :: nl = c :: t /\ value_char c = false) as (c & t & E1 & V1) by (destruct b; simpl; eauto).
  assert (exists c t, second b' ++ "]"%char :: nl' = c :: t /\ value_char c = false) as (c' & t' & E2 & V2) by (destruct b'; simpl; eauto).
  rewrite E1, E2 in Eq'. apply (run_unique value_char) in Eq'; try tauto. destruct Eq' as (-> & -> & ->). repeat split.
  rewrite <- E2 in E1. clear E2 V1 V2. destruct b as [b|], b' as [b'|]; simpl in E1; try discriminate; auto.
  inversion E1 as [E1']. apply (run_unique value_char) in E1'; try reflexivity.
  - destruct E1' as (-> & _). auto.
  - apply (proj1 (without_value b) (Wb b eq_refl)).
  - apply (proj1 (without_value b') (Wb' b' eq_refl)).
Qed.
Lemma subset_match seg : match re_match subset_re seg with
  | Some g => exists dim a b, g = the_groups dim a b /\ written dim a b seg
  | None => forall dim a b, ~ written dim a b seg end.
Proof.
  unfold re_match. destruct (matching subset_re seg [] _) as [g|] eqn:M.
  - apply matching_sound in M. destruct M as (w & rest & g' & -> & A & K). inversion K; subst. eapply accepts_subset; eauto.
  - intros dim a b W. apply written_accepts in W. destruct W as (w & rest & -> & A).
    apply (matching_complete _ _ _ _ _ A (fun _ g => Some g)); [congruence|auto].
Qed.
Lemma starts_with_iff p s : starts_with p s = true <-> begins p s.
Proof.
  revert s. induction p as [|a p IH]; intros s; simpl.
  - split; auto. intros _. exists s. auto.
  - destruct s as [|b s]; [split; [discriminate|intros [r H]; discriminate]|].
    destruct (ascii_dec a b) as [->|N].
    + rewrite IH. split; intros [r H]; exists r; [rewrite H; auto|inversion H; auto].
    + split; [discriminate|]. intros [r H]. inversion H. congruence.
Qed.
Lemma split_two c s t : nth_error (split_on c s) 1 = Some t <-> exists w rest, s = w ++ c :: t ++ rest /\ ~ In c w /\ ~ In c t /\ (rest = [] \/ begins [c] rest).
Proof.
  split.
  - intros H. pose proof (join_split c s) as J. pose proof (split_pieces c s) as P.
    destruct (split_on c s) as [|w [|t' ps]]; try discriminate. simpl in H. inversion H; subst t'. simpl in J.
    exists w, (match ps with [] => [] | _ => c :: join_on c ps end). split; [destruct ps; simpl in J; rewrite <- J; [rewrite app_nil_r|]; auto|].
    split; [apply P; simpl; auto|]. split; [apply P; simpl; auto|]. destruct ps; auto. right. eexists; simpl; eauto.
  - intros (w & rest & -> & Nw & Nt & [->|[r ->]]).
    + rewrite app_nil_r, split_app_sep, split_nosep by auto. auto.
    + rewrite split_app_sep by auto. simpl. rewrite split_app_sep by auto. auto.
Qed.
Lemma group_dim dim a b : group (the_groups dim a b) DIM = Some dim /\ group (the_groups dim a b) START = Some a /\ group (the_groups dim a b) END = b.
Proof. destruct b; repeat split. Qed.
Lemma qle_iff a b : Qle_bool a b = true <-> (a <= b)%Q.
Proof. apply Qle_bool_iff. Qed.
Lemma subset_segment_iff E seg dim l : subset_segment E seg = Ok (dim, l) <-> limit_piece E seg dim l.
Proof.
  unfold subset_segment. destruct (starts_with (lit "shape") seg) eqn:S.
  - split.
    + destruct (nth_error (split_on "=" seg) 1) as [t|] eqn:T; [|discriminate]. intros H; inversion H; subst; clear H.
      apply split_two in T. destruct T as (w & rest & Eq & Nw & Nt & R). apply starts_with_iff in S. destruct S as [r S].
      assert (exists w', w = lit "shape" ++ w') as [w' ->].
      { assert (L : 5 <= length w).
        { destruct (Nat.le_gt_cases 5 (length w)) as [L|L]; auto. exfalso. rewrite Eq in S.
          do 5 (destruct w as [|? w]; [discriminate S|]). simpl in L. lia. }
        exists (skipn 5 w). rewrite Eq in S.
        do 5 (destruct w as [|? w]; [simpl in L; lia|]). simpl in S. inversion S; subst. reflexivity. }
      rewrite Eq, <- app_assoc. apply lp_shape; auto. intros I. apply Nw. rewrite in_app_iff. auto.
    + intros H. inversion H; subst; try (apply starts_with_iff in S; contradiction).
      assert (T : nth_error (split_on "=" (lit "shape" ++ w ++ lit "=" ++ t ++ rest)) 1 = Some t).
      { apply split_two. exists (lit "shape" ++ w), rest. rewrite <- app_assoc. repeat split; auto.
        rewrite in_app_iff. intros [I|I]; [|auto]. simpl in I. intuition discriminate. }
      rewrite T. auto.
  - assert (NS : ~ begins (lit "shape") seg) by (rewrite <- starts_with_iff, S; discriminate).
    pose proof (subset_match seg) as M. destruct (re_match subset_re seg) as [g|].
    2: { split; [discriminate|]. intros H. inversion H; subst; try (exfalso; eapply M; eauto; fail). destruct NS. eexists; reflexivity. }
    destruct M as (dim0 & a & b & -> & W). destruct (group_dim dim0 a b) as (-> & -> & ->).
    assert (U : forall dim' a' b', written dim' a' b' seg -> dim' = dim0 /\ a' = a /\ b' = b) by (intros; eapply written_unique; eauto).
    assert (N3 : forall n, named ["x"; "y"; "z"] n -> ~ named ["t"; "time"] n).
    { intros n (u & [<-|[<-|[<-|[]]]] & L1) (v & [<-|[<-|[]]] & L2); rewrite L1 in L2; discriminate. }
    split.
    + destruct (one_of ["t"; "time"] dim0) eqn:T.
      { apply one_of_iff in T. destruct b as [b|].
        - destruct (datetime_arg E a) eqn:Da; cbn [bind]; [|discriminate]. destruct (datetime_arg E b) eqn:Db; cbn [bind]; [|discriminate]. intros H; inversion H; subst.
          apply date_iff in Da, Db. eapply lp_times; eauto.
        - destruct (partial_arg a) eqn:Da; cbn [bind]; [|discriminate]. intros H; inversion H; subst. apply period_iff in Da. eapply lp_period; eauto. }
      apply one_of_false in T. destruct (one_of ["x"; "y"; "z"] dim0) eqn:X.
      * apply one_of_iff in X. destruct (float_arg E (Some a)) as [qa|] eqn:Fa; cbn [bind]; [|discriminate]. destruct (float_arg E b) as [qb|] eqn:Fb; cbn [bind]; [|discriminate].
        apply float_iff in Fa, Fb. destruct (one_of ["x"] dim0) eqn:X1.
        -- apply one_of_iff in X1. destruct qa as [qa|]; [|discriminate]. destruct qb as [qb|]; [|discriminate].
           destruct (Qle_bool qa qb) eqn:L1; [|discriminate]. destruct (Qle_bool (qb - qa) 360) eqn:L2; [|discriminate].
           intros H; inversion H; subst. apply qle_iff in L1, L2. destruct b as [b|]; [|inversion Fb]. eapply lp_x; eauto.
        -- apply one_of_false in X1. intros H; inversion H; subst. eapply lp_yz; eauto.
           destruct X as (n & [<-|I] & Ln); [destruct X1; exists "x"; simpl; auto|]. exists n. auto.
      * apply one_of_false in X. destruct (number_or_datetime E (Some a)) eqn:Fa; cbn [bind]; [|discriminate]. destruct (number_or_datetime E b) eqn:Fb; cbn [bind]; [|discriminate].
        apply any_iff in Fa, Fb. intros H; inversion H; subst. eapply lp_other; eauto.
        intros (n & I & Ln). simpl in I. destruct I as [<-|[<-|I]]; [apply T; exists "t"; simpl; auto|apply T; exists "time"; simpl; auto|]. apply X. exists n. auto.
    + intros H. inversion H; subst; try (match goal with W' : written _ _ _ seg |- _ => destruct (U _ _ _ W') as (? & ? & ?); subst end).
      * destruct NS. eexists; reflexivity.
      * rewrite (proj2 (one_of_iff ["t"; "time"] dim0)) by auto. rewrite (proj2 (period_iff a p)) by auto. auto.
      * rewrite (proj2 (one_of_iff ["t"; "time"] dim0)) by auto. rewrite (proj2 (date_iff E a x)), (proj2 (date_iff E b0 y)) by auto. auto.
      * assert (X : named ["x"; "y"; "z"] dim0) by (destruct H2 as (n & [<-|[]] & Ln); exists "x"; simpl; auto).
        rewrite (proj2 (one_of_false ["t"; "time"] dim0)) by auto. rewrite (proj2 (one_of_iff ["x"; "y"; "z"] dim0)) by auto.
        rewrite (proj2 (float_iff E _ (Some x))), (proj2 (float_iff E _ (Some y))) by auto. cbn [bind]. rewrite (proj2 (one_of_iff ["x"] dim0)) by auto.
        rewrite (proj2 (qle_iff x y)), (proj2 (qle_iff (y - x) 360)) by auto. auto.
      * assert (X : named ["x"; "y"; "z"] dim0) by (destruct H2 as (n & I & Ln); exists n; simpl; auto).
        rewrite (proj2 (one_of_false ["t"; "time"] dim0)) by auto. rewrite (proj2 (one_of_iff ["x"; "y"; "z"] dim0)) by auto.
        rewrite (proj2 (float_iff E _ x)), (proj2 (float_iff E _ y)) by auto. cbn [bind].
        rewrite (proj2 (one_of_false ["x"] dim0)); auto. intros (n & [<-|[]] & L1). destruct H2 as (n2 & [<-|[<-|[]]] & L2); rewrite L1 in L2; discriminate.
      * rewrite (proj2 (one_of_false ["t"; "time"] dim0)). 2: { intros (n & I & Ln). apply H2. exists n. split; auto. simpl in *. tauto. }
        rewrite (proj2 (one_of_false ["x"; "y"; "z"] dim0)). 2: { intros (n & I & Ln). apply H2. exists n. split; auto. simpl in *. tauto. }
        rewrite (proj2 (any_iff E _ x)), (proj2 (any_iff E _ y)) by auto. auto.
Qed.
Lemma get_subset_limits_spec E text :
  match get_subset_limits E text with
  | Ok d => exists pieces pairs, cut_at_commas text pieces /\ pieces <> [] /\ meaning (limit_piece E) pieces pairs /\ dictionary pairs d
  | Raises _ => ~ exists pieces pairs, cut_at_commas text pieces /\ pieces <> [] /\ meaning (limit_piece E) pieces pairs
  end.
Proof.
  unfold get_subset_limits. pose proof (proj2 (cut_at_commas_iff text _) eq_refl) as C. destruct (split_outside_brackets text ",") as [|s segs] eqn:Sp.
  - intros (pieces & pairs & C' & NN & _). apply cut_at_commas_iff in C'. congruence.
  - pose proof (into_dict_spec _ _ (subset_segment_iff E) (s :: segs) [] [] dictionary_nil) as D.
    destruct (into_dict (subset_segment E) (s :: segs) []) as [d|e].
    + destruct D as (pairs & M & D). exists (s :: segs), pairs. repeat split; auto; try congruence; apply D.
    + intros (pieces & pairs & C' & NN & M). apply cut_at_commas_iff in C'. apply D. exists pairs. congruence.
Qed.
