(** Proofs for C103. *)
From Coq Require Import String.
From Verif Require Import Base PyStr FileListModel TopModel TopSpec TopProofs RunModel RunSpec.
From Coq Require Import List Ascii Lia Arith.
Import ListNotations.
Open Scope string_scope. Open Scope list_scope. Open Scope nat_scope. Notation length := List.length.

(** *** texts *)
Lemma plain_escaped q s : (forall c, In c s -> c <> q /\ c <> "\"%char /\ c <> "009"%char /\ c <> "010"%char /\ c <> "013"%char) -> flat_map (escaped q) s = s.
Proof.
  induction s as [|c s IH]; intro H; [reflexivity|].
  destruct (H c (or_introl eq_refl)) as (A & B & C & E & F). cbn [flat_map]. unfold escaped at 1.
  destruct (ascii_dec c q); [contradiction|]. destruct (ascii_dec c "\"%char); [contradiction|]. destruct (ascii_dec c "010"%char); [contradiction|].
  destruct (ascii_dec c "013"%char); [contradiction|]. destruct (ascii_dec c "009"%char); [contradiction|]. cbn [app]. f_equal. apply IH. intros x Hx. exact (H x (or_intror Hx)).
Qed.
Lemma has_in c s : has c s = true <-> In c s.
Proof.
  unfold has. rewrite existsb_exists. split.
  - intros (d & I & E). destruct (ascii_dec d c); [subst; exact I|discriminate].
  - intro I. exists c. split; [exact I|]. destruct (ascii_dec c c); [reflexivity|contradiction].
Qed.
Lemma repr_plain s : ~ In "'"%char s -> ~ In "\"%char s -> (forall c, In c ["009"; "010"; "013"]%char -> ~ In c s) -> repr_text s = lit "'" ++ s ++ lit "'".
Proof.
  intros A B C. unfold repr_text.
  assert (E : has tick s = false) by (destruct (has tick s) eqn:E; [apply has_in in E; contradiction|reflexivity]).
  rewrite E. cbn [andb]. rewrite plain_escaped; [reflexivity|].
  intros c I. split; [intros ->; exact (A I)|]. split; [intros ->; exact (B I)|].
  split; [intros ->; exact (C _ (or_introl eq_refl) I)|]. split; [intros ->; exact (C _ (or_intror (or_introl eq_refl)) I)|intros ->; exact (C _ (or_intror (or_intror (or_introl eq_refl))) I)].
Qed.
(** the text main writes *)
Definition main_text (e : raised) : str := match e with OutOfMemory => memory_text | _ => str_of e end.
Lemma says_main e m : says e m -> main_text e = m /\ e <> Interrupt /\ forall n, e <> SystemExit n.
Proof.
  intro H. destruct H; (split; [|split; [discriminate|intros; discriminate]]); try reflexivity; try (cbn [main_text str_of file_format_error base_str tuple_text sep_by map arg_repr]; rewrite <- ?app_assoc; reflexivity).
  - cbn [main_text str_of arg_repr]. now apply repr_plain.
  - cbn [main_text str_of]. rewrite app_nil_r. reflexivity.
  - cbn [main_text str_of]. rewrite repr_plain by assumption. rewrite <- ?app_assoc. reflexivity.
Qed.

(** *** performing actions *)
Section Streams.
Variable stamp : nat -> str.
Lemma perform_app a b s : perform_all stamp (a ++ b) s = perform_all stamp b (perform_all stamp a s).
Proof. unfold perform_all. apply fold_left_app. Qed.
Lemma reaches_rank lv v : reaches lv v <-> (rank lv <=? rank v) = true.
Proof. destruct lv, v; cbn; intuition (try congruence; try discriminate). Qed.
Lemma record_count v p m s : s_records (record stamp v p m s) = s_records s + 1.
Proof. unfold record. destruct (s_handlers s); cbn; lia. Qed.
Lemma performed lv l : forall s, s_handlers s = Both lv ->
  s_handlers (perform_all stamp l s) = Both lv /\
  (exists o, s_out (perform_all stamp l s) = s_out s ++ o /\ on_screen stamp lv (s_records s) l o) /\
  (exists o, s_log (perform_all stamp l s) = s_log s ++ o /\ in_log stamp (s_records s) l o) /\
  (exists o, s_err (perform_all stamp l s) = s_err s ++ o /\ complaints false l o).
Proof.
  induction l as [|a l IH]; intros s H.
  - cbn. split; [exact H|]. split; [|split]; exists []; rewrite app_nil_r; (split; [reflexivity|constructor]).
  - change (perform_all stamp (a :: l) s) with (perform_all stamp l (perform stamp a s)).
    destruct a as [t|t|v p m].
    + destruct (IH (perform stamp (Print t) s) H) as (A & (o1 & B1 & C1) & (o2 & B2 & C2) & (o3 & B3 & C3)).
      split; [exact A|]. split; [|split].
      * exists (t ++ nl ++ o1). split; [rewrite B1; cbn [perform s_out]; rewrite <- !app_assoc; reflexivity|constructor; exact C1].
      * exists o2. split; [exact B2|constructor; exact C2].
      * exists o3. split; [exact B3|constructor; exact C3].
    + destruct (IH (perform stamp (Complain t) s) H) as (A & (o1 & B1 & C1) & (o2 & B2 & C2) & (o3 & B3 & C3)).
      split; [exact A|]. split; [|split].
      * exists o1. split; [exact B1|constructor; exact C1].
      * exists o2. split; [exact B2|constructor; exact C2].
      * exists (t ++ o3). split; [rewrite B3; cbn [perform s_err]; rewrite <- !app_assoc; reflexivity|constructor; exact C3].
    + assert (H' : s_handlers (perform stamp (Record_ v p m) s) = Both lv) by (cbn [perform]; unfold record; rewrite H; reflexivity).
      destruct (IH (perform stamp (Record_ v p m) s) H') as (A & (o1 & B1 & C1) & (o2 & B2 & C2) & (o3 & B3 & C3)).
      assert (N : s_records (perform stamp (Record_ v p m) s) = s_records s + 1) by apply record_count. rewrite N in C1, C2.
      split; [exact A|]. split; [|split].
      * destruct (rank lv <=? rank v) eqn:E.
        -- exists (stamp (s_records s) ++ lit " - " ++ lit (word v) ++ lit " - " ++ m ++ nl ++ o1). split.
           ++ rewrite B1. cbn [perform]. unfold record. rewrite H. cbn [s_out]. rewrite E. unfold simple. rewrite <- !app_assoc. destruct v; reflexivity.
           ++ apply screen_record; [apply reaches_rank; exact E|exact C1].
        -- exists o1. split.
           ++ rewrite B1. cbn [perform]. unfold record. rewrite H. cbn [s_out]. rewrite E. rewrite app_nil_r. reflexivity.
           ++ apply screen_quiet; [intro R; apply reaches_rank in R; congruence|exact C1].
      * exists (stamp (s_records s) ++ lit " - " ++ lit (word v) ++ lit " - " ++ p ++ lit " - " ++ m ++ nl ++ o2). split.
        -- rewrite B2. cbn [perform]. unfold record. rewrite H. cbn [s_log]. unfold complex. rewrite <- !app_assoc. destruct v; reflexivity.
        -- apply log_record. exact C2.
      * exists o3. split; [|apply complaints_other; [intros [? _]; discriminate|exact C3]].
        rewrite B3. cbn [perform]. unfold record. rewrite H. reflexivity.
Qed.
Lemma performed_logless l : forall s, s_handlers s <> Both DEBUG -> s_handlers s <> Both INFO -> s_handlers s <> Both WARNING -> s_handlers s <> Both ERROR ->
  s_log (perform_all stamp l s) = s_log s /\
  (exists o, s_out (perform_all stamp l s) = s_out s ++ o /\ prints l o) /\
  (exists o, s_err (perform_all stamp l s) = s_err s ++ o /\ complaints true l o).
Proof.
  induction l as [|a l IH]; intros s H1 H2 H3 H4.
  - cbn. split; [reflexivity|]. split; exists []; rewrite app_nil_r; (split; [reflexivity|constructor]).
  - change (perform_all stamp (a :: l) s) with (perform_all stamp l (perform stamp a s)).
    destruct a as [t|t|v p m].
    + destruct (IH (perform stamp (Print t) s) H1 H2 H3 H4) as (A & (o1 & B1 & C1) & (o3 & B3 & C3)).
      split; [exact A|]. split.
      * exists (t ++ nl ++ o1). split; [rewrite B1; cbn [perform s_out]; rewrite <- !app_assoc; reflexivity|constructor; exact C1].
      * exists o3. split; [exact B3|constructor; exact C3].
    + destruct (IH (perform stamp (Complain t) s) H1 H2 H3 H4) as (A & (o1 & B1 & C1) & (o3 & B3 & C3)).
      split; [exact A|]. split.
      * exists o1. split; [exact B1|apply prints_other; [discriminate|exact C1]].
      * exists (t ++ o3). split; [rewrite B3; cbn [perform s_err]; rewrite <- !app_assoc; reflexivity|constructor; exact C3].
    + assert (HB : record stamp v p m s = mkState Basic (s_out s) (s_err s ++ (if rank WARNING <=? rank v then level_name v ++ lit ":root:" ++ m ++ newline else [])) (s_log s) (S (s_records s))).
      { unfold record. destruct (s_handlers s) as [[]| |]; try congruence. }
      cbn [perform]. rewrite HB.
      destruct (IH (mkState Basic (s_out s) (s_err s ++ (if rank WARNING <=? rank v then level_name v ++ lit ":root:" ++ m ++ newline else [])) (s_log s) (S (s_records s)))) as (A & (o1 & B1 & C1) & (o3 & B3 & C3)); try discriminate.
      cbn [s_out s_err s_log] in *. split; [exact A|]. split.
      * exists o1. split; [exact B1|apply prints_other; [discriminate|exact C1]].
      * rewrite B3. destruct v; cbn [rank Nat.leb] in *.
        1,2: exists o3; rewrite app_nil_r; split; [reflexivity|apply complaints_other; [intros [_ J]; cbn in J; intuition discriminate|exact C3]].
        -- exists (lit (word WARNING) ++ lit ":root:" ++ m ++ nl ++ o3). split; [cbn [level_name word]; rewrite <- !app_assoc; reflexivity|apply complaints_record; [reflexivity|cbn; tauto|exact C3]].
        -- exists (lit (word ERROR) ++ lit ":root:" ++ m ++ nl ++ o3). split; [cbn [level_name word]; rewrite <- !app_assoc; reflexivity|apply complaints_record; [reflexivity|cbn; tauto|exact C3]].
Qed.
End Streams.

(** *** lines *)
Lemma is_in f (p : flag -> bool) fs : (forall g, p g = true <-> g = f) -> existsb p fs = true <-> In f fs.
Proof.
  intro H. rewrite existsb_exists. split.
  - intros (g & I & E). apply H in E. subst g. exact I.
  - intro I. exists f. split; [exact I|apply H; reflexivity].
Qed.
Lemma count_filter fs : List.length (filter is_v fs) = nverbose fs.
Proof. unfold nverbose. induction fs as [|f fs IH]; [reflexivity|]. destruct f; cbn in *; rewrite <- ?IH; reflexivity. Qed.
Lemma read_compatible fs : compatible fs -> exists g, read_flags fs = Ok g /\ forall lv, asks fs lv -> screen_level g = lv.
Proof.
  intro C. unfold read_flags.
  assert (Q : existsb is_q fs = true <-> In Quiet fs) by (apply is_in; intros []; cbn; intuition congruence).
  assert (V : existsb is_v fs = true <-> In Verbose fs) by (apply is_in; intros []; cbn; intuition congruence).
  destruct (existsb is_q fs && existsb is_v fs) eqn:E.
  - apply Bool.andb_true_iff in E. destruct E as [E1 E2]. exfalso. apply C. split; [apply Q; exact E1|apply V; exact E2].
  - eexists. split; [reflexivity|]. intros lv A. unfold screen_level. cbn [g_quiet g_verbose]. rewrite count_filter. destruct A as [I|I N|I N|I N N'].
    + apply Q in I. rewrite I. reflexivity.
    + destruct (existsb is_q fs) eqn:F; [exfalso; apply I, Q; reflexivity|]. rewrite N. reflexivity.
    + destruct (existsb is_q fs) eqn:F; [exfalso; apply I, Q; reflexivity|]. rewrite N. reflexivity.
    + destruct (existsb is_q fs) eqn:F; [exfalso; apply I, Q; reflexivity|]. destruct (nverbose fs) as [|[|[|n]]]; congruence || reflexivity.
Qed.
Lemma read_incompatible fs : ~ compatible fs -> exists e, read_flags fs = Raises e.
Proof.
  intro C. unfold read_flags.
  assert (Q : existsb is_q fs = true <-> In Quiet fs) by (apply is_in; intros []; cbn; intuition congruence).
  assert (V : existsb is_v fs = true <-> In Verbose fs) by (apply is_in; intros []; cbn; intuition congruence).
  destruct (existsb is_q fs && existsb is_v fs) eqn:E; [eexists; reflexivity|].
  exfalso. apply C. intros [A B]. apply Q in A. apply V in B. rewrite A, B in E. discriminate.
Qed.
Lemma invokes_named c r : invokes c r -> dispatch (Some c) = Ok (r, r) /\ command_name c = lit (full_name r).
Proof. intro H. destruct H; (split; [vm_compute; reflexivity|vm_compute; reflexivity]). Qed.
Lemma version_word c : invokes c Version -> str_eqb c (lit "version") = true.
Proof. intro H. inversion H. reflexivity. Qed.
Lemma other_word c r : invokes c r -> r <> Version -> str_eqb c (lit "version") = false.
Proof. intros H N. destruct H; try reflexivity; contradiction. Qed.
Lemma accepted_line l r lv : accepted l r lv -> exists c g, l_command l = Some c /\ parse_globals (l_before l) (l_command l) (l_after l) = Ok g /\ screen_level g = lv /\ dispatch (Some c) = Ok (r, r) /\
  command_name c = lit (full_name r).
Proof.
  intros [c r' lv' E I N B A K|c lv' E I B A K].
  - destruct (read_compatible _ B) as (g0 & G0 & _). destruct (read_compatible _ A) as (g & G & S). destruct (invokes_named _ _ I) as [D M].
    exists c, g. split; [exact E|]. split; [|split; [apply S; exact K|split; assumption]].
    rewrite E. unfold parse_globals. rewrite G0. cbn [bind]. rewrite (other_word _ _ I N). exact G.
  - destruct (read_compatible _ B) as (g & G & S). destruct (invokes_named _ _ I) as [D M].
    exists c, g. split; [exact E|]. split; [|split; [apply S; exact K|split; assumption]].
    rewrite E. unfold parse_globals. rewrite G. cbn [bind]. rewrite (version_word _ I), A. reflexivity.
Qed.
Section Main.
Variable stamp : nat -> str.
Lemma next_assoc {A B C} (p : proc A) (k : A -> proc B) (h : B -> proc C) : next (next p k) h = next p (fun a => next (k a) h).
Proof.
  unfold next. destruct p as [l [a|e]]; cbn [fst snd]; [|reflexivity]. destruct (k a) as [l' [b|e]]; cbn [fst snd]; [rewrite app_assoc|]; reflexivity.
Qed.
(** what main does after the arguments are known: one list of actions and an end *)
Lemma main_told w (s : state) (p : proc unit) acts e :
  (exists va, fst p = va /\ match snd p with inl _ => acts = va /\ e = Status 0 | inr x => exists l, acts = va ++ l /\ reported (w_trace w) x l e end) ->
  (let (s', r) := step_proc stamp p s in
   match r with
   | inr OutOfMemory => let (s, r) := step_proc stamp (error_occurred memory_text (w_trace w)) s' in (s, ended r)
   | inr (SystemExit _ as e) | inr (Interrupt as e) => (s', ended (inr e))
   | inr e => let (s, r) := step_proc stamp (error_occurred (str_of e) (w_trace w)) s' in (s, ended r)
   | inl _ => (s', ended r)
   end) = (perform_all stamp acts s, e).
Proof.
  intros (va & <- & H). unfold step_proc. destruct (snd p) as [[]|x].
  - destruct H as [-> ->]. reflexivity.
  - destruct H as (l & -> & R). rewrite perform_app. inversion R as [n E1|E1|x' m M E1]; subst.
    + cbn [perform_all fold_left]. rewrite ?app_nil_r. reflexivity.
    + reflexivity.
    + destruct (says_main _ _ M) as (E & NI & NE). unfold main_text in E. destruct x as [a|a|a b c|a| | |n]; try congruence; try (subst m; reflexivity).
Qed.
Lemma story_proc w c r acts e name : name = lit c -> story w c r acts e ->
  exists va, fst (next (w_validate w r) (fun _ => next (introduction w name) (fun _ => w_command w r))) = va /\
    match snd (next (w_validate w r) (fun _ => next (introduction w name) (fun _ => w_command w r))) with inl _ => acts = va /\ e = Status 0 | inr x => exists l, acts = va ++ l /\ reported (w_trace w) x l e end.
Proof.
  intros -> H. eexists. split; [reflexivity|]. destruct H as [va ca V C|va x l y V R|va ca x l y V C R]; rewrite V; unfold next; cbn [fst snd]; rewrite ?C; cbn [fst snd].
  - split; [|reflexivity]. unfold announced, introduction, next, doing. cbn [fst snd app]. reflexivity.
  - exists l. split; [reflexivity|exact R].
  - exists l. split; [|exact R]. unfold announced, introduction, next, doing. cbn [fst snd app]. rewrite <- app_assoc. cbn [app]. reflexivity.
Qed.
Lemma main_story w le l r lv acts e : accepted l r lv -> story w (full_name r) r acts e -> (le = None \/ lv = WARNING) ->
  main stamp w le l = (perform_all stamp acts (with_handlers (match le with None => Both lv | Some _ => None_ end) (start stamp le)), e).
Proof.
  intros A T L. destruct (accepted_line _ _ _ A) as (c & g & E & G & S & D & M).
  unfold main, parse_and_run. rewrite G, E, D.
  assert (H : set_level g (s_handlers (start stamp le)) = inl (match le with None => Both lv | Some _ => None_ end)).
  { unfold set_level. destruct le as [t|].
    - destruct L as [L|L]; [discriminate|]. rewrite L in S. unfold asks_level. unfold screen_level in S. destruct (g_quiet g); [discriminate|].
      destruct (g_verbose g) as [[|[|[|n]]]|]; try discriminate; reflexivity.
    - change (s_handlers (start stamp None)) with (Both WARNING). rewrite S. unfold asks_level. destruct (g_quiet g) eqn:Q; cbn [orb]; [reflexivity|].
      unfold screen_level in S. rewrite Q in S. destruct (g_verbose g) as [[|[|[|n]]]|]; subst lv; reflexivity. }
  rewrite H. apply (main_told w _ _ acts e). apply story_proc with (c := full_name r); assumption.
Qed.
Lemma run_told w l r lv acts e : accepted l r lv -> story w (full_name r) r acts e ->
  exists s, main stamp w None l = (s, e) /\ on_screen stamp lv 0 acts (s_out s) /\ in_log stamp 0 acts (s_log s) /\ complaints false acts (s_err s).
Proof.
  intros A T. rewrite (main_story _ _ _ _ _ _ _ A T (or_introl eq_refl)). eexists. split; [reflexivity|].
  destruct (performed stamp lv acts (with_handlers (Both lv) (start stamp None)) eq_refl) as (_ & (o1 & -> & C1) & (o2 & -> & C2) & (o3 & -> & C3)).
  cbn [with_handlers start s_out s_err s_log s_records app] in *. split; [exact C1|]. split; [exact C2|exact C3].
Qed.
Lemma logless_told w le l r acts e : accepted l r WARNING -> story w (full_name r) r acts e ->
  exists s o, main stamp w (Some le) l = (s, e) /\ s_out s = lit "WARNING: Unable to write to the log: " ++ le ++ nl ++ o /\ prints acts o /\ complaints true acts (s_err s) /\ s_log s = [].
Proof.
  intros A T. rewrite (main_story _ _ _ _ _ _ _ A T (or_intror eq_refl)).
  destruct (performed_logless stamp acts (with_handlers None_ (start stamp (Some le)))) as (E & (o1 & B1 & C1) & (o3 & B3 & C3)); try discriminate.
  eexists; exists o1. split; [reflexivity|]. split; [|split; [exact C1|split]].
  - rewrite B1. cbn [with_handlers start perform s_out app]. rewrite <- !app_assoc. reflexivity.
  - rewrite B3. exact C3.
  - rewrite E. reflexivity.
Qed.
(** without a log, options for the level end every run *)
Lemma logless_level w le l r lv : accepted l r lv -> lv <> WARNING ->
  main stamp w (Some le) l = (perform_all stamp (report (w_trace w) (lit "list index out of range")) (start stamp (Some le)), Status 1).
Proof.
  intros A N. destruct (accepted_line _ _ _ A) as (c & g & E & G & S & D & M).
  unfold main, parse_and_run. rewrite G, E, D.
  assert (H : set_level g (s_handlers (start stamp (Some le))) = inr out_of_range).
  { unfold set_level. change (s_handlers (start stamp (Some le))) with None_.
    replace (asks_level g) with true; [reflexivity|]. unfold asks_level. unfold screen_level in S. destruct (g_quiet g); [reflexivity|].
    destruct (g_verbose g) as [[|[|[|n]]]|]; congruence || reflexivity. }
  rewrite H. reflexivity.
Qed.
Lemma no_command w l : l_command l = None -> compatible (l_before l) -> asks (l_before l) WARNING ->
  exists s, main stamp w None l = (s, Status 1) /\ s_err s = lit "None" ++ nl.
Proof.
  intros E B K. destruct (read_compatible _ B) as (g & G & S). unfold main, parse_and_run. rewrite E. unfold parse_globals. rewrite G. cbn [bind].
  assert (H : set_level g (s_handlers (start stamp None)) = inl (Both WARNING)).
  { apply S in K. unfold set_level. change (s_handlers (start stamp None)) with (Both WARNING). unfold asks_level. unfold screen_level in K. destruct (g_quiet g); [discriminate|].
    destruct (g_verbose g) as [[|[|[|n]]]|]; try discriminate; reflexivity. }
  rewrite H. eexists. split; reflexivity.
Qed.
Lemma bad_line w le l : ~ compatible (l_before l) \/ (exists c, l_command l = Some c /\ ~ exists r, invokes c r) ->
  main stamp w le l = (perform_all stamp [Complain (w_usage w)] (start stamp le), Status 2).
Proof.
  intros H. unfold main, parse_and_run.
  assert (P : (exists e, parse_globals (l_before l) (l_command l) (l_after l) = Raises e) \/ exists c e, l_command l = Some c /\ dispatch (Some c) = Raises e).
  { destruct H as [H|(c & E & N)].
    - left. destruct (read_incompatible _ H) as (e & R). exists e. unfold parse_globals. rewrite R. reflexivity.
    - right. exists c, ParserError. split; [exact E|]. apply other_command. intros r I. apply N. exists r. exact I. }
  destruct P as [(e & ->)|(c & e & E & D)].
  - reflexivity.
  - destruct (parse_globals (l_before l) (l_command l) (l_after l)) as [g|x]; [|reflexivity]. rewrite E, D. reflexivity.
Qed.
(** only an interrupt gets out *)
Lemma only_interrupt w le l s e : main stamp w le l = (s, Uncaught e) -> e = Interrupt.
Proof.
  unfold main. destruct (parse_and_run stamp w l (start stamp le)) as [s' [[]|x]]; [discriminate|].
  destruct x as [a|a|a b c|a| | |n]; intro H; try discriminate. injection H as <- <-. reflexivity.
Qed.
End Main.

(** *** the commands *)
Section Commands.
Context {G D : Type}.
Variables (read : G -> proc D) (gridded : D -> bool) (class_name : D -> str) (save : D -> proc unit).
Lemma next_ok {A B} (p : proc A) (k : A -> proc B) l a : p = (l, inl a) -> next p k = (l ++ fst (k a), snd (k a)).
Proof. intros ->. reflexivity. Qed.
Lemma next_fails {A B} (p : proc A) (k : A -> proc B) l e : p = (l, inr e) -> next p k = (l, inr e).
Proof. intros ->. reflexivity. Qed.
Lemma many_groups {A} what g h rest (k : G -> proc A) :
  only_one what (g :: h :: rest) k = (report (lit "NoneType: None" ++ nl) (lit what ++ lit " can only be performed on one data group"), inr (SystemExit 1)).
Proof. reflexivity. Qed.
Lemma subset_one do_subset g la d : read g = (la, inl d) ->
  (forall lb d' lc r, do_subset d = (lb, inl (Some d')) -> save d' = (lc, r) -> subset_cmd read save do_subset [g] = (la ++ lb ++ lc, r)) /\
  (forall lb, do_subset d = (lb, inl None) -> subset_cmd read save do_subset [g] = (la ++ lb, inr (Other [Text (lit "No output created - constraints exclude all data")]))) /\
  (forall lb e, do_subset d = (lb, inr e) -> subset_cmd read save do_subset [g] = (la ++ lb, inr e)).
Proof.
  intro R. unfold subset_cmd. cbn [only_one]. rewrite (next_ok _ _ _ _ R). split; [|split].
  - intros lb d' lc r S V. rewrite (next_ok _ _ _ _ S). rewrite V. reflexivity.
  - intros lb S. rewrite (next_ok _ _ _ _ S). cbn [fail fst snd]. rewrite app_nil_r. reflexivity.
  - intros lb e S. rewrite (next_fails _ _ _ _ S). reflexivity.
Qed.
Lemma aggregate_gridded gridspec co ag g la d : read g = (la, inl d) -> gridded d = true ->
  (gridspec = true -> aggregate_cmd read gridded save gridspec co ag [g] =
     (la ++ [Record_ WARNING (lit "cis_main : 140") deprecated], inr (Other [Text (lit "Grid specifications are not supported for Gridded aggregation.")]))) /\
  (gridspec = false -> forall lb d' lc r, co d = (lb, inl d') -> save d' = (lc, r) -> aggregate_cmd read gridded save gridspec co ag [g] = (la ++ Record_ WARNING (lit "cis_main : 140") deprecated :: lb ++ lc, r)).
Proof.
  intros R I. unfold aggregate_cmd. cbn [only_one]. rewrite (next_ok _ _ _ _ R). rewrite I. split.
  - intros ->. reflexivity.
  - intros -> lb d' lc r C V. rewrite next_assoc. unfold doing at 1 2. unfold next at 1 3. cbn [fst snd].
    rewrite (next_ok _ _ _ _ C). rewrite V. reflexivity.
Qed.
Lemma aggregate_ungridded gridspec co ag g la d : read g = (la, inl d) -> gridded d = false ->
  forall lb d' lc r, ag d = (lb, inl d') -> save d' = (lc, r) -> aggregate_cmd read gridded save gridspec co ag [g] = (la ++ lb ++ lc, r).
Proof.
  intros R I lb d' lc r C V. unfold aggregate_cmd. cbn [only_one]. rewrite (next_ok _ _ _ _ R). rewrite I. rewrite (next_ok _ _ _ _ C). rewrite V. reflexivity.
Qed.
Lemma collapse_one co g la d : read g = (la, inl d) ->
  (gridded d = true -> forall lb d' lc r, co d = (lb, inl d') -> save d' = (lc, r) -> collapse_cmd read gridded class_name save co [g] = (la ++ lb ++ lc, r)) /\
  (gridded d = false -> collapse_cmd read gridded class_name save co [g] =
     (la ++ [Record_ ERROR (lit "cis_main : 166") collapse_ungridded], inr (Other [Text (lit "'" ++ class_name d ++ lit "' object has no attribute 'collapsed'")]))).
Proof.
  intro R. unfold collapse_cmd. cbn [only_one]. rewrite (next_ok _ _ _ _ R). split.
  - intros -> lb d' lc r C V. rewrite (next_ok _ _ _ _ C). rewrite V. reflexivity.
  - intros ->. unfold next, doing, fail, no_attribute. cbn [fst snd app]. repeat f_equal.
Qed.
End Commands.

(** *** the end of a failing run *)
Section Told.
Variable stamp : nat -> str.
Lemma screen_app lv a b : forall n o, on_screen stamp lv n (a ++ b) o -> exists k o1 o2, o = o1 ++ o2 /\ on_screen stamp lv k b o2.
Proof.
  induction a as [|x a IH]; intros n o H.
  - exists n, [], o. split; [reflexivity|exact H].
  - cbn [app] in H. inversion H; subst.
    + destruct (IH _ _ H4) as (k & o1 & o2 & -> & C). exists k, (t ++ nl ++ o1), o2. split; [rewrite <- !app_assoc; reflexivity|exact C].
    + destruct (IH _ _ H4) as (k & o1 & o2 & -> & C). exists k, o1, o2. split; [reflexivity|exact C].
    + match goal with K : on_screen _ _ _ (a ++ b) _ |- _ => destruct (IH _ _ K) as (k & o1 & o2 & -> & C) end.
      eexists k, (stamp n ++ lit " - " ++ lit (word v) ++ lit " - " ++ m ++ nl ++ o1), o2. split; [rewrite <- !app_assoc; reflexivity|exact C].
    + match goal with K : on_screen _ _ _ (a ++ b) _ |- _ => destruct (IH _ _ K) as (k & o1 & o2 & -> & C) end.
      exists k, o1, o2. split; [reflexivity|exact C].
Qed.
Lemma log_app a b : forall n o, in_log stamp n (a ++ b) o -> exists k o1 o2, o = o1 ++ o2 /\ in_log stamp k b o2.
Proof.
  induction a as [|x a IH]; intros n o H.
  - exists n, [], o. split; [reflexivity|exact H].
  - cbn [app] in H. inversion H; subst.
    + match goal with K : in_log _ _ (a ++ b) _ |- _ => destruct (IH _ _ K) as (k & o1 & o2 & -> & C) end. exists k, o1, o2. split; [reflexivity|exact C].
    + match goal with K : in_log _ _ (a ++ b) _ |- _ => destruct (IH _ _ K) as (k & o1 & o2 & -> & C) end. exists k, o1, o2. split; [reflexivity|exact C].
    + match goal with K : in_log _ _ (a ++ b) _ |- _ => destruct (IH _ _ K) as (k & o1 & o2 & -> & C) end.
      exists k, (stamp n ++ lit " - " ++ lit (word v) ++ lit " - " ++ p ++ lit " - " ++ m ++ nl ++ o1), o2. split; [rewrite <- !app_assoc; reflexivity|exact C].
Qed.
Lemma complaints_app q a b : forall o, complaints q (a ++ b) o -> exists o1 o2, o = o1 ++ o2 /\ complaints q b o2.
Proof.
  induction a as [|x a IH]; intros o H.
  - exists [], o. split; [reflexivity|exact H].
  - cbn [app] in H. inversion H; subst.
    + match goal with K : complaints _ (a ++ b) _ |- _ => destruct (IH _ K) as (o1 & o2 & -> & C) end. exists o1, o2. split; [reflexivity|exact C].
    + match goal with K : complaints _ (a ++ b) _ |- _ => destruct (IH _ K) as (o1 & o2 & -> & C) end. exists (t ++ o1), o2. split; [rewrite <- !app_assoc; reflexivity|exact C].
    + match goal with K : complaints _ (a ++ b) _ |- _ => destruct (IH _ K) as (o1 & o2 & -> & C) end.
      exists (lit (word v) ++ lit ":root:" ++ m ++ nl ++ o1), o2. split; [rewrite <- !app_assoc; reflexivity|exact C].
    + match goal with K : complaints _ (a ++ b) _ |- _ => destruct (IH _ K) as (o1 & o2 & -> & C) end. exists o1, o2. split; [reflexivity|exact C].
Qed.
Lemma reaches_error lv : reaches lv ERROR.
Proof. destruct lv; cbn; tauto. Qed.
Lemma report_screen lv n t m o : on_screen stamp lv n (report t m) o -> ends_with (lit " - ERROR - " ++ m ++ lit " - check cis.log for details" ++ nl ++ nl) o.
Proof.
  unfold report. intro H. inversion H; subst.
  match goal with K : on_screen _ _ _ [_; _; _] _ |- _ => inversion K; subst; clear K end;
  match goal with K : on_screen _ _ _ [_; _] _ |- _ => inversion K; subst; clear K end;
  match goal with K : on_screen _ _ _ [_] _ |- _ => inversion K; subst; clear K end;
  try (match goal with K : ~ reaches _ ERROR |- _ => exfalso; exact (K (reaches_error _)) end);
  match goal with K : on_screen _ _ _ [] _ |- _ => inversion K; subst; clear K end; unfold ends_with.
  - exists (stamp n ++ lit " - " ++ lit (word DEBUG) ++ lit " - " ++ (m ++ nl) ++ nl ++ stamp (n + 1) ++ lit " - " ++ lit (word DEBUG) ++ lit " - " ++ t ++ nl ++ stamp (n + 1 + 1)). rewrite <- !app_assoc. reflexivity.
  - exists (stamp n ++ lit " - " ++ lit (word DEBUG) ++ lit " - " ++ (m ++ nl) ++ nl ++ stamp (n + 1 + 1)). rewrite <- !app_assoc. reflexivity.
  - exists (stamp (n + 1) ++ lit " - " ++ lit (word DEBUG) ++ lit " - " ++ t ++ nl ++ stamp (n + 1 + 1)). rewrite <- !app_assoc. reflexivity.
  - exists (stamp (n + 1 + 1)). rewrite <- !app_assoc. reflexivity.
Qed.
Lemma report_complaints t m o : complaints false (report t m) o -> o = m ++ nl.
Proof.
  unfold report. intro H. inversion H; subst.
  repeat match goal with K : complaints _ (_ :: _) _ |- _ => inversion K; subst; clear K; try discriminate end.
  match goal with K : complaints _ [] _ |- _ => inversion K; subst; clear K end. rewrite app_nil_r. reflexivity.
Qed.
Lemma report_log n t m o : in_log stamp n (report t m) o -> occurs t o.
Proof.
  unfold report. intro H. repeat match goal with K : in_log _ _ (_ :: _) _ |- _ => inversion K; subst; clear K end.
  unfold occurs. eexists (stamp n ++ lit " - " ++ lit (word DEBUG) ++ lit " - " ++ lit "cis_main : 22" ++ lit " - " ++ (m ++ nl) ++ nl ++ stamp (n + 1) ++ lit " - " ++ lit (word DEBUG) ++ lit " - " ++ lit "cis_main : 23" ++ lit " - ").
  eexists. rewrite <- !app_assoc. reflexivity.
Qed.
Lemma failing_told w l r lv acts e m : accepted l r lv -> says e m ->
  (exists va, w_validate w r = (va, inr e) /\ acts = va ++ report (w_trace w) m) \/
  (exists va ca, w_validate w r = (va, inl tt) /\ w_command w r = (ca, inr e) /\ acts = va ++ announced w (full_name r) ++ ca ++ report (w_trace w) m) ->
  exists s, main stamp w None l = (s, Status 1) /\ ends_with (m ++ nl) (s_err s) /\ ends_with (lit " - ERROR - " ++ m ++ lit " - check cis.log for details" ++ nl ++ nl) (s_out s) /\ occurs (w_trace w) (s_log s).
Proof.
  intros A M H.
  assert (T : story w (full_name r) r acts (Status 1) /\ exists a, acts = a ++ report (w_trace w) m).
  { destruct H as [(va & V & ->)|(va & ca & V & C & ->)].
    - split; [|eexists; reflexivity]. eapply refused; [exact V|]. constructor. exact M.
    - split; [|exists (va ++ announced w (full_name r) ++ ca); rewrite <- !app_assoc; reflexivity]. eapply fails; [exact V|exact C|]. constructor. exact M. }
  destruct T as [T (a & ->)]. destruct (run_told stamp w l r lv _ _ A T) as (s & E & O & L & K).
  exists s. split; [exact E|].
  destruct (screen_app _ _ _ _ _ O) as (k1 & o1 & o1' & E1 & O'). destruct (log_app _ _ _ _ L) as (k2 & o2 & o2' & E2 & L'). destruct (complaints_app _ _ _ _ K) as (o3 & o3' & E3 & K').
  apply report_screen in O'. apply report_complaints in K'. apply report_log in L'. rewrite E1, E2, E3. subst o3'. split; [|split].
  - exists o3. reflexivity.
  - destruct O' as (b & ->). exists (o1 ++ b). rewrite <- !app_assoc. reflexivity.
  - destruct L' as (b & x & ->). exists (o2 ++ b), x. rewrite <- !app_assoc. reflexivity.
Qed.
End Told.
Lemma one_print stamp lv n t o : on_screen stamp lv n [Print t] o -> o = t ++ nl.
Proof. intro H. inversion H; subst. match goal with K : on_screen _ _ _ [] _ |- _ => inversion K; subst end. rewrite app_nil_r. reflexivity. Qed.
