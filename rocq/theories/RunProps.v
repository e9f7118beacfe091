(** C103: how a run of the program ends and what it tells. *)
From Coq Require Import String.
From Verif Require Import Base PyStr FileListModel TopModel TopSpec RunModel RunSpec RunProofs.
From Coq Require Import List Ascii.
Import ListNotations.
Open Scope string_scope. Open Scope list_scope. Open Scope nat_scope. Notation length := List.length.

(** What a run of an accepted line does is one of the stories; the screen, the log file and stderr show just what belongs there, in order, and the status is the story's. *)
Theorem C103_run stamp w l r lv acts e : accepted l r lv -> story w (full_name r) r acts e ->
  exists s, main stamp w None l = (s, e) /\ on_screen stamp lv 0 acts (s_out s) /\ in_log stamp 0 acts (s_log s) /\ complaints false acts (s_err s).
Proof. exact (run_told stamp w l r lv acts e). Qed.
Print Assumptions C103_run.

(** A run that fails, in its validation or in its command, has status 1, its message is the last thing on stderr and on the screen, however quiet, and the trace is in the log. *)
Theorem C103_told stamp w l r lv acts e m : accepted l r lv -> says e m ->
  (exists va, w_validate w r = (va, inr e) /\ acts = va ++ report (w_trace w) m) \/
  (exists va ca, w_validate w r = (va, inl tt) /\ w_command w r = (ca, inr e) /\ acts = va ++ announced w (full_name r) ++ ca ++ report (w_trace w) m) ->
  exists s, main stamp w None l = (s, Status 1) /\ ends_with (m ++ nl) (s_err s) /\ ends_with (lit " - ERROR - " ++ m ++ lit " - check cis.log for details" ++ nl ++ nl) (s_out s) /\ occurs (w_trace w) (s_log s).
Proof. exact (failing_told stamp w l r lv acts e m). Qed.
Print Assumptions C103_told.

(** A line that is not accepted: the usage on stderr, status 2, nothing else. *)
Theorem C103_bad_line stamp w l : ~ compatible (l_before l) \/ (exists c, l_command l = Some c /\ ~ exists r, invokes c r) ->
  exists s, main stamp w None l = (s, Status 2) /\ s_err s = w_usage w /\ s_out s = [] /\ s_log s = [].
Proof. intro H. rewrite (bad_line stamp w None l H). eexists. split; [reflexivity|]. repeat split. Qed.
Print Assumptions C103_bad_line.

(** Only an interrupt by the user gets out of the program. *)
Theorem C103_only_interrupt stamp w le l s e : main stamp w le l = (s, Uncaught e) -> e = Interrupt.
Proof. exact (only_interrupt stamp w le l s e). Qed.
Print Assumptions C103_only_interrupt.

(** Without a log (it cannot be written) and without -v and -q, everything goes on: a warning, then what is printed; warnings and errors go to stderr. *)
Theorem C103_no_log_partial stamp w le l r acts e : accepted l r WARNING -> story w (full_name r) r acts e ->
  exists s o, main stamp w (Some le) l = (s, e) /\ s_out s = lit "WARNING: Unable to write to the log: " ++ le ++ nl ++ o /\ prints acts o /\ complaints true acts (s_err s) /\ s_log s = [].
Proof. exact (logless_told stamp w le l r acts e). Qed.
Print Assumptions C103_no_log_partial.

(** But with -q, -v or -v -v no command runs at all then. *)
Theorem C103_no_log_refuted stamp w le l r lv : accepted l r lv -> lv <> WARNING ->
  exists s, main stamp w (Some le) l = (s, Status 1) /\ s_out s = lit "WARNING: Unable to write to the log: " ++ le ++ nl /\
    s_err s = lit "list index out of range" ++ nl ++ lit "ERROR:root:list index out of range - check cis.log for details" ++ nl ++ nl.
Proof. intros A N. rewrite (logless_level stamp w le l r lv A N). eexists. split; [reflexivity|]. split; reflexivity. Qed.
Print Assumptions C103_no_log_refuted.

(** Without a command the message is only the word None. *)
Theorem C103_no_command_refuted stamp w l : l_command l = None -> compatible (l_before l) -> asks (l_before l) WARNING ->
  exists s, main stamp w None l = (s, Status 1) /\ s_err s = lit "None" ++ nl.
Proof. exact (no_command stamp w l). Qed.
Print Assumptions C103_no_command_refuted.

(** Why a file's format is not recognised is never told: the message is the same whatever the reasons. *)
Theorem C103_format_refuted stamp w l r lv reasons va ca : accepted l r lv -> w_validate w r = (va, inl tt) -> w_command w r = (ca, inr (file_format_error reasons [])) ->
  exists s, main stamp w None l = (s, Status 1) /\ ends_with (lit "((), {})" ++ nl) (s_err s).
Proof.
  intros A V C. destruct (failing_told stamp w l r lv _ _ _ A (says_format reasons) (or_intror (ex_intro _ va (ex_intro _ ca (conj V (conj C eq_refl)))))) as (s & E & F & _).
  exists s. split; [exact E|exact F].
Qed.
Print Assumptions C103_format_refuted.

(** Subset, aggregate and collapse with several datagroups read nothing: they tell why, and the status is 1. *)
Theorem C103_one_group G D (read : G -> proc D) gridded class_name save do_subset gridspec co ag g h rest :
  let told what := report (lit "NoneType: None" ++ nl) (lit what ++ lit " can only be performed on one data group") in
  subset_cmd read save do_subset (g :: h :: rest) = (told "Subsetting"%string, inr (SystemExit 1)) /\
  aggregate_cmd read gridded save gridspec co ag (g :: h :: rest) = (told "Aggregation"%string, inr (SystemExit 1)) /\
  collapse_cmd read gridded class_name save co (g :: h :: rest) = (told "Collapse"%string, inr (SystemExit 1)).
Proof. cbv zeta. split; [apply many_groups|split; apply many_groups]. Qed.
Print Assumptions C103_one_group.

(** A subset is read, made and saved in this order; nothing is saved if nothing is left, which is told, or if making it fails. *)
Theorem C103_subset G D (read : G -> proc D) save do_subset g la d : read g = (la, inl d) ->
  (forall lb d' lc r, do_subset d = (lb, inl (Some d')) -> save d' = (lc, r) -> subset_cmd read save do_subset [g] = (la ++ lb ++ lc, r)) /\
  (forall lb, do_subset d = (lb, inl None) -> exists e, subset_cmd read save do_subset [g] = (la ++ lb, inr e) /\ says e (lit "No output created - constraints exclude all data")) /\
  (forall lb e, do_subset d = (lb, inr e) -> subset_cmd read save do_subset [g] = (la ++ lb, inr e)).
Proof.
  intro R. destruct (subset_one read save do_subset g la d R) as (A & B & C). split; [exact A|]. split; [|exact C].
  intros lb N. eexists. split; [exact (B lb N)|constructor].
Qed.
Print Assumptions C103_subset.

(** Aggregating gridded data is collapsing them, after a warning; a grid is refused then.  Ungridded data are aggregated without a word. *)
Theorem C103_aggregate G D (read : G -> proc D) gridded save gridspec co ag g la d : read g = (la, inl d) ->
  let warning := Record_ WARNING (lit "cis_main : 140") (lit "The aggregate command is deprecated for GriddedData and will not be supported in future versions of CIS. Please use 'collapse' instead.") in
  (gridded d = true -> gridspec = true -> exists e, aggregate_cmd read gridded save gridspec co ag [g] = (la ++ [warning], inr e) /\ says e (lit "Grid specifications are not supported for Gridded aggregation.")) /\
  (gridded d = true -> gridspec = false -> forall lb d' lc r, co d = (lb, inl d') -> save d' = (lc, r) -> aggregate_cmd read gridded save gridspec co ag [g] = (la ++ warning :: lb ++ lc, r)) /\
  (gridded d = false -> forall lb d' lc r, ag d = (lb, inl d') -> save d' = (lc, r) -> aggregate_cmd read gridded save gridspec co ag [g] = (la ++ lb ++ lc, r)).
Proof.
  intros R. cbv zeta. split; [|split].
  - intros I S. destruct (aggregate_gridded read gridded save gridspec co ag g la d R I) as [A _]. eexists. split; [exact (A S)|constructor].
  - intros I S. destruct (aggregate_gridded read gridded save gridspec co ag g la d R I) as [_ A]. exact (A S).
  - intros I. exact (aggregate_ungridded read gridded save gridspec co ag g la d R I).
Qed.
Print Assumptions C103_aggregate.

(** Collapsing gridded data. *)
Theorem C103_collapse_partial G D (read : G -> proc D) gridded class_name save co g la d : read g = (la, inl d) -> gridded d = true ->
  forall lb d' lc r, co d = (lb, inl d') -> save d' = (lc, r) -> collapse_cmd read gridded class_name save co [g] = (la ++ lb ++ lc, r).
Proof. intros R I. destruct (collapse_one read gridded class_name save co g la d R) as [A _]. exact (A I). Qed.
Print Assumptions C103_collapse_partial.

(** For ungridded data the complaint is only a record in the log: the run goes on, and ends with another message than the one that says what is wrong. *)
Theorem C103_collapse_refuted G D (read : G -> proc D) gridded class_name save co g la d : read g = (la, inl d) -> gridded d = false ->
  exists e m, collapse_cmd read gridded class_name save co [g] =
    (la ++ [Record_ ERROR (lit "cis_main : 166") (lit "The collapse command can only be performed on gridded data. Please use 'aggregate' instead.")], inr e) /\
    says e m /\ m = lit "'" ++ class_name d ++ lit "' object has no attribute 'collapsed'".
Proof. intros R I. destruct (collapse_one read gridded class_name save co g la d R) as [_ A]. eexists. eexists. split; [exact (A I)|]. split; [constructor|reflexivity]. Qed.
Print Assumptions C103_collapse_refuted.

(** The version is printed, whatever else. *)
Theorem C103_version stamp w l lv version status : accepted l Version lv -> w_validate w Version = ([], inl tt) -> w_command w Version = version_cmd version status ->
  exists s, main stamp w None l = (s, Status 0) /\ s_err s = [] /\ ends_with (lit "Using CIS version: " ++ version ++ lit " (" ++ status ++ lit ")" ++ nl) (s_out s).
Proof.
  intros A V C.
  destruct (run_told stamp w l Version lv _ _ A (succeeds w "version" Version [] [Print (lit "Using CIS version: " ++ version ++ lit " (" ++ status ++ lit ")")] V C)) as (s & E & O & _ & K).
  exists s. split; [exact E|].
  destruct (screen_app stamp lv (announced w "version") [Print (lit "Using CIS version: " ++ version ++ lit " (" ++ status ++ lit ")")] 0 (s_out s) O) as (k & o1 & o2 & F & O').
  split.
  - repeat match goal with H : complaints _ (_ :: _) _ |- _ => inversion H; subst; clear H; try discriminate | H : complaints _ (_ ++ _) _ |- _ => cbn [app announced] in H | H : complaints _ [] _ |- _ => inversion H; subst; clear H end; reflexivity.
  - apply one_print in O'. exists o1. rewrite F, O'. rewrite <- !app_assoc. reflexivity.
Qed.
Print Assumptions C103_version.

(** *** A case *)
Definition x_world : world := mkWorld (lit "usage: cis" ++ nl)
  (fun r => match r with Eval => ([], inr (SystemExit 2)) | _ => ([Record_ INFO (lit "parse : 1") (lit "checked")], inl tt) end)
  (fun r => match r with
            | Subset => ([Record_ INFO (lit "reader : 7") (lit "reading"); Print (lit "hello")], inr (KeyRaised [Text (lit "temp")]))
            | Plot => ([], inr (file_format_error [lit "File does not exist"] []))
            | Stats => ([Print (lit "RESULTS")], inl tt)
            | Version => version_cmd (lit "1.7.4") (lit "Beta")
            | _ => ([], inr Interrupt) end) (lit "noon") (lit "args") (lit "trace" ++ nl).
Definition x_stamp (n : nat) : str := lit "t".
Definition x_line (c : string) (fs : list flag) : line := mkLine [] (Some (lit c)) fs.
Example C103_subset_example :
  main x_stamp x_world None (x_line "sub" [Verbose]) =
    (mkState (Both INFO)
       (lit "t - INFO - checked" ++ nl ++ lit "t - INFO - reading" ++ nl ++ lit "hello" ++ nl ++ lit "t - ERROR - 'temp' - check cis.log for details" ++ nl ++ nl)
       (lit "'temp'" ++ nl)
       (lit "t - INFO - parse : 1 - checked" ++ nl ++ lit "t - DEBUG - cis_main : 252 - CIS started at: noon" ++ nl ++ lit "t - DEBUG - cis_main : 253 - Running command: subset" ++ nl ++
        lit "t - DEBUG - cis_main : 254 - With the following arguments: args" ++ nl ++ lit "t - INFO - reader : 7 - reading" ++ nl ++
        lit "t - DEBUG - cis_main : 22 - 'temp'" ++ nl ++ nl ++ lit "t - DEBUG - cis_main : 23 - trace" ++ nl ++ nl ++ lit "t - ERROR - cis_main : 24 - 'temp' - check cis.log for details" ++ nl ++ nl) 8,
     Status 1).
Proof. vm_compute. reflexivity. Qed.
Example C103_accepted_example : accepted (x_line "sub" [Verbose]) Subset INFO /\ story x_world "subset" Subset
  ([Record_ INFO (lit "parse : 1") (lit "checked")] ++ announced x_world "subset" ++ [Record_ INFO (lit "reader : 7") (lit "reading"); Print (lit "hello")] ++ report (lit "trace" ++ nl) (lit "'temp'")) (Status 1).
Proof.
  split.
  - apply accepted_command with (c := lit "sub"); [reflexivity|constructor|discriminate|intros [[] _]|intros [J _]; cbn in J; intuition discriminate|].
    apply asks_more; [cbn; intuition discriminate|reflexivity].
  - apply fails with (e := KeyRaised [Text (lit "temp")]); [reflexivity|reflexivity|]. apply reported_message. apply (says_word (lit "temp")); cbn; intuition discriminate || (intros; intuition (subst; discriminate)).
Qed.
Example C103_ends_example : (snd (main x_stamp x_world None (x_line "stats" [])), snd (main x_stamp x_world None (x_line "eval" [])), snd (main x_stamp x_world None (x_line "plot" [])),
   snd (main x_stamp x_world None (x_line "info" [])), snd (main x_stamp x_world None (x_line "fly" [])), snd (main x_stamp x_world (Some (lit "no")) (x_line "stats" [Quiet])))
  = (Status 0, Status 2, Status 1, Uncaught Interrupt, Status 2, Status 1).
Proof. vm_compute. reflexivity. Qed.
Example C103_repr_example : (repr_text (lit "it's"), repr_text (lit "a\b")) = (lit """it's""", lit "'a\\b'").
Proof. vm_compute. reflexivity. Qed.
