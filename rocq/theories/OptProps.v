(** C100: what the words of a command set. *)
From Coq Require Import String.
From Verif Require Import Base PyStr FileListModel OptModel OptSpec OptProofs Opt2Proofs Opt3Proofs Opt4Proofs Opt5Proofs Opt6Proofs Opt7Proofs Opt8Proofs Opt9Proofs.
From Coq Require Import List Ascii.
Import ListNotations.
Open Scope string_scope. Open Scope list_scope. Open Scope nat_scope. Notation length := List.length.

Theorem C100_settings_partial (V : Type) (read : kind -> str -> option V) (p : parser V) (before after : list setting) args wb wa (l : list (str * val V)) : proper p ->
  spelled_all p before wb -> spelled_all p after wa -> Forall (plain p) args -> args = [] \/ (forall b o, before <> b ++ [Bare o]) ->
  Forall not_help (before ++ after) -> Forall (understood read) (before ++ after) -> compatible (before ++ after) -> shared (p_positionals p) args l ->
  exists ns, parse_words read p (wb ++ args ++ wa) = Parsed ns /\ forall d, becomes read p (before ++ after) l d (dict_get ns d).
Proof. exact (fun P => parse_accepts read p P before after args wb wa l). Qed.
Print Assumptions C100_settings_partial.
Theorem C100_refused (V : Type) (read : kind -> str -> option V) (p : parser V) (before after : list setting) args wb wa : proper p ->
  spelled_all p before wb -> spelled_all p after wa -> Forall (plain p) args -> args = [] \/ (forall b o, before <> b ++ [Bare o]) -> Forall not_help (before ++ after) ->
  ~ (Forall (understood read) (before ++ after) /\ compatible (before ++ after) /\ exists l : list (str * val V), shared (p_positionals p) args l) ->
  parse_words read p (wb ++ args ++ wa) = Refused.
Proof. exact (fun P => parse_refuses read p P before after args wb wa). Qed.
Print Assumptions C100_refused.
Theorem C100_unknown (V : Type) (read : kind -> str -> option V) (p : parser V) a w b ns : proper p -> stray p w -> parse_words read p (a ++ w :: b) <> Parsed ns.
Proof. exact (fun P => stray_refused read p P a w b ns). Qed.
Print Assumptions C100_unknown.
Theorem C100_ambiguous (V : Type) (read : kind -> str -> option V) (p : parser V) a w b : proper p -> ambiguous p w -> parse_words read p (a ++ w :: b) = Refused.
Proof. exact (fun P => ambiguous_refused read p P a w b). Qed.
Print Assumptions C100_ambiguous.
Theorem C100_tables (V : Type) types colours projections c (p : parser V) : command_parser types colours projections c p -> proper p.
Proof. exact (fun H => proj2 (proj2 (command_known types colours projections c p H))). Qed.
Print Assumptions C100_tables.
Theorem C100_first_table (V : Type) : proper (top_parser V).
Proof. exact top_proper. Qed.
Print Assumptions C100_first_table.

(** *** the options of each command *)
Theorem C100_plot (V : Type) types colours projections : let p := plot_parser V types colours projections in
  has_common p /\ has_output p VNone /\ all_offer p plot_texts Perhaps KText None /\ all_offer p plot_numbers Perhaps KFloat None /\ all_offer p plot_limits Perhaps KDate None /\ all_offer p plot_steps Perhaps KDelta None /\
  all_offer p plot_whole Perhaps KInt None /\ all_offer p plot_flags StoreTrue KText None /\ all_offer p plot_taylor One KFloat None /\ offers p "--nocolourbar" "colourbar" StoreFalse KText None /\
  offers p "--type" "type" Perhaps (KOneOf types) None /\ offers p "--cbarorient" "cbarorient" Perhaps (KOneOf [lit "vertical"; lit "horizontal"]) None /\
  offers p "--coastlinescolour" "coastlinescolour" Perhaps (KOneOf (colours ++ [lit "grey"])) None /\ offers p "--projection" "projection" One (KOneOf projections) None /\
  offers p "--bias" "bias" One (KOneOf [lit "color"; lit "colour"; lit "size"; lit "flag"]) None /\
  positional p [("datagroups"%string, AtLeastOne)] /\
  only p (common_names ++ output_names ++ map long (plot_texts ++ plot_numbers ++ plot_limits ++ plot_steps ++ plot_whole ++ plot_flags ++ plot_taylor ++ ["nocolourbar"; "type"; "cbarorient"; "coastlinescolour"; "projection"; "bias"]%string)).
Proof. exact (plot_table types colours projections). Qed.
Print Assumptions C100_plot.
Theorem C100_info (V : Type) : let p := info_parser V in has_common p /\ offers p "--type" "type" Perhaps KText (Some VNone) /\ positional p [("datagroups"%string, ListOfOne)] /\ only p (common_names ++ ["--type"%string]).
Proof. exact info_table. Qed.
Print Assumptions C100_info.
Theorem C100_collocate (V : Type) : let p := col_parser V in has_common p /\ has_output p (VText (lit "out")) /\ positional p [("datagroups", AtLeastOne); ("samplegroup", Single)]%string /\ only p (common_names ++ output_names).
Proof. exact col_table. Qed.
Print Assumptions C100_collocate.
Theorem C100_aggregate (V : Type) : let p := aggregate_parser V in has_common p /\ has_output p (VText (lit "out")) /\ positional p [("datagroups", ListOfOne); ("aggregategrid", Single)]%string /\ only p (common_names ++ output_names).
Proof. exact aggregate_table. Qed.
Print Assumptions C100_aggregate.
Theorem C100_collapse (V : Type) : let p := collapse_parser V in has_common p /\ has_output p (VText (lit "out")) /\ positional p [("datagroups", ListOfOne); ("dimensions", AtLeastOne)]%string /\ only p (common_names ++ output_names).
Proof. exact collapse_table. Qed.
Print Assumptions C100_collapse.
Theorem C100_subset (V : Type) : let p := subset_parser V in has_common p /\ has_output p (VText (lit "out")) /\ positional p [("datagroups", ListOfOne); ("subsetranges", Single)]%string /\ only p (common_names ++ output_names).
Proof. exact subset_table. Qed.
Print Assumptions C100_subset.
Theorem C100_stats (V : Type) : let p := stats_parser V in has_common p /\ has_output p VNone /\ positional p [("datagroups"%string, AtLeastOne)] /\ only p (common_names ++ output_names).
Proof. exact stats_table. Qed.
Print Assumptions C100_stats.
Theorem C100_eval (V : Type) : let p := eval_parser V in has_common p /\ has_output p (VText (lit "out")) /\ offers p "-a" "attributes" Perhaps KText (Some VNone) /\ offers p "--attributes" "attributes" Perhaps KText (Some VNone) /\
  positional p [("datagroups", AtLeastOne); ("expr", Single); ("units", Single)]%string /\ only p (common_names ++ output_names ++ ["-a"; "--attributes"]%string).
Proof. exact eval_table. Qed.
Print Assumptions C100_eval.

(** *** the first word that is not an option is the command *)
Theorem C100_command_partial (V : Type) (read : kind -> str -> option V) types colours projections c p (first before after : list setting) wf wb wa args (l : list (str * val V)) : command_parser types colours projections c p ->
  spelled_all (top_parser V) first wf -> Forall not_help first -> compatible first ->
  spelled_all p before wb -> spelled_all p after wa -> Forall (plain p) args -> args = [] \/ (forall b o, before <> b ++ [Bare o]) ->
  Forall not_help (before ++ after) -> Forall (understood read) (before ++ after) -> compatible (before ++ after) -> shared (p_positionals p) args l ->
  exists ns, parse_top read types colours projections (wf ++ c :: wb ++ args ++ wa) = Parsed ns /\ dict_get ns (lit "command") = Some (VText c) /\
    forall d, d <> lit "command" -> becomes read p (before ++ after) l d (dict_get ns d).
Proof. exact (command_accepts read types colours projections c p first wf before after args wb wa l). Qed.
Print Assumptions C100_command_partial.
Theorem C100_version (V : Type) (read : kind -> str -> option V) types colours projections (first : list setting) wf : spelled_all (top_parser V) first wf -> Forall not_help first -> compatible first ->
  exists ns, parse_top read types colours projections (wf ++ [lit "version"]) = Parsed ns /\ dict_get ns (lit "command") = Some (VText (lit "version")) /\
    forall d, d <> lit "command" -> becomes read (top_parser V) first [] d (dict_get ns d).
Proof. exact (command_version read types colours projections first wf). Qed.
Print Assumptions C100_version.
Theorem C100_command_refuses (V : Type) (read : kind -> str -> option V) types colours projections c p (first : list setting) wf ws : command_parser types colours projections c p ->
  spelled_all (top_parser V) first wf -> Forall not_help first -> Forall fine ws -> parse_words read p ws = Refused -> parse_top read types colours projections (wf ++ c :: ws) = Refused.
Proof. exact (command_refuses read types colours projections c p first wf ws). Qed.
Print Assumptions C100_command_refuses.
Theorem C100_no_such_command (V : Type) (read : kind -> str -> option V) types colours projections c (first : list setting) wf ws : spelled_all (top_parser V) first wf -> Forall not_help first -> plain_word c -> c <> lit "version" ->
  (forall p : parser V, ~ command_parser types colours projections c p) -> Forall fine ws -> parse_top read types colours projections (wf ++ c :: ws) = Refused.
Proof. exact (command_unknown read types colours projections c first wf ws). Qed.
Print Assumptions C100_no_such_command.

(** an option that must have a text, at the end or followed by another option, wherever it stands *)
Theorem C100_no_text (V : Type) (read : kind -> str -> option V) (p : parser V) before n o (after : list setting) wa w ns : proper p ->
  called p n o -> o_act o = One -> spelled_all p after wa -> w = [] \/ after <> [] -> parse_words read p (before ++ n :: wa ++ w) <> Parsed ns.
Proof. exact (fun P => missing_text_refused read p P before n o after wa w ns). Qed.
Print Assumptions C100_no_text.

(** *** the first setting that asks for help decides, whatever the arguments and the later settings are, unless one before it is wrong *)
Theorem C100_help (V : Type) (read : kind -> str -> option V) (p : parser V) (before after good rest : list setting) h args wb wa : proper p ->
  spelled_all p before wb -> spelled_all p after wa -> Forall (plain p) args -> args = [] \/ (forall b o, before <> b ++ [Bare o]) ->
  before ++ after = good ++ Turn h :: rest -> o_act h = ShowHelp -> Forall not_help good -> Forall (understood read) good -> compatible (good ++ [Turn h]) -> parse_words read p (wb ++ args ++ wa) = Help.
Proof. exact (fun P => parse_helps read p P before after args wb wa good h rest). Qed.
Print Assumptions C100_help.
Theorem C100_first_wrong (V : Type) (read : kind -> str -> option V) (p : parser V) (before after good rest : list setting) args wb wa : proper p ->
  spelled_all p before wb -> spelled_all p after wa -> Forall (plain p) args -> args = [] \/ (forall b o, before <> b ++ [Bare o]) ->
  before ++ after = good ++ rest -> rest <> [] -> Forall not_help good -> ~ (Forall (understood read) good /\ compatible good) -> parse_words read p (wb ++ args ++ wa) = Refused.
Proof. exact (fun P => parse_first_wrong read p P before after args wb wa good rest). Qed.
Print Assumptions C100_first_wrong.
Theorem C100_command_help (V : Type) (read : kind -> str -> option V) types colours projections c (p : parser V) (first : list setting) wf ws : command_parser types colours projections c p ->
  spelled_all (top_parser V) first wf -> Forall not_help first -> compatible first -> Forall fine ws -> parse_words read p ws = Help -> parse_top read types colours projections (wf ++ c :: ws) = Help.
Proof. exact (command_helps read types colours projections c p first wf ws). Qed.
Print Assumptions C100_command_help.
Theorem C100_first_help (V : Type) (read : kind -> str -> option V) types colours projections (good rest : list setting) h wf ws : spelled_all (top_parser V) (good ++ Turn h :: rest) wf -> o_act h = ShowHelp ->
  Forall not_help good -> compatible (good ++ [Turn h]) -> Forall fine ws -> parse_top read types colours projections (wf ++ ws) = Help.
Proof. exact (top_helps read types colours projections good h rest wf ws). Qed.
Print Assumptions C100_first_help.

(** *** what goes wrong; here every text is understood *)
Definition all_read (k : kind) (t : str) : option str := Some t.
Definition texts_of (l : list String.string) : list str := map lit l.
(** the arguments may not stand on both sides of an option *)
Theorem C100_order_refuted :
  parse_words all_read (col_parser str) (texts_of ["a:f"; "b:f"; "-o"; "out"; "c:g"]) = Refused /\ exists ns, parse_words all_read (col_parser str) (texts_of ["a:f"; "b:f"; "c:g"; "-o"; "out"]) = Parsed ns.
Proof. split; [vm_compute; reflexivity|]. eexists. vm_compute. reflexivity. Qed.
Print Assumptions C100_order_refuted.
(** a negative number in scientific notation is taken for an option *)
Theorem C100_negative_refuted : let plot := plot_parser str [] [] [] in
  parse_words all_read plot (texts_of ["a:f"; "--vmin"; "-1e-3"]) = Refused /\
  (exists ns, parse_words all_read plot (texts_of ["a:f"; "--vmin=-1e-3"]) = Parsed ns) /\ (exists ns, parse_words all_read plot (texts_of ["a:f"; "--vmin"; "-0.001"]) = Parsed ns).
Proof. cbv zeta. split; [vm_compute; reflexivity|]. split; eexists; vm_compute; reflexivity. Qed.
Print Assumptions C100_negative_refuted.
(** an expression that begins with a minus sign is taken for an option: the units become the expression and the last datagroup is lost without a word *)
Theorem C100_expression_refuted : exists ns, parse_words all_read (eval_parser str) (texts_of ["a:f"; "b:f"; "-a+b"; "1"]) = Parsed ns /\
  dict_get ns (lit "datagroups") = Some (VTexts [lit "a:f"]) /\ dict_get ns (lit "expr") = Some (VText (lit "b:f")) /\ dict_get ns (lit "units") = Some (VText (lit "1")) /\ dict_get ns (lit "attributes") = Some (VText (lit "+b")).
Proof. eexists. split; [vm_compute; reflexivity|]. repeat split; vm_compute; reflexivity. Qed.
Print Assumptions C100_expression_refuted.
(** an option without its text swallows the first argument *)
Theorem C100_bare_refuted : parse_words all_read (subset_parser str) (texts_of ["-o"; "a:f"; "x=[0,1]"]) = Refused /\
  exists ns, parse_words all_read (subset_parser str) (texts_of ["a:f"; "x=[0,1]"; "-o"]) = Parsed ns /\ dict_get ns (lit "output") = Some VNone.
Proof. split; [vm_compute; reflexivity|]. eexists. split; vm_compute; reflexivity. Qed.
Print Assumptions C100_bare_refuted.
(** options before the command are accepted and forgotten *)
Theorem C100_first_refuted : exists ns ns', parse_top all_read [] [] [] (texts_of ["-q"; "--force-overwrite"; "col"; "a:f"; "b:g"]) = Parsed ns /\
  dict_get ns (lit "quiet") = Some (VBool false) /\ dict_get ns (lit "force_overwrite") = Some (VBool false) /\
  parse_top all_read [] [] [] (texts_of ["col"; "a:f"; "b:g"; "-q"; "--force-overwrite"]) = Parsed ns' /\ dict_get ns' (lit "quiet") = Some (VBool true) /\ dict_get ns' (lit "force_overwrite") = Some (VBool true).
Proof. do 2 eexists. split; [vm_compute; reflexivity|]. split; [vm_compute; reflexivity|]. split; [vm_compute; reflexivity|]. split; [vm_compute; reflexivity|]. split; vm_compute; reflexivity. Qed.
Print Assumptions C100_first_refuted.

(** *** a plot with options on both sides of the datagroups meets the hypotheses *)
Definition plot0 : parser str := plot_parser str (texts_of ["line"; "scatter2d"]) (texts_of ["red"]) (texts_of ["PlateCarree"]).
Definition named (n : String.string) (d : opt str) : opt str := match find_option plot0 (lit n) with Some o => o | None => d end.
Definition none0 : opt str := mkOpt [] [] ShowHelp KText None None.
Definition o_type := Eval vm_compute in named "--type" none0.
Definition o_vmin := Eval vm_compute in named "--vmin" none0.
Definition o_logx := Eval vm_compute in named "--logx" none0.
Definition o_verb := Eval vm_compute in named "-v" none0.
Lemma known0 n o : find_option plot0 (lit n) = Some o -> called plot0 (lit n) o.
Proof. intros H. left. apply (find_some_iff plot0 (plot_proper _ _ _)). exact H. Qed.
Ltac dash := left; intros r; discriminate.
Example C100_nonvacuous :
  command_parser (texts_of ["line"; "scatter2d"]) (texts_of ["red"]) (texts_of ["PlateCarree"]) (lit "plot") plot0 /\
  spelled_all plot0 [Turn o_verb; Give o_type (lit "line")] (texts_of ["-v"; "--type"; "line"]) /\ spelled_all plot0 [Give o_vmin (lit "-1e-3"); Turn o_logx; Turn o_verb] (texts_of ["--vmin=-1e-3"; "--logx"; "-v"]) /\
  Forall (plain plot0) (texts_of ["a:f"; "b:g"]) /\ Forall not_help ([Turn o_verb; Give o_type (lit "line")] ++ [Give o_vmin (lit "-1e-3"); Turn o_logx; Turn o_verb]) /\
  Forall (understood all_read) ([Turn o_verb; Give o_type (lit "line")] ++ [Give o_vmin (lit "-1e-3"); Turn o_logx; Turn o_verb]) /\
  compatible ([Turn o_verb; Give o_type (lit "line")] ++ [Give o_vmin (lit "-1e-3"); Turn o_logx; Turn o_verb]) /\
  shared (p_positionals plot0) (texts_of ["a:f"; "b:g"]) [(lit "datagroups", VTexts (texts_of ["a:f"; "b:g"]) : val str)] /\
  exists ns, parse_top all_read (texts_of ["line"; "scatter2d"]) (texts_of ["red"]) (texts_of ["PlateCarree"]) (texts_of ["plot"; "-v"; "--type"; "line"; "a:f"; "b:g"; "--vmin=-1e-3"; "--logx"; "-v"]) = Parsed ns /\
  dict_get ns (lit "verbose") = Some (VCount 2) /\ dict_get ns (lit "type") = Some (VText (lit "line")) /\ dict_get ns (lit "vmin") = Some (VRead (lit "-1e-3")) /\ dict_get ns (lit "logx") = Some (VBool true) /\ dict_get ns (lit "logy") = None.
Proof.
  split; [left; auto|]. split.
  { change (texts_of ["-v"; "--type"; "line"]) with ([lit "-v"] ++ [lit "--type"; lit "line"] ++ []). constructor; [apply spelled_turn; [apply known0; reflexivity|intros [E|E]; discriminate E]|]. constructor; [|constructor].
    apply spelled_two; [apply known0; reflexivity|left; reflexivity|dash]. }
  split.
  { change (texts_of ["--vmin=-1e-3"; "--logx"; "-v"]) with ([lit "--vmin" ++ "="%char :: lit "-1e-3"] ++ [lit "--logx"] ++ [lit "-v"] ++ []).
    constructor; [apply spelled_equals; [apply known0; reflexivity|left; reflexivity]|]. constructor; [apply spelled_turn; [apply known0; reflexivity|intros [E|E]; discriminate E]|].
    constructor; [apply spelled_turn; [apply known0; reflexivity|intros [E|E]; discriminate E]|constructor]. }
  split; [constructor; [dash|constructor; [dash|constructor]]|]. split; [apply Forall_forall; intros s I; cbn [In app] in I; repeat (destruct I as [<-|I]; [discriminate|]); destruct I|]. split.
  { constructor; [eexists; reflexivity|]. constructor; [exists (VText (lit "line")); split; [left|]; reflexivity|]. constructor; [exists (VRead (lit "-1e-3")); exists (lit "-1e-3"); split; reflexivity|]. constructor; [eexists; reflexivity|]. constructor; [eexists; reflexivity|constructor]. }
  split. { intros s s' I J. cbn [In app] in I, J. destruct I as [<-|[<-|[<-|[<-|[<-|[]]]]]], J as [<-|[<-|[<-|[<-|[<-|[]]]]]]; discriminate. }
  split; [change (texts_of ["a:f"; "b:g"]) with (texts_of ["a:f"; "b:g"] ++ []); constructor; [discriminate|constructor]|].
  eexists. split; [vm_compute; reflexivity|]. repeat split; vm_compute; reflexivity.
Qed.
Example C100_nonvacuous2 : stray plot0 (lit "--nothing") /\ stray plot0 (lit "-x") /\ stray plot0 (lit "-1e-3") /\ plain plot0 (lit "-") /\ plain plot0 (lit "-0.5") /\ ambiguous plot0 (lit "--x") /\ spelled_all plot0 [Give o_type (lit "line")] (texts_of ["--typ=line"]) /\ spelled_all (top_parser str) [] [] /\ plain_word (lit "plots") /\
  parse_words all_read plot0 (texts_of ["a:f"; "--type"; "pie"]) = Refused /\ parse_words all_read plot0 (texts_of ["-q"; "a:f"; "-v"]) = Refused /\ parse_words all_read plot0 (texts_of ["--logx"]) = Refused.
Proof.
  split. { left. split; [exists "n"%char, (lit "othing"); split; [reflexivity|intros I; cbn in I; repeat (destruct I as [I|I]; [discriminate|]); destruct I]|]. split; [intros I; cbn in I; repeat (destruct I as [I|I]; [discriminate|]); destruct I|].
    intros rest o N. apply in_spellings in N. apply (in_map fst) in N. cbn [fst] in N. let l := eval vm_compute in (map fst (spellings plot0)) in change (map fst (spellings plot0)) with l in N. cbn [In app lit list_ascii_of_string] in N. repeat (destruct N as [N|N]; [discriminate N|]). destruct N. }
  split. { right. exists "x"%char, []. split; [reflexivity|]. split; [discriminate|]. split; [apply (find_none_iff plot0 (plot_proper _ _ _)); vm_compute; reflexivity|]. split; [intros K; apply minus_negative in K; discriminate K|intros I; cbn in I; repeat (destruct I as [I|I]; [discriminate|]); destruct I]. }
  split. { right. exists "1"%char, (lit "e-3"). split; [reflexivity|]. split; [discriminate|]. split; [apply (find_none_iff plot0 (plot_proper _ _ _)); vm_compute; reflexivity|]. split; [intros K; apply minus_negative in K; discriminate K|intros I; cbn in I; repeat (destruct I as [I|I]; [discriminate|]); destruct I]. }
  split; [right; left; reflexivity|].
  split. { right; right. exists "0"%char, (lit ".5"). split; [reflexivity|]. split; [discriminate|]. split; [apply (find_none_iff plot0 (plot_proper _ _ _)); vm_compute; reflexivity|]. left. right. exists [ "0"%char ], [ "5"%char ].
    split; [reflexivity|]. split; [constructor; [left; reflexivity|constructor]|]. split; [discriminate|]. constructor; [do 5 right; left; reflexivity|constructor]. }
  split. { split; [exists "x"%char, []; split; [reflexivity|intros I; cbn in I; repeat (destruct I as [I|I]; [discriminate|]); destruct I]|]. split; [apply (find_none_iff plot0 (plot_proper _ _ _)); vm_compute; reflexivity|].
    exists (lit "min"), (lit "max"), (named "--xmin" none0), (named "--xmax" none0). split; [|split; [|discriminate]]; apply (find_some_iff plot0 (plot_proper _ _ _)); vm_compute; reflexivity. }
  split. { change (texts_of ["--typ=line"]) with ([lit "--typ" ++ "="%char :: lit "line"] ++ []). constructor; [|constructor]. apply spelled_equals; [|left; reflexivity]. right.
    split; [exists "t"%char, (lit "yp"); split; [reflexivity|intros I; cbn in I; repeat (destruct I as [I|I]; [discriminate|]); destruct I]|]. split; [apply (find_none_iff plot0 (plot_proper _ _ _)); vm_compute; reflexivity|].
    exists (lit "e"). split; [apply (find_some_iff plot0 (plot_proper _ _ _)); vm_compute; reflexivity|]. intros o' rest' N. pose proof N as N0. apply in_spellings in N. apply (in_map fst) in N. cbn [fst] in N.
    let l := eval vm_compute in (map fst (spellings plot0)) in change (map fst (spellings plot0)) with l in N. cbn [In app lit list_ascii_of_string] in N.
    assert (R : rest' = lit "e"). { repeat (destruct N as [N|N]; [first [discriminate N|injection N as <-; reflexivity]|]). destruct N. }
    split; [exact R|]. subst rest'. apply (named_unique plot0 (plot_proper _ _ _) (lit "--type")); [apply (find_some_iff plot0 (plot_proper _ _ _)); vm_compute; reflexivity|exact N0]. }
  split; [constructor|]. split; [intros r; discriminate|]. repeat split; vm_compute; reflexivity.
Qed.

Example C100_nonvacuous3 : parse_words all_read plot0 (texts_of ["-v"; "--help"; "--type"; "pie"]) = Help /\ parse_words all_read plot0 (texts_of ["--type"; "pie"; "a:f"; "--help"]) = Refused /\
  spelled_all plot0 ([Turn o_verb] ++ Turn (named "-h" none0) :: []) (texts_of ["-v"; "--help"]) /\ o_act (named "-h" none0) = ShowHelp /\ compatible ([Turn o_verb] ++ [Turn (named "-h" none0)]) /\
  parse_top all_read [] [] [] (texts_of ["-h"]) = Help /\ parse_top all_read [] [] [] (texts_of ["col"; "a:f"; "-h"]) = Help.
Proof.
  split; [vm_compute; reflexivity|]. split; [vm_compute; reflexivity|]. split.
  { change (texts_of ["-v"; "--help"]) with ([lit "-v"] ++ [lit "--help"] ++ []). constructor; [apply spelled_turn; [apply known0; reflexivity|intros [E|E]; discriminate E]|].
    constructor; [apply spelled_turn; [apply known0; vm_compute; reflexivity|intros [E|E]; discriminate E]|constructor]. }
  split; [vm_compute; reflexivity|]. split; [intros s s' I J; cbn [In app] in I, J; destruct I as [<-|[<-|[]]], J as [<-|[<-|[]]]; vm_compute; discriminate|]. split; vm_compute; reflexivity.
Qed.

Example C100_nonvacuous4 : called plot0 (lit "--gammamax") (named "--gammamax" none0) /\ o_act (named "--gammamax" none0) = One /\ spelled_all plot0 [Turn o_verb] ([lit "-v"] ++ []) /\
  parse_words all_read plot0 (texts_of ["a:f"; "--gammamax"; "-v"]) = Refused /\ parse_words all_read plot0 (texts_of ["a:f"; "--gammamax"]) = Refused.
Proof.
  split; [apply known0; vm_compute; reflexivity|]. split; [vm_compute; reflexivity|]. split; [constructor; [apply spelled_turn; [apply known0; reflexivity|intros [E|E]; discriminate E]|constructor]|]. split; vm_compute; reflexivity.
Qed.
