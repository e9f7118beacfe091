(** Specification for C90: the commands, the texts of options, and when a command may go on. *)
From Coq Require Import String.
From Verif Require Import Base PyStr QBase FileListModel ParseModel ParseSpec DateModel TopModel.
From Coq Require Import List Ascii.
Import ListNotations.
Open Scope string_scope. Open Scope list_scope. Open Scope nat_scope. Notation length := List.length.

(** the words for the commands *)
Inductive invokes : str -> routine -> Prop :=
| w_plot : invokes (lit "plot") Plot | w_info : invokes (lit "info") Info | w_eval : invokes (lit "eval") Eval | w_stats : invokes (lit "stats") Stats
| w_collapse : invokes (lit "collapse") Collapse | w_version : invokes (lit "version") Version
| w_collocate : invokes (lit "collocate") Collocate | w_col : invokes (lit "col") Collocate
| w_aggregate : invokes (lit "aggregate") Aggregate | w_agg : invokes (lit "agg") Aggregate
| w_subset : invokes (lit "subset") Subset | w_sub : invokes (lit "sub") Subset.
(** what is shown on the screen: by default warnings; with each -v more; with -q errors only *)
Definition asked_level (verbose : nat) : level := match verbose with 0 => WARNING | 1 => INFO | _ => DEBUG end.

(** the options of a datagroup of plot, and the texts they take *)
Inductive kind := KText | KNumber | KInteger | KNumbers | KYesNo | KColour | KProduct | KPlot.
Definition plot_keywords : list (string * kind) :=
  [("color", KColour); ("edgecolor", KColour); ("itemstyle", KText); ("itemwidth", KNumber); ("label", KText); ("product", KProduct); ("type", KPlot); ("alpha", KNumber); ("cmap", KText);
   ("vmin", KNumber); ("vmax", KNumber); ("vstep", KNumber); ("contnlevels", KInteger); ("contlevels", KNumbers); ("contlabel", KYesNo); ("contwidth", KInteger);
   ("cbarscale", KNumber); ("cbarorient", KText); ("colourbar", KYesNo); ("cbarlabel", KText)].
Inductive reads_as (w : world) : kind -> str -> pval -> Prop :=
| as_text s : reads_as w KText s (PText s)
| as_number s q : s <> lit "None" -> w_number w s = Some q -> reads_as w KNumber s (PNumber (Some q))
| as_no_number : reads_as w KNumber (lit "None") (PNumber None)
| as_integer s z : s <> [] -> int_of s = Ok z -> reads_as w KInteger s (PInt (Some z))
| as_no_integer : reads_as w KInteger [] (PInt None)
| as_numbers words l : words <> [] -> (forall x, In x words -> ~ In ","%char x) -> Forall2 (fun x q => w_number w x = Some q) words l -> reads_as w KNumbers ("["%char :: join_on "," words ++ ["]"%char]) (PNumbers l)
| as_yes s : lower s = lit "true" -> reads_as w KYesNo s (PBool true)
| as_no s : lower s = lit "false" -> reads_as w KYesNo s (PBool false)
| as_colour s : s <> [] -> In (lower s) (w_colours w) \/ lower s = lit "grey" -> reads_as w KColour s (PName (Some (lower s)))
| as_no_colour : reads_as w KColour [] (PName None)
| as_product s : s <> [] -> In s (w_products w) -> reads_as w KProduct s (PName (Some s))
| as_no_product : reads_as w KProduct [] (PName None)
| as_plot s : In s (w_plots w) -> reads_as w KPlot s (PText s).
(** the check that the code makes of an option *)
Definition check_made (w : world) (k : string) : option (checker pval) := dict_get (plot_table w) (lit k).

(** consent to write the output, and that it is none of the inputs *)
Definition may_write (env : environment) (force : bool) (inputs : list str) (out : str) : Prop :=
  (env_isfile env out = false \/ force = true \/ (env_overwrite env <> [] /\ lower (env_overwrite env) <> lit "false") \/ (env_overwrite env = [] /\ answers_yes (env_answers env))) /\
  forall f, In f inputs -> ~ (env_exists env out = true /\ env_samefile env out f = true).
(** a file that a datagroup was given *)
Definition reads_file (gs : list dict) (f : str) : Prop := exists d l, In d gs /\ dict_get d (lit "filenames") = Some (Checked (PFiles l)) /\ In f l.
Definition names_of (d : dict) (l : list str) : Prop := dict_get d (lit "variables") = Some (Checked (PWords l)).
Definition may_write_over (env : environment) (force : bool) (gs : list dict) (out : str) : Prop := exists inputs, (forall f, In f inputs <-> reads_file gs f) /\ may_write env force inputs out.
Definition key_of (e : string * str * pval) : string := fst (fst e).
(** the file written for a name without a variable *)
Definition written (env : environment) (ext o out : str) : Prop := ~ In ":"%char o /\ (out = o /\ env_has_ext env o = true \/ out = o ++ ext /\ env_has_ext env o = false).
