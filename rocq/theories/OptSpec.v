(** Specification for C100: what the words of a command set. *)
From Coq Require Import String.
From Verif Require Import Base PyStr OptModel.
From Coq Require Import List Ascii.
Import ListNotations.
Open Scope string_scope. Open Scope list_scope. Open Scope nat_scope. Notation length := List.length.

(** *** spellings: "-c" or "--name", without an equals sign *)
Definition short_name (n : str) : Prop := exists c, n = ["-"%char; c] /\ c <> "-"%char /\ c <> "="%char.
Definition long_name (n : str) : Prop := exists c rest, n = "-"%char :: "-"%char :: c :: rest /\ ~ In "="%char n.
Section Spec.
Context {V : Type}.
Variable read : kind -> str -> option V.
Definition option_named (p : parser V) (n : str) (o : opt V) : Prop := In o (p_options p) /\ In n (o_names o).
(** an option may be called by its names, or by the beginning of exactly one name *)
Definition called (p : parser V) (n : str) (o : opt V) : Prop :=
  option_named p n o \/
  long_name n /\ (forall o', ~ option_named p n o') /\ exists rest, option_named p (n ++ rest) o /\ forall o' rest', option_named p (n ++ rest') o' -> rest' = rest /\ o' = o.
(** a word that is taken for an argument: it does not begin with a dash, or is a lone dash, or is a negative number like -5 or -0.5, or contains a blank, and no short option begins it *)
Definition digit (c : ascii) : Prop := In c (lit "0123456789").
Definition minus_number (w : str) : Prop :=
  (exists n, w = "-"%char :: n /\ n <> [] /\ Forall digit n) \/ (exists n f, w = "-"%char :: n ++ "."%char :: f /\ Forall digit n /\ f <> [] /\ Forall digit f).
Definition plain (p : parser V) (w : str) : Prop :=
  (forall rest, w <> "-"%char :: rest) \/ w = lit "-" \/
  (exists c rest, w = "-"%char :: c :: rest /\ c <> "-"%char /\ (forall o, ~ option_named p ["-"%char; c] o) /\ (minus_number w \/ In " "%char w)).

(** *** settings: an option that takes no text, one with its text, one without the text that it may have *)
Inductive setting := Turn (o : opt V) | Give (o : opt V) (text : str) | Bare (o : opt V).
Definition option_of (s : setting) : opt V := match s with Turn o | Give o _ | Bare o => o end.
Definition texts (o : opt V) : Prop := o_act o = Perhaps \/ o_act o = One.
Inductive spelled (p : parser V) : setting -> list str -> Prop :=
| spelled_turn o n : called p n o -> ~ texts o -> spelled p (Turn o) [n]
| spelled_bare o n : called p n o -> o_act o = Perhaps -> spelled p (Bare o) [n]
| spelled_two o n t : called p n o -> texts o -> plain p t -> spelled p (Give o t) [n; t]
| spelled_equals o n t : called p n o -> texts o -> spelled p (Give o t) [n ++ "="%char :: t]
| spelled_joined o c t : option_named p ["-"%char; c] o -> texts o -> t <> [] -> (forall rest, t <> "="%char :: rest) -> spelled p (Give o t) [("-"%char :: c :: t)].
Inductive spelled_all (p : parser V) : list setting -> list str -> Prop :=
| spelled_none : spelled_all p [] []
| spelled_more s ss ws ws' : spelled p s ws -> spelled_all p ss ws' -> spelled_all p (s :: ss) (ws ++ ws').

(** *** positional arguments: one word each, but nargs='+' any number of words but none *)
Inductive shared : list (str * many) -> list str -> list (str * val V) -> Prop :=
| shared_none : shared [] [] []
| shared_single d a ps args l : shared ps args l -> shared ((d, Single) :: ps) (a :: args) ((d, VText a) :: l)
| shared_one d a ps args l : shared ps args l -> shared ((d, ListOfOne) :: ps) (a :: args) ((d, VTexts [a]) :: l)
| shared_many d g ps args l : g <> [] -> shared ps args l -> shared ((d, AtLeastOne) :: ps) (g ++ args) ((d, VTexts g) :: l).

(** *** what the settings and the arguments leave in the attributes *)
Definition about (d : str) (s : setting) : Prop := o_dest (option_of s) = d.
Definition text_means (k : kind) (t : str) (v : val V) : Prop :=
  match k with KText => v = VText t | KOneOf l => In t l /\ v = VText t | _ => exists x, read k t = Some x /\ v = VRead x end.
Fixpoint times (d : str) (ss : list setting) : nat := match ss with [] => 0 | s :: ss => (if str_eq_dec (o_dest (option_of s)) d then 1 else 0) + times d ss end.
Definition leaves (s : setting) (n : nat) (v : val V) : Prop :=
  match s with
  | Turn o => match o_act o with StoreTrue => v = VBool true | StoreFalse => v = VBool false | CountUp => v = VCount n | _ => False end
  | Give o t => text_means (o_kind o) t v
  | Bare _ => v = VNone
  end.
Definition default_is (p : parser V) (d : str) (v : option (val V)) : Prop :=
  (exists o, In o (p_options p) /\ o_dest o = d /\ v = o_default o) \/ (forall o, In o (p_options p) -> o_dest o <> d) /\ v = None.
Definition becomes (p : parser V) (ss : list setting) (l : list (str * val V)) (d : str) (v : option (val V)) : Prop :=
  (exists x, In (d, x) l /\ v = Some x) \/
  (forall x, ~ In (d, x) l) /\
  ((forall s, In s ss -> ~ about d s) /\ default_is p d v \/
   exists before s after x, ss = before ++ s :: after /\ about d s /\ (forall s', In s' after -> ~ about d s') /\ leaves s (times d ss) x /\ v = Some x).
(** settings that are all right: every text is understood, no help is asked for, and no two exclude each other *)
Definition not_help (s : setting) : Prop := o_act (option_of s) <> ShowHelp.
Definition understood (s : setting) : Prop := exists v, leaves s 0 v.
Definition compatible (ss : list setting) : Prop := forall s s', In s ss -> In s' ss -> o_against (option_of s) <> Some (o_dest (option_of s')).
(** words that look like a long option but are the beginning of no name, or of several; words that look like a short option but begin with none, and are no number *)
Definition stray_long (p : parser V) (w : str) : Prop := long_name w /\ ~ In " "%char w /\ forall rest o, ~ option_named p (w ++ rest) o.
Definition stray_short (p : parser V) (w : str) : Prop := exists c rest, w = "-"%char :: c :: rest /\ c <> "-"%char /\ (forall o, ~ option_named p ["-"%char; c] o) /\ ~ minus_number w /\ ~ In " "%char w.
Definition stray (p : parser V) (w : str) : Prop := stray_long p w \/ stray_short p w.
Definition ambiguous (p : parser V) (w : str) : Prop := long_name w /\ (forall o, ~ option_named p w o) /\ exists r1 r2 o1 o2, option_named p (w ++ r1) o1 /\ option_named p (w ++ r2) o2 /\ r1 <> r2.
(** a word that does not begin with a dash; a word that is neither two dashes nor two dashes and an equals sign and so on *)
Definition plain_word (c : str) : Prop := forall r, c <> "-"%char :: r.
Definition fine (w : str) : Prop := w <> lit "--" /\ forall r, w <> "-"%char :: "-"%char :: "="%char :: r.
(** tables whose options can be told apart *)
Record proper (p : parser V) : Prop := {
  proper_names : forall o n, option_named p n o -> short_name n \/ long_name n;
  proper_distinct : NoDup (flat_map (o_names) (p_options p));
  proper_dests : NoDup (map (o_dest) (p_options p) ++ map fst (p_positionals p));
  proper_many : forall a d b, p_positionals p = a ++ (d, AtLeastOne) :: b -> forall d', ~ In (d', AtLeastOne) (a ++ b);
  proper_against : forall o d, In o (p_options p) -> o_against o = Some d ->
    exists o', In o' (p_options p) /\ o_dest o' = d /\ (o_act o' = StoreTrue \/ o_act o' = CountUp) /\ o_against o' = Some (o_dest o);
  proper_other : forall o, In o (p_options p) -> o_against o <> Some (o_dest o);
  proper_start : forall o, In o (p_options p) -> forall n, o_default o <> Some (VCount n) /\ (o_default o <> Some (VBool true));
}.
End Spec.

(** *** the options of the commands, as documented *)
Section Tables.
Context {V : Type}.
Definition offers (p : parser V) (name attribute : String.string) (a : act) (k : kind) (d : option (val V)) : Prop :=
  exists o, option_named p (lit name) o /\ o_dest o = lit attribute /\ o_act o = a /\ o_kind o = k /\ o_default o = d.
Definition long (n : String.string) : String.string := String.append "--" n.
Definition all_offer (p : parser V) (l : list String.string) (a : act) (k : kind) (d : option (val V)) : Prop := forall n, In n l -> offers p (long n) n a k d.
Definition only (p : parser V) (l : list String.string) : Prop := forall n o, option_named p n o -> In n (map lit l).
Definition plot_texts := ["xlabel"; "ylabel"; "cbarlabel"; "title"; "cmap"; "xaxis"; "yaxis"]%string.
Definition plot_numbers := ["fontsize"; "height"; "width"; "cbarscale"]%string.
Definition plot_limits := ["xmin"; "xmax"; "ymin"; "ymax"; "vmin"; "vmax"]%string.
Definition plot_steps := ["xstep"; "ystep"; "vstep"]%string.
Definition plot_whole := ["xbins"; "ybins"]%string.
Definition plot_flags := ["logx"; "logy"; "logv"; "grid"; "nasabluemarble"; "solid"; "fold"]%string.
Definition plot_taylor := ["extend"; "gammamax"; "stdbiasmax"]%string.
Definition common_names := ["-h"; "--help"; "-v"; "--verbose"; "-q"; "--quiet"; "--force-overwrite"]%string.
Definition has_common (p : parser V) : Prop :=
  (exists o, option_named p (lit "-h") o /\ option_named p (lit "--help") o /\ o_act o = ShowHelp) /\
  offers p "-v" "verbose" CountUp KText (Some VNone) /\ offers p "--verbose" "verbose" CountUp KText (Some VNone) /\
  offers p "-q" "quiet" StoreTrue KText (Some (VBool false)) /\ offers p "--quiet" "quiet" StoreTrue KText (Some (VBool false)) /\ offers p "--force-overwrite" "force_overwrite" StoreTrue KText (Some (VBool false)) /\
  (forall o, option_named p (lit "-v") o -> o_against o = Some (lit "quiet")) /\ (forall o, option_named p (lit "-q") o -> o_against o = Some (lit "verbose")).
Definition has_output (p : parser V) (d : val V) : Prop := offers p "-o" "output" Perhaps KText (Some d) /\ offers p "--output" "output" Perhaps KText (Some d).
Definition output_names := ["-o"; "--output"]%string.
Definition positional (p : parser V) (l : list (String.string * many)) : Prop := p_positionals p = map (fun e : String.string * many => (lit (fst e), snd e)) l.

(** *** the commands and their other names, but for "version" *)
Definition command_parser (types colours projections : list str) (c : str) (p : parser V) : Prop :=
  c = lit "plot" /\ p = plot_parser V types colours projections \/ c = lit "info" /\ p = info_parser V \/ (c = lit "collocate" \/ c = lit "col") /\ p = col_parser V \/
  (c = lit "aggregate" \/ c = lit "agg") /\ p = aggregate_parser V \/ (c = lit "subset" \/ c = lit "sub") /\ p = subset_parser V \/ c = lit "eval" /\ p = eval_parser V \/
  c = lit "stats" /\ p = stats_parser V \/ c = lit "collapse" /\ p = collapse_parser V.
End Tables.
