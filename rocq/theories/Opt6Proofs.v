From Coq Require Import String.
From Verif Require Import Base PyStr FileListModel FileListProofs ProdModel ProdProofs OptModel OptSpec OptProofs Opt2Proofs Opt3Proofs Opt4Proofs Opt5Proofs.
From Coq Require Import List Ascii Lia.
Import ListNotations.
Open Scope list_scope. Open Scope nat_scope. Notation length := List.length.

Section T.
Context {V : Type}.
Notation opt := (opt V). Notation parser := (parser V).
Lemma offered (p : parser) name attribute a k d o : proper p -> find_option p (lit name) = Some o -> o_dest o = lit attribute -> o_act o = a -> o_kind o = k -> o_default o = d -> offers p name attribute a k d.
Proof. intros P F A B C D. exists o. repeat split; auto; apply (find_some_iff p P) in F; apply F. Qed.
Lemma only_by (p : parser) l : forallb (fun n => existsb (str_eqb n) (map lit l)) (flat_map o_names (p_options p)) = true -> only p l.
Proof.
  intros H n o [I N]. rewrite forallb_forall in H. specialize (H n). assert (X : In n (flat_map o_names (p_options p))) by (apply in_flat_map; eauto). specialize (H X).
  apply existsb_exists in H. destruct H as (m & I' & E). apply eqb_iff in E. subst. exact I'.
Qed.
Lemma common_by (p : parser) h v q : proper p -> find_option p (lit "-h") = Some h -> find_option p (lit "--help") = Some h -> o_act h = ShowHelp ->
  find_option p (lit "-v") = Some v -> o_against v = Some (lit "quiet") -> find_option p (lit "-q") = Some q -> o_against q = Some (lit "verbose") ->
  offers p "-v" "verbose" CountUp KText (Some VNone) -> offers p "--verbose" "verbose" CountUp KText (Some VNone) ->
  offers p "-q" "quiet" StoreTrue KText (Some (VBool false)) -> offers p "--quiet" "quiet" StoreTrue KText (Some (VBool false)) -> offers p "--force-overwrite" "force_overwrite" StoreTrue KText (Some (VBool false)) -> has_common p.
Proof.
  intros P H1 H2 H3 V1 V2 Q1 Q2 O1 O2 O3 O4 O5. split; [exists h; split; [apply (find_some_iff p P); auto|split; [apply (find_some_iff p P); auto|auto]]|]. do 5 (split; [assumption|]). split.
  - intros o N. apply (find_some_iff p P) in N. congruence.
  - intros o N. apply (find_some_iff p P) in N. congruence.
Qed.
Ltac offer P := eapply (offered _ _ _ _ _ _ _ P); reflexivity.
Ltac common P := eapply (common_by _ _ _ _ P); [reflexivity|reflexivity|reflexivity|reflexivity|reflexivity|reflexivity|reflexivity|offer P..].
Ltac offer_all P := intros n I; cbn [In plot_texts plot_numbers plot_limits plot_steps plot_whole plot_flags plot_taylor] in I; repeat (destruct I as [I|I]; [rewrite <- I; offer P|]); destruct I.
Theorem plot_table types colours projections : let p := plot_parser V types colours projections in
  has_common p /\ has_output p VNone /\ all_offer p plot_texts Perhaps KText None /\ all_offer p plot_numbers Perhaps KFloat None /\ all_offer p plot_limits Perhaps KDate None /\ all_offer p plot_steps Perhaps KDelta None /\
  all_offer p plot_whole Perhaps KInt None /\ all_offer p plot_flags StoreTrue KText None /\ all_offer p plot_taylor One KFloat None /\ offers p "--nocolourbar" "colourbar" StoreFalse KText None /\
  offers p "--type" "type" Perhaps (KOneOf types) None /\ offers p "--cbarorient" "cbarorient" Perhaps (KOneOf [lit "vertical"; lit "horizontal"]) None /\
  offers p "--coastlinescolour" "coastlinescolour" Perhaps (KOneOf (colours ++ [lit "grey"])) None /\ offers p "--projection" "projection" One (KOneOf projections) None /\
  offers p "--bias" "bias" One (KOneOf [lit "color"; lit "colour"; lit "size"; lit "flag"]) None /\
  positional p [("datagroups"%string, AtLeastOne)] /\
  only p (common_names ++ output_names ++ map long (plot_texts ++ plot_numbers ++ plot_limits ++ plot_steps ++ plot_whole ++ plot_flags ++ plot_taylor ++ ["nocolourbar"; "type"; "cbarorient"; "coastlinescolour"; "projection"; "bias"]%string)).
Proof.
  intros p. pose proof (plot_proper (V := V) types colours projections) as P. fold p in P.
  split; [common P|]. split; [split; offer P|]. do 7 (split; [offer_all P|]). do 6 (split; [offer P|]). split; [reflexivity|]. apply only_by. vm_compute. reflexivity.
Qed.
Theorem info_table : let p := info_parser V in has_common p /\ offers p "--type" "type" Perhaps KText (Some VNone) /\ positional p [("datagroups"%string, ListOfOne)] /\ only p (common_names ++ ["--type"%string]).
Proof. intros p. pose proof (info_proper (V := V)) as P. fold p in P. split; [common P|]. split; [offer P|]. split; [reflexivity|]. apply only_by. vm_compute. reflexivity. Qed.
Ltac simple P := split; [common P|]; split; [split; offer P|]; split; [reflexivity|]; apply only_by; vm_compute; reflexivity.
Theorem col_table : let p := col_parser V in has_common p /\ has_output p (VText (lit "out")) /\ positional p [("datagroups", AtLeastOne); ("samplegroup", Single)]%string /\ only p (common_names ++ output_names).
Proof. intros p. pose proof (col_proper (V := V)) as P. fold p in P. simple P. Qed.
Theorem aggregate_table : let p := aggregate_parser V in has_common p /\ has_output p (VText (lit "out")) /\ positional p [("datagroups", ListOfOne); ("aggregategrid", Single)]%string /\ only p (common_names ++ output_names).
Proof. intros p. pose proof (aggregate_proper (V := V)) as P. fold p in P. simple P. Qed.
Theorem collapse_table : let p := collapse_parser V in has_common p /\ has_output p (VText (lit "out")) /\ positional p [("datagroups", ListOfOne); ("dimensions", AtLeastOne)]%string /\ only p (common_names ++ output_names).
Proof. intros p. pose proof (collapse_proper (V := V)) as P. fold p in P. simple P. Qed.
Theorem subset_table : let p := subset_parser V in has_common p /\ has_output p (VText (lit "out")) /\ positional p [("datagroups", ListOfOne); ("subsetranges", Single)]%string /\ only p (common_names ++ output_names).
Proof. intros p. pose proof (subset_proper (V := V)) as P. fold p in P. simple P. Qed.
Theorem stats_table : let p := stats_parser V in has_common p /\ has_output p VNone /\ positional p [("datagroups"%string, AtLeastOne)] /\ only p (common_names ++ output_names).
Proof. intros p. pose proof (stats_proper (V := V)) as P. fold p in P. simple P. Qed.
Theorem eval_table : let p := eval_parser V in has_common p /\ has_output p (VText (lit "out")) /\ offers p "-a" "attributes" Perhaps KText (Some VNone) /\ offers p "--attributes" "attributes" Perhaps KText (Some VNone) /\
  positional p [("datagroups", AtLeastOne); ("expr", Single); ("units", Single)]%string /\ only p (common_names ++ output_names ++ ["-a"; "--attributes"]%string).
Proof. intros p. pose proof (eval_proper (V := V)) as P. fold p in P. split; [common P|]. split; [split; offer P|]. do 2 (split; [offer P|]). split; [reflexivity|]. apply only_by. vm_compute. reflexivity. Qed.
End T.
