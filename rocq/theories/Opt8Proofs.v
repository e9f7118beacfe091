From Coq Require Import String.
From Verif Require Import Base PyStr FileListModel FileListProofs ProdModel ProdProofs OptModel OptSpec OptProofs Opt2Proofs Opt3Proofs Opt4Proofs.
From Coq Require Import List Ascii Lia Arith.
Import ListNotations.
Open Scope list_scope. Open Scope nat_scope. Notation length := List.length.

(** *** the first setting that asks for help, or that is wrong, decides *)
Section P.
Context {V : Type}.
Variable read : kind -> str -> option V.
Notation opt := (opt V). Notation parser := (parser V). Notation val := (val V). Notation state := (state V). Notation setting := (@setting V).
Variable p : parser.
Hypothesis PR : proper p.

Lemma distribute_set ps : forall args vals ex, exists (l : list (str * val)) rest k, distribute ps args (mkState vals ex) = (Next (mkState (set_all vals l) ex), rest) /\ map fst l = firstn k (map fst ps).
Proof.
  induction ps as [|[d m] ps IH]; intros args vals ex; [exists [], args, 0; auto|]. destruct args as [|a args]; [exists [], [], 0; destruct m; auto|].
  assert (G : forall v args', exists (l : list (str * val)) rest k, distribute ps args' (mkState (dict_set vals d v) ex) = (Next (mkState (set_all vals l) ex), rest) /\ map fst l = firstn k (map fst ((d, m) :: ps))).
  { intros v args'. destruct (IH args' (dict_set vals d v) ex) as (l & rest & k & A & B). exists ((d, v) :: l), rest, (S k). split; [exact A|]. cbn. rewrite B. reflexivity. }
  destruct m; cbn [distribute]; unfold set_value; cbn [s_values s_extras]; apply G.
Qed.
Lemma firstn_app_nodup {A} (k : nat) (a b : list A) : NoDup (a ++ b) -> NoDup (firstn k b).
Proof. intros N. apply nodup_right in N. rewrite <- (firstn_skipn k b) in N. apply nodup_left in N. exact N. Qed.
Lemma prefix_keys (l : list (str * val)) j k : map fst l = firstn k (map fst (firstn j (p_positionals p))) -> NoDup (map fst l) /\ forall o, In o (p_options p) -> dict_get l (o_dest o) = None.
Proof.
  intros E. pose proof (proper_dests _ PR) as N.
  assert (E2 : map fst l = firstn (Nat.min k j) (map fst (p_positionals p))) by (rewrite E, <- firstn_map, firstn_firstn; reflexivity).
  split; [rewrite E2; eapply firstn_app_nodup; exact N|]. intros o I. destruct (dict_get l (o_dest o)) as [v|] eqn:G; auto. exfalso. apply get_in in G. apply (in_map fst) in G. cbn [fst] in G. rewrite E2 in G.
  apply (nodup_apart _ _ (o_dest o) N); [apply in_map; exact I|]. rewrite <- (firstn_skipn (Nat.min k j) (map fst (p_positionals p))). apply in_app_iff. left. exact G.
Qed.
Lemma inv_args2 done vals (l : list (str * val)) : NoDup (map fst l) -> inv read p [] done vals -> inv read p l done (set_all vals l).
Proof.
  intros N H d. rewrite (set_all_get l N). destruct (dict_get l d) as [x|] eqn:E; [left; eauto|]. right. split; auto. destruct (H d) as [(x & A & _)|[_ A]]; [discriminate|exact A].
Qed.
(** what the settings [good], then the rest, make of a state *)
Lemma decides (l : list (str * val)) ex good tail done vals : (forall o, In o (p_options p) -> dict_get l (o_dest o) = None) -> inv read p l done vals -> Forall (well p) done -> Forall (well p) (good ++ tail) -> Forall not_help good -> compatible done ->
  (forall h rest, tail = Turn h :: rest -> o_act h = ShowHelp -> Forall (understood read) good -> compatible ((done ++ good) ++ [Turn h]) -> apply_all read (good ++ tail) (mkState vals ex) = Stop Help) /\
  (~ (Forall (understood read) good /\ compatible (done ++ good)) -> apply_all read (good ++ tail) (mkState vals ex) = Stop Refused).
Proof.
  intros NO I WD W NH C. pose proof W as W0. apply Forall_app in W. destruct W as [W1 W2]. pose proof (apply_spec read p PR l ex NO good done vals I WD W1 NH C) as S1. split.
  - intros h rest -> A U CC. rewrite apply_app. assert (CG : compatible (done ++ good)) by (intros s s' J K; apply CC; apply in_app_iff; auto).
    destruct (apply_all read good _) as [[v e]|r]; [|destruct S1 as [_ X]; exfalso; apply X; auto]. cbn [s_extras s_values] in S1. destruct S1 as (-> & I1 & _). cbn [apply_all option_of text_of].
    assert (WH : well p (Turn h)) by (inversion W2; auto). pose proof (excluded_spec read p PR l (done ++ good) v ex (Turn h) I1 ltac:(apply Forall_app; auto) WH NO) as X. cbn [option_of] in X.
    unfold take. destruct (excluded h (mkState v ex)); [|rewrite A; reflexivity]. exfalso. destruct (proj1 X eq_refl) as (s' & J & E). apply (CC (Turn h) s'); [apply in_app_iff; right; left; reflexivity|apply in_app_iff; auto|exact E].
  - intros BAD. rewrite apply_app. destruct (apply_all read good _) as [[v e]|r]; [|destruct S1 as [-> _]; reflexivity]. exfalso. destruct S1 as (_ & _ & U & CC). apply BAD. auto.
Qed.
Lemma apply_extras_ok before after args wb wa good tail : spelled_all p before wb -> spelled_all p after wa -> Forall (plain p) args -> args = [] \/ (forall b o, before <> b ++ [Bare o]) ->
  before ++ after = good ++ tail -> tail <> [] -> Forall not_help good ->
  (forall h rest, tail = Turn h :: rest -> o_act h = ShowHelp -> Forall (understood read) good -> compatible (good ++ [Turn h]) -> parse_words read p (wb ++ args ++ wa) = Help) /\
  (~ (Forall (understood read) good /\ compatible good) -> parse_words read p (wb ++ args ++ wa) = Refused).
Proof.
  intros B A PL EB E NE NH. rewrite (parse_outcome read p PR before after args wb wa B A PL) by (destruct EB as [->|EB]; [auto|right; apply ends_bare_iff; exact EB]).
  pose proof (spelled_well p PR _ _ B) as WB. pose proof (spelled_well p PR _ _ A) as WA. unfold outcome_of.
  assert (CN : compatible ([] : list setting)) by (intros ? ? []). assert (IS := inv_start read p PR).
  assert (CASE : (exists m, before = good ++ m /\ m <> [] /\ exists m', tail = m ++ m') \/ exists m, good = before ++ m /\ after = m ++ tail).
  { clear -E NE. revert good E. induction before as [|x before IH]; intros good E; [right; exists good; auto|]. destruct good as [|y good]; [left; exists (x :: before); repeat split; [discriminate|exists after; symmetry; exact E]|].
    cbn in E. injection E as <- E. destruct (IH good E) as [(m & -> & M & K)|(m & -> & K)]; [left; exists m; auto|right; exists m; auto]. }
  destruct CASE as [(m & -> & M & m' & ->)|(m & -> & ->)].
  - destruct (decides [] [] good m [] (defaults p) ltac:(reflexivity) IS ltac:(constructor) WB NH CN) as [D1 D2]. cbn [app] in D1, D2. split.
    + intros h rest T K U CC. destruct m as [|x m]; [congruence|]. cbn in T. injection T as -> _. rewrite (D1 h m eq_refl K U CC). reflexivity.
    + intros BAD. rewrite (D2 BAD). reflexivity.
  - apply Forall_app in NH. destruct NH as [NH1 NH2].
    pose proof (apply_spec read p PR [] [] ltac:(reflexivity) before [] (defaults p) IS ltac:(constructor) WB NH1 CN) as S1. cbn [app] in S1.
    destruct (apply_all read before _) as [[v1 e1]|r].
    + cbn [s_extras s_values] in S1. destruct S1 as (-> & I1 & U1 & C1). set (j := Nat.min _ _) in *. destruct (distribute_set (firstn j (p_positionals p)) args v1 []) as (l & rest & k & ED & EK). rewrite ED. cbn [s_values s_extras app].
      destruct (prefix_keys l j k EK) as [NK NO]. destruct (decides l rest m tail before (set_all v1 l) NO (inv_args2 _ _ _ NK I1) WB WA NH2 C1) as [D1 D2]. split.
      * intros h r T K U CC. apply Forall_app in U. rewrite (D1 h r T K (proj2 U) CC). reflexivity.
      * intros BAD. rewrite D2; [reflexivity|]. intros [U CC]. apply BAD. split; [apply Forall_app; auto|exact CC].
    + destruct S1 as [-> X]. split; [|reflexivity]. intros h r T K U CC. exfalso. apply X. apply Forall_app in U. split; [apply U|]. intros s s' J1 J2. apply CC; apply in_app_iff; left; apply in_app_iff; left; assumption.
Qed.
Theorem parse_helps before after args wb wa good h rest : spelled_all p before wb -> spelled_all p after wa -> Forall (plain p) args -> args = [] \/ (forall b o, before <> b ++ [Bare o]) ->
  before ++ after = good ++ Turn h :: rest -> o_act h = ShowHelp -> Forall not_help good -> Forall (understood read) good -> compatible (good ++ [Turn h]) -> parse_words read p (wb ++ args ++ wa) = Help.
Proof. intros B A PL EB E K NH U C. apply (proj1 (apply_extras_ok before after args wb wa good (Turn h :: rest) B A PL EB E ltac:(discriminate) NH) h rest eq_refl K U C). Qed.
Theorem parse_first_wrong before after args wb wa good rest : spelled_all p before wb -> spelled_all p after wa -> Forall (plain p) args -> args = [] \/ (forall b o, before <> b ++ [Bare o]) ->
  before ++ after = good ++ rest -> rest <> [] -> Forall not_help good -> ~ (Forall (understood read) good /\ compatible good) -> parse_words read p (wb ++ args ++ wa) = Refused.
Proof. intros B A PL EB E K NH X. apply (proj2 (apply_extras_ok before after args wb wa good rest B A PL EB E K NH) X). Qed.
End P.
From Verif Require Import Opt5Proofs Opt6Proofs Opt7Proofs.
Section T.
Context {V : Type}.
Variable read : kind -> str -> option V.
Variables types colours projections : list str.
Notation val := (val V). Notation setting := (@setting V).
Notation top := (top_parser V).
Notation parse_top := (parse_top read types colours projections).
Lemma top_understood first : Forall (well top) first -> Forall not_help first -> Forall (understood read) first.
Proof.
  intros WF NHF. apply Forall_forall. intros s I. rewrite Forall_forall in WF, NHF. destruct (WF s I) as [Io Ws]. specialize (NHF s I). unfold not_help in NHF. pose proof (top_texts _ Io) as NT. destruct s as [o|o t|o]; cbn [option_of] in *; [|destruct (NT Ws)|exfalso; apply NT; left; exact Ws].
  unfold understood, leaves. destruct (o_act o) eqn:A; eauto; [congruence|exfalso; apply NT; left; exact A|exfalso; apply NT; right; exact A].
Qed.
Theorem command_helps c p first wf ws : command_parser types colours projections c p -> spelled_all top first wf -> Forall not_help first -> compatible first -> Forall fine ws -> parse_words read p ws = Help -> parse_top (wf ++ c :: ws) = Help.
Proof.
  intros CP SF NHF CF FW E. destruct (command_known types colours projections c p CP) as (G & PW & P). rewrite (top_outcome read types colours projections first wf c ws SF PW FW), G, E. pose proof (spelled_well top top_proper _ _ SF) as WF.
  pose proof (apply_spec read top top_proper [] [] ltac:(reflexivity) first [] (defaults top) (inv_start read top top_proper) ltac:(constructor) WF NHF ltac:(intros ? ? [])) as S1.
  destruct (apply_all read first _) as [st|r]; [reflexivity|]. destruct S1 as [_ X]. exfalso. apply X. split; [apply top_understood; auto|exact CF].
Qed.
Theorem top_helps good h rest wf ws : spelled_all top (good ++ Turn h :: rest) wf -> o_act h = ShowHelp -> Forall not_help good -> compatible (good ++ [Turn h]) -> Forall fine ws -> parse_top (wf ++ ws) = Help.
Proof.
  intros SF A NHG CG F. destruct (spelled_shapes top top_proper _ _ SF) as (kf & Ef & Sf & Wf). destruct (classify_all_fine (V := V) ws F) as (ks & Ek & Lk).
  assert (LF : length kf = length wf). { clear -Ef. revert kf Ef. induction wf as [|w wf IH]; intros kf E; cbn in E; [injection E as <-; auto|]. destruct (classify top w); [|discriminate]. cbn in E. destruct (classify_all top wf) as [k'|]; [|discriminate]. injection E as <-. cbn. rewrite (IH k'); auto. }
  unfold OptModel.parse_top. rewrite (classify_app top wf ws kf ks Ef Ek).
  destruct (top_settings read _ kf Sf Wf (commands V types colours projections) wf ws ks (mkState (defaults top) []) (S (length (kf ++ ks)))) as (f & Lf & E).
  - auto.
  - rewrite !app_length. lia.
  - auto.
  - rewrite E. destruct (decides read top top_proper [] [] good (Turn h :: rest) [] (defaults top) ltac:(reflexivity) (inv_start read top top_proper) ltac:(constructor) Wf NHG ltac:(intros ? ? [])) as [D _]. cbn [app] in D.
    rewrite (D h rest eq_refl A); [reflexivity| |exact CG]. apply top_understood; [|exact NHG]. apply Forall_app in Wf. apply Wf.
Qed.
End T.
