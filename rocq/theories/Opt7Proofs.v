From Coq Require Import String.
From Verif Require Import Base PyStr FileListModel FileListProofs ProdModel ProdProofs OptModel OptSpec OptProofs Opt2Proofs Opt3Proofs Opt4Proofs Opt5Proofs Opt6Proofs.
From Coq Require Import List Ascii Lia Arith.
Import ListNotations.
Open Scope list_scope. Open Scope nat_scope. Notation length := List.length.

Section T.
Context {V : Type}.
Variable read : kind -> str -> option V.
Notation opt := (opt V). Notation parser := (parser V). Notation word := (word V). Notation val := (val V). Notation state := (state V). Notation setting := (@setting V).
Notation top := (top_parser V).
Ltac against := first [exists (mkOpt [lit "-q"; lit "--quiet"] (lit "quiet") StoreTrue KText (Some (VBool false)) (Some (lit "verbose"))); repeat split; auto; cbn; tauto |
  exists (mkOpt [lit "-v"; lit "--verbose"] (lit "verbose") CountUp KText (Some VNone) (Some (lit "quiet"))); repeat split; auto; cbn; tauto].
Theorem top_proper : proper top.
Proof.
  apply good_proper; [vm_compute; reflexivity| |]. - intros o I. cbn [In common_options p_options top_parser] in I. repeat (destruct I as [I|I]; [subst o; split; [intros d E; first [discriminate E|injection E as <-; split; [discriminate|]]|split; [intros n; discriminate|discriminate]]|]); [..|destruct I]; against. - intros a d b E. destruct a; discriminate. Qed.
Lemma short_tuples (a : ascii) (rest : str) : a <> "-"%char -> length (option_tuples top ("-"%char :: a :: rest)) <= 1.
Proof.
  intros A. unfold option_tuples. rewrite not_dash by exact A.
  destruct a as [[] [] [] [] [] [] [] []]; try (exfalso; apply A; reflexivity); vm_compute; lia.
Qed.
Lemma cut_eq_long c r : c <> "="%char -> cut_eq ("-"%char :: "-"%char :: c :: r) = None \/ exists q t, cut_eq ("-"%char :: "-"%char :: c :: r) = Some ("-"%char :: "-"%char :: c :: q, t).
Proof.
  intros C. cbn [cut_eq]. destruct (ascii_dec "-" "="); [discriminate|]. destruct (ascii_dec c "="); [congruence|]. destruct (cut_eq r) as [[l t]|]; cbn; eauto.
Qed.
Lemma filter_names {A B} (g : A -> bool) (l : list (A * B)) : length (filter (fun e => g (fst e)) l) = length (filter g (map fst l)).
Proof. induction l as [|[a b] l IH]; auto. cbn [filter map fst]. destruct (g a); cbn; auto. Qed.
Lemma sw_long (c : ascii) (q : str) x (s : str) : starts_with ("-"%char :: "-"%char :: c :: q) ("-"%char :: "-"%char :: x :: s) = if ascii_dec c x then starts_with q s else false.
Proof. reflexivity. Qed.
Lemma sw_short (c : ascii) (q : str) x : starts_with ("-"%char :: "-"%char :: c :: q) ["-"%char; x] = false.
Proof. cbn [starts_with]. destruct (ascii_dec "-" "-"); auto. destruct (ascii_dec "-" x); auto. Qed.
Lemma few_begin c (q : str) : length (filter (fun e : str * opt => starts_with ("-"%char :: "-"%char :: c :: q) (fst e)) (spellings top)) <= 1.
Proof.
  rewrite (filter_names (starts_with ("-"%char :: "-"%char :: c :: q)) (spellings top)).
  change (map fst (spellings top)) with [["-"; "h"]; "-" :: "-" :: "h" :: lit "elp"; ["-"; "v"]; "-" :: "-" :: "v" :: lit "erbose"; ["-"; "q"]; "-" :: "-" :: "q" :: lit "uiet"; "-" :: "-" :: "f" :: lit "orce-overwrite"]%char.
  unfold filter. rewrite !sw_short, !sw_long.
  destruct (ascii_dec c "h") as [E1|_], (ascii_dec c "v") as [E2|_], (ascii_dec c "q") as [E3|_], (ascii_dec c "f") as [E4|_]; try congruence; match goal with |- context[starts_with q ?x] => destruct (starts_with q x) | _ => idtac end; cbn [length]; lia.
Qed.
Lemma long_tuples c (r : str) : c <> "="%char -> length (option_tuples top ("-"%char :: "-"%char :: c :: r)) <= 1.
Proof.
  intros C. unfold option_tuples. destruct (cut_eq_long c r C) as [E|(q & t & E)]; rewrite E; rewrite map_length; apply few_begin.
Qed.
Lemma classify_fine w : fine w -> exists k, classify top w = Ok k.
Proof.
  intros [F1 F2]. destruct w as [|a w]; [eexists; reflexivity|]. destruct (ascii_dec a "-") as [->|NA]; [|exists (Arg (a :: w)); unfold classify; apply not_dash; exact NA].
  unfold classify. destruct (find_option top ("-"%char :: w)) as [o|]; [eauto|]. destruct w as [|b w]; [eauto|].
  destruct (str_eqb _ (lit "--")) eqn:D; [apply eqb_iff in D; congruence|]. clear D.
  destruct (match cut_eq _ with Some (l, r) => _ | None => None end) as [k|]; [eauto|].
  assert (L : length (option_tuples top ("-"%char :: b :: w)) <= 1).
  { destruct (ascii_dec b "-") as [->|NB]; [|apply short_tuples; exact NB]. destruct w as [|c w]; [exfalso; apply F1; reflexivity|]. apply long_tuples. intros ->. apply (F2 w). reflexivity. }
  destruct (option_tuples top _) as [|k [|k' l]]; [|eauto|cbn in L; lia]. destruct (negative_number _); [eauto|]. destruct (has_char " " _); eauto.
Qed.
Lemma classify_all_fine ws : Forall fine ws -> exists ks, classify_all top ws = Ok ks /\ length ks = length ws.
Proof. induction 1 as [|w ws F FS (ks & E & L)]; [exists []; auto|]. destruct (classify_fine w F) as (k & K). exists (k :: ks). cbn [classify_all]. rewrite K. cbn [bind]. rewrite E. split; cbn; auto. Qed.
Section Q.
Variable p : parser.
Hypothesis PR : proper p.
Lemma name_fine n t : short_name n \/ long_name n -> (t = [] \/ exists r, t = "="%char :: r) -> fine (n ++ t).
Proof.
  intros [(c & -> & A & B)|(c & r & -> & A)] T.
  - split; [|intros q]; intros E; cbn in E; injection E; intros; congruence.
  - split; [intros E; cbn in E; discriminate|intros q E; cbn in E; injection E; intros; subst; apply A; right; right; left; reflexivity].
Qed.
Lemma called_fine n o t : called p n o -> (t = [] \/ exists r, t = "="%char :: r) -> fine (n ++ t).
Proof. intros [C|(L & _)] T; apply name_fine; auto. apply (proper_names _ PR _ _ C). Qed.
Lemma plain_fine w : plain p w -> fine w.
Proof.
  intros [H|[->|(c & r & -> & A & _)]]; [split|split; discriminate|split].
  - intros ->. eapply H. reflexivity.
  - intros r ->. eapply H. reflexivity.
  - intros E. injection E as -> _. congruence.
  - intros q E. injection E as -> _. congruence.
Qed.
Lemma spelled_fine s ws : spelled p s ws -> Forall fine ws.
Proof.
  intros H. destruct H as [o n C T|o n C T|o n t C T PL|o n t C T|o c t N T T0 TE].
  - constructor; [|constructor]. rewrite <- (app_nil_r n). eapply called_fine; eauto.
  - constructor; [|constructor]. rewrite <- (app_nil_r n). eapply called_fine; eauto.
  - constructor; [|constructor; [|constructor]]; [rewrite <- (app_nil_r n); eapply called_fine; eauto|apply plain_fine; exact PL].
  - constructor; [|constructor]. eapply called_fine; eauto.
  - constructor; [|constructor]. destruct (proper_names _ PR _ _ N) as [(d & E & A & B)|(d & r & E & _)]; [|discriminate]. injection E as <-. split; [intros E|intros q E]; injection E; intros; congruence.
Qed.
Lemma spelled_all_fine ss ws : spelled_all p ss ws -> Forall fine ws.
Proof. induction 1; [constructor|]. apply Forall_app. split; auto. eapply spelled_fine; eauto. Qed.
End Q.
(** *** the options before the command *)
Lemma top_texts o : In o (p_options top) -> ~ texts o.
Proof. intros I. cbn [top_parser p_options common_options In] in I. repeat (destruct I as [<-|I]; [intros [E|E]; discriminate E|]). destruct I. Qed.
Lemma top_settings ss ks : shapes ss ks -> Forall (well top) ss -> forall table ws more rest st fuel, length ws = length ks -> S (length (ws ++ more)) <= fuel -> length more = length rest ->
  exists fuel', S (length more) <= fuel' /\ top_run read fuel table (combine (ws ++ more) (ks ++ rest)) st = match apply_all read ss st with Next st => top_run read fuel' table (combine more rest) st | Stop r => r end.
Proof.
  induction 1 as [|s ss k ks H SH IH]; intros W table ws more rest st fuel L F LM.
  - destruct ws; [|discriminate]. exists fuel. auto.
  - inversion W as [|? ? [Io W1] W2]; subst. pose proof (top_texts _ Io) as NT. destruct H as [o n T|o n T|o n t T|o n t T]; cbn [option_of] in *.
    2: { exfalso. apply NT. left. exact T. } 2, 3: destruct (NT T).
    destruct ws as [|w ws]; [discriminate|]. cbn [app length] in L, F. destruct fuel as [|fuel]; [lia|]. cbn [app combine OptModel.top_run apply_all option_of text_of].
    replace (follow o (map snd (combine (ws ++ more) (ks ++ rest)))) with (Some ([(o, @nil str)], map snd (combine (ws ++ more) (ks ++ rest)))).
    2: { unfold follow, texts in *. destruct (o_act o); try reflexivity; exfalso; apply NT; auto. }
    cbn [take_all]. destruct (take read o [] st) as [st'|r]; [|exists (S (length more)); auto].
    rewrite map_length, Nat.sub_diag. cbn [skipn]. apply IH; auto; cbn [length app] in *; lia.
Qed.
Lemma dict_get_app {A} (a b : list (str * A)) d : dict_get (a ++ b) d = match dict_get a d with Some x => Some x | None => dict_get b d end.
Proof. induction a as [|[k v] a IH]; auto. cbn [app dict_get]. destruct (str_eq_dec k d); auto. Qed.
Lemma dict_get_filter {A} f (b : list (str * A)) d : dict_get (filter (fun e => f (fst e)) b) d = if f d then dict_get b d else None.
Proof.
  induction b as [|[k v] b IH]; cbn [filter dict_get fst]; [destruct (f d); auto|]. destruct (f k) eqn:F; cbn [dict_get]; rewrite ?IH; destruct (str_eq_dec k d) as [E|]; auto; rewrite <- E, F; reflexivity.
Qed.
Lemma copied_get (a ns : list (str * val)) d : dict_get (copied a ns) d = match dict_get ns d with Some x => Some x | None => dict_get a d end.
Proof.
  unfold copied. rewrite dict_get_app. destruct (dict_get ns d) eqn:E; auto. rewrite (dict_get_filter (fun k => match dict_get ns k with Some _ => false | None => true end)). rewrite E. reflexivity.
Qed.
Lemma classify_word c : plain_word c -> classify top c = Ok (Arg c).
Proof. intros H. destruct c as [|a c]; auto. unfold classify. apply not_dash. intros ->. apply (H c). reflexivity. Qed.
Lemma map_fst_combine {A B} (a : list A) (b : list B) : length a = length b -> map fst (combine a b) = a.
Proof. revert b. induction a as [|x a IH]; intros [|y b] L; try discriminate; auto. cbn. rewrite IH; auto. Qed.
Section Run.
Variables types colours projections : list str.
Notation parse_top := (parse_top read types colours projections).
Lemma top_outcome first wf c ws : spelled_all top first wf -> plain_word c -> Forall fine ws ->
  parse_top (wf ++ c :: ws) = match apply_all read first (mkState (defaults top) []) with
    | Stop r => r
    | Next st => match dict_get (commands V types colours projections) c with
                 | None => Refused
                 | Some p => match parse_words read p ws with Parsed ns => match s_extras st with [] => Parsed (copied (dict_set (s_values st) (lit "command") (VText c)) ns) | _ => Refused end | r => r end
                 end
    end.
Proof.
  intros SP PW F. destruct (spelled_shapes top top_proper _ _ SP) as (kf & Ef & Sf & Wf). destruct (classify_all_fine ws F) as (ks & Ek & Lk).
  assert (LF : length kf = length wf). { clear -Ef. revert kf Ef. induction wf as [|w wf IH]; intros kf E; cbn in E; [injection E as <-; auto|]. destruct (classify top w); [|discriminate]. cbn in E. destruct (classify_all top wf) as [k'|]; [|discriminate]. injection E as <-. cbn. rewrite (IH k'); auto. }
  unfold OptModel.parse_top. rewrite (classify_app top wf (c :: ws) kf (Arg c :: ks) Ef).
  2: { cbn [classify_all]. rewrite (classify_word c PW). cbn [bind]. rewrite Ek. reflexivity. }
  destruct (top_settings first kf Sf Wf (commands V types colours projections) wf (c :: ws) (Arg c :: ks) (mkState (defaults top) []) (S (length (kf ++ Arg c :: ks)))) as (f & Lf & E).
  - auto.
  - rewrite !app_length. cbn [length]. lia.
  - cbn. auto.
  - rewrite E. destruct (apply_all read first _) as [st|r]; auto. destruct f as [|f]; [lia|]. cbn [combine OptModel.top_run]. destruct (dict_get _ c) as [p|]; auto. rewrite map_fst_combine by auto. reflexivity.
Qed.
Lemma command_known c p : command_parser types colours projections c p -> dict_get (commands V types colours projections) c = Some p /\ plain_word c /\ proper p.
Proof.
  unfold command_parser.
  intros [[-> ->]|[[-> ->]|[[[-> | ->] ->]|[[[-> | ->] ->]|[[[-> | ->] ->]|[[-> ->]|[[-> ->]|[-> ->]]]]]]]]; (split; [reflexivity|]); (split; [intros r; discriminate|]);
  auto using plot_proper, info_proper, col_proper, aggregate_proper, collapse_proper, subset_proper, eval_proper, stats_proper.
Qed.
Lemma common_in c p : command_parser types colours projections c p -> forall o, In o (common_options V) -> In o (p_options p).
Proof.
  unfold command_parser.
  intros [[-> ->]|[[-> ->]|[[[-> | ->] ->]|[[[-> | ->] ->]|[[[-> | ->] ->]|[[-> ->]|[[-> ->]|[-> ->]]]]]]]]; intros o I; cbn [p_options plot_parser info_parser col_parser aggregate_parser collapse_parser subset_parser eval_parser stats_parser]; apply in_app_iff; left; exact I.
Qed.
Lemma becomes_some p ss l d v : becomes read p ss l d v -> (exists o, In o (p_options p) /\ o_dest o = d /\ o_default o <> None) -> Forall (understood read) ss -> proper p -> v <> None.
Proof.
  intros B (o & I & D & N) U P. destruct B as [(x & _ & ->)|[_ [[_ [(o' & I' & D' & ->)|[NI _]]]|(b & s & a & x & _ & _ & _ & _ & ->)]]]; try discriminate.
  - assert (o' = o). { apply (dest_unique p P); auto. congruence. } subst. exact N.
  - destruct (NI o I D).
Qed.
Lemma top_becomes ss d x : becomes read top ss [] d (Some x) -> (forall s, In s ss -> In (option_of s) (p_options top)) -> Forall not_help ss -> exists o, In o (common_options V) /\ o_dest o = d /\ o_default o <> None.
Proof.
  intros B W NH. destruct B as [(y & [] & _)|[_ [[_ [(o' & I' & D' & E)|[NI E]]]|(b & s & a & y & E & AB & _ & _ & _)]]].
  - exists o'. repeat split; auto. congruence.
  - discriminate.
  - subst ss. exists (option_of s). assert (I : In s (b ++ s :: a)) by (apply in_app_iff; right; left; auto). specialize (W s I). rewrite Forall_forall in NH. specialize (NH s I). split; auto. split; auto.
    cbn [top_parser p_options common_options In] in W. unfold not_help in NH. repeat (destruct W as [W|W]; [rewrite <- W in NH |- *; first [discriminate|exfalso; apply NH; reflexivity]|]). destruct W.
Qed.
Theorem command_accepts c p first wf before after args wb wa (l : list (str * val)) : command_parser types colours projections c p ->
  spelled_all top first wf -> Forall not_help first -> compatible first ->
  spelled_all p before wb -> spelled_all p after wa -> Forall (plain p) args -> args = [] \/ (forall b o, before <> b ++ [Bare o]) ->
  Forall not_help (before ++ after) -> Forall (understood read) (before ++ after) -> compatible (before ++ after) -> shared (p_positionals p) args l ->
  exists ns, parse_top (wf ++ c :: wb ++ args ++ wa) = Parsed ns /\ dict_get ns (lit "command") = Some (VText c) /\
    forall d, d <> lit "command" -> becomes read p (before ++ after) l d (dict_get ns d).
Proof.
  intros CP SF NHF CF SB SA PL EB NH U C SH. destruct (command_known c p CP) as (G & PW & P).
  assert (FW : Forall fine (wb ++ args ++ wa)).
  { apply Forall_app. split; [apply (spelled_all_fine p P _ _ SB)|]. apply Forall_app. split; [|apply (spelled_all_fine p P _ _ SA)]. apply Forall_forall. intros w I. rewrite Forall_forall in PL. apply (plain_fine p). auto. }
  rewrite (top_outcome first wf c _ SF PW FW), G. destruct (parse_accepts read p P before after args wb wa l SB SA PL EB NH U C SH) as (ns & E & B). rewrite E.
  pose proof (spelled_well top top_proper _ _ SF) as WF.
  assert (UF : Forall (understood read) first).
  { apply Forall_forall. intros s I. rewrite Forall_forall in WF, NHF. destruct (WF s I) as [Io Ws]. specialize (NHF s I). unfold not_help in NHF. pose proof (top_texts _ Io) as NT. destruct s as [o|o t|o]; cbn [option_of] in *; [|destruct (NT Ws)|exfalso; apply NT; left; exact Ws].
    unfold understood, leaves. destruct (o_act o) eqn:A; eauto; [congruence|exfalso; apply NT; left; exact A|exfalso; apply NT; right; exact A]. }
  pose proof (apply_spec read top top_proper [] [] ltac:(reflexivity) first [] (defaults top) (inv_start read top top_proper) ltac:(constructor) WF NHF ltac:(intros ? ? [])) as S1. cbn [app] in S1.
  destruct (apply_all read first _) as [[v1 e1]|r]; [|destruct S1 as [_ X]; exfalso; apply X; auto]. cbn [s_extras s_values] in *. destruct S1 as (-> & I1 & _).
  eexists. split; [reflexivity|]. assert (NC : dict_get ns (lit "command") = None).
  { destruct (dict_get ns (lit "command")) as [x|] eqn:Q; auto. exfalso. assert (ND : ~ In (lit "command") (map o_dest (p_options p) ++ map fst (p_positionals p))).
    { clear -CP. unfold command_parser in CP. intros I. assert (Y : existsb (str_eqb (lit "command")) (map o_dest (p_options p) ++ map fst (p_positionals p)) = true) by (apply existsb_exists; exists (lit "command"); split; auto; apply eqb_iff; auto). revert Y. clear I.
      destruct CP as [[-> ->]|[[-> ->]|[[_ ->]|[[_ ->]|[[_ ->]|[[-> ->]|[[-> ->]|[-> ->]]]]]]]]; vm_compute; discriminate. }
    apply ND. apply in_app_iff. specialize (B (lit "command")). rewrite Q in B. destruct (shared_length _ _ _ SH) as (_ & _ & KL). destruct B as [(y & I & _)|[_ [[_ [(o & I & D & _)|[_ X]]]|(b & s & a & y & E' & AB & _)]]].
    - right. rewrite <- KL. apply in_map_iff. exists (lit "command", y). auto.
    - left. apply in_map_iff. eauto.
    - discriminate.
    - left. apply in_map_iff. exists (option_of s). split; auto. assert (WW : Forall (well p) (before ++ after)) by (apply Forall_app; split; eapply spelled_well; eauto). rewrite Forall_forall in WW. apply (WW s). rewrite E'. apply in_app_iff. right. left. auto. }
  split; [rewrite copied_get, NC, dict_get_set; destruct (str_eq_dec _ _); congruence|]. intros d ND. rewrite copied_get. specialize (B d). destruct (dict_get ns d) as [x|] eqn:Q; [exact B|].
  rewrite dict_get_set. destruct (str_eq_dec (lit "command") d) as [Z|_]; [congruence|]. destruct (dict_get v1 d) as [y|] eqn:Y; [|exact B]. exfalso.
  pose proof (inv_becomes read top [] first v1 d I1 ltac:(constructor)) as TB. rewrite Y in TB. destruct (top_becomes first d y TB) as (o & Io & D & N); auto.
  { intros s I. rewrite Forall_forall in WF. apply (WF s I). }
  apply (becomes_some p _ _ _ _ B); auto. exists o. repeat split; auto. apply (common_in c p CP). exact Io.
Qed.
Theorem command_unknown c first wf ws : spelled_all top first wf -> Forall not_help first -> plain_word c -> c <> lit "version" -> (forall p : parser, ~ command_parser types colours projections c p) -> Forall fine ws -> parse_top (wf ++ c :: ws) = Refused.
Proof.
  intros SF NHF PW NV NC FW. rewrite (top_outcome first wf c ws SF PW FW). pose proof (spelled_well top top_proper _ _ SF) as WF.
  pose proof (apply_spec read top top_proper [] [] ltac:(reflexivity) first [] (defaults top) (inv_start read top top_proper) ltac:(constructor) WF NHF ltac:(intros ? ? [])) as S1.
  destruct (apply_all read first _) as [st|r]; [|destruct S1; auto]. replace (dict_get (commands V types colours projections) c) with (@None parser); auto. symmetry.
  destruct (dict_get _ c) as [p|] eqn:E; auto. exfalso. apply get_in in E. unfold commands in E. cbn [In] in E. unfold command_parser in NC.
  assert (X : forall (a : str) (b : parser), (a, b) = (c, p) -> a = c /\ b = p) by (intros a b [= ? ?]; auto).
  repeat (destruct E as [E|E]; [apply X in E; destruct E as [<- E2]; first [apply (NC p); rewrite <- E2; tauto|apply NV; reflexivity]|]). destruct E.
Qed.
Theorem command_version first wf : spelled_all top first wf -> Forall not_help first -> compatible first ->
  exists ns, parse_top (wf ++ [lit "version"]) = Parsed ns /\ dict_get ns (lit "command") = Some (VText (lit "version")) /\ forall d, d <> lit "command" -> becomes read top first [] d (dict_get ns d).
Proof.
  intros SF NHF CF. pose proof (spelled_well top top_proper _ _ SF) as WF. rewrite (top_outcome first wf (lit "version") [] SF); [|intros r; discriminate|constructor].
  assert (UF : Forall (understood read) first).
  { apply Forall_forall. intros s I. rewrite Forall_forall in WF, NHF. destruct (WF s I) as [Io Ws]. specialize (NHF s I). unfold not_help in NHF. pose proof (top_texts _ Io) as NT. destruct s as [o|o t|o]; cbn [option_of] in *; [|destruct (NT Ws)|exfalso; apply NT; left; exact Ws].
    unfold understood, leaves. destruct (o_act o) eqn:A; eauto; [congruence|exfalso; apply NT; left; exact A|exfalso; apply NT; right; exact A]. }
  pose proof (apply_spec read top top_proper [] [] ltac:(reflexivity) first [] (defaults top) (inv_start read top top_proper) ltac:(constructor) WF NHF ltac:(intros ? ? [])) as S1. cbn [app] in S1.
  destruct (apply_all read first _) as [[v1 e1]|r]; [|destruct S1 as [_ X]; exfalso; apply X; auto]. cbn [s_extras s_values] in *. destruct S1 as (-> & I1 & _).
  replace (dict_get (commands V types colours projections) (lit "version")) with (Some (version_parser V)) by reflexivity. change (parse_words read (version_parser V) []) with (@Parsed V []).
  eexists. split; [reflexivity|]. split; [rewrite copied_get; cbn [dict_get]; rewrite dict_get_set; destruct (str_eq_dec _ _); congruence|]. intros d ND. rewrite copied_get. cbn [dict_get]. rewrite dict_get_set. destruct (str_eq_dec (lit "command") d) as [Z|_]; [congruence|].
  apply (inv_becomes read top); auto. constructor.
Qed.
Theorem command_refuses c p first wf ws : command_parser types colours projections c p -> spelled_all top first wf -> Forall not_help first -> Forall fine ws -> parse_words read p ws = Refused -> parse_top (wf ++ c :: ws) = Refused.
Proof.
  intros CP SF NHF FW E. destruct (command_known c p CP) as (G & PW & P). rewrite (top_outcome first wf c ws SF PW FW), G, E. pose proof (spelled_well top top_proper _ _ SF) as WF.
  pose proof (apply_spec read top top_proper [] [] ltac:(reflexivity) first [] (defaults top) (inv_start read top top_proper) ltac:(constructor) WF NHF ltac:(intros ? ? [])) as S1.
  destruct (apply_all read first _) as [st|r]; [auto|destruct S1; auto].
Qed.
End Run.
End T.
