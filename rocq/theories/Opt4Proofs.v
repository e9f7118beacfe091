From Coq Require Import String.
From Verif Require Import Base PyStr FileListModel FileListProofs ProdModel ProdProofs OptModel OptSpec OptProofs Opt2Proofs Opt3Proofs.
From Coq Require Import List Ascii Lia Arith.
Import ListNotations.
Open Scope list_scope. Open Scope nat_scope. Notation length := List.length.

Section P.
Context {V : Type}.
Variable read : kind -> str -> option V.
Notation opt := (opt V). Notation parser := (parser V). Notation word := (word V). Notation val := (val V). Notation state := (state V). Notation run := (run read). Notation setting := (@setting V).
Variable p : parser.
Hypothesis PR : proper p.

Lemma set_all_get l : NoDup (map fst l) -> forall (vals : list (str * val)) d, dict_get (set_all vals l) d = match dict_get l d with Some x => Some x | None => dict_get vals d end.
Proof.
  induction l as [|[k v] l IH]; intros N vals d; auto. cbn in N. inversion N; subst. cbn [set_all]. rewrite (IH H2), dict_get_set. cbn [dict_get]. destruct (str_eq_dec k d) as [->|]; [|reflexivity].
  destruct (dict_get l d) eqn:E; auto. exfalso. apply H1. apply get_in in E. apply in_map_iff. exists (d, v0). auto.
Qed.
Lemma shared_keys args (l : list (str * val)) : shared (p_positionals p) args l -> NoDup (map fst l) /\ forall o, In o (p_options p) -> dict_get l (o_dest o) = None.
Proof.
  intros H. destruct (shared_length _ _ _ H) as (_ & _ & E). pose proof (proper_dests _ PR) as N. rewrite <- E in N. split; [apply (nodup_right _ _ N)|]. intros o I. destruct (dict_get l (o_dest o)) as [v|] eqn:G; auto. exfalso. apply get_in in G.
  apply (nodup_apart _ _ (o_dest o) N); [apply in_map; auto|apply in_map_iff; exists (o_dest o, v); auto].
Qed.
Lemma inv_args done vals (l : list (str * val)) args : inv read p [] done vals -> shared (p_positionals p) args l -> inv read p l done (set_all vals l).
Proof.
  intros H S d. destruct (shared_keys _ _ S) as [N _]. rewrite (set_all_get l N). destruct (dict_get l d) as [x|] eqn:E; [left; eauto|]. right. split; auto. destruct (H d) as [(x & A & _)|[_ A]]; [discriminate|exact A].
Qed.
Lemma inv_becomes (l : list (str * val)) done vals d : inv read p l done vals -> NoDup (map fst l) -> becomes read p done l d (dict_get vals d).
Proof.
  intros H N. destruct (H d) as [(x & A & B)|[A B]].
  - left. exists x. split; auto. apply get_in; auto.
  - right. split; [intros x I; apply (in_get _ _ _ N) in I; congruence|]. destruct B as [B|(b & s & a & x & B)]; [left; exact B|right; exists b, s, a, x; exact B].
Qed.
Lemma leading_app (args : list str) (ks : list word) : no_arg ks -> leading (map Arg args ++ ks) = args.
Proof. intros H. induction args as [|a args IH]; cbn; [destruct ks as [|[]]; auto; destruct H|rewrite IH; auto]. Qed.
Definition outcome_of (before after : list setting) (args : list str) : outcome V :=
  match apply_all read before (mkState (defaults p) []) with
  | Stop r => r
  | Next st =>
    let i := Nat.min (length (p_positionals p)) (length args) in
    match distribute (firstn i (p_positionals p)) args st with
    | (Stop r, _) => r
    | (Next st, rest) =>
      match apply_all read after (mkState (s_values st) (s_extras st ++ rest)) with
      | Stop r => r
      | Next st => match skipn i (p_positionals p), s_extras st with [], [] => Parsed (s_values st) | _, _ => Refused end
      end
    end
  end.
Lemma parse_outcome before after args wb wa : spelled_all p before wb -> spelled_all p after wa -> Forall (plain p) args -> args = [] \/ ends_bare before = false ->
  parse_words read p (wb ++ args ++ wa) = outcome_of before after args.
Proof.
  intros B A PL EB. destruct (spelled_shapes p PR _ _ B) as (kb & Eb & Sb & _). destruct (spelled_shapes p PR _ _ A) as (ka & Ea & Sa & _).
  assert (EC : classify_all p (wb ++ args ++ wa) = Ok (kb ++ map Arg args ++ ka)). { apply classify_app; auto. apply classify_app; auto. apply classify_args; auto. }
  assert (NA : no_arg ka). { rewrite <- (app_nil_r ka). apply (shapes_no_arg after); [exact Sa|exact I]. }
  unfold parse_words. rewrite EC. unfold outcome_of.
  destruct (run_settings read p before kb Sb (map Arg args ++ ka) (p_positionals p) (mkState (defaults p) []) (S (length (kb ++ map Arg args ++ ka)))) as (f1 & L1 & E1); [|lia|].
  { intros X. destruct EB as [-> |EB]; [exact NA|congruence]. }
  rewrite E1. destruct (apply_all read before _) as [st|r]; auto.
  assert (FIN : forall ps st fuel, S (length ka) <= fuel -> run fuel p ka ps st = match apply_all read after st with Stop r => r | Next st => match ps, s_extras st with [], [] => Parsed (s_values st) | _, _ => Refused end end).
  { intros ps st0 fuel L. destruct (run_settings read p after ka Sa [] ps st0 fuel) as (f2 & L2 & E2); [intros; exact I|rewrite app_nil_r; auto|]. rewrite app_nil_r in E2. rewrite E2. destruct (apply_all read after st0) as [st'|r']; auto. destruct f2 as [|f2]; [cbn in L2; lia|]. reflexivity. }
  destruct args as [|a args].
  - cbn [map app] in *. rewrite FIN by auto. cbn [length]. rewrite Nat.min_0_r. cbn [firstn skipn distribute]. rewrite app_nil_r. destruct st as [vals ex]. reflexivity.
  - destruct f1 as [|f1]; [lia|]. cbn [OptModel.run map app]. change (leading (Arg a :: map Arg args ++ ka)) with (leading (map Arg (a :: args) ++ ka)). rewrite (leading_app (a :: args) ka NA).
    destruct (distribute _ (a :: args) st) as [[st'|r] rest]; auto.
    replace (skipn (length (a :: args)) (Arg a :: map Arg args ++ ka)) with ka.
    2: { change (Arg a :: map Arg args ++ ka) with (map Arg (a :: args) ++ ka). rewrite skipn_app, map_length, Nat.sub_diag. rewrite skipn_all2 by (rewrite map_length; auto). reflexivity. }
    apply FIN. rewrite app_length, map_length in L1. cbn [length] in L1. lia.
Qed.
Lemma apply_app a : forall b st, apply_all read (a ++ b) st = match apply_all read a st with Next st => apply_all read b st | Stop r => Stop r end.
Proof. induction a as [|s a IH]; intros b st; auto. cbn [app apply_all]. destruct (take read (option_of s) (text_of s) st); auto. Qed.
Lemma inv_start : inv read p [] [] (defaults p).
Proof. intros d. right. split; auto. left. split; [intros s []|]. apply (default_get p PR). Qed.
Lemma spelled_well ss ws : spelled_all p ss ws -> Forall (well p) ss.
Proof. intros H. destruct (spelled_shapes p PR _ _ H) as (k & _ & _ & W). exact W. Qed.
Lemma ends_bare_iff (ss : list setting) : (forall b o, ss <> b ++ [Bare o]) -> ends_bare ss = false.
Proof.
  intros H. unfold ends_bare. destruct (rev ss) as [|s l] eqn:E; auto. apply (f_equal (@rev _)) in E. rewrite rev_involutive in E. cbn in E. destruct s; auto. exfalso. apply (H (rev l) o). exact E.
Qed.
Theorem parse_accepts before after args wb wa (l : list (str * val)) : spelled_all p before wb -> spelled_all p after wa -> Forall (plain p) args -> args = [] \/ (forall b o, before <> b ++ [Bare o]) ->
  Forall not_help (before ++ after) -> Forall (understood read) (before ++ after) -> compatible (before ++ after) -> shared (p_positionals p) args l ->
  exists ns, parse_words read p (wb ++ args ++ wa) = Parsed ns /\ forall d, becomes read p (before ++ after) l d (dict_get ns d).
Proof.
  intros B A PL EB NH U C SH. rewrite (parse_outcome before after args wb wa B A PL) by (destruct EB as [->|EB]; [auto|right; apply ends_bare_iff; exact EB]).
  apply Forall_app in NH. destruct NH as [NH1 NH2]. pose proof U as U0. apply Forall_app in U. destruct U as [U1 U2]. unfold outcome_of.
  pose proof (apply_spec read p PR [] [] ltac:(reflexivity) before [] (defaults p) inv_start ltac:(constructor) (spelled_well _ _ B) NH1 ltac:(intros ? ? [])) as S1. cbn [app] in S1.
  assert (C1 : compatible before). { intros s s' I J. apply C; apply in_app_iff; auto. }
  destruct (apply_all read before _) as [[v1 e1]|r]; [|destruct S1 as [_ X]; exfalso; apply X; auto]. cbn [s_extras s_values] in S1. destruct S1 as (-> & I1 & _).
  destruct (shared_length _ _ _ SH) as (LE & _). rewrite Nat.min_l by exact LE. rewrite firstn_all, skipn_all, (distribute_shared _ _ _ SH (proper_many _ PR)). cbn [s_values s_extras app].
  destruct (shared_keys _ _ SH) as [NK NO].
  pose proof (apply_spec read p PR l [] NO after before (set_all v1 l) (inv_args _ _ _ _ I1 SH) (spelled_well _ _ B) (spelled_well _ _ A) NH2 C1) as S2.
  destruct (apply_all read after _) as [[v2 e2]|r]; [|destruct S2 as [_ X]; exfalso; apply X; auto]. cbn [s_extras s_values] in *. destruct S2 as (-> & I2 & _). exists v2. split; auto. intros d. apply inv_becomes; auto.
Qed.
Theorem parse_refuses before after args wb wa : spelled_all p before wb -> spelled_all p after wa -> Forall (plain p) args -> args = [] \/ (forall b o, before <> b ++ [Bare o]) ->
  Forall not_help (before ++ after) -> ~ (Forall (understood read) (before ++ after) /\ compatible (before ++ after) /\ exists l : list (str * val), shared (p_positionals p) args l) ->
  parse_words read p (wb ++ args ++ wa) = Refused.
Proof.
  intros B A PL EB NH BAD. rewrite (parse_outcome before after args wb wa B A PL) by (destruct EB as [->|EB]; [auto|right; apply ends_bare_iff; exact EB]).
  apply Forall_app in NH. destruct NH as [NH1 NH2]. unfold outcome_of.
  pose proof (apply_spec read p PR [] [] ltac:(reflexivity) before [] (defaults p) inv_start ltac:(constructor) (spelled_well _ _ B) NH1 ltac:(intros ? ? [])) as S1. cbn [app] in S1.
  destruct (apply_all read before _) as [[v1 e1]|r]; [|destruct S1; auto]. cbn [s_extras s_values] in S1. destruct S1 as (-> & I1 & U1 & C1).
  destruct (distribute_next (firstn (Nat.min (length (p_positionals p)) (length args)) (p_positionals p)) args (mkState v1 [])) as (st' & rest & D & EX). rewrite D. cbn [s_extras] in EX. rewrite EX. cbn [app].
  assert (CASE : (skipn (Nat.min (length (p_positionals p)) (length args)) (p_positionals p) <> [] \/ rest <> []) \/ exists l : list (str * val), shared (p_positionals p) args l /\ st' = mkState (set_all v1 l) []).
  { destruct (le_lt_dec (length (p_positionals p)) (length args)) as [LE|GT].
    - rewrite Nat.min_l in * by exact LE. rewrite firstn_all in D. destruct rest as [|x rest]; [right|left; right; discriminate]. destruct (distribute_all _ (proper_many _ PR) _ _ _ LE D) as (l & SH). exists l. split; auto.
      rewrite (distribute_shared _ _ _ SH (proper_many _ PR)) in D. injection D as <-. reflexivity.
    - left. left. rewrite Nat.min_r by lia. intros E. apply (f_equal (@length _)) in E. rewrite skipn_length in E. cbn in E. lia. }
  destruct CASE as [X|(l & SH & ->)].
  - assert (EXR : forall ss st st', apply_all read ss st = Next st' -> s_extras st' = s_extras st).
    { clear. induction ss as [|s ss IH]; intros st st' E; cbn in E; [injection E as <-; auto|]. destruct (take read (option_of s) (text_of s) st) as [st1|] eqn:T; [|discriminate]. rewrite (IH _ _ E). clear -T. unfold take in T. destruct (excluded _ _); [discriminate|]. unfold set_value in T.
      destruct (o_act (option_of s)); try (injection T as <-; reflexivity); try discriminate; (destruct (text_of s); [injection T as <-; reflexivity|]; destruct (convert read _ _); [injection T as <-; reflexivity|discriminate]). }
    destruct (apply_all read after (mkState (s_values st') rest)) as [st2|r] eqn:A2.
    + apply EXR in A2. cbn in A2. rewrite A2. destruct X as [X|X]; [destruct (skipn _ _); [congruence|reflexivity]|]. destruct (skipn _ _); auto. destruct rest; [congruence|reflexivity].
    + (* the settings after stop: an error *)
      assert (R : forall ss st r, Forall not_help ss -> apply_all read ss st = Stop r -> r = Refused).
      { clear. induction ss as [|s ss IH]; intros st r N E; cbn in E; [discriminate|]. inversion N as [|? ? N1 N2]; subst. destruct (take read (option_of s) (text_of s) st) as [st1|r1] eqn:T; [eapply IH; eauto|]. injection E as <-. clear -T N1. unfold take in T. destruct (excluded _ _); [congruence|]. unfold set_value in T. unfold not_help in N1.
        destruct (o_act (option_of s)); try congruence; (destruct (text_of s); [congruence|]; destruct (convert read _ _); congruence). }
      eapply R; eauto.
  - cbn [s_values]. destruct (shared_keys _ _ SH) as [NK NO].
    pose proof (distribute_next [] [] (mkState (set_all v1 l) [])) as _.
    assert (rest = []). { destruct (shared_length _ _ _ SH) as (LE & _). rewrite Nat.min_l in D by exact LE. rewrite firstn_all, (distribute_shared _ _ _ SH (proper_many _ PR)) in D. injection D as <-. reflexivity. } subst rest.
    pose proof (apply_spec read p PR l [] NO after before (set_all v1 l) (inv_args _ _ _ _ I1 SH) (spelled_well _ _ B) (spelled_well _ _ A) NH2 C1) as S2.
    destruct (apply_all read after _) as [[v2 e2]|r]; [|destruct S2; auto]. exfalso. destruct S2 as (_ & _ & U2 & C2). apply BAD. split; [apply Forall_app; auto|]. eauto.
Qed.
End P.
