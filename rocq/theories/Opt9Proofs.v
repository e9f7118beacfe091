From Coq Require Import String.
From Verif Require Import Base PyStr FileListModel FileListProofs ProdModel ProdProofs OptModel OptSpec OptProofs Opt2Proofs Opt3Proofs Opt4Proofs Opt5Proofs.
From Coq Require Import List Ascii Lia Arith.
Import ListNotations.
Open Scope list_scope. Open Scope nat_scope. Notation length := List.length.

(** *** an option without the text that it must have *)
Section P.
Context {V : Type}.
Variable read : kind -> str -> option V.
Notation opt := (opt V). Notation parser := (parser V). Notation word := (word V). Notation val := (val V). Notation state := (state V). Notation run := (run read). Notation setting := (@setting V).
Variable p : parser.
Hypothesis PR : proper p.

Definition at_most_one (ws ws' : list word) : Prop := ws' = ws \/ exists a, ws = Arg a :: ws'.
Lemma follow_one o ws l ws' : follow o ws = Some (l, ws') -> at_most_one ws ws'.
Proof. unfold follow, at_most_one. destruct (o_act o), ws as [|[] ws]; intros [= <- <-]; eauto. Qed.
Lemma attached_one o name text ws l ws' : attached_to p o name text ws = Some (l, ws') -> at_most_one ws ws'.
Proof.
  revert o name l ws'. induction text as [|c text IH]; intros o name l ws'; cbn [attached_to].
  - destruct (takes_text o); [intros [= <- <-]; left; auto|]. destruct name as [|? [|[[] [] [] [] [] [] [] []] ?]]; discriminate.
  - destruct (takes_text o); [intros [= <- <-]; left; auto|]. assert (G : forall X, match find_option p ["-"%char; c] with None => None | Some o2 => match text with [] => option_map (fun r : list (opt * list str) * list word => ((o, []) :: fst r, snd r)) (follow o2 ws) | _ => option_map (fun r : list (opt * list str) * list word => ((o, []) :: fst r, snd r)) (attached_to p o2 ["-"%char; c] text ws) end end = X -> X = Some (l, ws') -> at_most_one ws ws').
    { intros X <- E. destruct (find_option p ["-"%char; c]) as [o2|]; [|discriminate]. destruct text as [|c2 text].
      - destruct (follow o2 ws) as [[l2 w2]|] eqn:F; [|discriminate]. injection E as <- <-. cbn [snd]. apply (follow_one o2 ws l2); auto.
      - destruct (attached_to p o2 ["-"%char; c] (c2 :: text) ws) as [[l2 w2]|] eqn:F; [|discriminate]. injection E as <- <-. cbn [snd]. apply (IH o2 ["-"%char; c] l2); auto. }
    destruct name as [|? [|d ?]]; try (intros E; apply (G _ eq_refl E)). destruct d as [[] [] [] [] [] [] [] []]; try (intros E; apply (G _ eq_refl E)). discriminate.
Qed.
Section K.
Variables (o : opt) (full : str) (k2 : list word).
Hypothesis ONE : o_act o = One.
Hypothesis NA : no_arg k2.
Definition holds (ws : list word) : Prop := exists k1, ws = k1 ++ Known o full None :: k2.
Lemma holds_one ws ws' : at_most_one ws ws' -> holds ws -> holds ws'.
Proof. intros [->|(a & ->)] (k1 & E); [exists k1; exact E|]. destruct k1 as [|x k1]; [discriminate|]. injection E as _ E. exists k1. exact E. Qed.
Lemma holds_leading ws : holds ws -> holds (skipn (length (leading ws)) ws).
Proof.
  induction ws as [|w ws IH]; intros H; [destruct H as ([|] & E); discriminate|]. destruct w; try exact H. cbn. apply IH. apply (holds_one (Arg s :: ws) ws); [right; eauto|exact H].
Qed.
Lemma run_missing fuel : forall ws ps st, holds ws -> forall ns, run fuel p ws ps st <> Parsed ns.
Proof.
  induction fuel as [|fuel IH]; intros ws ps st H ns; cbn [OptModel.run]; [discriminate|]. destruct ws as [|[a|o' name attached|s] ws].
  - destruct H as ([|] & E); discriminate.
  - destruct (distribute_next (firstn (Nat.min (length ps) (length (leading (Arg a :: ws)))) ps) (leading (Arg a :: ws)) st) as (st' & rest & D & E). rewrite D. apply IH. apply holds_leading. exact H.
  - destruct H as ([|x k1] & E).
    + injection E as -> -> -> ->. unfold follow. rewrite ONE. destruct k2 as [|[] ?]; try discriminate. destruct NA.
    + injection E as _ E. assert (H : holds ws) by (exists k1; exact E).
      assert (K : forall l ws', match attached with Some t => attached_to p o' name t ws | None => follow o' ws end = Some (l, ws') -> holds ws').
      { intros l ws' E2. apply (holds_one ws); [|exact H]. destruct attached; [eapply attached_one; eauto|eapply follow_one; eauto]. }
      destruct (match attached with Some t => attached_to p o' name t ws | None => follow o' ws end) as [[l ws']|]; [|discriminate].
      destruct (take_all read l st) as [st'|r] eqn:T; [|apply (take_all_stop read _ _ _ T)]. apply IH. apply (K l ws' eq_refl).
  - apply IH. destruct H as ([|x k1] & E); [discriminate|]. injection E as _ E. exists k1. exact E.
Qed.
End K.
Theorem missing_text_refused before n o after wa w ns : called p n o -> o_act o = One -> spelled_all p after wa -> w = [] \/ after <> [] -> parse_words read p (before ++ n :: wa ++ w) <> Parsed ns.
Proof.
  intros C O S H. unfold parse_words. destruct (classify_all p (before ++ n :: wa ++ w)) as [ks|] eqn:E; [|discriminate].
  destruct (classify_called p PR n o C) as (full & K). destruct (spelled_shapes p PR _ _ S) as (ka & Ea & Sa & _).
  assert (SPLIT : forall a b l, classify_all p (a ++ b) = Ok l -> exists la lb, l = la ++ lb /\ classify_all p b = Ok lb).
  { clear. induction a as [|x a IH]; intros b l E; [exists [], l; auto|]. cbn in E. destruct (classify p x) as [k|]; [|discriminate]. cbn in E. destruct (classify_all p (a ++ b)) as [l'|] eqn:E'; [|discriminate]. cbn in E. injection E as <-. destruct (IH b l' E') as (la & lb & -> & F). exists (k :: la), lb. auto. }
  destruct (SPLIT _ _ _ E) as (la & lb & -> & F). cbn [classify_all] in F. rewrite K in F. cbn [bind] in F. destruct (classify_all p (wa ++ w)) as [l2|] eqn:E2; [|discriminate]. cbn [bind] in F. injection F as <-.
  apply (run_missing o full l2 O); [|exists la; reflexivity].
  assert (X : exists kw, classify_all p w = Ok kw) by (destruct (SPLIT _ _ _ E2) as (? & kw & _ & X); eauto). destruct X as (kw & X). rewrite (classify_app p wa w ka kw Ea X) in E2. injection E2 as <-.
  destruct H as [-> |N].
  - cbn in X. injection X as <-. apply (shapes_no_arg after); [exact Sa|exact I].
  - destruct Sa as [|? ? ? ? SH]; [congruence|]. destruct SH; exact I.
Qed.
End P.
