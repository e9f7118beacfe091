From Coq Require Import String.
From Verif Require Import Base PyStr FileListModel FileListProofs ProdModel ProdProofs OptModel OptSpec OptProofs.
From Coq Require Import List Ascii Lia Arith.
Import ListNotations.
Open Scope list_scope. Open Scope nat_scope. Notation length := List.length.

Section P.
Context {V : Type}.
Variable read : kind -> str -> option V.
Notation opt := (opt V). Notation parser := (parser V). Notation word := (word V). Notation val := (val V). Notation state := (state V). Notation take := (take read). Notation run := (run read). Notation setting := (@setting V).
Variable p : parser.
Hypothesis PR : proper p.

(** *** arguments *)
Lemma digit_range c : digit c -> (48 <=? nat_of_ascii c) && (nat_of_ascii c <=? 57) = true.
Proof. unfold digit. cbn. intros H. repeat (destruct H as [<-|H]; [reflexivity|]). destruct H. Qed.
Lemma digits_all n : n <> [] -> Forall digit n -> digits n = true.
Proof. intros N F. destruct n; [congruence|]. unfold digits. apply forallb_forall. intros c I. rewrite Forall_forall in F. apply digit_range, F, I. Qed.
Lemma decimals_all n f : Forall digit n -> f <> [] -> Forall digit f -> decimals (n ++ "."%char :: f) = true.
Proof.
  intros N F1 F2. induction N as [|c n C N IH]; cbn [app decimals].
  - destruct (ascii_dec "." "."); [|congruence]. apply digits_all; auto.
  - destruct (ascii_dec c "."); [subst; exfalso; cbn in C; repeat (destruct C as [C|C]; [discriminate|]); destruct C|]. rewrite (digit_range c C), IH. reflexivity.
Qed.
Lemma minus_negative w : minus_number w -> negative_number w = true.
Proof.
  intros [(n & -> & N & F)|(n & f & -> & N & F1 & F2)]; unfold negative_number; [rewrite digits_all; auto|]. rewrite (decimals_all n f N F1 F2). apply orb_true_r.
Qed.
Lemma not_dash {A} c (a b : A) : c <> "-"%char -> (match c with "-"%char => a | _ => b end) = b.
Proof. intros C. destruct c as [[] [] [] [] [] [] [] []]; try reflexivity. exfalso. apply C. reflexivity. Qed.
Lemma range_digit c : (48 <=? nat_of_ascii c) && (nat_of_ascii c <=? 57) = true -> digit c.
Proof. intros H. unfold digit. destruct c as [[] [] [] [] [] [] [] []]; try discriminate H; cbn; tauto. Qed.
Lemma all_digits n : digits n = true -> n <> [] /\ Forall digit n.
Proof. intros H. destruct n as [|c n]; [discriminate|]. split; [discriminate|]. unfold digits in H. rewrite forallb_forall in H. apply Forall_forall. intros d I. apply range_digit, H, I. Qed.
Lemma all_decimals s : decimals s = true -> exists n f, s = n ++ "."%char :: f /\ Forall digit n /\ f <> [] /\ Forall digit f.
Proof.
  induction s as [|c s IH]; intros H; [discriminate|]. cbn [decimals] in H. destruct (ascii_dec c ".") as [->|N].
  - destruct (all_digits s H) as [A B]. exists [], s. repeat split; auto.
  - apply andb_true_iff in H. destruct H as [C D]. destruct (IH D) as (n & f & -> & A & B). exists (c :: n), f. split; [reflexivity|]. split; [constructor; [apply range_digit; exact C|exact A]|exact B].
Qed.
Lemma negative_minus w : negative_number w = true -> minus_number w.
Proof.
  destruct w as [|a w]; [discriminate|]. intros H. destruct (ascii_dec a "-") as [->|N]; [|unfold negative_number in H; rewrite not_dash in H by exact N; discriminate]. unfold negative_number in H. apply orb_true_iff in H. destruct H as [H|H].
  - left. exists w. destruct (all_digits w H). auto.
  - right. destruct (all_decimals w H) as (n & f & -> & K). exists n, f. auto.
Qed.
Lemma classify_short c rest : c <> "-"%char -> (forall o, ~ option_named p ["-"%char; c] o) ->
  classify p ("-"%char :: c :: rest) = (if negative_number ("-"%char :: c :: rest) then Ok (Arg ("-"%char :: c :: rest)) else if has_char " " ("-"%char :: c :: rest) then Ok (Arg ("-"%char :: c :: rest)) else Ok (Unknown ("-"%char :: c :: rest))).
Proof.
  intros C NO.
  assert (NN : forall l r o, option_named p l o -> "-"%char :: c :: rest = l ++ r -> False).
  { intros l r o N E. destruct (proper_names _ PR _ _ N) as [(d & -> & D)|(d & q & -> & _)]; injection E; intros; subst; [eapply NO; eauto|congruence]. }
  assert (F : find_option p ("-"%char :: c :: rest) = None). { apply (find_none_iff p PR). intros o N. apply (NN _ [] o N). rewrite app_nil_r. reflexivity. }
  assert (D : str_eqb ("-"%char :: c :: rest) (lit "--") = false). { destruct (str_eqb _ _) eqn:Q; auto. apply eqb_iff in Q. injection Q; congruence. }
  assert (CUT : forall s l r, cut_eq s = Some (l, r) -> s = l ++ "="%char :: r).
  { induction s as [|a s IH]; intros l r E; [discriminate|]. cbn [cut_eq] in E. destruct (ascii_dec a "="); [injection E as <- <-; subst; reflexivity|]. destruct (cut_eq s) as [[l' r']|]; [|discriminate]. injection E as <- <-. rewrite (IH _ _ eq_refl). reflexivity. }
  assert (CU : match cut_eq ("-"%char :: c :: rest) with Some (l, r) => option_map (fun o => Known o l (Some r)) (find_option p l) | None => None end = None).
  { destruct (cut_eq ("-"%char :: c :: rest)) as [[l r]|] eqn:E; auto. apply CUT in E. replace (find_option p l) with (@None opt); auto. symmetry. apply (find_none_iff p PR). intros o N. apply (NN _ _ _ N E). }
  assert (T : option_tuples p ("-"%char :: c :: rest) = []).
  { unfold option_tuples. rewrite not_dash by exact C. apply flat_map_nil. intros [n o] I. cbn [fst snd]. apply in_spellings in I. destruct (str_eqb n ["-"%char; c]) eqn:E1; [apply eqb_iff in E1; subst; destruct (NO _ I)|].
    destruct (starts_with _ n) eqn:E2; auto. apply (starts_short p PR) in E2; eauto. subst. destruct (NO _ I). }
  unfold classify. rewrite F, D, CU, T. reflexivity.
Qed.
Lemma has_blank w : In " "%char w -> has_char " " w = true.
Proof. intros K. unfold has_char. apply existsb_exists. exists " "%char. split; auto. Qed.
Lemma classify_plain w : plain p w -> classify p w = Ok (Arg w).
Proof.
  intros [H|[->|(c & rest & -> & C & NO & K)]].
  - destruct w as [|c w]; auto. unfold classify. apply not_dash. intros ->. apply (H w). reflexivity.
  - unfold classify. cbn [lit list_ascii_of_string]. replace (find_option p ["-"%char]) with (@None opt); auto. symmetry. apply (find_none_iff p PR). intros o N. destruct (proper_names _ PR _ _ N) as [(d & E & _)|(d & q & E & _)]; discriminate E.
  - rewrite (classify_short c rest C NO). destruct K as [K|K]; [rewrite (minus_negative _ K); reflexivity|]. rewrite (has_blank _ K). destruct (negative_number _); reflexivity.
Qed.
Lemma classify_stray_short w : stray_short p w -> classify p w = Ok (Unknown w).
Proof.
  intros (c & rest & -> & C & NO & K & B). rewrite (classify_short c rest C NO). destruct (negative_number _) eqn:N; [destruct (K (negative_minus _ N))|]. destruct (has_char _ _) eqn:H; auto. exfalso. apply B.
  unfold has_char in H. apply existsb_exists in H. destruct H as (x & I & E). destruct (ascii_dec x " "); [subst; exact I|discriminate].
Qed.
Lemma classify_args args : Forall (plain p) args -> classify_all p args = Ok (map Arg args).
Proof. induction 1 as [|a l A F IH]; auto. cbn [classify_all map]. rewrite (classify_plain a A). cbn [bind]. rewrite IH. reflexivity. Qed.
Lemma classify_app a b ka kb : classify_all p a = Ok ka -> classify_all p b = Ok kb -> classify_all p (a ++ b) = Ok (ka ++ kb).
Proof.
  revert ka. induction a as [|w a IH]; intros ka A B; cbn [classify_all app] in *; [injection A as <-; exact B|]. destruct (classify p w); [|discriminate]. cbn [bind] in *. destruct (classify_all p a) as [ks|]; [|discriminate]. cbn [bind] in A. injection A as <-. rewrite (IH ks eq_refl B). reflexivity.
Qed.

(** *** settings *)
Definition text_of (s : setting) : list str := match s with Give _ t => [t] | _ => [] end.
Inductive shape : setting -> list word -> Prop :=
| shape_turn o n : ~ texts o -> shape (Turn o) [Known o n None]
| shape_bare o n : o_act o = Perhaps -> shape (Bare o) [Known o n None]
| shape_two o n t : texts o -> shape (Give o t) [Known o n None; Arg t]
| shape_one o n t : texts o -> shape (Give o t) [Known o n (Some t)].
Definition well (s : setting) : Prop := In (option_of s) (p_options p) /\ match s with Turn o => ~ texts o | Give o _ => texts o | Bare o => o_act o = Perhaps end.
Lemma called_in n o : called p n o -> In o (p_options p).
Proof. intros [[H _]|(_ & _ & r & [H _] & _)]; auto. Qed.
Lemma spelled_shape s ws : spelled p s ws -> exists ks, classify_all p ws = Ok ks /\ shape s ks /\ well s.
Proof.
  intros H. destruct H as [o n C T|o n C T|o n t C T PL|o n t C T|o c t N T T0 TE].
  - destruct (classify_called p PR n o C) as (full & E). exists [Known o full None]. cbn. rewrite E. split; auto. split; [constructor; auto|]. split; auto. eapply called_in; eauto.
  - destruct (classify_called p PR n o C) as (full & E). exists [Known o full None]. cbn. rewrite E. split; auto. split; [constructor; auto|]. split; auto. eapply called_in; eauto.
  - destruct (classify_called p PR n o C) as (full & E). exists [Known o full None; Arg t]. cbn [classify_all]. rewrite E. cbn [bind]. rewrite (classify_plain t PL). split; auto. split; [constructor; auto|]. split; auto. eapply called_in; eauto.
  - destruct (classify_equals p PR n o t C) as (full & E). exists [Known o full (Some t)]. cbn [classify_all]. rewrite E. split; auto. split; [constructor; auto|]. split; auto. eapply called_in; eauto.
  - pose proof (classify_joined p PR c o t N T0 TE) as E. exists [Known o ["-"%char; c] (Some t)]. cbn [classify_all]. rewrite E. split; auto. split; [constructor; auto|]. split; auto. destruct N; auto.
Qed.
Inductive shapes : list setting -> list word -> Prop :=
| shapes_nil : shapes [] []
| shapes_cons s ss ks ks' : shape s ks -> shapes ss ks' -> shapes (s :: ss) (ks ++ ks').
Lemma spelled_shapes ss ws : spelled_all p ss ws -> exists ks, classify_all p ws = Ok ks /\ shapes ss ks /\ Forall well ss.
Proof.
  induction 1 as [|s ss ws ws' H F IH]; [exists []; repeat split; constructor|]. destruct IH as (ks' & E' & S' & W'). destruct (spelled_shape s ws H) as (ks & E & S1 & W). exists (ks ++ ks'). split; [apply classify_app; auto|]. split; constructor; auto.
Qed.
Fixpoint apply_all (ss : list setting) (st : state) : taken V :=
  match ss with [] => Next st | s :: ss => match take (option_of s) (text_of s) st with Next st => apply_all ss st | Stop r => Stop r end end.
Definition no_arg (ks : list word) : Prop := match ks with Arg _ :: _ => False | _ => True end.
Lemma shapes_no_arg ss ks rest : shapes ss ks -> no_arg rest -> no_arg (ks ++ rest).
Proof. intros S R0. destruct S as [|s ss k ks H S]; auto. destruct H; exact I. Qed.
Lemma run_one s ks rest ps st fuel : shape s ks -> (match s with Bare _ => no_arg rest | _ => True end) -> S (length (ks ++ rest)) <= fuel ->
  exists fuel', S (length rest) <= fuel' /\ run fuel p (ks ++ rest) ps st = match take (option_of s) (text_of s) st with Next st => run fuel' p rest ps st | Stop r => r end.
Proof.
  intros H B F. destruct fuel as [|fuel]; [lia|]. exists fuel. destruct H as [o n T|o n T|o n t T|o n t T]; cbn [app length] in F; (split; [lia|]); cbn [app OptModel.run].
  - replace (follow o rest) with (Some ([(o, @nil str)], rest)). { cbn [take_all]. cbn [option_of text_of]. destruct (take o [] st); reflexivity. } unfold follow, texts in *. destruct (o_act o); try reflexivity; exfalso; apply T; auto.
  - replace (follow o rest) with (Some ([(o, @nil str)], rest)). { cbn [take_all]. cbn [option_of text_of]. destruct (take o [] st); reflexivity. } unfold follow. rewrite T. destruct rest as [|[]]; try reflexivity. destruct B.
  - replace (follow o (Arg t :: rest)) with (Some ([(o, [t])], rest)). { cbn [take_all]. cbn [option_of text_of]. destruct (take o [t] st); reflexivity. } unfold follow. destruct T as [-> | ->]; reflexivity.
  - replace (attached_to p o n t rest) with (Some ([(o, [t])], rest)). { cbn [take_all]. cbn [option_of text_of]. destruct (take o [t] st); reflexivity. } unfold attached_to, takes_text. destruct t; destruct T as [-> | ->]; reflexivity.
Qed.
Definition is_bare (s : setting) : bool := match s with Bare _ => true | _ => false end.
Definition ends_bare (ss : list setting) : bool := match rev ss with s :: _ => is_bare s | [] => false end.
Lemma ends_cons s ss : ss <> [] -> ends_bare (s :: ss) = ends_bare ss.
Proof. intros N. unfold ends_bare. cbn [rev]. destruct (rev ss) eqn:E; [|reflexivity]. apply (f_equal (@rev _)) in E. rewrite rev_involutive in E. cbn in E. congruence. Qed.
Lemma run_settings ss ks : shapes ss ks -> forall rest ps st fuel, (ends_bare ss = true -> no_arg rest) -> S (length (ks ++ rest)) <= fuel ->
  exists fuel', S (length rest) <= fuel' /\ run fuel p (ks ++ rest) ps st = match apply_all ss st with Next st => run fuel' p rest ps st | Stop r => r end.
Proof.
  induction 1 as [|s ss ks ks' H F IH]; intros rest ps st fuel B L; [exists fuel; auto|]. rewrite <- app_assoc in *.
  destruct (run_one s ks (ks' ++ rest) ps st fuel H) as (f1 & L1 & E1); auto.
  { destruct s as [o|o t|o]; auto. destruct ss as [|s' ss].
    - inversion F; subst. cbn [app]. apply B. reflexivity.
    - inversion F as [|? ? k1 k2 HS FS]; subst. destruct HS; exact I. }
  cbn [apply_all]. rewrite E1. destruct (take (option_of s) (text_of s) st) as [st'|r]; [|exists (S (length rest)); auto].
  apply IH; auto. intros EB. apply B. destruct ss; [discriminate EB|]. rewrite ends_cons by discriminate. exact EB.
Qed.
End P.
