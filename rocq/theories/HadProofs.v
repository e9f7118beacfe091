(** Proofs for C86: dimensions of length one. *)
From Coq Require Import String.
From Verif Require Import Base PyStr QBase DateModel DateProofs FileListModel FileListProofs L3Model NcgModel NcgSpec NcgProofs Ncg2Proofs HadModel HadSpec.
From Coq Require Import List Lia.
Import ListNotations.
Open Scope string_scope. Open Scope list_scope. Open Scope nat_scope. Notation length := List.length.

Lemma longer_iff n : longer n = true <-> n <> 1.
Proof. unfold longer. rewrite Bool.negb_true_iff, Nat.eqb_neq. reflexivity. Qed.
Lemma longer_not n : longer n = false <-> n = 1.
Proof. unfold longer. rewrite Bool.negb_false_iff, Nat.eqb_eq. reflexivity. Qed.
Lemma drops_expand s : forall i j, drops_ones s i j -> i = expand s j /\ Forall2 (fun x n => x < n) j (kept s).
Proof.
  intros i j D. induction D as [|s i j D [E F]|n s x i j N L D [E F]]; [split; [reflexivity|constructor]| |].
  - split; [cbn; rewrite <- E; reflexivity|exact F].
  - apply longer_iff in N. cbn [expand kept filter]. rewrite N. split; [rewrite <- E; reflexivity|constructor; [exact L|exact F]].
Qed.
Lemma drops_ex s : forall i, Forall2 (fun x n => x < n) i s -> exists j, drops_ones s i j.
Proof.
  induction s as [|n s IH]; intros i F; inversion F as [|x ? i' ? L F']; subst; [exists []; constructor|]. destruct (IH _ F') as (j & D). destruct (Nat.eq_dec n 1) as [->|N]; [replace x with 0 by lia; exists j; constructor; exact D|exists (x :: j); apply keeps; auto].
Qed.
Lemma drops_back s : forall j, Forall2 (fun x n => x < n) j (kept s) -> exists i, Forall2 (fun x n => x < n) i s /\ drops_ones s i j.
Proof.
  induction s as [|n s IH]; intros j F; cbn [kept filter] in F; [inversion F; exists []; split; constructor|]. destruct (longer n) eqn:E.
  - inversion F as [|x ? j' ? L F']; subst. destruct (IH _ F') as (i & Fi & D). apply longer_iff in E. exists (x :: i). split; [constructor; auto|apply keeps; auto].
  - apply longer_not in E. subst n. destruct (IH _ F) as (i & Fi & D). exists (0 :: i). split; [constructor; [lia|exact Fi]|apply drops_one; exact D].
Qed.
(** the place of a dimension that stays *)
Lemma drops_nth s : forall i j, drops_ones s i j -> forall d n, nth_error s d = Some n -> n <> 1 -> nth_error j (new_number s d) = nth_error i d.
Proof.
  intros i j D. induction D as [|s i j D IH|m s x i j N L D IH]; intros d n H K; [destruct d; discriminate| |].
  - destruct d as [|d]; [injection H as <-; congruence|]. cbn [nth_error] in H |- *. exact (IH d n H K).
  - destruct d as [|d]; [reflexivity|]. cbn [nth_error] in H |- *. apply longer_iff in N. unfold new_number. cbn [firstn kept filter]. rewrite N. cbn [length nth_error]. exact (IH d n H K).
Qed.
Lemma drops_one_zero s : forall i j, drops_ones s i j -> forall d, nth_error s d = Some 1 -> nth_error i d = Some 0.
Proof. intros i j D. induction D as [|s i j D IH|m s x i j N L D IH]; intros [|d] H; try discriminate; cbn [nth_error] in *; [reflexivity|auto|congruence|auto]. Qed.
Lemma drops_len s : forall i j, drops_ones s i j -> length i = length s.
Proof. intros i j D. induction D; cbn; auto. Qed.
Lemma new_number_kept s : forall d n, nth_error s d = Some n -> n <> 1 -> nth_error (kept s) (new_number s d) = Some n.
Proof.
  induction s as [|m s IH]; intros [|d] n H K; try discriminate; cbn [nth_error] in H.
  - injection H as ->. apply longer_iff in K. unfold new_number. cbn [firstn kept filter length]. rewrite K. reflexivity.
  - unfold new_number. cbn [firstn kept filter]. destruct (longer m); cbn [length nth_error]; exact (IH d n H K).
Qed.
Lemma long_dims_nth s : forall ks d n, length ks = length s -> nth_error s d = Some n -> n <> 1 -> nth_error (long_dims s ks) (new_number s d) = nth_error ks d.
Proof.
  induction s as [|m s IH]; intros [|k ks] [|d] n L H K; try discriminate; cbn [nth_error] in H.
  - injection H as ->. apply longer_iff in K. unfold new_number. cbn [firstn kept filter length long_dims]. rewrite K. reflexivity.
  - injection L as L. unfold new_number. cbn [firstn kept filter long_dims]. destruct (longer m); cbn [length nth_error]; exact (IH ks d n L H K).
Qed.
Lemma scalars_in s : forall ks d k, length ks = length s -> nth_error s d = Some 1 -> nth_error ks d = Some (Some k) -> In (scalar_of k) (scalars s ks).
Proof.
  induction s as [|m s IH]; intros [|k' ks] [|d] k L H K; try discriminate; cbn [nth_error] in H, K; cbn [scalars]; apply in_or_app.
  - injection H as ->. injection K as ->. left. left. reflexivity.
  - right. injection L as L. exact (IH ks d k L H K).
Qed.
(** auxiliary coordinates: the index of the dimensions that stay, expanded, is the index *)
Lemma aux_index shape i j ds : forall sh, drops_ones shape i j -> Forall2 (fun d n => nth_error shape d = Some n) ds sh ->
  expand sh (map (fun d => nth d j 0) (map (new_number shape) (filter (fun d => longer (nth d shape 1)) ds))) = map (fun d => nth d i 0) ds.
Proof.
  intros sh D F. induction F as [|d n ds sh H F IH]; [reflexivity|]. cbn [filter map expand]. rewrite (nth_error_nth _ _ 1 H). destruct (longer n) eqn:E.
  - apply longer_iff in E. cbn [map]. rewrite IH. f_equal. pose proof (drops_nth _ _ _ D d n H E) as X.
    assert (Ld : d < length i) by (rewrite (drops_len _ _ _ D); apply nth_error_Some; congruence). destruct (nth_error i d) as [x|] eqn:Ei; [|apply nth_error_None in Ei; lia].
    rewrite (nth_error_nth _ _ 0 X), (nth_error_nth _ _ 0 Ei). reflexivity.
  - apply longer_not in E. subst n. rewrite IH. f_equal. symmetry. apply nth_error_nth. exact (drops_one_zero _ _ _ D d H).
Qed.
Lemma long_dims_length s : forall ks, length ks = length s -> length (long_dims s ks) = length (kept s).
Proof. unfold kept. induction s as [|n s IH]; intros [|k ks] L; cbn in L; try discriminate; [reflexivity|]. cbn [long_dims filter]. destruct (longer n); cbn [length]; rewrite IH by lia; reflexivity. Qed.
Lemma squeezed_fits shape ds sh : Forall2 (fun d n => nth_error shape d = Some n) ds sh ->
  Forall2 (fun d n => nth_error (kept shape) d = Some n) (map (new_number shape) (filter (fun d => longer (nth d shape 1)) ds)) (kept sh).
Proof.
  induction 1 as [|d n ds sh H F IH]; [constructor|]. unfold kept in *. cbn [filter]. rewrite (nth_error_nth _ _ 1 H). destruct (longer n) eqn:E; [|exact IH]. cbn [map]. constructor; [|exact IH]. apply new_number_kept; [exact H|]. apply longer_iff. exact E.
Qed.
Lemma scalars_fit s : forall ks a, In a (scalars s ks) -> x_dims a = [] /\ x_shape a = [].
Proof.
  induction s as [|n s IH]; intros [|k ks] a H; cbn [scalars] in H; try destruct H. apply in_app_or in H. destruct H as [H|H]; [|eapply IH; eauto]. destruct (longer n); [destruct H|]. destruct k; [|destruct H]. destruct H as [<-|[]]. auto.
Qed.
Lemma squeeze_ok c : well_shaped c -> squeezed c (squeeze c).
Proof.
  intros [L WA]. unfold squeezed. do 4 (split; [reflexivity|]). split; [|split; [|split]].
  - intros n H. cbn [squeeze q_shape kept] in H. apply filter_In in H. apply longer_iff. tauto.
  - split; [apply long_dims_length; exact L|]. cbn [squeeze q_aux]. apply Forall_app. split.
    + rewrite Forall_forall in *. intros a Ha. apply in_map_iff in Ha. destruct Ha as (b & <- & Hb). apply squeezed_fits, (WA b Hb).
    + apply Forall_forall. intros a Ha. apply scalars_fit in Ha. unfold aux_fits. destruct Ha as [-> ->]. constructor.
  - intros i Hi. destruct (drops_ex _ _ Hi) as (j & D). exists j. split; [exact D|]. destruct (drops_expand _ _ _ D) as [E F]. split; [exact F|]. split; [cbn [squeeze q_at]; rewrite <- E; reflexivity|].
    intros std long units x [(d & k & Hk & <- & <- & <- & p & Hp & Hx)|(a & Ha & <- & <- & <- & Hx)].
    + assert (Hs : exists n, nth_error (q_shape c) d = Some n). { destruct (nth_error (q_shape c) d) eqn:E1; [eauto|]. apply nth_error_None in E1. assert (d < length (q_dims c)) by (apply nth_error_Some; congruence). lia. }
      destruct Hs as (n & Hs). destruct (Nat.eq_dec n 1) as [->|N].
      * right. exists (scalar_of k). split; [cbn [squeeze q_aux]; apply in_or_app; right; eapply scalars_in; eauto|]. do 3 (split; [reflexivity|]). rewrite (drops_one_zero _ _ _ D d Hs) in Hp. injection Hp as <-. unfold aux_at, scalar_of. cbn [x_at]. exact Hx.
      * left. exists (new_number (q_shape c) d), k. split; [cbn [squeeze q_dims]; rewrite (long_dims_nth _ _ _ _ L Hs N); exact Hk|]. do 3 (split; [reflexivity|]). exists p. split; [rewrite (drops_nth _ _ _ D d n Hs N); exact Hp|exact Hx].
    + right. exists (squeeze_aux (q_shape c) a). split; [cbn [squeeze q_aux]; apply in_or_app; left; apply in_map; exact Ha|]. do 3 (split; [reflexivity|]). unfold aux_at, squeeze_aux. cbn [x_at x_dims].
      rewrite Forall_forall in WA. rewrite (aux_index _ _ _ _ _ D (WA a Ha)). exact Hx.
  - intros j Hj. apply drops_back in Hj. exact Hj.
Qed.
(** *** the history *)
Lemma has_get l n : (exists v, dict_get l n = Some v) <-> exists v : str, In (n, v) l.
Proof.
  induction l as [|[m w] l IH]; cbn [dict_get]; [split; intros (v & H); [discriminate|destruct H]|]. destruct (str_eq_dec m n) as [->|E].
  - split; [intros _; exists w; left; reflexivity|intros _; exists w; reflexivity].
  - rewrite IH. split; intros (v & H); exists v; [right; exact H|]. destruct H as [H|H]; [|exact H]. congruence.
Qed.
Lemma get_none l n : dict_get l n = None <-> ~ exists v : str, In (n, v) l.
Proof. rewrite <- has_get. destruct (dict_get l n); split; intros H; [discriminate|exfalso; eauto|intros (v & K); discriminate|reflexivity]. Qed.
Lemma drop_in n l m v : In (m, v) (drop n l) <-> In (m, v) l /\ m <> n.
Proof. unfold drop. rewrite filter_In. cbn [fst]. rewrite Bool.negb_true_iff. apply and_iff_compat_l. split; intros H; [intros ->; rewrite str_eqb_refl in H; discriminate|destruct (str_eqb m n) eqn:E; [apply str_eqb_eq in E; congruence|reflexivity]]. Qed.
Lemma stripped_ok c : well_shaped c -> has_attribute c "history" -> exists r, convsh_several c = Ok r /\ stripped c r.
Proof.
  intros W H. apply has_get in H. destruct H as (v & H). unfold convsh_several, pop. rewrite H. cbn [bind snd]. eexists. split; [reflexivity|]. split; [|intros n w; cbn [squeeze q_atts]; apply drop_in].
  pose proof (squeeze_ok c W) as S. exact S.
Qed.
Lemma history_missing c : ~ has_attribute c "history" -> convsh_several c = Raises KeyError.
Proof. intros H. apply get_none in H. unfold convsh_several, pop. rewrite H. reflexivity. Qed.
Lemma several_total c : (exists r, convsh_several c = Ok r) \/ convsh_several c = Raises KeyError.
Proof. unfold convsh_several, pop. destruct (dict_get _ _); [left; eexists; reflexivity|right; reflexivity]. Qed.
Lemma map_several_missing raw c : In c raw -> ~ has_attribute c "history" -> map_res convsh_several raw = Raises KeyError.
Proof.
  intros Hc N. induction raw as [|a raw IH]; [destruct Hc|]. cbn [map_res]. destruct (several_total a) as [(r & E)|E]; rewrite E; cbn [bind]; [|reflexivity].
  destruct Hc as [->|Hc]; [rewrite (history_missing _ N) in E; discriminate|]. rewrite (IH Hc). reflexivity.
Qed.
Lemma map_several_ok raw : Forall well_shaped raw -> Forall (fun c => has_attribute c "history") raw -> exists cs, map_res convsh_several raw = Ok cs /\ Forall2 stripped raw cs.
Proof.
  intros W H. induction raw as [|a raw IH]; [exists []; split; [reflexivity|constructor]|]. inversion W; subst. inversion H; subst. destruct IH as (cs & E & F); auto. destruct (stripped_ok a) as (r & Er & Sr); auto.
  exists (r :: cs). cbn [map_res]. rewrite Er. cbn [bind]. rewrite E. split; [reflexivity|constructor; auto].
Qed.
(** *** names *)
Lemma full_iff o : full o = true <-> exists s, nonempty_name o s.
Proof. unfold nonempty_name. destruct o as [[|x s]|]; cbn [full]; split; intros H; try discriminate; [destruct H as (s & E & N); congruence|exists (x :: s); split; [reflexivity|discriminate]|reflexivity|destruct H as (s & E & _); discriminate]. Qed.
Lemma not_full o : full o = false <-> no_name o.
Proof. unfold no_name. destruct o as [[|x s]|]; cbn [full]; split; intros H; auto; try discriminate. destruct H; discriminate. Qed.
Lemma name_cases std long var : (exists s, called std long var s /\ coord_name std long var = s) \/ (no_name std /\ no_name long /\ no_name var /\ coord_name std long var = lit "unknown").
Proof.
  unfold coord_name, called. destruct (full std) eqn:F1. { apply full_iff in F1. destruct F1 as (s & E & N). left. exists s. split; [left; split; auto|rewrite E; reflexivity]. } apply not_full in F1.
  destruct (full long) eqn:F2. { apply full_iff in F2. destruct F2 as (s & E & N). left. exists s. split; [right; left; split; [auto|split; auto]|rewrite E; reflexivity]. } apply not_full in F2.
  destruct (full var) eqn:F3. { apply full_iff in F3. destruct F3 as (s & E & N). left. exists s. split; [right; right; do 2 (split; [auto|]); split; auto|rewrite E; reflexivity]. } apply not_full in F3.
  right. auto.
Qed.
Lemma name_clash o s : no_name o -> nonempty_name o s -> False.
Proof. intros [E|E] [F N]; congruence. Qed.
Ltac clash := match goal with H : no_name ?o, K : nonempty_name ?o _ |- _ => exact (False_ind _ (name_clash _ _ H K)) end.
Lemma called_fun std long var s t : called std long var s -> called std long var t -> s = t.
Proof.
  intros [A|[[A0 A]|(A0 & A1 & A)]] [B|[[B0 B]|(B0 & B1 & B)]]; try clash; destruct A as [A _], B as [B _]; congruence.
Qed.
Lemma called_some std long var s : called std long var s -> ~ (no_name std /\ no_name long /\ no_name var).
Proof. intros [A|[[A0 A]|(A0 & A1 & A)]] (C1 & C2 & C3); clash. Qed.
Lemma called_iff std long var s : s <> lit "unknown" -> (str_eqb (coord_name std long var) s = true <-> called std long var s).
Proof.
  intros N. rewrite str_eqb_eq. destruct (name_cases std long var) as [(t & C & ->)|(A & B & C & ->)]; [split; [intros <-; exact C|intros D; eapply called_fun; eauto]|]. split; [intros E; congruence|intros D; exfalso; eapply called_some; eauto].
Qed.
Lemma cube_name_is c : cube_name c = coord_name (q_std c) (q_long c) (q_var c).
Proof. reflexivity. Qed.
Lemma name_is_iff c s : name_is c s <-> cube_name c = s.
Proof.
  rewrite cube_name_is. destruct (name_cases (q_std c) (q_long c) (q_var c)) as [(t & C & E)|(A & B & C & E)]; rewrite E; split.
  - intros [s' H|H1 H2 H3]; [eapply called_fun; eauto|exfalso; eapply called_some; eauto].
  - intros <-. apply a_name. exact C.
  - intros [s' H|H1 H2 H3]; [exfalso; eapply called_some; eauto|reflexivity].
  - intros <-. apply no_name_at_all; auto.
Qed.
Lemma names_ok loaded n : In n (convsh_names loaded) <-> exists c, In c loaded /\ name_is c n.
Proof. unfold convsh_names. rewrite nodup_In, in_map_iff. split; intros (c & A & B); exists c; [split; [exact B|apply name_is_iff; exact A]|split; [apply name_is_iff; exact B|exact A]]. Qed.
(** *** names in pp files *)
Lemma white_iff x : white x = true <-> In x white_space.
Proof.
  unfold white. rewrite existsb_exists. split; [intros (y & H & E); apply Ascii.eqb_eq in E; subst y; exact H|intros H; exists x; split; [exact H|apply Ascii.eqb_refl]].
Qed.
Lemma writable_iff s : var_name_ok s = true <-> writable s.
Proof.
  unfold writable. destruct s as [|x s]; [split; [discriminate|intros [H _]; congruence]|]. change (var_name_ok (x :: s)) with (negb (existsb white (x :: s))). rewrite Bool.negb_true_iff. split.
  - intros H. split; [discriminate|]. intros y Hy W. apply white_iff in W. assert (E : existsb white (x :: s) = true) by (apply existsb_exists; eauto). rewrite E in H. discriminate H.
  - intros [_ H]. destruct (existsb white (x :: s)) eqn:E; [|reflexivity]. apply existsb_exists in E. destruct E as (y & Hy & W). exfalso. apply (H y Hy). apply white_iff. exact W.
Qed.
Lemma blanks_ok s : underscored s (blanks s).
Proof. unfold underscored, blanks. induction s as [|x s IH]; [constructor|]. cbn [map]. constructor; [|exact IH]. destruct (Ascii.eqb x " ") eqn:E; [apply Ascii.eqb_eq in E; subst x; reflexivity|]. apply Ascii.eqb_neq in E. destruct (ascii_dec x " "); [contradiction|reflexivity]. Qed.
Lemma underscored_fun s : forall t u, underscored s t -> underscored s u -> t = u.
Proof. induction s as [|x s IH]; intros t u A B; inversion A; inversion B; subst; [reflexivity|]. f_equal. auto. Qed.
Lemma pp_ok several c : pp_cube several c (if several then pp_several c else pp_single c).
Proof.
  pose proof (proj2 (name_is_iff c (cube_name c)) eq_refl) as N. assert (D : var_name_ok (cube_name c) = false -> ~ writable (cube_name c)) by (intros E W; apply writable_iff in W; congruence).
  unfold pp_several, pp_single. destruct (var_name_ok (cube_name c)) eqn:E.
  - assert (X : pp_cube several c (with_var c (cube_name c))) by (eapply as_named; [exact N|apply writable_iff; exact E|reflexivity]). destruct several; exact X.
  - specialize (D eq_refl). destruct several; [eapply not_renamed; eauto|]. destruct (var_name_ok (blanks (cube_name c))) eqn:F.
    + eapply with_underscores; [reflexivity|exact N|exact D|apply blanks_ok|apply writable_iff; exact F|reflexivity].
    + eapply not_renamed; [exact N|exact D| |reflexivity]. right. intros t U W. rewrite (underscored_fun _ _ _ U (blanks_ok _)) in W. apply writable_iff in W. congruence.
Qed.
