From Coq Require Import String.
From Verif Require Import Base PyStr QBase FileListModel ParseModel ParseSpec DateModel ReModel ReProofs ArgsModel ArgsSpec ArgsProofs.
From Coq Require Import List.
Import ListNotations.
Open Scope string_scope. Open Scope list_scope. Open Scope nat_scope. Notation length := List.length.

Definition k0 : cont := fun _ g => Some g.
Definition close_re : re := Chr (is "]").
Definition delta_re : re := Seq (Opt (Seq (Chr (is ",")) (Group DELTA (Plus (isnt "]"))))) close_re.
Definition end_re : re := Seq (Opt (Seq (Chr (is ",")) (Group END (Plus value_char)))) delta_re.
Definition start_re : re := Seq (Opt (Group START (Plus value_char))) end_re.
Definition bracket_re : re := Seq (Chr (is "[")) start_re.

Lemma capture (w rest : str) : firstn (length (w ++ rest) - length rest) (w ++ rest) = w.
Proof. rewrite app_length, Nat.add_sub, firstn_app, Nat.sub_diag, firstn_all. simpl. apply app_nil_r. Qed.
(** a group of one or more characters, when shorter runs lead nowhere *)
Lemma group_run n p w rest g k : w <> [] -> Forall (fun c => p c = true) w -> stops p rest ->
  (forall u v g', w = u ++ v -> v <> [] -> k (v ++ rest) g' = None) ->
  matching (Group n (Plus p)) (w ++ rest) g k = k rest ((n, w) :: g).
Proof.
  intros NN F S Sh. destruct w as [|c w]; [congruence|]. inversion F; subst. cbn [matching app]. rewrite H1.
  rewrite run_greedy_only; auto.
  - pose proof (capture (c :: w) rest) as C. cbn [app] in C. rewrite C. auto.
  - intros u v Eq NV. apply (Sh (c :: u) v); auto. rewrite Eq. auto.
Qed.
Lemma group_run_max n p w rest g k x : w <> [] -> Forall (fun c => p c = true) w -> stops p rest -> k rest ((n, w) :: g) = Some x ->
  matching (Group n (Plus p)) (w ++ rest) g k = Some x.
Proof.
  intros NN F S K. destruct w as [|c w]; [congruence|]. inversion F; subst. cbn [matching app]. rewrite H1.
  apply run_greedy_max; auto. pose proof (capture (c :: w) rest) as C. cbn [app] in C. rewrite C. auto.
Qed.
Lemma group_run_none n p c s g k : p c = false -> matching (Group n (Plus p)) (c :: s) g k = None.
Proof. intros H. cbn [matching]. rewrite H. auto. Qed.

(** from the second comma on *)
Lemma delta_close rest g : matching delta_re ("]"%char :: rest) g k0 = Some g.
Proof. reflexivity. Qed.
Lemma delta_step c rest g : c <> [] -> ~ In "]"%char c -> matching delta_re (","%char :: c ++ "]"%char :: rest) g k0 = Some ((DELTA, c) :: g).
Proof.
  intros NN I. unfold delta_re.
  change (matching (Seq (Opt (Seq (Chr (is ",")) (Group DELTA (Plus (isnt "]"))))) close_re) (","%char :: c ++ "]"%char :: rest) g k0) with
    (match matching (Group DELTA (Plus (isnt "]"))) (c ++ "]"%char :: rest) g (fun s g => matching close_re s g k0) with
     | Some r => Some r | None => matching close_re (","%char :: c ++ "]"%char :: rest) g k0 end).
  rewrite (group_run_max _ _ _ _ _ _ ((DELTA, c) :: g)); auto; [apply isnt_run; auto|reflexivity].
Qed.
Lemma delta_empty rest g : matching delta_re (","%char :: "]"%char :: rest) g k0 = None.
Proof. reflexivity. Qed.
Lemma delta_other a s g : value_char a = true -> matching delta_re (a :: s) g k0 = None.
Proof.
  unfold value_char. rewrite andb_true_iff, !isnt_true. intros [A B]. unfold delta_re. cbn [matching close_re].
  unfold is. destruct (ascii_dec a ","); [congruence|]. destruct (ascii_dec a "]"); [congruence|]. auto.
Qed.
(** from the first comma on *)
Lemma end_close rest g : matching end_re ("]"%char :: rest) g k0 = Some g.
Proof. reflexivity. Qed.
Lemma end_value b x rest g : b <> [] -> Forall (fun c => value_char c = true) b -> value_char x = false ->
  matching end_re (","%char :: b ++ x :: rest) g k0 =
  match matching delta_re (x :: rest) ((END, b) :: g) k0 with Some r => Some r | None => matching delta_re (","%char :: b ++ x :: rest) g k0 end.
Proof.
  intros NN F V. unfold end_re at 1.
  change (matching (Seq (Opt (Seq (Chr (is ",")) (Group END (Plus value_char)))) delta_re) (","%char :: b ++ x :: rest) g k0) with
    (match matching (Group END (Plus value_char)) (b ++ x :: rest) g (fun s g => matching delta_re s g k0) with
     | Some r => Some r | None => matching delta_re (","%char :: b ++ x :: rest) g k0 end).
  rewrite group_run; auto. intros u v g' Eq NV. destruct v as [|y v]; [congruence|]. apply delta_other.
  rewrite Eq in F. apply Forall_app in F. destruct F as [_ F]. inversion F; auto.
Qed.
Lemma end_none x rest g : value_char x = false -> matching end_re (","%char :: x :: rest) g k0 = matching delta_re (","%char :: x :: rest) g k0.
Proof.
  intros V. unfold end_re at 1.
  change (matching (Seq (Opt (Seq (Chr (is ",")) (Group END (Plus value_char)))) delta_re) (","%char :: x :: rest) g k0) with
    (match matching (Group END (Plus value_char)) (x :: rest) g (fun s g => matching delta_re s g k0) with
     | Some r => Some r | None => matching delta_re (","%char :: x :: rest) g k0 end).
  rewrite group_run_none; auto.
Qed.
Lemma end_other a s g : value_char a = true -> matching end_re (a :: s) g k0 = None.
Proof.
  intros V. pose proof V as V'. unfold value_char in V. rewrite andb_true_iff, !isnt_true in V. destruct V as [A B]. unfold end_re.
  change (matching (Seq (Opt (Seq (Chr (is ",")) (Group END (Plus value_char)))) delta_re) (a :: s) g k0) with
    (match (if is "," a then matching (Group END (Plus value_char)) s g (fun s g => matching delta_re s g k0) else None) with
     | Some r => Some r | None => matching delta_re (a :: s) g k0 end).
  unfold is at 1. destruct (ascii_dec a ","); [congruence|]. apply delta_other; auto.
Qed.
Definition opt_group (n : nat) (a : str) (g : groups) : groups := match a with [] => g | _ => (n, a) :: g end.
Lemma start_value a x rest g : Forall (fun c => value_char c = true) a -> value_char x = false ->
  matching start_re (a ++ x :: rest) g k0 = matching end_re (x :: rest) (opt_group START a g) k0.
Proof.
  intros F V. unfold start_re.
  change (matching (Seq (Opt (Group START (Plus value_char))) end_re) (a ++ x :: rest) g k0) with
    (match matching (Group START (Plus value_char)) (a ++ x :: rest) g (fun s g => matching end_re s g k0) with
     | Some r => Some r | None => matching end_re (a ++ x :: rest) g k0 end).
  destruct a as [|c a].
  - cbn [app]. rewrite group_run_none by auto. auto.
  - assert (R : matching (Group START (Plus value_char)) ((c :: a) ++ x :: rest) g (fun s g => matching end_re s g k0) = matching end_re (x :: rest) ((START, c :: a) :: g) k0).
    { apply group_run; auto; [congruence|]. intros u v g' Eq NV. destruct v as [|y v]; [congruence|]. apply end_other.
      rewrite Eq in F. apply Forall_app in F. destruct F as [_ F]. inversion F; auto. }
    rewrite R. cbn [opt_group]. destruct (matching end_re (x :: rest) _ k0); auto. apply end_other. inversion F; auto.
Qed.

(** ** The text between the brackets *)
Inductive body_shape : str -> Prop :=
| bs_one a : ~ In ","%char a -> body_shape a
| bs_two a t : ~ In ","%char a -> ~ In ","%char t -> body_shape (a ++ ","%char :: t)
| bs_three a b c : ~ In ","%char a -> ~ In ","%char b -> body_shape (a ++ ","%char :: b ++ ","%char :: c).
Lemma first_comma s : ~ In ","%char s \/ exists a t, s = a ++ ","%char :: t /\ ~ In ","%char a.
Proof.
  induction s as [|c s IH]; [left; intros []|]. destruct (ascii_dec c ",") as [->|N].
  - right. exists [], s. auto.
  - destruct IH as [H|(a & t & -> & H)]; [left; intros [E|E]; congruence|]. right. exists (c :: a), t. split; auto. intros [E|E]; congruence.
Qed.
Lemma body_cases body : body_shape body.
Proof.
  destruct (first_comma body) as [H|(a & t & -> & H)]; [apply bs_one; auto|].
  destruct (first_comma t) as [H'|(b & c & -> & H')]; [apply bs_two; auto|apply bs_three; auto].
Qed.
Lemma value_of a : ~ In "]"%char a -> ~ In ","%char a -> Forall (fun c => value_char c = true) a.
Proof. intros. apply value_run. auto. Qed.
Definition bracket (body rest : str) (g : groups) : option groups := matching start_re (body ++ "]"%char :: rest) g k0.
Lemma bracket_one a rest g : ~ In "]"%char a -> ~ In ","%char a -> bracket a rest g = Some (opt_group START a g).
Proof. intros. unfold bracket. rewrite start_value; auto using value_of. Qed.
Lemma bracket_two a t rest g : ~ In "]"%char a -> ~ In ","%char a -> ~ In "]"%char t -> ~ In ","%char t -> 
  bracket (a ++ ","%char :: t) rest g = match t with [] => None | _ => Some ((END, t) :: opt_group START a g) end.
Proof.
  intros A1 A2 T1 T2. unfold bracket. rewrite <- app_assoc. cbn [app]. rewrite start_value by auto using value_of. destruct t as [|c t].
  - cbn [app]. rewrite end_none by auto. apply delta_empty.
  - rewrite end_value by (auto using value_of; congruence). rewrite delta_close. auto.
Qed.
Lemma bracket_three a b c rest g : ~ In "]"%char a -> ~ In ","%char a -> ~ In "]"%char b -> ~ In ","%char b -> ~ In "]"%char c -> 
  bracket (a ++ ","%char :: b ++ ","%char :: c) rest g =
    Some (match b, c with
          | _ :: _, _ :: _ => (DELTA, c) :: (END, b) :: opt_group START a g
          | _, _ => (DELTA, b ++ ","%char :: c) :: opt_group START a g end).
Proof.
  intros A1 A2 B1 B2 C1. unfold bracket. rewrite <- app_assoc. cbn [app]. rewrite <- app_assoc. cbn [app]. rewrite start_value by auto using value_of.
  destruct b as [|x b].
  - cbn [app]. rewrite end_none by auto. change (","%char :: c ++ "]"%char :: rest) with ((","%char :: c) ++ "]"%char :: rest).
    apply delta_step; [congruence|]. intros [E|E]; [discriminate|auto].
  - rewrite end_value by (auto using value_of; congruence). destruct c as [|y c].
    + change ([] ++ "]"%char :: rest) with ("]"%char :: rest). rewrite delta_empty.
      replace ((x :: b) ++ ","%char :: "]"%char :: rest) with (((x :: b) ++ [","%char]) ++ "]"%char :: rest) by (rewrite <- app_assoc; auto).
      apply delta_step; [discriminate|]. rewrite in_app_iff. intros [I|[I|[]]]; [auto|discriminate].
    + rewrite delta_step by (auto; congruence). auto.
Qed.
Lemma bracketed_unique body body' r : bracketed body r -> bracketed body' r -> body = body'.
Proof.
  intros (N & rest & ->) (N' & rest' & E). inversion E as [E']. apply (run_unique (isnt "]")) in E'; try reflexivity; [tauto| |]; apply isnt_run; auto.
Qed.
Lemma not_bracketed r g : (forall body, ~ bracketed body r) -> matching bracket_re r g k0 = None.
Proof.
  intros N. destruct (matching bracket_re r g k0) eqn:M; auto. exfalso. apply matching_sound in M. destruct M as (w & rest & g' & -> & A & _).
  unfold bracket_re, start_re, end_re, delta_re, close_re in A. invs. apply_is.
  match type of N with forall body, ~ bracketed body (([_] ++ ?s ++ ?e ++ ?d ++ _) ++ _) => apply (N (s ++ e ++ d)) end.
  split.
  - rewrite !in_app_iff. intros [I|[I|I]]; match goal with H : accepts (Opt _) ?w _ _ _, I : In _ ?w |- _ => inv H; [|destruct I] end; invs; apply_is.
    + match goal with F : Forall _ ?w, I : In _ ?w |- _ => apply value_run in F; tauto end.
    + destruct I as [I|I]; [discriminate|]. match goal with F : Forall _ ?w, I : In _ ?w |- _ => apply value_run in F; tauto end.
    + destruct I as [I|I]; [discriminate|]. match goal with F : Forall (fun c => isnt "]" c = true) ?w, I : In _ ?w |- _ => apply isnt_run in F; tauto end.
  - eexists. repeat (rewrite <- app_assoc; cbn [app]). reflexivity.
Qed.
Lemma bracket_match body rest g : matching bracket_re ("["%char :: body ++ "]"%char :: rest) g k0 = bracket body rest g.
Proof. reflexivity. Qed.

(** ** The whole expression *)
Lemma grid_match_name dim : text_without ["="%char] dim -> re_match grid_re dim = Some [(DIM, dim)].
Proof.
  intros W. apply without_eq in W. unfold re_match.
  change (matching grid_re dim [] (fun _ g => Some g)) with
    (matching (Group DIM (Plus (isnt "="))) dim [] (fun s g => matching (Seq (Opt (Chr (is "="))) (Opt bracket_re)) s g k0)).
  rewrite <- (app_nil_r dim) at 1. apply group_run_max; simpl; try tauto; auto.
Qed.
Lemma grid_match_eq dim r : text_without ["="%char] dim ->
  re_match grid_re (dim ++ "="%char :: r) = match matching bracket_re r [(DIM, dim)] k0 with Some g => Some g | None => Some [(DIM, dim)] end.
Proof.
  intros W. apply without_eq in W. unfold re_match.
  change (matching grid_re (dim ++ "="%char :: r) [] (fun _ g => Some g)) with
    (matching (Group DIM (Plus (isnt "="))) (dim ++ "="%char :: r) [] (fun s g => matching (Seq (Opt (Chr (is "="))) (Opt bracket_re)) s g k0)).
  assert (Q : matching (Seq (Opt (Chr (is "="))) (Opt bracket_re)) ("="%char :: r) [(DIM, dim)] k0 =
     match matching bracket_re r [(DIM, dim)] k0 with Some g => Some g | None => Some [(DIM, dim)] end).
  { change (match (match matching bracket_re r [(DIM, dim)] k0 with Some r => Some r | None => Some [(DIM, dim)] end) with
             | Some r => Some r | None => matching (Opt bracket_re) ("="%char :: r) [(DIM, dim)] k0 end =
            match matching bracket_re r [(DIM, dim)] k0 with Some g => Some g | None => Some [(DIM, dim)] end).
    destruct (matching bracket_re r [(DIM, dim)] k0); auto. }
  rewrite <- Q. destruct (matching (Seq _ _) ("="%char :: r) _ k0) as [x|] eqn:K.
  - apply group_run_max; try tauto; auto. reflexivity.
  - destruct (matching bracket_re r [(DIM, dim)] k0); discriminate.
Qed.
Lemma first_eq (s : str) : s = [] \/ (exists r, s = "="%char :: r) \/ text_without ["="%char] s \/ exists dim r, s = dim ++ "="%char :: r /\ text_without ["="%char] dim.
Proof.
  destruct s as [|c s]; [auto|]. destruct (ascii_dec c "=") as [->|N]; [right; left; eauto|]. right. right.
  assert (H : ~ In "="%char s \/ exists a t, s = a ++ "="%char :: t /\ ~ In "="%char a).
  { clear N. induction s as [|x s IH]; [left; intros []|]. destruct (ascii_dec x "=") as [->|N].
    - right. exists [], s. auto.
    - destruct IH as [H|(a & t & -> & H)]; [left; intros [E|E]; congruence|]. right. exists (x :: a), t. split; auto. intros [E|E]; congruence. }
  destruct H as [H|(a & t & -> & H)]; [left|right; exists (c :: a), t; split; auto]; (split; [congruence|]); intros y [<-|[]] [E|E]; congruence.
Qed.
Lemma name_unique (dim r dim' r' : str) : text_without ["="%char] dim -> text_without ["="%char] dim' -> dim ++ "="%char :: r = dim' ++ "="%char :: r' -> dim = dim' /\ r = r'.
Proof.
  intros W W' E. apply without_eq in W, W'. apply (run_unique (isnt "=")) in E; try tauto; reflexivity.
Qed.
(** what the groups say *)
Lemma opt_group_get n a g m : group (opt_group n a g) m = if (n =? m)%nat then match a with [] => group g m | _ => Some a end else group g m.
Proof. destruct a; simpl; destruct (n =? m)%nat; auto. Qed.
Section E.
Variable E : readers.
Definition of_values (dim : str) (a b : option val) (s : delta) : res (str * option grid) :=
  if one_of ["x"] dim then
    bind (val_le a b) (fun le => if le then bind (at_most_360 a b) (fun w => if w then Ok (dim, Some (mkGrid a b s)) else Raises ParserError) else Raises ParserError)
  else Ok (dim, Some (mkGrid a b s)).
Lemma of_values_iff dim a b s k v : of_values dim a b s = Ok (k, v) <-> k = dim /\ v = Some (mkGrid a b s) /\ (named ["x"] dim -> longitude_range a b).
Proof.
  unfold of_values. destruct (one_of ["x"] dim) eqn:X.
  - apply one_of_iff in X. split.
    + destruct (val_le a b) as [l|] eqn:L; [|discriminate]. cbn [bind]. destruct l; [|discriminate].
      destruct (at_most_360 a b) as [w|] eqn:W; [|discriminate]. cbn [bind]. destruct w; [|discriminate].
      intros H; inversion H; subst. repeat split; auto. intros _.
      destruct a as [[x|x]|]; try discriminate; destruct b as [[y|y]|]; try discriminate. simpl in L, W. inversion L; inversion W.
      apply Qle_bool_iff in H1, H2. exists x, y. auto.
    + intros (-> & -> & H). destruct (H X) as (x & y & -> & -> & H1 & H2). simpl. apply Qle_bool_iff in H1, H2. rewrite H1. simpl. rewrite H2. auto.
  - apply one_of_false in X. split; [intros H; inversion H; subst; repeat split; auto; contradiction|]. intros (-> & -> & _). auto.
Qed.
(** the values found *)
Definition by_groups (dim : str) (start stop step : option str) : res (str * option grid) :=
  match start, stop, step with
  | None, _, None => Ok (dim, None)
  | _, None, _ => Raises ParserError
  | _, _, None => Raises ParserError
  | start, Some stop, Some step =>
    bind (number_or_datetime E start) (fun a => bind (number_or_datetime E (Some stop)) (fun b => bind (number_or_delta E step) (fun s => of_values dim a b s)))
  end.
Lemma grid_segment_groups seg g dim : re_match grid_re seg = Some g -> group g DIM = Some dim ->
  grid_segment E seg = by_groups dim (group g START) (group g END) (group g DELTA).
Proof. intros M D. unfold grid_segment. rewrite M, D. destruct (group g START), (group g END), (group g DELTA); reflexivity. Qed.
Lemma by_values dim start stop step k v : by_groups dim start (Some stop) (Some step) = Ok (k, v) <->
  k = dim /\ exists x y s, means_any E start x /\ means_any E (Some stop) y /\ means_step E step s /\ v = Some (mkGrid x y s) /\ (named ["x"] dim -> longitude_range x y).
Proof.
  assert (Q : by_groups dim start (Some stop) (Some step) =
    bind (number_or_datetime E start) (fun a => bind (number_or_datetime E (Some stop)) (fun b => bind (number_or_delta E step) (fun s => of_values dim a b s)))) by (destruct start; reflexivity).
  rewrite Q. split.
  - destruct (number_or_datetime E start) as [x|] eqn:A; [|discriminate]. cbn [bind]. destruct (number_or_datetime E (Some stop)) as [y|] eqn:B; [|discriminate]. cbn [bind].
    destruct (number_or_delta E step) as [s|] eqn:C; [|discriminate]. cbn [bind]. apply any_iff in A, B. apply step_iff in C. intros H. apply of_values_iff in H.
    destruct H as (-> & -> & L). split; auto. exists x, y, s. auto.
  - intros (-> & x & y & s & A & B & C & -> & L). apply any_iff in A, B. apply step_iff in C. rewrite A. cbn [bind]. rewrite B. cbn [bind]. rewrite C. cbn [bind].
    apply of_values_iff. auto.
Qed.
Lemma by_none dim start stop k v : by_groups dim start stop None = Ok (k, v) <-> start = None /\ k = dim /\ v = None.
Proof. destruct start, stop; simpl; split; intros H; try discriminate; try (inversion H; subst; auto; fail); destruct H as (H1 & -> & ->); auto; discriminate. Qed.
Lemma by_no_end dim start step k v : by_groups dim start None (Some step) <> Ok (k, v).
Proof. destruct start; simpl; discriminate. Qed.

Lemma no_comma_body (a t : str) : ~ In ","%char a -> ~ In ","%char t -> forall x u, ~ In ","%char x -> a ++ ","%char :: t = x ++ ","%char :: u -> a = x /\ t = u.
Proof.
  intros A T x u X H. apply (run_unique (isnt ",")) in H; try reflexivity; [tauto| |]; apply isnt_run; auto.
Qed.
Lemma comma_unique (a t x u : str) : ~ In ","%char a -> ~ In ","%char x -> a ++ ","%char :: t = x ++ ","%char :: u -> a = x /\ t = u.
Proof. intros A X H. apply (run_unique (isnt ",")) in H; try reflexivity; [tauto| |]; apply isnt_run; auto. Qed.

Lemma bracketed_dec (r : str) : (forall body, ~ bracketed body r) \/ exists body, bracketed body r.
Proof.
  destruct r as [|c r]; [left; intros body (_ & rest & Q); discriminate|].
  destruct (ascii_dec c "[") as [->|N]; [|left; intros body (_ & rest & Q); inversion Q; congruence].
  assert (H : ~ In "]"%char r \/ exists a t, r = a ++ "]"%char :: t /\ ~ In "]"%char a).
  { induction r as [|x s IH]; [left; intros []|]. destruct (ascii_dec x "]") as [->|N].
    - right. exists [], s. auto.
    - destruct IH as [H|(a & t & -> & H)]; [left; intros [Q|Q]; congruence|]. right. exists (x :: a), t. split; auto. intros [Q|Q]; congruence. }
  destruct H as [H|(a & t & -> & H)].
  - left. intros body (_ & rest & Q). inversion Q; subst. apply H. rewrite in_app_iff. simpl. auto.
  - right. exists a. split; auto. exists t. auto.
Qed.
Lemma grid_written_body dim a b c seg : grid_written dim a b c seg -> exists r,
  seg = dim ++ "="%char :: r /\ bracketed ((match a with Some a => a | None => [] end) ++ ","%char :: b ++ ","%char :: c) r.
Proof.
  intros (Wd & Wa & Wb & Wc & rest & ->). eexists. split; [reflexivity|]. apply without_value in Wb. apply without_close in Wc.
  destruct Wb as [_ Wb]. destruct Wc as [_ Wc]. apply value_run in Wb. apply isnt_run in Wc.
  split.
  - rewrite in_app_iff. intros [I|[I|I]]; [|discriminate|].
    + destruct a as [a|]; [|destruct I]. pose proof (proj1 (without_value a) (Wa a eq_refl)) as [_ V]. apply value_run in V. tauto.
    + rewrite in_app_iff in I. destruct I as [I|[I|I]]; [tauto|discriminate|tauto].
  - exists rest. repeat (rewrite <- app_assoc; cbn [app]). reflexivity.
Qed.
Lemma grid_segment_iff seg k v : grid_segment E seg = Ok (k, v) <-> grid_piece E seg k v.
Proof.
  destruct (first_eq seg) as [->|[[r ->]|[W|(dim & r & -> & W)]]].
  - split; [discriminate|]. intros H. exfalso. inv H.
    + destruct H0 as ([NN _] & _ & _ & _ & rest & Q). destruct k; [congruence|discriminate].
    + destruct H0 as ([NN _] & [Q|(r & Q & _)]); [congruence|]. destruct k; discriminate.
  - split; [discriminate|]. intros H. exfalso. assert (N : ~ text_without ["="%char] k \/ forall rest, "="%char :: r <> k ++ rest).
    { destruct k as [|c k]; [left; intros [N _]; congruence|]. destruct (ascii_dec c "=") as [->|N]; [left; intros [_ N]; apply (N "="%char); simpl; auto|].
      right. intros rest Q. inversion Q. congruence. }
    inv H.
    + destruct H0 as (Wd & _ & _ & _ & rest & Q). destruct N as [N|N]; [auto|]. eapply N; eauto.
    + destruct H0 as (Wd & [Q|(r' & Q & _)]); (destruct N as [N|N]; [auto|]). 
      * eapply N. rewrite app_nil_r. eauto.
      * eapply N; eauto.
  - rewrite (grid_segment_groups seg _ seg (grid_match_name seg W)) by reflexivity. cbn [group]. simpl. split.
    + intros H; inv H. apply gp_none. split; auto.
    + intros H. inv H.
      * apply grid_written_body in H0. destruct H0 as (r & -> & _). destruct W as [_ W]. destruct (W "="%char); simpl; auto. rewrite in_app_iff. simpl. auto.
      * destruct H0 as (Wd & [<-|(r & -> & _)]); auto. destruct W as [_ W]. destruct (W "="%char); simpl; auto. rewrite in_app_iff. simpl. auto.
  - assert (U : forall d r', text_without ["="%char] d -> dim ++ "="%char :: r = d ++ "="%char :: r' -> d = dim /\ r' = r).
    { intros d r' Wd Q. apply name_unique in Q; auto. destruct Q; auto. }
    assert (None_piece : forall d (w : option grid), grid_piece E (dim ++ "="%char :: r) d w -> d = dim /\ 
       ((exists a b c x y s, w = Some (mkGrid x y s) /\ grid_written dim a b c (dim ++ "="%char :: r) /\ means_any E a x /\ means_any E (Some b) y /\ means_step E c s
           /\ (named ["x"] dim -> longitude_range x y))
        \/ (w = None /\ ((forall body, ~ bracketed body r) \/ bracketed [] r \/ (exists t, ~ In ","%char t /\ (bracketed (","%char :: t) r \/ bracketed (t ++ [","%char]) r)))))).
    { intros d w H. inv H.
      - assert (d = dim) as ->. { apply grid_written_body in H0 as Q. destruct Q as (r' & Q & _). destruct H0 as (Wd & _). apply U in Q; tauto. }
        split; auto. left. eauto 12.
      - destruct H0 as (Wd & [Q|(r' & Q & D)]).
        + destruct Wd as [_ Wd]. destruct (Wd "="%char); simpl; auto. rewrite <- Q, in_app_iff. simpl. auto.
        + apply U in Q; auto. destruct Q as [-> ->]. split; auto. }
    assert (Wr : forall d, (exists r', dim ++ "="%char :: r = d ++ lit "=[" ++ r') -> text_without ["="%char] d -> d = dim).
    { intros d (r' & Q) Wd. apply (U d ("["%char :: r')); auto. }
    destruct (bracketed_dec r) as [N|(body & B)].
    + assert (M : re_match grid_re (dim ++ "="%char :: r) = Some [(DIM, dim)]) by (rewrite grid_match_eq, not_bracketed; auto).
      rewrite (grid_segment_groups _ _ dim M) by reflexivity. cbn [group]. simpl. split.
      * intros H; inv H. apply gp_none. split; auto. right. exists r. auto.
      * intros H. apply None_piece in H. destruct H as [-> [(a & b & c & x & y & s & _ & GW & _)|[-> _]]]; auto.
        apply grid_written_body in GW. destruct GW as (r' & Q & B). apply U in Q; auto. destruct Q as [_ ->]. destruct (N _ B).
    + pose proof B as (NB & rest & Er). 
      assert (M : re_match grid_re (dim ++ "="%char :: r) = match bracket body rest [(DIM, dim)] with Some g => Some g | None => Some [(DIM, dim)] end).
      { rewrite grid_match_eq, Er, bracket_match; auto. }
      assert (UB : forall body', bracketed body' r -> body' = body) by (intros; eapply bracketed_unique; eauto).
      (* the pieces with a grid are those with a body in three parts *)
      assert (Three : forall d w, grid_piece E (dim ++ "="%char :: r) d w -> (d = dim /\ w = None /\ (body = [] \/ exists t, ~ In ","%char t /\ (body = ","%char :: t \/ body = t ++ [","%char])))
         \/ exists a b c x y s, d = dim /\ w = Some (mkGrid x y s) /\ body = (match a with Some a => a | None => [] end) ++ ","%char :: b ++ ","%char :: c
              /\ (forall t, a = Some t -> text_without ["]"; ","]%char t) /\ text_without ["]"; ","]%char b /\ text_without ["]"%char] c
              /\ means_any E a x /\ means_any E (Some b) y /\ means_step E c s /\ (named ["x"] dim -> longitude_range x y)).
      { intros d w H. apply None_piece in H. destruct H as [-> [(a & b & c & x & y & s & -> & GW & R)|[-> D]]].
        - right. pose proof GW as (_ & Wa & Wb & Wc & _). apply grid_written_body in GW. destruct GW as (r' & Q & B'). apply U in Q; auto. destruct Q as [_ ->].
          apply UB in B'. exists a, b, c, x, y, s. intuition.
        - left. repeat split; auto. destruct D as [D|[D|(t & T & [D|D])]]; [destruct (D body B)|apply UB in D; auto| |]; apply UB in D; right; exists t; auto. }
      assert (Gpiece : forall a b c x y s, body = (match a with Some a => a | None => [] end) ++ ","%char :: b ++ ","%char :: c ->
              (forall t, a = Some t -> text_without ["]"; ","]%char t) -> text_without ["]"; ","]%char b -> text_without ["]"%char] c ->
              means_any E a x -> means_any E (Some b) y -> means_step E c s -> (named ["x"] dim -> longitude_range x y) ->
              grid_piece E (dim ++ "="%char :: r) dim (Some (mkGrid x y s))).
      { intros a b c x y s Eb Wa Wb Wc Hx Hy Hs L. apply (gp_grid E _ dim a b c); auto. split; [auto|]. split; [auto|]. split; [auto|]. split; [auto|].
        exists rest. rewrite Er, Eb. repeat (rewrite <- app_assoc; cbn [app]). reflexivity. }
      assert (Gnone : body = [] \/ (exists t, ~ In ","%char t /\ (body = ","%char :: t \/ body = t ++ [","%char])) -> grid_piece E (dim ++ "="%char :: r) dim None).
      { intros D. apply gp_none. split; auto. right. exists r. split; auto. right. destruct D as [->|(t & T & [->| ->])]; auto; right; exists t; auto. }
      assert (NI : forall u, (forall c, In c u -> In c body) -> ~ In "]"%char u) by (intros u I1 I2; apply NB; auto).
      destruct (body_cases body) as [a A|a t A T|a b c A B']; clear None_piece Wr U UB.
      * rewrite bracket_one in M by auto. rewrite (grid_segment_groups _ _ dim M) by (rewrite opt_group_get; reflexivity). rewrite !opt_group_get. cbn [group].
        change (START =? START) with true. change (START =? END) with false. change (START =? DELTA) with false. cbv iota. simpl (group [(DIM, dim)] _).
        rewrite by_none. split.
        -- intros (Q & -> & ->). apply Gnone. destruct a; [auto|discriminate].
        -- intros H. apply Three in H. destruct H as [(-> & -> & D)|(a' & b & c & x & y & s & _ & _ & Q & _)].
           ++ destruct D as [->|(t & T & [->| ->])]; auto; destruct A; [simpl; auto|]. rewrite in_app_iff. simpl. auto.
           ++ destruct A. rewrite Q, in_app_iff. simpl. auto.
      * rewrite bracket_two in M; auto. 2, 3: apply NI; intros; rewrite in_app_iff; simpl; auto.
        destruct t as [|z t].
        -- rewrite (grid_segment_groups _ _ dim M) by reflexivity. simpl (group _ _). rewrite by_none. split.
           ++ intros (_ & -> & ->). apply Gnone. right. exists a. auto.
           ++ intros H. apply Three in H. destruct H as [(-> & -> & D)|(a' & b & c & x & y & s & _ & _ & Q & Wa & _)]; auto. exfalso.
              assert (Na : ~ In ","%char (match a' with Some a => a | None => [] end)).
              { destruct a' as [a'|]; [|auto]. apply (Wa a' eq_refl). simpl. auto. }
              apply comma_unique in Q; auto. destruct Q as [_ Q]. destruct b; discriminate.
        -- rewrite (grid_segment_groups _ _ dim M) by (simpl; rewrite opt_group_get; reflexivity). cbn [group].
           change (END =? START) with false. change (END =? END) with true. change (END =? DELTA) with false. cbv iota. rewrite !opt_group_get.
           change (START =? START) with true. change (START =? DELTA) with false. cbv iota. simpl (group [(DIM, dim)] _). rewrite by_none. split.
           ++ intros (Q & -> & ->). apply Gnone. destruct a; [|discriminate]. right. exists (z :: t). auto.
           ++ intros H. apply Three in H. destruct H as [(-> & -> & D)|(a' & b & c & x & y & s & _ & _ & Q & Wa & _)].
              ** destruct D as [D|(u & Tu & [D|D])]; [destruct a; discriminate| |].
                 { apply (comma_unique a (z :: t) [] u) in D; auto. destruct D as [-> _]. auto. }
                 apply (comma_unique a (z :: t) u []) in D; auto. destruct D; discriminate.
              ** exfalso. assert (Na : ~ In ","%char (match a' with Some a => a | None => [] end)).
                 { destruct a' as [a'|]; [|auto]. apply (Wa a' eq_refl). simpl. auto. }
                 apply comma_unique in Q; auto. destruct Q as [_ Q]. apply T. rewrite Q, in_app_iff. simpl. auto.
      * assert (Ia : ~ In "]"%char a) by (apply NI; intros; rewrite in_app_iff; auto).
        assert (Ib : ~ In "]"%char b) by (apply NI; intros; rewrite in_app_iff; simpl; rewrite in_app_iff; auto).
        assert (Ic : ~ In "]"%char c) by (apply NI; intros; rewrite in_app_iff; simpl; rewrite in_app_iff; simpl; auto).
        assert (Gdim : forall n w g', group ((n, w) :: opt_group START a g') DIM = if (n =? DIM)%nat then Some w else group g' DIM).
        { intros. cbn [group]. destruct (n =? DIM)%nat; auto. rewrite opt_group_get. auto. }
        rewrite bracket_three in M; auto.
        assert (Bad : b = [] \/ c = [] -> grid_segment E (dim ++ "="%char :: r) <> Ok (k, v) /\ ~ grid_piece E (dim ++ "="%char :: r) k v).
        { intros BC. split.
          - assert (M' : re_match grid_re (dim ++ "="%char :: r) = Some ((DELTA, b ++ ","%char :: c) :: opt_group START a [(DIM, dim)])).
            { rewrite M. destruct BC as [->| ->]; auto. destruct b; auto. }
            rewrite (grid_segment_groups _ _ dim M'). 2: rewrite Gdim; reflexivity.
            cbn [group]. change (DELTA =? START) with false. change (DELTA =? END) with false. change (DELTA =? DELTA) with true. cbv iota. rewrite !opt_group_get.
            change (START =? END) with false. cbv iota. simpl (group [(DIM, dim)] _). apply by_no_end.
          - intros H. apply Three in H. destruct H as [(-> & -> & D)|(a' & b' & c' & x & y & s & _ & _ & Q & Wa & Wb & Wc & _)].
            + destruct D as [D|(u & Tu & [D|D])]; [destruct a; discriminate| |].
              * apply (comma_unique a _ [] u) in D; auto. destruct D as [_ <-]. apply Tu. rewrite in_app_iff. simpl. auto.
              * apply (comma_unique a _ u []) in D; auto. destruct D as [_ D]. destruct b; discriminate.
            + assert (Na : ~ In ","%char (match a' with Some a => a | None => [] end)).
              { destruct a' as [a'|]; [|auto]. apply (Wa a' eq_refl). simpl. auto. }
              assert (Nb' : ~ In ","%char b') by (apply Wb; simpl; auto).
              apply comma_unique in Q; auto. destruct Q as [_ Q]. apply comma_unique in Q; auto. destruct Q as [-> ->].
              destruct Wb as [Wb _]. destruct Wc as [Wc _]. tauto. }
        destruct b as [|b0 b]; [destruct Bad; auto; tauto|]. destruct c as [|c0 c]; [destruct Bad; auto; tauto|]. clear Bad.
        rewrite (grid_segment_groups _ _ dim M). 2: cbn [group]; change (DELTA =? DIM) with false; change (END =? DIM) with false; cbv iota; rewrite opt_group_get; reflexivity.
        cbn [group]. change (DELTA =? START) with false. change (DELTA =? END) with false. change (DELTA =? DELTA) with true. change (END =? START) with false. change (END =? END) with true.
        cbv iota. rewrite !opt_group_get. change (START =? START) with true. cbv iota. simpl (group [(DIM, dim)] _). rewrite by_values.
        split.
        -- intros (-> & x & y & s & Hx & Hy & Hs & -> & L).
           apply (Gpiece (match a with [] => None | _ => Some a end) (b0 :: b) (c0 :: c)); auto.
           ++ destruct a; auto.
           ++ intros t Q. destruct a; [discriminate|]. inv Q. apply without_value. split; [congruence|auto using value_of].
           ++ apply without_value. split; [congruence|auto using value_of].
           ++ apply without_close. split; [congruence|apply isnt_run; auto].
        -- intros H. apply Three in H. destruct H as [(-> & -> & D)|(a' & b' & c' & x & y & s & -> & -> & Q & Wa & Wb & Wc & Hx & Hy & Hs & L)].
           ++ exfalso. destruct D as [D|(u & Tu & [D|D])]; [destruct a; discriminate| |].
              ** apply (comma_unique a _ [] u) in D; auto. destruct D as [_ <-]. apply Tu. change (In ","%char ((b0 :: b) ++ ","%char :: c0 :: c)). rewrite in_app_iff. simpl. auto.
              ** apply (comma_unique a _ u []) in D; auto. destruct D as [_ D]. discriminate.
           ++ assert (Na : ~ In ","%char (match a' with Some a => a | None => [] end)).
              { destruct a' as [a'|]; [|auto]. apply (Wa a' eq_refl). simpl. auto. }
              assert (Nb' : ~ In ","%char b') by (apply Wb; simpl; auto).
              apply comma_unique in Q; auto. destruct Q as [Qa Q]. apply (comma_unique (b0 :: b)) in Q; auto. destruct Q as [<- <-].
              split; auto. exists x, y, s. repeat split; auto.
              destruct a' as [a'|]; subst a; [|auto]. destruct (Wa a' eq_refl) as [NN _]. destruct a'; [congruence|auto].
Qed.
Lemma get_aggregate_grid_spec text :
  match get_aggregate_grid E text with
  | Ok d => exists pieces pairs, cut_at_commas text pieces /\ pieces <> [] /\ meaning (grid_piece E) pieces pairs /\ dictionary pairs d
  | Raises _ => ~ exists pieces pairs, cut_at_commas text pieces /\ pieces <> [] /\ meaning (grid_piece E) pieces pairs
  end.
Proof.
  unfold get_aggregate_grid. pose proof (proj2 (cut_at_commas_iff text _) eq_refl) as C. destruct (split_outside_brackets text ",") as [|s segs] eqn:Sp.
  - intros (pieces & pairs & C' & NN & _). apply cut_at_commas_iff in C'. congruence.
  - pose proof (into_dict_spec _ _ grid_segment_iff (s :: segs) [] [] dictionary_nil) as D.
    destruct (into_dict (grid_segment E) (s :: segs) []) as [d|e].
    + destruct D as (pairs & M & D). exists (s :: segs), pairs. repeat split; auto; try congruence; apply D.
    + intros (pieces & pairs & C' & NN & M). apply cut_at_commas_iff in C'. apply D. exists pairs. congruence.
Qed.
End E.

(** ** Attributes *)
Lemma attribute_pair_iff pair k v : ~ In ","%char pair -> (attribute_pair pair = Ok (k, v) <-> attribute_text pair k v).
Proof.
  intros NC. unfold attribute_pair, attribute_text. pose proof (join_split "=" pair) as J. pose proof (split_pieces "=" pair) as P. split.
  - destruct (split_on "=" pair) as [|a [|b [|? ?]]]; try discriminate. destruct a as [|a0 a]; [discriminate|]. destruct b as [|b0 b]; [discriminate|].
    intros H; injection H as <- <-. simpl in J. assert (NC' : ~ In ","%char ((a0 :: a) ++ "="%char :: b0 :: b)) by (intros I; apply NC; rewrite <- J; exact I).
    rewrite in_app_iff in NC'. split; [|split; [|simpl; auto]]; (split; [congruence|]); intros c [<-|[<-|[]]]; try (apply P; simpl; auto; fail).
    + tauto.
    + intros I. apply NC'. right. right. auto.
  - intros ((N1 & W1) & (N2 & W2) & ->). rewrite split_app_sep by (apply W1; simpl; auto). rewrite split_nosep by (apply W2; simpl; auto).
    destruct k; [congruence|]. destruct v; [congruence|]. auto.
Qed.
Lemma attributes_spec text :
  match create_attributes_dictionary (Some text) with
  | Ok d => exists pieces pairs d', text = join_on "," pieces /\ meaning attribute_text pieces pairs /\ pieces <> [] /\ d = Some d' /\ dictionary pairs d'
  | Raises e => e = ParserError /\ ~ exists pieces pairs, text = join_on "," pieces /\ pieces <> [] /\ meaning attribute_text pieces pairs
  end.
Proof.
  unfold create_attributes_dictionary.
  set (piece := fun s k v => ~ In ","%char s /\ attribute_text s k v).
  assert (A : forall segs done d, (forall s, In s segs -> ~ In ","%char s) -> dictionary done d ->
    match into_dict attribute_pair segs d with
    | Ok d' => exists pairs, meaning attribute_text segs pairs /\ dictionary (done ++ pairs) d'
    | Raises e => e = ParserError /\ ~ exists pairs, meaning attribute_text segs pairs
    end).
  { induction segs as [|seg segs IH]; simpl; intros done d NC D.
    - exists []. rewrite app_nil_r. split; [constructor|auto].
    - pose proof (fun k v => attribute_pair_iff seg k v (NC seg (or_introl eq_refl))) as P. destruct (attribute_pair seg) as [[k v]|e] eqn:F; simpl.
      + specialize (IH (done ++ [(k, v)]) _ (fun s I => NC s (or_intror I)) (dictionary_snoc _ _ k v D)). destruct (into_dict attribute_pair segs (dict_set d k v)) as [d'|e].
        * destruct IH as (pairs & M & D'). exists ((k, v) :: pairs). rewrite <- app_assoc in D'. split; auto. constructor; auto. simpl. apply P; auto.
        * destruct IH as [-> IH]. split; auto. intros (pairs & M). inversion M; subst. apply IH. eauto.
      + split.
        * unfold attribute_pair in F. destruct (split_on "=" seg) as [|a [|b [|? ?]]]; try (inversion F; auto; fail).
          destruct a; [inversion F; auto|]. destruct b; inversion F; auto.
        * intros (pairs & M). inversion M as [|? [k v] ? ? H]; subst. simpl in H. apply P in H. congruence. }
  specialize (A (split_on "," text) [] [] (split_pieces "," text) dictionary_nil).
  destruct (into_dict attribute_pair (split_on "," text) []) as [d|e]; simpl.
  - destruct A as (pairs & M & D). exists (split_on "," text), pairs, d. repeat split; auto; try apply D; [symmetry; apply join_split|apply split_on_nonnil].
  - destruct A as [-> A]. split; auto. intros (pieces & pairs & -> & NN & M). apply A. exists pairs. rewrite split_join; auto.
    intros p I. clear -M I. induction M as [|seg [k v] pieces pairs H M IH]; [destruct I|]. destruct I as [<-|I]; auto.
    simpl in H. destruct H as ((_ & W1) & (_ & W2) & ->). rewrite in_app_iff. intros [I|[I|I]]; [apply (W1 ","%char); simpl; auto|discriminate|apply (W2 ","%char); simpl; auto].
Qed.
