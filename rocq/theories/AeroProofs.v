(** Proofs for C51. *)
From Coq Require Import String.
From Verif Require Import Base PyStr QBase DistModel DateModel ProdModel ProdProofs AeroModel AeroSpec.
From Coq Require Import List Ascii Lia Arith DecimalString DecimalNat.
Import ListNotations.
Open Scope string_scope. Open Scope list_scope. Open Scope nat_scope. Notation length := List.length.

(** ** Numbers *)
Lemma uint_digits d : Forall (fun c => is_digit c = true) (lit (NilEmpty.string_of_uint d)).
Proof. unfold lit. induction d; cbn; constructor; auto. Qed.
Lemma decimal_digits n : Forall (fun c => is_digit c = true) (decimal n). Proof. apply uint_digits. Qed.
Lemma lit_inj a b : lit a = lit b -> a = b.
Proof. unfold lit. intros H. rewrite <- (string_of_list_ascii_of_string a), <- (string_of_list_ascii_of_string b), H. reflexivity. Qed.
Lemma decimal_inj m n : decimal m = decimal n -> m = n.
Proof. intros H. apply lit_inj in H. apply (f_equal NilEmpty.uint_of_string) in H. rewrite !NilEmpty.usu in H. injection H as H. apply Unsigned.to_uint_inj. exact H. Qed.
Lemma decimal_nonnil n : decimal n <> [].
Proof. unfold decimal. destruct (Nat.to_uint n) eqn:E; try discriminate. exfalso. pose proof (Unsigned.of_to n) as H. rewrite E in H. cbn in H. subst n. discriminate E. Qed.
Lemma decimal_number n : is_number (decimal n). Proof. split; [apply decimal_nonnil|apply decimal_digits]. Qed.

(** ** Characters *)
Lemma remove_all ds : forall s, fold_left (fun s c => remove_char c s) ds s = filter (fun c => negb (existsb (fun d => if ascii_dec c d then true else false) ds)) s.
Proof.
  induction ds as [|d ds IH]; intros s; cbn [fold_left existsb]; [induction s as [|a s IHs]; [reflexivity|]; cbn [filter negb] in *; f_equal; exact IHs|]. rewrite IH. unfold remove_char. induction s as [|c s IHs]; [reflexivity|]. cbn [filter]. destruct (ascii_dec c d); cbn [orb negb]; auto. cbn [filter]. rewrite IHs. reflexivity.
Qed.
Lemma removed s : fold_left (fun s c => remove_char c s) delete_chars s = filter allowed s.
Proof.
  rewrite remove_all. apply filter_ext. intros c. unfold allowed. f_equal. change not_allowed with delete_chars. induction delete_chars as [|d l IH]; [reflexivity|]. cbn [existsb]. rewrite IH. f_equal.
  destruct (ascii_dec c d) as [->|N]; [symmetry; apply Ascii.eqb_refl|]. symmetry. apply Ascii.eqb_neq. exact N.
Qed.
Lemma renamed s : match find (fun kv => str_eqb (fst kv) s) renames with Some kv => snd kv | None => s end = standard s.
Proof.
  destruct (find (fun kv => str_eqb (fst kv) s) renames) as [kv|] eqn:F.
  - apply find_some in F. destruct F as [I E]. apply str_eqb_eq in E. subst s.
    assert (A : forallb (fun kv => str_eqb (snd kv) (standard (fst kv))) renames = true) by (vm_compute; reflexivity). rewrite forallb_forall in A. apply A in I. apply str_eqb_eq in I. exact I.
  - unfold standard. destruct (find _ standard_names) as [e|] eqn:G; [|reflexivity]. exfalso. apply find_some in G. destruct G as [I E]. apply existsb_exists in E. destruct E as (n & J & E). apply str_eqb_eq in E. subst s.
    assert (A : forallb (fun e => forallb (fun n => existsb (fun kv => str_eqb (fst kv) (lit n)) renames) (snd e)) standard_names = true) by (vm_compute; reflexivity).
    rewrite forallb_forall in A. apply A in I. rewrite forallb_forall in I. apply I in J. apply existsb_exists in J. destruct J as (kv & K & J). pose proof (find_none _ _ F kv K) as X. cbn beta in X. congruence.
Qed.
Lemma all_chars (P : ascii -> bool) : forallb P (map ascii_of_nat (seq 0 256)) = true -> forall c, P c = true.
Proof. intros H c. rewrite forallb_forall in H. apply H. rewrite <- (ascii_nat_embedding c). apply in_map, in_seq. pose proof (nat_ascii_bounded c). lia. Qed.
Lemma digit_allowed c : is_digit c = true -> allowed c = true /\ is_blank c = false.
Proof.
  intros D. pose proof (all_chars (fun c => negb (is_digit c) || (allowed c && negb (is_blank c)))%bool) as H. specialize (H ltac:(vm_compute; reflexivity) c). cbn beta in H. rewrite D in H. cbn in H. apply andb_true_iff in H. destruct H as [H1 H2]. split; auto. destruct (is_blank c); auto; discriminate.
Qed.
Lemma filter_digits d : Forall (fun c => is_digit c = true) d -> filter allowed d = d.
Proof. intros F. induction F as [|c d Hc F IH]; [reflexivity|]. cbn [filter]. destruct (digit_allowed c Hc) as [-> _]. rewrite IH. reflexivity. Qed.
Lemma lstrip_app b d : Forall (fun c => is_digit c = true) d -> d <> [] -> lstrip (b ++ d) = lstrip b ++ d.
Proof.
  intros F N. induction b as [|c b IH]; cbn [app lstrip].
  - destruct F as [|c d Hc F]; [congruence|]. cbn [lstrip]. destruct (digit_allowed c Hc) as [_ ->]. reflexivity.
  - destruct (is_blank c); auto.
Qed.
Lemma rstrip_app b d : Forall (fun c => is_digit c = true) d -> d <> [] -> rstrip (b ++ d) = b ++ d.
Proof.
  intros F N. unfold rstrip. rewrite rev_app_distr. assert (F' : Forall (fun c => is_digit c = true) (rev d)) by (apply Forall_rev; auto). destruct (rev d) as [|c r] eqn:E; [apply (f_equal (@rev ascii)) in E; rewrite rev_involutive in E; cbn in E; congruence|].
  cbn [app lstrip]. apply Forall_inv in F'. destruct (digit_allowed c F') as [_ ->]. rewrite app_comm_cons, <- E, rev_app_distr, !rev_involutive. reflexivity.
Qed.
(** no name of the list ends with a digit *)
Lemma not_renamed b d : Forall (fun c => is_digit c = true) d -> d <> [] -> standard (b ++ d) = b ++ d.
Proof.
  intros F N. rewrite <- renamed. destruct (find (fun kv => str_eqb (fst kv) (b ++ d)) renames) as [kv|] eqn:E; [|reflexivity]. exfalso. apply find_some in E. destruct E as [I E]. apply str_eqb_eq in E.
  assert (L : is_digit (last (fst kv) "x"%char) = true). { rewrite E. destruct d as [|c d] using rev_ind; [congruence|]. rewrite app_assoc, last_last. apply Forall_app in F. destruct F as [_ F]. apply Forall_inv in F. exact F. }
  assert (A : forallb (fun kv : str * str => negb (is_digit (last (fst kv) "x"%char))) renames = true) by (vm_compute; reflexivity). rewrite forallb_forall in A. apply A in I. rewrite L in I. discriminate.
Qed.
Lemma finish_once v : finish v = single_name v.
Proof. unfold finish, single_name. rewrite removed. apply renamed. Qed.
Lemma finish_number v n : finish (v ++ lit "." ++ decimal n) = bare v ++ decimal n.
Proof.
  unfold finish. rewrite removed, !filter_app, (filter_digits (decimal n)) by apply decimal_digits. change (filter allowed (lit ".")) with (@nil ascii). cbn [app]. unfold strip. rewrite lstrip_app, rstrip_app by (apply decimal_digits || apply decimal_nonnil). rewrite renamed. apply not_renamed; [apply decimal_digits|apply decimal_nonnil].
Qed.

(** ** Counting *)
Lemma count_app v a b : count v (a ++ b) = count v a + count v b.
Proof. unfold count. rewrite filter_app, app_length. reflexivity. Qed.
Lemma count_one v w : count v [w] = if str_eqb v w then 1 else 0.
Proof. unfold count. cbn [filter]. destruct (str_eqb v w); reflexivity. Qed.
Lemma count_in v l : In v l <-> 0 < count v l.
Proof.
  unfold count. induction l as [|w l IH]; cbn [filter In]; [cbn; lia|]. destruct (str_eqb v w) eqn:E; cbn [length].
  - apply str_eqb_eq in E. subst. intuition lia.
  - apply str_eqb_neq in E. rewrite IH. split; [intros [H|H]; [congruence|auto]|auto].
Qed.
Lemma in_distinct v l : In v (distinct l) <-> In v l.
Proof.
  induction l as [|w l IH]; [reflexivity|]. cbn [distinct]. destruct (existsb (str_eqb w) l) eqn:E.
  - rewrite IH. split; [right; auto|]. intros [->|H]; auto. apply existsb_exists in E. destruct E as (x & I & E). apply str_eqb_eq in E. subst. auto.
  - cbn. rewrite IH. reflexivity.
Qed.
Lemma next_first v cs : next_of v (repeated_items cs) = if 1 <? count v cs then Some 0 else None.
Proof.
  unfold next_of, repeated_items. destruct (1 <? count v cs) eqn:C.
  - assert (I : In v (filter (fun v => 1 <? count v cs) (distinct cs))). { apply filter_In. split; auto. apply in_distinct, count_in. apply Nat.ltb_lt in C. lia. }
    clear C. induction (filter (fun v => 1 <? count v cs) (distinct cs)) as [|w l IH]; [contradiction|]. cbn [map find fst]. destruct (str_eqb w v) eqn:E; [reflexivity|]. apply IH. destruct I as [->|I]; auto. rewrite str_eqb_refl in E. discriminate.
  - assert (I : ~ In v (filter (fun v => 1 <? count v cs) (distinct cs))) by (intros I; apply filter_In in I; destruct I as [_ I]; congruence).
    clear C. induction (filter (fun v => 1 <? count v cs) (distinct cs)) as [|w l IH]; [reflexivity|]. cbn [map find fst]. destruct (str_eqb w v) eqn:E; [apply str_eqb_eq in E; subst; exfalso; apply I; left; auto|]. apply IH. intros H. apply I. right. auto.
Qed.
Lemma next_up v w ns : next_of v (count_up w ns) = if str_eqb v w then option_map S (next_of v ns) else next_of v ns.
Proof.
  unfold next_of, count_up. induction ns as [|[k n] ns IH]; cbn [map find fst snd]; [destruct (str_eqb v w); reflexivity|]. destruct (str_eqb k w) eqn:Ek; cbn [fst].
  - apply str_eqb_eq in Ek. subst k. destruct (str_eqb w v) eqn:E; [apply str_eqb_eq in E; subst; rewrite str_eqb_refl; reflexivity|]. rewrite IH. destruct (str_eqb v w) eqn:E2; [apply str_eqb_eq in E2; subst; rewrite str_eqb_refl in E; discriminate|reflexivity].
  - destruct (str_eqb k v) eqn:E; [apply str_eqb_eq in E; subst; rewrite Ek; reflexivity|]. apply IH.
Qed.
Lemma name_columns_nth cs : forall rest done ns, cs = done ++ rest -> (forall v, next_of v ns = if 1 <? count v cs then Some (count v done) else None) ->
  length (name_columns ns rest) = length rest /\ forall i v, nth_error rest i = Some v -> nth_error (name_columns ns rest) i = Some (if 1 <? count v cs then bare v ++ decimal (count v (firstn (length done + i) cs)) else single_name v).
Proof.
  induction rest as [|w rest IH]; intros done ns E H; cbn [name_columns]; [split; auto; intros [|i] v; discriminate|].
  assert (E' : cs = (done ++ [w]) ++ rest) by (rewrite <- app_assoc; auto).
  assert (Fw : firstn (length done + 0) cs = done) by (rewrite Nat.add_0_r, E, firstn_app, firstn_all, Nat.sub_diag, app_nil_r; reflexivity).
  rewrite (H w). destruct (1 <? count w cs) eqn:C.
  - destruct (IH (done ++ [w]) (count_up w ns) E') as [L G].
    { intros v. rewrite next_up, H, count_app, count_one. destruct (str_eqb v w) eqn:Ev; [apply str_eqb_eq in Ev; subst v; rewrite C; cbn [option_map]; f_equal; lia|]. destruct (1 <? count v cs); auto. }
    split; [cbn; f_equal; auto|]. intros [|i] v Ei; cbn [nth_error] in *.
    + injection Ei as <-. rewrite C, Fw, finish_number. reflexivity.
    + rewrite (G i v Ei). rewrite app_length. cbn [length]. replace (length done + 1 + i) with (length done + S i) by lia. reflexivity.
  - destruct (IH (done ++ [w]) ns E') as [L G].
    { intros v. rewrite H. destruct (1 <? count v cs) eqn:Cv; auto. f_equal. rewrite count_app, count_one. destruct (str_eqb v w) eqn:Ev; [apply str_eqb_eq in Ev; subst v; congruence|]. lia. }
    split; [cbn; f_equal; auto|]. intros [|i] v Ei; cbn [nth_error] in *.
    + injection Ei as <-. rewrite C, finish_once. reflexivity.
    + rewrite (G i v Ei). rewrite app_length. cbn [length]. replace (length done + 1 + i) with (length done + S i) by lia. reflexivity.
Qed.
Theorem names_of cs : length (name_columns (repeated_items cs) cs) = length cs /\
  forall i v, nth_error cs i = Some v -> exists s, nth_error (name_columns (repeated_items cs) cs) i = Some s /\ named cs i v s.
Proof.
  destruct (name_columns_nth cs cs [] (repeated_items cs) eq_refl) as [L G]; [intros v; rewrite next_first; reflexivity|]. split; auto. intros i v E. eexists. split; [apply G; exact E|]. unfold named. destruct (1 <? count v cs) eqn:C.
  - right. apply Nat.ltb_lt in C. auto.
  - left. apply Nat.ltb_ge in C. split; auto. assert (0 < count v cs) by (apply count_in; eapply nth_error_In; eauto). lia.
Qed.
Lemma count_firstn v cs : forall i j, i < j -> nth_error cs i = Some v -> count v (firstn i cs) < count v (firstn j cs).
Proof.
  induction cs as [|w cs IH]; intros [|i] [|j] H E; try discriminate; try lia; cbn [nth_error firstn] in *; unfold count in *; cbn [filter].
  - injection E as ->. rewrite str_eqb_refl. cbn. lia.
  - specialize (IH i j ltac:(lia) E). destruct (str_eqb v w); cbn; lia.
Qed.
Theorem names_distinct cs : no_clash cs -> NoDup (name_columns (repeated_items cs) cs).
Proof.
  intros NC. destruct (names_of cs) as [L G]. apply NoDup_nth_error. intros i j Hi E. rewrite L in Hi.
  assert (Hj : j < length cs) by (rewrite <- L; apply nth_error_Some; rewrite <- E; apply nth_error_Some; rewrite L; auto).
  destruct (nth_error cs i) as [v|] eqn:Ev; [|apply nth_error_None in Ev; lia]. destruct (nth_error cs j) as [w|] eqn:Ew; [|apply nth_error_None in Ew; lia].
  destruct (G i v Ev) as (s & Es & Ns). destruct (G j w Ew) as (t & Et & Nt). assert (s = t) by congruence. subst t.
  destruct (str_eq_dec v w) as [<-|D].
  - destruct Ns as [[C1 _]|[C1 S1]].
    + destruct (Nat.lt_trichotomy i j) as [H|[H|H]]; auto; exfalso.
      * pose proof (count_firstn v cs i j H Ev). pose proof (count_firstn v cs j (length cs) Hj Ew) as X. rewrite firstn_all in X. lia.
      * pose proof (count_firstn v cs j i H Ew). pose proof (count_firstn v cs i (length cs) Hi Ev) as X. rewrite firstn_all in X. lia.
    + destruct Nt as [[C2 _]|[_ S2]]; [lia|]. rewrite S1 in S2. apply app_inv_head, decimal_inj in S2. destruct (Nat.lt_trichotomy i j) as [H|[H|H]]; auto; exfalso.
      * pose proof (count_firstn v cs i j H Ev). lia.
      * pose proof (count_firstn v cs j i H Ew). lia.
  - exfalso. pose proof (nth_error_In _ _ Ev) as Iv. pose proof (nth_error_In _ _ Ew) as Iw. destruct (NC v w Iv Iw D) as (N1 & N2 & N3). destruct (NC w v Iw Iv (not_eq_sym D)) as (_ & N4 & _).
    destruct Ns as [[C1 S1]|[C1 S1]], Nt as [[C2 S2]|[C2 S2]].
    + congruence.
    + apply (N4 C2 (decimal (count w (firstn j cs))) (decimal_number _)). congruence.
    + apply (N2 C1 (decimal (count v (firstn i cs))) (decimal_number _)). congruence.
    + apply (N3 C1 C2 (decimal (count v (firstn i cs))) (decimal (count w (firstn j cs))) (decimal_number _) (decimal_number _)). congruence.
Qed.
(** ** A check of the condition: no repeated name is the start of another *)
Fixpoint prefix_of (p s : str) : bool := match p, s with [], _ => true | _, [] => false | a :: p, b :: s => if ascii_dec a b then prefix_of p s else false end.
Lemma prefix_app p d : prefix_of p (p ++ d) = true.
Proof. induction p as [|a p IH]; [reflexivity|]. cbn. destruct (ascii_dec a a); [auto|congruence]. Qed.
Lemma prefix_two a b d e : a ++ d = b ++ e -> prefix_of a b = true \/ prefix_of b a = true.
Proof.
  revert b. induction a as [|x a IH]; intros [|y b] H; cbn; auto. injection H as -> H. destruct (ascii_dec y y); [apply IH, H|congruence].
Qed.
Definition clash_free (cs : list str) : bool :=
  forallb (fun v => forallb (fun w => str_eqb v w ||
    (negb (str_eqb (single_name v) (single_name w)) && (negb (1 <? count v cs) || negb (prefix_of (bare v) (single_name w))) &&
     (negb (1 <? count v cs) || negb (1 <? count w cs) || (negb (prefix_of (bare v) (bare w)) && negb (prefix_of (bare w) (bare v)))))) cs) cs.
Lemma clash_free_ok cs : clash_free cs = true -> no_clash cs.
Proof.
  intros H v w Iv Iw D. unfold clash_free in H. rewrite forallb_forall in H. specialize (H v Iv). rewrite forallb_forall in H. specialize (H w Iw). apply orb_true_iff in H. destruct H as [H|H]; [apply str_eqb_eq in H; contradiction|]. apply andb_true_iff in H. destruct H as [H H3]. apply andb_true_iff in H. destruct H as [H1 H2].
  split; [intros E; rewrite E, str_eqb_refl in H1; discriminate|]. split.
  - intros R d Hd E. apply Nat.ltb_lt in R. rewrite R, <- E, prefix_app in H2. discriminate.
  - intros R R' d e _ _ E. apply Nat.ltb_lt in R, R'. rewrite R, R' in H3. cbn [negb orb] in H3. apply andb_true_iff in H3. destruct H3 as [P Q]. destruct (prefix_two _ _ _ _ E) as [X|X]; rewrite X in *; discriminate.
Qed.

(** ** The version and the columns *)
Lemma contains_iff p s : contains p s = true <-> mentions p s.
Proof.
  induction s as [|c s IH]; cbn [contains]; rewrite orb_true_iff, starts_with_spec.
  - split; [intros [[r E]|E]; [exists [], r; exact E|discriminate]|]. intros (a & b & E). left. destruct a; [|discriminate]. exists b. exact E.
  - rewrite IH. split.
    + intros [[r E]|(a & b & E)]; [exists [], r; exact E|exists (c :: a), b; cbn; congruence].
    + intros ([|x a] & b & E); [left; exists b; exact E|right; injection E as _ E; exists a, b; exact E].
Qed.
Lemma contains_false p s : contains p s = false <-> ~ mentions p s.
Proof. rewrite <- contains_iff. destruct (contains p s); split; congruence. Qed.
Lemma starts_false p s : starts_with p s = false <-> ~ begins p s.
Proof. unfold begins. rewrite <- starts_with_spec. destruct (starts_with p s); split; congruence. Qed.
Theorem version_of lines v : get_version lines = Ok v <-> file_version lines v.
Proof.
  split.
  - unfold get_version. destruct lines as [|l1 [|l2 rest]]; try discriminate. destruct (contains (lit "Maritime Aerosol Network") l1) eqn:M.
    + apply contains_iff in M. destruct (contains (lit "SDA") l1) eqn:S; intros [= <-]; constructor; auto; [apply contains_iff|apply contains_false]; auto.
    + apply contains_false in M. destruct (starts_with (lit "AERONET Version 3") l1) eqn:A.
      * apply starts_with_spec in A. destruct (contains (lit "SDA") l1) eqn:S; intros [= <-]; constructor; auto; [apply contains_iff|apply contains_false]; auto.
      * apply starts_false in A. destruct (starts_with (lit "Version 2 Direct Sun Algorithm") l2) eqn:V; [|discriminate]. apply starts_with_spec in V.
        destruct (contains (lit "SDA") l1) eqn:S; intros [= <-]; constructor; auto; [apply contains_iff|apply contains_false]; auto.
  - unfold get_version. intros H. destruct H; repeat match goal with
    | H : mentions _ _ |- _ => apply contains_iff in H; rewrite H; clear H
    | H : ~ mentions _ _ |- _ => apply contains_false in H; rewrite H; clear H
    | H : begins _ _ |- _ => apply starts_with_spec in H; rewrite H; clear H
    | H : ~ begins _ _ |- _ => apply starts_false in H; rewrite H; clear H
    end; reflexivity.
Qed.
Lemma pieces_iff s l : pieces s l <-> split_on "," s = l.
Proof.
  split.
  - intros (N & F & ->). apply split_join; auto.
  - intros <-. split; [apply split_on_nonnil|]. split; [intros p; apply split_pieces|symmetry; apply join_split].
Qed.
Lemma newlines_iff s t : without_newlines s t <-> remove_char newline s = t.
Proof.
  assert (E : remove_char newline s = filter (fun c => negb (Ascii.eqb c "010"%char)) s).
  { unfold remove_char. apply filter_ext. intros c. unfold newline. destruct (ascii_dec c "010"%char) as [->|N]; [reflexivity|]. apply Ascii.eqb_neq in N. rewrite N. reflexivity. }
  unfold without_newlines. rewrite E. split; congruence.
Qed.
Lemma is_wavelengths w : (str_eqb w (lit "Exact_Wavelengths_for_Input_AOD(um)") || str_eqb w (lit "Exact_Wavelengths_for_Input_AOD(nm)"))%bool = true <-> In w wavelengths.
Proof. rewrite orb_true_iff, !str_eqb_eq. unfold wavelengths. cbn [In]. intuition. Qed.
Lemma repeat_snoc {A} (w : A) n front : (front ++ [w]) ++ repeat w (Z.to_nat (n - 1)) = front ++ repeat w (Z.to_nat (Z.max 1 n)).
Proof. rewrite <- app_assoc. f_equal. cbn [app]. replace (Z.to_nat (Z.max 1 n)) with (S (Z.to_nat (n - 1))) by lia. reflexivity. Qed.
Theorem columns_of first second cs : columns first second = Ok cs <-> file_columns first second cs.
Proof.
  unfold columns. remember (remove_char newline first) as t eqn:T. symmetry in T. pose proof T as T'. apply newlines_iff in T. remember (split_on "," t) as vs eqn:V. symmetry in V. apply pieces_iff in V.
  assert (NN : vs <> []) by apply V. destruct (exists_last NN) as (front & final & ->). rewrite last_last.
  split.
  - destruct (str_eqb final _ || str_eqb final _)%bool eqn:W.
    + apply is_wavelengths in W. destruct front as [|col front] using rev_ind; [|clear IHfront].
      * cbn [app length Nat.eqb]. destruct (nth_error _ _) as [n|] eqn:N; [|discriminate]. destruct (int_of n) as [z|] eqn:Z; [|discriminate]. cbn [bind]. intros [= <-].
        change (file_columns first second (([] ++ [final]) ++ repeat final (Z.to_nat (z - 1)))). rewrite repeat_snoc. cbn [app].
        assert (NV : split_on "," second <> []) by apply split_on_nonnil. destruct (exists_last NV) as (values & lastv & E). rewrite E in N. rewrite app_length in N. cbn [length] in N. replace (length values + 1 - 1) with (length values) in N by lia.
        rewrite nth_error_app2, Nat.sub_diag in N by lia. injection N as ->. apply pieces_iff in E. eapply fc_only; eauto.
      * rewrite !app_length. cbn [length]. replace (length front + 1 + 1 =? 1) with false by (symmetry; apply Nat.eqb_neq; lia). replace (length front + 1 + 1 - 2) with (length front) by lia.
        destruct (nth_error _ _) as [n|] eqn:N; [|discriminate]. destruct (int_of n) as [z|] eqn:Z; [|discriminate]. cbn [bind]. intros [= <-]. rewrite repeat_snoc, <- app_assoc.
        eapply fc_wavelengths; eauto; [rewrite <- app_assoc in V; exact V|apply pieces_iff; reflexivity].
    + intros [= <-]. eapply fc_plain; eauto. rewrite <- is_wavelengths, W. discriminate.
  - intros H. destruct H as [t0 front' final' T0 P NW|t0 before col w values n z T0 P IW D N Z|t0 w values n z T0 P IW D Z]; apply newlines_iff in T0; rewrite T' in T0; subst t0; apply pieces_iff in V, P; rewrite V in P.
    + apply app_inj_tail in P. destruct P as [-> ->]. destruct (str_eqb final' _ || str_eqb final' _)%bool eqn:W; [apply is_wavelengths in W; contradiction|reflexivity].
    + change [col; w] with ([col] ++ [w]) in P. rewrite app_assoc in P. apply app_inj_tail in P. destruct P as [-> ->]. apply is_wavelengths in IW. rewrite IW. rewrite !app_length. cbn [length].
      replace (length before + 1 + 1 =? 1) with false by (symmetry; apply Nat.eqb_neq; lia). replace (length before + 1 + 1 - 2) with (length before) by lia. apply pieces_iff in D. rewrite D, N. cbv beta iota. rewrite Z. cbn [bind]. rewrite repeat_snoc, <- app_assoc. reflexivity.
    + change [w] with ([] ++ [w]) in P. apply app_inj_tail in P. destruct P as [-> ->]. apply is_wavelengths in IW. rewrite IW. cbn [app length Nat.eqb]. apply pieces_iff in D. rewrite D, app_length. cbn [length]. replace (length values + 1 - 1) with (length values) by lia.
      rewrite nth_error_app2, Nat.sub_diag by lia. cbn [nth_error]. rewrite Z. cbn [bind]. change (Ok (([] ++ [w]) ++ repeat w (Z.to_nat (z - 1))) = Ok (repeat w (Z.to_nat (Z.max 1 z)))). rewrite repeat_snoc. reflexivity.
Qed.
Lemma variables_of lines v before first second rest cs : file_version lines v -> lines = before ++ first :: second :: rest -> length before = lines_before v -> file_columns first second cs ->
  get_file_variables lines = Ok (name_columns (repeated_items cs) cs).
Proof.
  intros V E L C. apply version_of in V. apply columns_of in C. unfold get_file_variables. rewrite V. cbn [bind]. assert (H : header_length v - 1 = length before) by (rewrite L; destruct v; reflexivity).
  rewrite H, E, skipn_app, skipn_all, Nat.sub_diag. cbn [app skipn]. rewrite C. reflexivity.
Qed.
Theorem file_names lines v before first second rest cs : file_version lines v -> lines = before ++ first :: second :: rest -> length before = lines_before v -> file_columns first second cs ->
  exists names, get_file_variables lines = Ok names /\ length names = length cs /\ forall i c, nth_error cs i = Some c -> exists s, nth_error names i = Some s /\ named cs i c s.
Proof. intros V E L C. rewrite (variables_of _ _ _ _ _ _ _ V E L C). eexists. split; [reflexivity|]. apply names_of. Qed.
Theorem file_names_distinct lines v before first second rest cs : file_version lines v -> lines = before ++ first :: second :: rest -> length before = lines_before v -> file_columns first second cs ->
  no_clash cs -> exists names, get_file_variables lines = Ok names /\ NoDup names.
Proof. intros V E L C N. rewrite (variables_of _ _ _ _ _ _ _ V E L C). eexists. split; [reflexivity|]. apply names_distinct, N. Qed.
