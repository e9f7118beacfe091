(** Proofs for C81. *)
From Coq Require Import String.
From Verif Require Import Base PyStr QBase DateModel DateSpec DateProofs DistModel DistSpec DistProofs FileListModel FileListProofs AeroModel AeroSpec AeroProofs RafProofs CciModel L3Model L3Spec.
From Coq Require Import List Ascii Lia Lqa.
Import ListNotations.
Open Scope string_scope. Open Scope list_scope. Open Scope Z_scope. Notation length := List.length.

(** ** texts *)
Definition T : ascii := "T"%char.
Lemma digit_T d : (d < 10)%nat -> render_digit d <> T.
Proof. intros H. do 10 (destruct d as [|d]; [vm_compute; discriminate|]). lia. Qed.
Lemma digit_4 d : (d < 10)%nat -> render_digit d = "4"%char -> d = 4%nat.
Proof. intros H. do 10 (destruct d as [|d]; [vm_compute; (reflexivity || discriminate)|]). lia. Qed.
Lemma text_T n ds : digits n ds -> ~ In T (text ds).
Proof. intros [_ F] I. unfold text in I. apply in_map_iff in I. destruct I as (d & E & Hd). rewrite Forall_forall in F. apply (digit_T d (F d Hd) E). Qed.
Lemma split_T (x x' y y' : str) : ~ In T x -> ~ In T y -> x ++ T :: y = x' ++ T :: y' -> x = x' /\ y = y'.
Proof.
  revert x'. induction x as [|a x IH]; intros [|b x'] N N' E; cbn in E.
  - injection E as ->. auto.
  - injection E as _ ->. exfalso. apply N'. rewrite in_app_iff. right. left. reflexivity.
  - injection E as -> _. exfalso. apply N. left. reflexivity.
  - injection E as -> E. destruct (IH x') as [-> ->]; auto. intros H. apply N. right. exact H.
Qed.
Lemma firstn_len {A} (l r : list A) : firstn (length l) (l ++ r) = l.
Proof. induction l; cbn; congruence. Qed.
Lemma skipn_len {A} (l r : list A) : skipn (length l) (l ++ r) = r.
Proof. induction l; cbn; auto. Qed.
Lemma field_text n ds r : digits n ds -> field n (text ds ++ r) = Ok (number ds, r).
Proof.
  intros [L F]. unfold field. assert (LT : length (text ds) = n) by (unfold text; rewrite map_length; exact L). rewrite <- LT. rewrite firstn_len, skipn_len, Nat.eqb_refl. assert (D : forallb is_digit (text ds) = true) by (apply forallb_forall; apply Forall_forall; apply digits_all; exact F). rewrite D. cbn [andb]. unfold number, text. rewrite (digits_val_render ds F). reflexivity.
Qed.
Lemma strptime_day Y M D h m s : digits 4 Y -> Forall (digits 2) [M; D; h; m; s] ->
  strptime true (text Y ++ text M ++ text D ++ lit "T" ++ text h ++ text m ++ text s ++ lit "Z") = new_datetime (mkDT (number Y) (number M) (number D) (number h) (number m) (number s)).
Proof.
  intros HY H. rewrite Forall_forall in H. unfold strptime. rewrite (field_text 4) by assumption. cbn [bind snd]. rewrite (field_text 2) by (apply H; cbn; auto). cbn [bind snd]. rewrite (field_text 2) by (apply H; cbn; auto). cbn [bind snd].
  match goal with |- context [expect "T" (lit "T" ++ ?r)] => change (expect "T" (lit "T" ++ r)) with (Ok r) end. cbn [bind]. rewrite (field_text 2) by (apply H; cbn; auto). cbn [bind snd]. rewrite (field_text 2) by (apply H; cbn; auto). cbn [bind snd]. rewrite (field_text 2) by (apply H; cbn; auto 6). cbn [bind snd fst]. reflexivity.
Qed.
Lemma strptime_month Y M h m s : digits 4 Y -> Forall (digits 2) [M; h; m; s] ->
  strptime false (text Y ++ text M ++ lit "T" ++ text h ++ text m ++ text s ++ lit "Z") = new_datetime (mkDT (number Y) (number M) 1 (number h) (number m) (number s)).
Proof.
  intros HY H. rewrite Forall_forall in H. unfold strptime. rewrite (field_text 4) by assumption. cbn [bind snd]. rewrite (field_text 2) by (apply H; cbn; auto). cbn [bind snd].
  match goal with |- context [expect "T" (lit "T" ++ ?r)] => change (expect "T" (lit "T" ++ r)) with (Ok r) end. cbn [bind]. rewrite (field_text 2) by (apply H; cbn; auto). cbn [bind snd]. rewrite (field_text 2) by (apply H; cbn; auto). cbn [bind snd]. rewrite (field_text 2) by (apply H; cbn; auto 6). cbn [bind snd fst]. reflexivity.
Qed.
Lemma tail_T h m s : Forall (digits 2) [h; m; s] -> ~ In T (text h ++ text m ++ text s ++ lit "Z").
Proof.
  intros H I. rewrite Forall_forall in H. rewrite !in_app_iff in I. destruct I as [I|[I|[I|I]]]; [eapply text_T; [|exact I]; apply H; cbn; auto..|]. cbn in I. destruct I as [I|[]]. discriminate.
Qed.
Lemma no_44 Y M D h m s : digits 4 Y -> Forall (digits 2) [M; D; h; m; s] -> number D <> 44 -> contains (lit "44T") (text Y ++ text M ++ text D ++ lit "T" ++ text h ++ text m ++ text s ++ lit "Z") = false.
Proof.
  intros HY H N. apply contains_false. intros (a & b & E). rewrite Forall_forall in H. assert (HT : ~ In T (text h ++ text m ++ text s ++ lit "Z")) by (apply tail_T; rewrite Forall_forall; intros x Hx; apply H; cbn in *; tauto).
  assert (HX : ~ In T (text Y ++ text M ++ text D)). { rewrite !in_app_iff. intros [I|[I|I]]; (eapply text_T; [|exact I]); [exact HY|apply H; cbn; auto..]. }
  change (lit "44T") with (lit "44" ++ [T]) in E. change (lit "T") with [T] in E. rewrite <- !app_assoc in E. cbn [app] in E.
  set (w := text h ++ text m ++ text s ++ lit "Z") in *. assert (E' : (text Y ++ text M ++ text D) ++ T :: w = (a ++ lit "44") ++ T :: b) by (rewrite <- !app_assoc; exact E).
  destruct (split_T _ _ _ _ HX HT E') as [EX _]. rewrite app_assoc in EX. destruct (H D) as [LD FD]; [cbn; auto|].
  assert (LL : length (text Y ++ text M) = length a). { apply (f_equal (@length ascii)) in EX. rewrite !app_length in EX. unfold text in *. rewrite !map_length in EX. rewrite app_length, !map_length. cbn in EX. lia. }
  assert (ED : text D = lit "44"). { apply (f_equal (skipn (length a))) in EX. rewrite (skipn_len a) in EX. rewrite <- LL, skipn_len in EX. exact EX. }
  apply N. destruct D as [|d1 [|d2 [|]]]; try discriminate LD. inversion FD as [|? ? H1 FD']; subst. inversion FD' as [|? ? H2 _]; subst. clear - ED H1 H2.
  assert (E1 : render_digit d1 = "4"%char) by exact (f_equal (hd T) ED). assert (E2 : render_digit d2 = "4"%char) by exact (f_equal (fun l => hd T (tl l)) ED). rewrite (digit_4 d1 H1 E1), (digit_4 d2 H2 E2). reflexivity.
Qed.
(** ** replacing *)
Lemma find_T (x y r : str) : ~ In T x -> strip_prefix (lit "44T") (x ++ T :: y) = Some r -> x = lit "44" /\ r = y.
Proof.
  intros N E. apply strip_prefix_some in E. change (lit "44T" ++ r) with (lit "44" ++ T :: r) in E. clear - N E. remember (lit "44") as f eqn:EF. assert (NF : ~ In T f) by (subst; intros [I|[I|[]]]; discriminate). clear EF.
  revert f NF E. induction x as [|c x IH]; intros [|d f] NF E; cbn in E.
  - injection E as ->. auto.
  - injection E as <- _. exfalso. apply NF. left. reflexivity.
  - injection E as -> _. exfalso. apply N. left. reflexivity.
  - injection E as -> E. destruct (IH (fun I => N (or_intror I)) f (fun I => NF (or_intror I)) E) as [-> ->]. auto.
Qed.
Lemma no_T_same : forall n w, ~ In T w -> replace_all n (lit "44T") (lit "T") w = w.
Proof.
  induction n as [|n IH]; intros w N; [reflexivity|]. destruct w as [|c w]; [reflexivity|]. change (replace_all (S n) (lit "44T") (lit "T") (c :: w)) with (match strip_prefix (lit "44T") (c :: w) with Some rest => lit "T" ++ replace_all n (lit "44T") (lit "T") rest | None => c :: replace_all n (lit "44T") (lit "T") w end).
  destruct (strip_prefix (lit "44T") (c :: w)) as [r|] eqn:E.
  - apply strip_prefix_some in E. exfalso. apply N. rewrite E. right. right. left. reflexivity.
  - f_equal. apply IH. intros I. apply N. right. exact I.
Qed.
Lemma replaced : forall x w n, ~ In T x -> ~ In T w -> (length x < n)%nat -> replace_all n (lit "44T") (lit "T") (x ++ lit "44T" ++ w) = x ++ lit "T" ++ w.
Proof.
  induction x as [|c x IH]; intros w n N NW L; (destruct n as [|n]; [cbn in L; lia|]).
  - change (lit "T" ++ replace_all n (lit "44T") (lit "T") w = lit "T" ++ w). rewrite (no_T_same n w NW). reflexivity.
  - change (replace_all (S n) (lit "44T") (lit "T") ((c :: x) ++ lit "44T" ++ w)) with (match strip_prefix (lit "44T") ((c :: x) ++ lit "44T" ++ w) with Some rest => lit "T" ++ replace_all n (lit "44T") (lit "T") rest | None => c :: replace_all n (lit "44T") (lit "T") (x ++ lit "44T" ++ w) end).
    destruct (strip_prefix (lit "44T") ((c :: x) ++ lit "44T" ++ w)) as [r|] eqn:E.
    + change (lit "44T" ++ w) with (lit "44" ++ T :: w) in E. rewrite app_assoc in E. apply find_T in E.
      * destruct E as [E _]. apply (f_equal (@length ascii)) in E. cbn in E. rewrite app_length in E. cbn in E. lia.
      * rewrite in_app_iff. intros [I|I]; [auto|]. cbn in I. destruct I as [I|[I|[]]]; discriminate.
    + cbn [app]. f_equal. apply IH; auto; [intros I; apply N; right; exact I|cbn in L; lia].
Qed.
Lemma last_day t n : valid_datetime t = true -> next_day t = Ok n -> day n = 1 ->
  valid_datetime (mkDT (year t) (month t) 1 (hour t) (minute t) (second t)) = true /\ bind (month_later (mkDT (year t) (month t) 1 (hour t) (minute t) (second t))) prev_day = Ok t.
Proof.
  intros V E D. apply valid_datetime_iff in V. destruct t as [y mo d h mi s]. cbn [year month day hour minute second] in *. unfold next_day in E. cbn [year month day hour minute second] in E. split.
  - apply valid_datetime_iff. cbn [year month day hour minute second]. assert (1 <= days_in_month y mo) by lia. lia.
  - destruct (d <? days_in_month y mo) eqn:B; [injection E as <-; cbn in D; lia|]. apply Z.ltb_ge in B. assert (DD : d = days_in_month y mo) by lia.
    unfold month_later. cbn [year month day hour minute second]. destruct (mo <? 12) eqn:M12.
    + apply Z.ltb_lt in M12. cbn [bind]. unfold prev_day. cbn [year month day hour minute second]. change (1 <? 1) with false. cbv iota. replace (1 <? mo + 1) with true by (symmetry; apply Z.ltb_lt; lia). replace (mo + 1 - 1) with mo by lia. rewrite <- DD. reflexivity.
    + apply Z.ltb_ge in M12. assert (mo = 12) by lia. subst mo. destruct (y <? 9999) eqn:Y9; [|discriminate]. apply Z.ltb_lt in Y9. unfold new_datetime. replace (valid_datetime (mkDT (y + 1) 1 1 h mi s)) with true by (symmetry; apply valid_datetime_iff; cbn; assert (days_in_month (y + 1) 1 = 31) by reflexivity; lia).
      cbn [bind]. unfold prev_day. cbn [year month day hour minute second]. change (1 <? 1) with false. cbv iota. replace (1 <? y + 1) with true by (symmetry; apply Z.ltb_lt; lia). replace (y + 1 - 1) with y by lia. rewrite DD. reflexivity.
Qed.
Theorem converted units s t : stamp s t -> convert_time_string_to_number units s = Ok (units t).
Proof.
  intros [Y M D h m sec HY H t0 V|Y M h m sec t0 HY H V EY EM Eh Em Es (n & En & Dn)].
  - unfold convert_time_string_to_number. rewrite no_44, strptime_day; auto.
    + unfold new_datetime. fold t0. rewrite V. reflexivity.
    + apply valid_datetime_iff in V. subst t0. cbn [year month day hour minute second] in V. assert (days_in_month (number Y) (number M) <= 31). { unfold days_in_month. destruct (_ =? 2); [destruct (is_leap _); lia|]. destruct (_ || _)%bool; lia. } lia.
  - unfold convert_time_string_to_number. rewrite Forall_forall in H. assert (HM : digits 2 M) by (apply H; cbn; auto). assert (HR : Forall (digits 2) [h; m; sec]) by (rewrite Forall_forall; intros x Hx; apply H; cbn in *; tauto).
    replace (contains _ _) with true. 2: { symmetry. apply contains_iff. exists (text Y ++ text M), (text h ++ text m ++ text sec ++ lit "Z"). rewrite <- !app_assoc. reflexivity. }
    assert (NX : ~ In T (text Y ++ text M)) by (rewrite in_app_iff; intros [I|I]; (eapply text_T; [|exact I]); eassumption).
    assert (RP : forall n, (length (text Y ++ text M) < n)%nat -> replace_all n (lit "44T") (lit "T") (text Y ++ text M ++ lit "44T" ++ text h ++ text m ++ text sec ++ lit "Z") = text Y ++ text M ++ lit "T" ++ text h ++ text m ++ text sec ++ lit "Z").
    { intros k L. pose proof (replaced (text Y ++ text M) (text h ++ text m ++ text sec ++ lit "Z") k NX (tail_T _ _ _ HR) L) as R. rewrite <- !app_assoc in R. exact R. }
    rewrite RP by (rewrite !app_length; cbn; lia). rewrite strptime_month by (auto; rewrite Forall_forall; exact H). rewrite <- EY, <- EM, <- Eh, <- Em, <- Es. destruct (last_day t0 n V En Dn) as [V1 LD]. unfold new_datetime. rewrite V1. cbn [bind].
    destruct (month_later _) as [t1|]; [|discriminate]. cbn [bind] in *. rewrite LD. reflexivity.
Qed.
(** ** attributes *)
Lemma get_att c n : dict_get (q_attrs c) n = att c n.
Proof. apply dict_get_find. Qed.
Lemma drop_get n l m : dict_get (drop n l) m = if str_eqb m n then None else dict_get l m.
Proof.
  induction l as [|[k v] l IH]; [cbn; destruct (str_eqb m n); reflexivity|]. cbn [drop filter fst]. destruct (str_eqb k n) eqn:E; cbn [negb].
  - apply str_eqb_eq in E. subst k. fold (drop n l). rewrite IH. destruct (str_eqb m n) eqn:E2; [reflexivity|]. cbn [dict_get]. destruct (str_eq_dec n m) as [->|]; [rewrite str_eqb_refl in E2; discriminate|reflexivity].
  - fold (drop n l). cbn [dict_get]. rewrite IH. destruct (str_eq_dec k m) as [->|]; [rewrite E; reflexivity|reflexivity].
Qed.
Lemma drops_get ns : forall l m, dict_get (fold_left (fun l n => drop n l) ns l) m = if existsb (str_eqb m) ns then None else dict_get l m.
Proof.
  induction ns as [|n ns IH]; intros l m; [reflexivity|]. cbn [fold_left existsb]. rewrite IH, drop_get. destruct (str_eqb m n), (existsb (str_eqb m) ns); reflexivity.
Qed.
Lemma bounds_ok units l sa sb a b : dict_get l (lit "time_coverage_start") = Some sa -> dict_get l (lit "time_coverage_end") = Some sb -> stamp sa a -> stamp sb b ->
  pop_bounds units l = Ok (units a, units b, drop (lit "time_coverage_end") (drop (lit "time_coverage_start") l)).
Proof.
  intros A B Sa Sb. unfold pop_bounds, pop. rewrite A. cbn [bind fst snd]. rewrite (converted units sa a Sa). cbn [bind]. rewrite drop_get. change (str_eqb (lit "time_coverage_end") (lit "time_coverage_start")) with false. cbv iota. rewrite B. cbn [bind fst snd]. rewrite (converted units sb b Sb). reflexivity.
Qed.
Lemma esa_hours_eq t : (esa_hours t == hours_since_1970 t)%Q.
Proof.
  unfold esa_hours, hours_since_1970. change (toordinal (mkDT 1970 1 1 0 0 0)) with 719163. rewrite inject_Z_plus, inject_Z_mult. generalize (inject_Z (toordinal t - 719163)) (inject_Z (seconds_of_day t)). intros x y. change (inject_Z 86400) with 86400%Q. field.
Qed.
Definition base (k : cci) (several : bool) (c : l3cube) : l3cube := if several then without_varying k c else c.
Lemma base_get k several c n : dict_get (q_attrs (base k several c)) n = if several && existsb (str_eqb n) (file_specific k) then None else att c n.
Proof. rewrite <- get_att. destruct several; [|reflexivity]. cbn [base without_varying q_attrs andb]. destruct k; apply drops_get. Qed.
Lemma left_out k several c n : let l := drop (lit "time_coverage_end") (drop (lit "time_coverage_start") (q_attrs (base k several c))) in
  (goes k several n -> dict_get l n = None) /\ (~ goes k several n -> dict_get l n = att c n).
Proof.
  cbv zeta. rewrite !drop_get, base_get. unfold goes. assert (S : existsb (str_eqb n) (file_specific k) = true <-> In n (file_specific k)).
  { rewrite existsb_exists. split; [intros (x & I & E); apply str_eqb_eq in E; subst; exact I|intros I; exists n; split; [exact I|apply str_eqb_refl]]. }
  destruct (str_eqb n (lit "time_coverage_end")) eqn:E1; [apply str_eqb_eq in E1; split; [reflexivity|intros H; exfalso; apply H; auto]|]. apply str_eqb_neq in E1.
  destruct (str_eqb n (lit "time_coverage_start")) eqn:E2; [apply str_eqb_eq in E2; split; [reflexivity|intros H; exfalso; apply H; auto]|]. apply str_eqb_neq in E2.
  destruct (several && existsb (str_eqb n) (file_specific k))%bool eqn:E3.
  - apply andb_true_iff in E3. destruct E3 as [E3 E4]. apply S in E4. split; [reflexivity|intros H; exfalso; apply H; auto].
  - apply andb_false_iff in E3. split; [intros [H|[H|[H1 H2]]]; [contradiction|contradiction|]|reflexivity]. apply S in H2. destruct E3; congruence.
Qed.
Theorem covered k several units fname c sa sb a b : att c (lit "time_coverage_start") = Some sa -> att c (lit "time_coverage_end") = Some sb -> stamp sa a -> stamp sb b -> time_there k c ->
  exists c', l3_callback k several units fname c = Ok c' /\
    match k with
    | Cloud => exists p, option_map fst (q_time c) = Some [p] /\ q_time c' = Some ([p], Some (units a, units b))
    | Aerosol => exists m x y, q_time c' = Some ([m], Some (x, y)) /\ (x == hours_since_1970 a)%Q /\ (y == hours_since_1970 b)%Q /\ (m * 2 == x + y)%Q
    end /\ forall n, (goes k several n -> att c' n = None) /\ (~ goes k several n -> att c' n = att c n).
Proof.
  intros A B Sa Sb TT. unfold l3_callback. fold (base k several c).
  assert (A' : dict_get (q_attrs (base k several c)) (lit "time_coverage_start") = Some sa) by (rewrite base_get; replace (existsb _ _) with false by (destruct k; reflexivity); rewrite andb_false_r; exact A).
  assert (B' : dict_get (q_attrs (base k several c)) (lit "time_coverage_end") = Some sb) by (rewrite base_get; replace (existsb _ _) with false by (destruct k; reflexivity); rewrite andb_false_r; exact B).
  destruct k; cbn [time_there] in TT.
  - destruct TT as (p & bb & ET). unfold cloud_single. assert (EQ : q_time (base Cloud several c) = q_time c) by (destruct several; reflexivity). rewrite EQ, ET, (bounds_ok units _ _ _ _ _ A' B' Sa Sb). cbn [bind length Nat.eqb fst snd]. eexists. split; [reflexivity|]. split; [exists p; auto|].
    intros n. rewrite <- get_att. cbn [q_attrs]. apply left_out.
  - unfold aerosol_single. rewrite (bounds_ok esa_hours _ _ _ _ _ A' B' Sa Sb). cbn [fst snd]. eexists. split; [reflexivity|]. split.
    + eexists; eexists; eexists. split; [reflexivity|]. split; [apply esa_hours_eq|]. split; [apply esa_hours_eq|]. field.
    + intros n. rewrite <- get_att. cbn [q_attrs]. apply left_out.
Qed.
Theorem missing_stamp k several units fname c : time_there k c -> (att c (lit "time_coverage_start") = None \/ exists sa a, att c (lit "time_coverage_start") = Some sa /\ stamp sa a /\ att c (lit "time_coverage_end") = None) ->
  l3_callback k several units fname c = Raises KeyError.
Proof.
  intros TT H. assert (X : forall u, pop_bounds u (q_attrs (base k several c)) = Raises KeyError).
  { intros u. assert (G : forall n, n = lit "time_coverage_start" \/ n = lit "time_coverage_end" -> dict_get (q_attrs (base k several c)) n = att c n) by (intros n N; rewrite base_get; replace (existsb _ _) with false by (destruct N as [->| ->]; destruct k; reflexivity); rewrite andb_false_r; reflexivity).
    unfold pop_bounds, pop. rewrite G by auto. destruct H as [->|(sa & a & -> & S & E)]; [reflexivity|]. cbn [bind fst snd]. rewrite (converted u sa a S). cbn [bind]. rewrite drop_get. change (str_eqb (lit "time_coverage_end") (lit "time_coverage_start")) with false. cbv iota. rewrite G by auto. rewrite E. reflexivity. }
  unfold l3_callback. fold (base k several c). destruct k; cbn [time_there] in TT.
  - destruct TT as (p & bb & ET). unfold cloud_single. assert (EQ : q_time (base Cloud several c) = q_time c) by (destruct several; reflexivity). rewrite EQ, ET, X. reflexivity.
  - unfold aerosol_single. rewrite X. reflexivity.
Qed.
(** the file that is known to be wrong *)
Definition bad_cube : l3cube := mkL3 [(lit "time_coverage_start", lit "unknown"); (lit "time_coverage_end", lit "unknown")] None.
Theorem known_file several units fname : mentions (lit "201101-ESACCI") fname -> l3_callback Aerosol several units fname bad_cube = Raises NameError.
Proof. intros M. apply contains_iff in M. unfold l3_callback, aerosol_single. destruct several; cbv [pop_bounds]; (match goal with |- match ?x with _ => _ end = _ => replace x with (@Raises (Q * Q * list (str * str)) ValueError) by (vm_compute; reflexivity) end); rewrite M; reflexivity. Qed.
