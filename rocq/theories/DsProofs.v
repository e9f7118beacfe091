From Coq Require Import ZArith Lqa.
From Verif Require Import Base PyStr QBase LonModel LonSpec LonProofs DateModel DateSpec DateProofs FileListModel IndexModel UngrModel UngrSpec UngrProofs SubsetModel SubsetSpec SubsetProofs Subset2Proofs GridIndexModel AggModel DsModel DsSpec.
Open Scope list_scope.

(** ** Dates in order *)
Section Calendar.
Open Scope Z_scope.
Lemma days_in_month_pos y m : 28 <= days_in_month y m <= 31.
Proof. apply dim_range. Qed.
Lemma days_before_month_mono y n m : (n <= m)%nat -> days_before_month y n + 28 * Z.of_nat (m - n) <= days_before_month y m.
Proof.
  intros H. induction H as [|m H IH]; [rewrite Nat.sub_diag; lia|]. cbn [days_before_month]. pose proof (dim_range y (Z.of_nat (S m))). replace (S m - n)%nat with (S (m - n)) by lia. lia.
Qed.
Lemma days_before_month_at y m : 1 <= m -> days_before_month y (Z.to_nat m) = days_before_month y (Z.to_nat (m - 1)) + days_in_month y m.
Proof. intros H. replace (Z.to_nat m) with (S (Z.to_nat (m - 1))) by lia. cbn [days_before_month]. replace (Z.of_nat (S (Z.to_nat (m - 1)))) with m by lia. reflexivity. Qed.
Lemma days_before_year_mono y y' : y < y' -> days_before_year y + (if is_leap y then 366 else 365) <= days_before_year y'.
Proof.
  intros H. replace y' with (y + 1 + Z.of_nat (Z.to_nat (y' - y - 1))) by lia. induction (Z.to_nat (y' - y - 1)) as [|n IH].
  - rewrite Z.add_0_r, days_before_year_succ. lia.
  - replace (y + 1 + Z.of_nat (S n)) with (y + 1 + Z.of_nat n + 1) by lia. rewrite (days_before_year_succ (y + 1 + Z.of_nat n)). destruct (is_leap (y + 1 + Z.of_nat n)); lia.
Qed.
Lemma instant_lt t t' : valid_datetime t = true -> valid_datetime t' = true -> not_later t t' -> t <> t' -> instant t < instant t'.
Proof.
  intros V V' L N. apply valid_datetime_iff in V. apply valid_datetime_iff in V'. destruct t as [y m d h i s], t' as [y' m' d' h' i' s']. unfold not_later, fields in L. cbn [lex_le DateModel.year DateModel.month DateModel.day DateModel.hour DateModel.minute DateModel.second] in *.
  unfold instant, toordinal, seconds_of_day. cbn [DateModel.year DateModel.month DateModel.day DateModel.hour DateModel.minute DateModel.second].
  destruct (Z.eq_dec y y') as [->|Ny].
  - destruct (Z.eq_dec m m') as [->|Nm].
    + destruct (Z.eq_dec d d') as [->|Nd]; [|nia].
      destruct (Z.eq_dec h h') as [->|]; [|nia]. destruct (Z.eq_dec i i') as [->|]; [|nia]. destruct (Z.eq_dec s s') as [->|]; [congruence|]. nia.
    + assert (m < m') by lia. pose proof (days_before_month_mono y' (Z.to_nat m) (Z.to_nat (m' - 1)) ltac:(lia)) as M. rewrite days_before_month_at in M by lia. nia.
  - assert (y < y') by lia. pose proof (days_before_year_mono y y' ltac:(lia)) as Y. pose proof (days_of_months y) as T.
    pose proof (days_before_month_mono y (Z.to_nat m) 12 ltac:(lia)) as M. rewrite days_before_month_at in M by lia.
    pose proof (days_before_month_mono y' 0 (Z.to_nat (m' - 1)) ltac:(lia)) as M'. change (days_before_month y' 0) with 0 in M'. rewrite T in M. destruct (is_leap y); nia.
Qed.
Lemma not_later_total a b : not_later a b \/ not_later b a.
Proof. unfold not_later, fields. cbn [lex_le]. lia. Qed.
Lemma not_later_antisym a b : not_later a b -> not_later b a -> a = b.
Proof. unfold not_later, fields. cbn [lex_le]. destruct a, b. cbn. intros H H'. assert (X : year = year0 /\ month = month0 /\ day = day0 /\ hour = hour0 /\ minute = minute0 /\ second = second0) by lia. destruct X as (-> & -> & -> & -> & -> & ->). reflexivity. Qed.
Lemma not_later_refl a : not_later a a.
Proof. unfold not_later, fields. cbn [lex_le]. lia. Qed.
Lemma not_later_trans a b c : not_later a b -> not_later b c -> not_later a c.
Proof. unfold not_later, fields. cbn [lex_le]. lia. Qed.
Lemma instant_order a b : valid_datetime a = true -> valid_datetime b = true -> (instant a <= instant b <-> not_later a b).
Proof.
  intros Va Vb. split; intros H.
  - destruct (not_later_total a b) as [L|L]; auto. destruct (Z.eq_dec (instant a) (instant b)) as [E|N].
    + destruct (list_eq_dec Z.eq_dec (fields a) (fields b)) as [F|F]; [unfold not_later; rewrite F; apply not_later_refl|]. exfalso. assert (instant b < instant a); [|lia]. apply instant_lt; auto. intros ->. auto.
    + exfalso. assert (instant b < instant a); [|lia]. apply instant_lt; auto. intros ->. auto.
  - destruct (list_eq_dec Z.eq_dec (fields a) (fields b)) as [F|F].
    + assert (a = b) as ->; [|lia]. apply not_later_antisym; unfold not_later; rewrite F; apply not_later_refl.
    + assert (instant a < instant b); [|lia]. apply instant_lt; auto. intros ->. auto.
Qed.
End Calendar.
Lemma accepted_range p : accepted p -> exists lo hi, pdt_range p = Ok (lo, hi) /\ valid_datetime lo = true /\ valid_datetime hi = true /\
  forall t, valid_datetime t = true -> (has_components p t <-> not_later lo t /\ not_later t hi).
Proof.
  intros [(rest & L & N) X]. destruct (partial_range (p_year p) rest p L N X) as (lo & hi & H). exists lo, hi. exact H.
Qed.
Lemma period_spec p a b : accepted p -> first_second p a -> last_second p b -> period_bounds p = Ok (Date a, Date b) /\ forall t, valid_datetime t = true -> (has_components p t <-> not_later a t /\ not_later t b).
Proof.
  intros HA (Va & Ca & Fa) (Vb & Cb & Lb). destruct (accepted_range p HA) as (lo & hi & E & Vlo & Vhi & H).
  assert (NE : not_later lo hi). { apply H in Ca; auto. destruct Ca. eapply not_later_trans; eauto. }
  assert (Clo : has_components p lo) by (apply H; auto using not_later_refl). assert (Chi : has_components p hi) by (apply H; auto using not_later_refl).
  assert (a = lo) as -> by (apply not_later_antisym; [auto|apply H in Ca; tauto]). assert (b = hi) as -> by (apply not_later_antisym; [apply H in Cb; tauto|auto]).
  split; auto. unfold pdt_range in E. unfold period_bounds. destruct (pdt_min p); [|discriminate]. cbn [bind] in *. destruct (pdt_max p); [|discriminate]. cbn [bind] in *. injection E as -> ->. reflexivity.
Qed.

Section Units.
Variable units : str -> res timeunit.
Open Scope nat_scope.
(** ** From the keywords to limits *)
Definition dnamed (cs : list coord) (es : list (nat * (value * value))) : dated_limits := map (fun e => (cname cs (fst e), snd e)) es.
Lemma dict_set_dnamed cs es k c l : own_names cs -> nth_error cs k = Some c -> Forall (fun e : nat * (value * value) => fst e < length cs) es -> ~ In k (map fst es) -> dict_set (dnamed cs es) (c_name c) l = dnamed cs (es ++ [(k, l)]).
Proof.
  intros [N _] Hk HF HN. rewrite dict_set_fresh. - unfold dnamed. rewrite map_app. cbn [map fst snd]. unfold cname at 3. rewrite Hk. reflexivity.
  - unfold dnamed. rewrite map_map. cbn [fst]. rewrite in_map_iff. intros ([j l'] & E & HI). cbn [fst] in E. apply HN. rewrite Forall_forall in HF. specialize (HF _ HI). cbn [fst] in HF.
    destruct (nth_error cs j) as [x|] eqn:Hj; [|apply nth_error_None in Hj; lia]. unfold cname in E. rewrite Hj in E. assert (j = k) by (eapply nodup_nth; eauto). subst j. apply in_map_iff. exists (k, l'). auto.
Qed.
(** the entry of a limit *)
Definition entry (cs : list coord) (l : dated_limit) (e : nat * (value * value)) : Prop :=
  fst e = fst l /\ match snd l with
  | Numbers a b => exists a' b', snd e = (Number a', Number b') /\ entry_for cs (fst l, (a, b)) (fst l, (a', b'))
  | Dates a b => snd e = (Date a, Date b)
  end.
Lemma bounds_spelled arg s : spells arg s -> exists va vb, bounds_of arg = Ok (va, vb) /\ match s with Numbers a b => number_of va a /\ number_of vb b | Dates a b => va = Date a /\ vb = Date b end.
Proof.
  intros H. destruct H as [va vb a b Ha Hb|va vb a b Ha Hb|a b|a b|p a b HA HF HL|p a b HA HF HL]; cbn [bounds_of].
  - exists va, vb. auto. - exists va, vb. split; auto. destruct a; cbn in Ha; subst va; reflexivity. - eauto. - eauto.
  - destruct (period_spec p a b HA HF HL) as [-> _]. eauto. - destruct (period_spec p a b HA HF HL) as [-> _]. eauto.
Qed.
Lemma filled_number v o d : number_of v o -> filled v d = bind (default_to o d) (fun x => Ok (Number x)).
Proof. destruct o; cbn [number_of]; intros ->; reflexivity. Qed.
Lemma add_limit_spec cs es kw (l : dated_limit) : own_names cs -> addresses cs (fst kw) (fst l) -> spells (snd kw) (snd l) -> Forall (fun e : nat * (value * value) => fst e < length cs) es -> ~ In (fst l) (map fst es) ->
  (forall c, nth_error cs (fst l) = Some c -> somes (c_points c) <> []) ->
  exists e, add_limit cs (dnamed cs es) kw = Ok (dnamed cs (es ++ [e])) /\ entry cs l e /\ fst e < length cs.
Proof.
  intros HO HA HS HF HN HP. destruct (address_position _ _ _ HA) as (c & Hc). unfold add_limit. rewrite (find_addressed cs (fst kw) (fst l) c HO HA Hc). destruct (bounds_spelled _ _ HS) as (va & vb & EB & M). rewrite EB. cbn [bind fst snd].
  assert (LT : fst l < length cs) by (apply nth_error_Some; congruence). destruct l as [k [a b|a b]]; cbn [fst snd] in *.
  - destruct M as [Ma Mb]. rewrite (filled_number va a _ Ma), (filled_number vb b _ Mb). destruct (resolve_one c a b (or_introl (HP c Hc))) as (a' & b' & Ea & Eb & HW & Ha & Hb). rewrite Ea, Eb. cbn [bind].
    exists (k, (Number a', Number b')). rewrite (dict_set_dnamed cs es k c); auto. split; [reflexivity|]. split; [|auto]. split; [reflexivity|]. cbn [fst snd]. exists a', b'. split; auto. split; [reflexivity|]. split.
    + cbn [fst snd]. intros c' x Hc' Hx. rewrite Hc in Hc'. injection Hc' as <-. auto.
    + intros [B1 B2]. cbn [fst snd] in *. rewrite Ha, Hb by auto. reflexivity.
  - destruct M as [-> ->]. cbn [filled bind]. exists (k, (Date a, Date b)). rewrite (dict_set_dnamed cs es k c); auto. split; [reflexivity|]. split; [|auto]. split; reflexivity.
Qed.
Lemma make_dated_spec cs kws ls : own_names cs -> Forall2 (fun kw (l : dated_limit) => addresses cs (fst kw) (fst l) /\ spells (snd kw) (snd l)) kws ls -> NoDup (map fst ls) -> (forall c, In c cs -> somes (c_points c) <> []) ->
  exists es, make_dated cs kws = Ok (dnamed cs es) /\ Forall2 (entry cs) ls es /\ Forall (fun e : nat * (value * value) => fst e < length cs) es.
Proof.
  intros HO HM HN HP. unfold make_dated. change (Ok (A:=dated_limits) []) with (Ok (dnamed cs [])).
  assert (G : forall es0, Forall (fun e : nat * (value * value) => fst e < length cs) es0 -> NoDup (map fst es0 ++ map fst ls) ->
    exists es, fold_left (fun k kw => bind k (fun k => add_limit cs k kw)) kws (Ok (dnamed cs es0)) = Ok (dnamed cs (es0 ++ es)) /\ Forall2 (entry cs) ls es /\ Forall (fun e : nat * (value * value) => fst e < length cs) es).
  { clear HN. induction HM as [|kw l kws ls [HA HS] HM IH]; intros es0 F0 ND.
    - exists []. cbn [fold_left]. rewrite app_nil_r. repeat split; constructor.
    - cbn [fold_left bind map] in *. assert (NI : ~ In (fst l) (map fst es0)) by (apply NoDup_remove_2 in ND; intros HI; apply ND, in_or_app; auto).
      destruct (add_limit_spec cs es0 kw l HO HA HS F0 NI) as (e & E & HE & LE); [intros c Hc; apply HP; eapply nth_error_In; eauto|]. rewrite E.
      assert (Ee : fst e = fst l) by apply HE. destruct (IH (es0 ++ [e])) as (es & E' & H1 & H2).
      + apply Forall_app. auto. + rewrite map_app. cbn [map]. rewrite Ee, <- app_assoc. exact ND.
      + exists (e :: es). rewrite E', <- app_assoc. repeat split; [constructor; auto|constructor; auto]. }
  destruct (G [] (Forall_nil _) HN) as (es & E & H1 & H2). exists es. auto.
Qed.

(** ** The longitudes are moved as they are for limits that are numbers *)
Definition dummy (ab : value * value) : Q * Q := match ab with (Number a, Number b) => (a, b) | _ => (0, 0)%Q end.
Definition dummies (es : list (nat * (value * value))) : list (nat * (Q * Q)) := map (fun e => (fst e, dummy (snd e))) es.
Definition numbers (ab : value * value) : Prop := exists a b, ab = (Number a, Number b).
Lemma prepare_dummy cs n ab : (numbers ab \/ forall c, get_coord cs (by_name n) = Ok c -> is_longitude c = false) -> prepare_dated cs (n, ab) = prepare_limit cs (n, dummy ab).
Proof.
  intros H. unfold prepare_dated. cbn [fst snd]. destruct H as [(a & b & ->)|H]; [reflexivity|].
  assert (E : forall l, prepare_limit cs (n, l) = Ok cs). { intros l. unfold prepare_limit. cbn [fst snd]. destruct (get_coord cs (by_name n)) as [c|] eqn:G; [rewrite (H c eq_refl)|]; reflexivity. }
  rewrite E. destruct ab as [[|a|a|a|a] [|b|b|b|b]]; try (destruct (get_coord cs (by_name n)) as [c|] eqn:G; [rewrite (H c eq_refl)|]; reflexivity). apply E.
Qed.
Lemma prepare_identity cs l cs' : prepare_limit cs l = Ok cs' -> map identity_of cs' = map identity_of cs.
Proof.
  unfold prepare_limit. destruct (get_coord cs (by_name (fst l))) as [c|]; [|congruence]. destruct (is_longitude c); [|congruence]. destruct (qmin_of _); [|discriminate]. cbn [bind]. destruct (qmax_of _); [|discriminate]. cbn [bind].
  destruct (new_start _ _ _ _) as [s|]; [|congruence]. intros H. injection H as <-. rewrite map_map. apply map_ext. intros x. destruct (matches _ x); reflexivity.
Qed.
Lemma fold_raises {A B} (f : A -> B -> res A) l e : fold_left (fun a b => bind a (fun a => f a b)) l (Raises e) = Raises e.
Proof. induction l; auto. Qed.
Lemma create_dummy cs es : own_names cs -> Forall (fun e : nat * (value * value) => fst e < length cs) es ->
  (forall e, In e es -> numbers (snd e) \/ forall c, nth_error cs (fst e) = Some c -> is_longitude c = false) ->
  forall cs', map identity_of cs' = map identity_of cs ->
  fold_left (fun cs l => bind cs (fun cs => prepare_dated cs l)) (dnamed cs es) (Ok cs') = fold_left (fun cs l => bind cs (fun cs => prepare_limit cs l)) (named cs (dummies es)) (Ok cs').
Proof.
  intros HO HF. induction HF as [|e es He HF IH]; intros H cs' I; [reflexivity|]. cbn [dnamed dummies named map fold_left bind fst snd].
  assert (E : prepare_dated cs' (cname cs (fst e), snd e) = prepare_limit cs' (cname cs (fst e), dummy (snd e))).
  { apply prepare_dummy. destruct (H e (or_introl eq_refl)) as [N|N]; [auto|right]. intros c G. destruct (nth_error cs (fst e)) as [x|] eqn:Hx; [|apply nth_error_None in Hx; lia]. destruct (nth_identity cs cs' (fst e) x I Hx) as (x' & Hx' & Ix).
    unfold cname in G. rewrite Hx in G. assert (Nx : c_name x = c_name x') by (apply identity_parts in Ix; destruct Ix as (_ & Ix & _); congruence). rewrite Nx, (get_coord_by_name cs' (fst e) x') in G; auto; [|eapply own_names_identity; eauto]. injection G as <-. rewrite (is_longitude_identity _ _ Ix). auto. }
  rewrite E. destruct (prepare_limit cs' (cname cs (fst e), dummy (snd e))) as [cs''|er] eqn:P.
  - apply IH; [intros; apply H; right; auto|]. rewrite (prepare_identity _ _ _ P). exact I.
  - change (map (fun e0 : nat * (value * value) => (cname cs (fst e0), snd e0)) es) with (dnamed cs es). rewrite !fold_raises. reflexivity.
Qed.

(** ** The mask *)
Definition test (n : str) (ab : value * value) (p : option Q) : bool :=
  match ab with
  | (Number a, Number b) => in_limits (a, b) p
  | (Date a, Date b) => match units n with Ok u => between_dates u a b p | Raises _ => false end
  | _ => false
  end.
Definition testable (n : str) (ab : value * value) : Prop := numbers ab \/ exists a b u, ab = (Date a, Date b) /\ units n = Ok u.
Lemma limit_mask_test c ab : testable (c_name c) ab -> limit_mask units c ab = Ok (map (test (c_name c) ab) (c_points c)).
Proof. intros [(a & b & ->)|(a & b & u & -> & U)]; unfold limit_mask; cbn [fst snd]; [reflexivity|]. rewrite U. cbn [bind]. f_equal. apply map_ext. intros p. unfold test. rewrite U. reflexivity. Qed.
Definition dqual (cs : list coord) (es : list (nat * (value * value))) (r : row) : bool := forallb (fun e : nat * (value * value) => test (cname cs (fst e)) (snd e) (nth (fst e) (fst r) None)) es.
Lemma dated_mask_spec d es : aligned d -> u_coords d <> [] -> own_names (u_coords d) -> Forall (fun e : nat * (value * value) => fst e < length (u_coords d)) es -> Forall (fun e => testable (cname (u_coords d) (fst e)) (snd e)) es ->
  exists m, dated_mask units (dnamed (u_coords d) es) (u_coords d) = Ok m /\ length m = length (u_values d) /\ forall i, i < length (u_values d) -> nth i m false = dqual (u_coords d) es (row_at d i).
Proof.
  intros HA HN HO HF HT. unfold dated_mask. destruct (u_coords d) as [|c0 cs] eqn:EC; [congruence|]. rewrite <- EC in *. assert (L0 : length (c_points c0) = length (u_values d)) by (unfold aligned in HA; rewrite EC in HA; inversion HA; auto). rewrite L0. clear HN.
  assert (G : forall m0, length m0 = length (u_values d) -> exists m, fold_left (fun m l => bind m (fun m => bind (get_coord (u_coords d) (by_name (fst l))) (fun c => bind (limit_mask units c (snd l)) (and_masks m)))) (dnamed (u_coords d) es) (Ok m0) = Ok m /\ length m = length (u_values d) /\ forall i, i < length (u_values d) -> nth i m false = nth i m0 false && dqual (u_coords d) es (row_at d i)).
  { induction HF as [|e es He HF IH]; intros m0 L; [exists m0; repeat split; auto; intros; cbn; rewrite andb_true_r; auto|]. inversion HT as [|? ? T1 T2]; subst.
    destruct (nth_error (u_coords d) (fst e)) as [c|] eqn:Hc; [|apply nth_error_None in Hc; lia]. cbn [dnamed map fold_left bind fst snd]. assert (NM : cname (u_coords d) (fst e) = c_name c) by (unfold cname; rewrite Hc; reflexivity). rewrite NM, (get_coord_by_name _ (fst e) c HO Hc). cbn [bind].
    assert (Lc : length (c_points c) = length (u_values d)) by (unfold aligned in HA; rewrite Forall_forall in HA; apply HA; eapply nth_error_In; eauto).
    rewrite NM in T1. rewrite (limit_mask_test c (snd e) T1). cbn [bind].
    unfold and_masks at 2. rewrite map_length, Lc, L, Nat.eqb_refl. destruct (IH T2 (map (fun ab : bool * bool => fst ab && snd ab) (combine m0 (map (test (c_name c) (snd e)) (c_points c))))) as (m & E & Lm & Hm).
    { rewrite map_length, combine_length, map_length. lia. }
    exists m. split; [exact E|]. split; auto. intros i Hi. rewrite Hm, nth_and by (auto; rewrite map_length; congruence). cbn [dqual forallb]. rewrite (row_coord d (fst e) c i Hc), NM.
    erewrite (nth_indep (map _ _)) by (rewrite map_length, Lc; auto). rewrite (map_nth (test (c_name c) (snd e)) (c_points c) None i), andb_assoc. reflexivity. }
  destruct (G (repeat true (length (u_values d)))) as (m & E & Lm & Hm); [apply repeat_length|]. exists m. repeat split; auto. intros i Hi. rewrite Hm by auto. rewrite (nth_indep _ false true), nth_repeat by (rewrite repeat_length; auto). reflexivity.
Qed.
Lemma dnamed_identity cs cs' es : map identity_of cs' = map identity_of cs -> dnamed cs' es = dnamed cs es.
Proof. intros H. unfold dnamed. apply map_ext. intros e. rewrite (cname_identity cs cs'); auto. Qed.
Lemma dqual_identity cs cs' es r : map identity_of cs' = map identity_of cs -> dqual cs' es r = dqual cs es r.
Proof. intros H. unfold dqual. induction es as [|e es IH]; [reflexivity|]. cbn [forallb]. rewrite (cname_identity cs cs') by auto. f_equal. exact IH. Qed.
Lemma fst_dummies es : map fst (dummies es) = map fst es.
Proof. unfold dummies. rewrite map_map. reflexivity. Qed.
Lemma constrain_dated_spec d es : aligned d -> complete d -> u_coords d <> [] -> own_names (u_coords d) -> Forall (fun e : nat * (value * value) => fst e < length (u_coords d)) es -> NoDup (map fst es) ->
  Forall (fun e => testable (cname (u_coords d) (fst e)) (snd e)) es -> (forall e, In e es -> numbers (snd e) \/ forall c, nth_error (u_coords d) (fst e) = Some c -> is_longitude c = false) -> rows d <> [] ->
  exists k f r, converted (u_coords d) (dummies es) k f /\ constrain_dated units (dnamed (u_coords d) es) d = Ok r /\ result_rows d (filter (dqual (u_coords d) es) (map (change k f) (rows d))) r.
Proof.
  intros HA HC HN HO HF HD HT HL HR.
  destruct (create_spec d (dummies es) HA HC HN HO) as (k & f & d2 & E & HV & R2 & A2 & I2); [unfold dummies; rewrite Forall_map; cbn [fst]; exact HF|rewrite fst_dummies; auto|auto|].
  exists k, f. unfold constrain_dated. assert (E' : create_dated (dnamed (u_coords d) es) d = Ok d2).
  { unfold create_dated. unfold create_data in E. rewrite (copy_same d HA HC HO) in *. cbn [bind] in *. rewrite (create_dummy (u_coords d) es HO HF HL (u_coords d) eq_refl). exact E. }
  rewrite E'. cbn [bind].
  assert (C2 : complete d2) by (intros r Hr; rewrite R2 in Hr; apply in_map_iff in Hr; destruct Hr as (x & <- & Hx); rewrite located_change; auto).
  assert (L : length (u_coords d2) = length (u_coords d)) by (rewrite <- (map_length identity_of), I2, map_length; auto).
  destruct (dated_mask_spec d2 es A2) as (m & Em & Lm & Hm); [intros Z; apply HN; rewrite Z in L; destruct (u_coords d); [auto|discriminate]|eapply own_names_identity; eauto|rewrite L; auto| |].
  { rewrite Forall_forall in *. intros e He. rewrite (cname_identity (u_coords d) (u_coords d2)) by auto. auto. }
  rewrite <- (dnamed_identity (u_coords d) (u_coords d2)) by auto. rewrite Em. cbn [bind].
  destruct (mask_get_spec d2 m (dqual (u_coords d2) es) A2 C2 Lm Hm) as (d3 & E3 & A3 & R3 & I3). rewrite E3. cbn [bind fst snd]. eexists. split; auto. split; [reflexivity|]. rewrite <- R2.
  replace (filter (dqual (u_coords d) es) (rows d2)) with (rows d3) by (rewrite R3; apply filter_ext; intros; apply dqual_identity; auto). unfold result_rows.
  destruct (length (u_values d3) =? 0)%nat eqn:Z; [apply size_zero; auto|]. split; [intros Y; apply size_zero in Y; congruence|]. split; auto. split; auto. congruence.
Qed.

(** ** The theorem for ungridded data *)
Lemma entries_fst cs ls es : Forall2 (entry cs) ls es -> map fst es = map fst ls.
Proof. induction 1 as [|l e ls es [E _] _ IH]; [reflexivity|]. cbn. congruence. Qed.
Lemma means_identity d d1 kws ls : map identity_of (u_coords d1) = map identity_of (u_coords d) -> means d kws ls ->
  Forall2 (fun kw (l : dated_limit) => addresses (u_coords d1) (fst kw) (fst l) /\ spells (snd kw) (snd l)) kws ls.
Proof. intros I H. induction H as [|kw l kws ls [A B] _ IH]; constructor; auto. split; auto. eapply addresses_identity; eauto. Qed.
Lemma between_iff u a b x : between_dates u a b (Some x) = true <-> (qinstant a <= t_read u x <= qinstant b)%Q.
Proof. unfold between_dates. rewrite andb_true_iff, !Qleb_le. tauto. Qed.
Lemma entry_meets d ls es k f r : aligned d -> complete d -> Forall2 (entry (u_coords d)) ls es -> Forall (fun e : nat * (value * value) => fst e < length (u_coords d)) es ->
  (forall l, In l ls -> match snd l with Numbers a b => fst l = k -> (a <> None /\ b <> None) \/ f = (fun x => x) | Dates _ _ => exists u, units (cname (u_coords d) (fst l)) = Ok u end) -> In r (rows d) ->
  (dqual (u_coords d) es (change k f r) = true <-> forall l, In l ls -> exists x, nth (fst l) (fst (change k f r)) None = Some x /\ inside units (cname (u_coords d) (fst l)) (snd l) x).
Proof.
  intros HA HC HE HF HK HR. induction HE as [|l e ls es HE1 HE IH]; [split; [intros _ l []|reflexivity]|]. inversion HF as [|? ? HP HF']; subst. cbn [dqual forallb]. rewrite andb_true_iff. fold (dqual (u_coords d) es (change k f r)). rewrite IH by (auto; intros; apply HK; right; auto).
  assert (X : test (cname (u_coords d) (fst e)) (snd e) (nth (fst e) (fst (change k f r)) None) = true <-> exists x, nth (fst l) (fst (change k f r)) None = Some x /\ inside units (cname (u_coords d) (fst l)) (snd l) x).
  { specialize (HK l (or_introl eq_refl)). destruct HE1 as [E1 E2]. rewrite E1. destruct l as [j [a b|a b]]; cbn [fst snd] in *.
    - destruct E2 as (a' & b' & E2 & E3). rewrite E2. cbn [test inside].
      assert (Q1 : qual [(j, (a', b'))] (change k f r) = qualifies [(j, (a, b))] (change k f r)).
      { refine (qual_qualifies d [(j, (a, b))] [(j, (a', b'))] k f r HA HC (Forall2_cons _ _ E3 (Forall2_nil _)) _ _ HR). - constructor; [cbn [fst]; subst j; exact HP|constructor]. - intros l0 [<-|[]] Ek. cbn [fst snd] in *. destruct (HK Ek) as [B|B]; auto. }
      cbn [qual qualifies forallb fst snd] in Q1. rewrite !andb_true_r in Q1. rewrite Q1. destruct (nth j (fst (change k f r)) None) as [x|]; [|split; [discriminate|intros (x & E & _); discriminate]].
      split; [intros H; exists x; auto|intros (x' & E & H); injection E as <-; exact H].
    - rewrite E2. cbn [test inside]. destruct HK as (u & U). rewrite U. destruct (nth j (fst (change k f r)) None) as [x|]; [|split; [discriminate|intros (x & E & _); discriminate]].
      rewrite between_iff. split; [intros H; exists x; split; auto; exists u; auto|intros (x' & E & u' & U' & H); injection E as <-; injection U' as <-; exact H]. }
  rewrite X. split; [intros [H1 H2] l' [<-|HI]; auto|intros H; split; [apply H; left; auto|intros; apply H; right; auto]].
Qed.
Theorem subset_dates d kws ls : proper d -> means d kws ls -> NoDup (map fst ls) -> Forall (reasonable units d) ls -> located_rows d <> [] ->
  exists k f r rs, subset_dated units d kws = Ok r /\ (forall x, same_meridian x (f x)) /\ (is_lon d k \/ forall x, f x = x) /\
    chosen (meets units d ls) (map (change k f) (located_rows d)) rs /\ result_rows d rs r.
Proof.
  intros HP HM HN HG HB. destruct (proper_processed d HP) as (d1 & E1 & A1 & C1 & R1 & I1 & N1 & O1). rewrite <- R1 in HB.
  destruct (make_dated_spec (u_coords d1) kws ls O1 (means_identity d d1 kws ls I1 HM) HN) as (es & EM & FE & FB).
  { intros c Hc. apply In_nth_error in Hc. destruct Hc as (k & Hk). eapply somes_nonempty; eauto. }
  pose proof (entries_fst _ _ _ FE) as FF. rewrite Forall_forall in HG.
  assert (NM : forall n, coord_name d n = cname (u_coords d1) n) by (intros n; rewrite (cname_identity (u_coords d) (u_coords d1)) by auto; reflexivity).
  assert (HE : forall e, In e es -> exists l, In l ls /\ entry (u_coords d1) l e).
  { intros e He. clear -FE He. induction FE as [|l e' ls es X FE IH]; [contradiction|]. destruct He as [<-|He]; [exists l; split; auto; left; auto|]. destruct (IH He) as (l' & H1 & H2). exists l'. split; auto. right; auto. }
  destruct (constrain_dated_spec d1 es A1 C1 N1 O1 FB) as (k & f & r & HV & EC & RR); [rewrite FF; auto| | |auto|].
  - apply Forall_forall. intros e He. destruct (HE e He) as (l & Hl & E1' & E2'). specialize (HG l Hl). unfold reasonable in HG. rewrite E1'. destruct (snd l) as [a b|a b].
    + destruct E2' as (a' & b' & -> & _). left. exists a', b'. auto.
    + destruct HG as (_ & u & U). rewrite NM in U. right. exists a, b, u. auto.
  - intros e He. destruct (HE e He) as (l & Hl & E1' & E2'). specialize (HG l Hl). unfold reasonable in HG. destruct (snd l) as [a b|a b].
    + destruct E2' as (a' & b' & -> & _). left. exists a', b'. auto.
    + right. intros c Hc. destruct (is_longitude c) eqn:X; auto. exfalso. apply (proj1 HG). apply (is_lon_identity d d1); auto. rewrite <- E1'. apply (is_lon_spec d1 _ c); auto.
  - exists k, f, r, (filter (dqual (u_coords d1) es) (map (change k f) (rows d1))). split; [unfold subset_dated; rewrite E1; cbn [bind]; rewrite EM; exact EC|].
    assert (HK : forall l, In l ls -> match snd l with Numbers a b => fst l = k -> (a <> None /\ b <> None) \/ f = (fun x => x) | Dates _ _ => exists u, units (cname (u_coords d1) (fst l)) = Ok u end).
    { intros l Hl. specialize (HG l Hl). unfold reasonable in HG. destruct (snd l) as [a b|a b]; [|rewrite <- NM; apply HG]. intros Ek. destruct HV as [[_ ->]|(l' & c & s & HI & Hc & HLc & _ & _)]; [auto|left]. apply HG. rewrite Ek. apply (is_lon_identity d d1); auto. apply (is_lon_spec d1 _ c); auto. }
    split; [destruct HV as [[_ ->]|(l' & c & s & _ & _ & _ & _ & ->)]; [intros; apply same_meridian_refl|]; destruct s; cbn; intros; [apply wrap_lon_same|apply same_meridian_refl]|].
    split; [destruct HV as [[_ ->]|(l' & c & s & _ & Hc & HLc & _ & _)]; [auto|left]; apply (is_lon_identity d d1); auto; apply (is_lon_spec d1 _ c); auto|].
    split.
    + exists (dqual (u_coords d1) es). split; [|rewrite R1; reflexivity]. intros x Hx. rewrite <- R1 in Hx. apply in_map_iff in Hx. destruct Hx as (x0 & <- & Hx0). rewrite (entry_meets d1 ls es k f x0 A1 C1 FE FB HK Hx0). unfold meets. split; intros H l Hl; destruct (H l Hl) as (y & Hy & HI); exists y; split; auto; rewrite NM in *; auto.
    + unfold result_rows in *. destruct r as [d'|]; auto. rewrite <- I1. exact RR.
Qed.
End Units.
