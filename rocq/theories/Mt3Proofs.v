(** Proofs for C94: conversions of values, times, ranges, flattened data and history. *)
From Coq Require Import String.
From Verif Require Import Base PyStr QBase DistModel ProdModel RafModel HdfModel UngrProofs MtModel MtSpec MtProofs Mt2Proofs.
From Coq Require Import List Lia Lqa.
Import ListNotations.
Open Scope string_scope. Open Scope list_scope. Open Scope nat_scope. Notation length := List.length.

Lemma F2_map_r {A B} (R : A -> B -> Prop) (f : A -> B) l : (forall x, In x l -> R x (f x)) -> Forall2 R l (map f l).
Proof. induction l as [|a l IH]; intros H; cbn; constructor; [apply H; left; reflexivity|apply IH; intros; apply H; right; auto]. Qed.
(** ** units *)
Theorem converts U l new u v x : wanted U new = Some v -> m_units (l_meta l) = UUnit u -> u_dim u = u_dim v -> real v -> l_data l = Nums x ->
  exists l' y, convert_units U l new = (l', None) /\ l_data l' = Nums y /\ same_amounts u v x y /\ m_units (l_meta l') = UUnit v /\ same_names l l' /\ l_flat l' = l_flat l.
Proof.
  intros W E D RV L. unfold convert_units. assert (X : match new with UUnit u0 => Ok u0 | UText s => match U s with Some u0 => Ok u0 | None => Raises ValueError end end = Ok v) by (destruct new; cbn in W; [congruence|rewrite W; reflexivity]). rewrite X, E. clear X.
  unfold unit_convert. rewrite (proj2 (same_dim_iff _ _) D), L. eexists _, _. split; [reflexivity|]. cbn [put_units with_meta l_data l_meta m_units set_units l_flat]. split; [reflexivity|]. split; [|split; [reflexivity|split; [repeat split; reflexivity|reflexivity]]].
  apply F2_map_r. intros o _. destruct o as [q|]; cbn; auto. unfold amount. field. exact RV.
Qed.
Theorem refuses U l new l' e : convert_units U l new = (l', Some e) -> l' = l /\ (e = ValueError \/ e = TypeError).
Proof.
  unfold convert_units. destruct new as [v|s]; [|destruct (U s) as [v|]; [|intros [= <- <-]; auto]]; (destruct (m_units (l_meta l)) as [u|t]; [|intros [= <- <-]; auto]); unfold unit_convert; (destruct (same_dim _ _); [destruct (l_data l)|]); intros [= <- <-]; auto.
Qed.
Theorem convertible U l new l' : convert_units U l new = (l', None) -> exists u v, m_units (l_meta l) = UUnit u /\ wanted U new = Some v /\ u_dim u = u_dim v /\ exists x, l_data l = Nums x.
Proof.
  unfold convert_units. destruct new as [v|s]; cbn [wanted]; [|destruct (U s) as [v|]; [|discriminate]]; (destruct (m_units (l_meta l)) as [u|t]; [|discriminate]); unfold unit_convert; (destruct (same_dim _ _) eqn:D; [|discriminate]); (destruct (l_data l) as [x|x]; [|discriminate]); intros _; apply same_dim_iff in D; eauto 8.
Qed.
Lemma amount_inj u x y : real u -> (amount u x == amount u y)%Q -> (x == y)%Q.
Proof.
  unfold real, amount. intros N E. assert (E' : (u_scale u * x == u_scale u * y)%Q) by Lqa.lra. apply (Qmult_inj_l x y (u_scale u)); auto.
Qed.
Theorem there_and_back U l u v l1 l2 x : m_units (l_meta l) = UUnit u -> real u -> real v -> l_data l = Nums x -> convert_units U l (UUnit v) = (l1, None) -> convert_units U l1 (UUnit u) = (l2, None) ->
  exists y, l_data l2 = Nums y /\ same_values x y /\ m_units (l_meta l2) = UUnit u.
Proof.
  intros E RU RV L C1 C2. destruct (convertible _ _ _ _ C1) as (u' & v' & E' & [= <-] & D & _). rewrite E in E'. injection E' as <-.
  destruct (converts U l (UUnit v) u v x eq_refl E D RV L) as (l1' & y & C1' & L1 & S1 & U1 & _). rewrite C1 in C1'. injection C1' as <-.
  destruct (converts U l1 (UUnit u) v u y eq_refl U1 (eq_sym D) RU L1) as (l2' & z & C2' & L2 & S2 & U2 & _). rewrite C2 in C2'. injection C2' as <-. exists z. split; auto. split; auto.
  clear - S1 S2 RU. revert z S2. induction S1 as [|a b x y H1 S1 IH]; intros z S2; [inversion S2; constructor|]. destruct z as [|c z]; [inversion S2|]. assert (H2 := S2). inversion H2 as [|? ? ? ? K2 K3]. subst. clear H2 S2. rename K2 into H2, K3 into S2. constructor; [|apply IH; exact S2]. destruct a, b, c; auto; try tauto. apply (amount_inj u); auto. rewrite H2, H1. reflexivity.
Qed.
(** ** times *)
Lemma std_days ms : exists d, std_date2num (Dates ms) = Ok (Nums d) /\ days_of ms d.
Proof. eexists. split; [reflexivity|]. apply F2_map_r. intros [m|] _; cbn; auto. field. Qed.
Lemma finish_days l ms : exists l' d, finish (fun _ => None) l (std_date2num (Dates ms)) = (l', None) /\ l_data l' = Nums d /\ days_of ms d /\ m_units (l_meta l') = UUnit cis_standard_time_unit /\ same_names l l'.
Proof. destruct (std_days ms) as (d & -> & D). eexists _, d. split; [reflexivity|]. cbn. repeat split; auto. Qed.
Lemma finish_any U U' l r : finish U l r = finish U' l r.
Proof. unfold finish, put_units. destruct r; reflexivity. Qed.
Lemma starts_false p s : (forall rest, s <> p ++ rest) -> starts_with p s = false.
Proof. intros H. apply not_true_iff_false. rewrite starts_with_iff. intros (r & E). apply (H r E). Qed.
Theorem to_std U l stamp ms : tells U l stamp ms -> exists l' d, convert_to_std_time U l stamp = (l', None) /\ l_data l' = Nums d /\ days_of ms d /\ m_units (l_meta l') = UUnit cis_standard_time_unit /\ same_names l l'.
Proof.
  intros T. unfold convert_to_std_time. destruct T as [u v E TU L|s v rest E S0 L|s w ws t u v E N -> W P TU L]; rewrite E.
  - unfold convert_time_since_to_std_time, num2date. rewrite TU, L. cbn [bind]. rewrite (finish_any _ (fun _ => None)). apply finish_days.
  - assert (X : starts_with (lit "datetime") (lower s) = true) by (apply starts_with_iff; eauto). rewrite X, L, (finish_any _ (fun _ => None)). apply finish_days.
  - rewrite (starts_false _ _ N). unfold convert_time_using_time_stamp_info_to_std_time. rewrite W, P. unfold convert_time_since_to_std_time, num2date. rewrite TU, L. cbn [bind]. rewrite (finish_any _ (fun _ => None)). apply finish_days.
Qed.
Theorem std_told U l stamp l' : convert_to_std_time U l stamp = (l', None) -> exists ms, tells U l stamp ms.
Proof.
  unfold convert_to_std_time. destruct (m_units (l_meta l)) as [u|s] eqn:E.
  - unfold finish, convert_time_since_to_std_time, num2date. destruct (u_dim u) eqn:D; [discriminate|]. destruct (l_data l) as [v|v] eqn:L; [|discriminate]. intros _. eexists. eapply ByUnits; eauto.
  - destruct (starts_with (lit "datetime") (lower s)) eqn:S0.
    + apply starts_with_iff in S0. destruct S0 as (r & S0). destruct (l_data l) as [v|v] eqn:L; [discriminate|]. intros _. eexists. eapply AsDates; eauto.
    + destruct stamp as [t|]; [|discriminate]. unfold convert_time_using_time_stamp_info_to_std_time. destruct (words s) as [|w ws] eqn:W; [discriminate|]. destruct (U _) as [u|] eqn:P; [|discriminate].
      unfold finish, convert_time_since_to_std_time, num2date. destruct (u_dim u) eqn:D; [discriminate|]. destruct (l_data l) as [v|v] eqn:L; [|discriminate]. intros _. eexists. eapply ByStamp; eauto. intros r X. assert (Y : starts_with (lit "datetime") (lower s) = true) by (apply starts_with_iff; eauto). congruence.
Qed.
Lemma finish_fails U l r l' e : finish U l r = (l', Some e) -> l' = l.
Proof. unfold finish. destruct r; intros [= <- _]; auto. Qed.
Theorem std_failed U l stamp l' e : convert_to_std_time U l stamp = (l', Some e) -> l' = l.
Proof.
  unfold convert_to_std_time. destruct (m_units (l_meta l)); [apply finish_fails|]. destruct (starts_with _ _); [apply finish_fails|]. destruct stamp; [apply finish_fails|]. intros [= <- _]; reflexivity.
Qed.
(** a unit of time that is no moment: the time stamp is not looked at *)
Theorem stamp_ignored U l u k stamp : m_units (l_meta l) = UUnit u -> u_dim u = Some k -> convert_to_std_time U l stamp = (l, Some ValueError).
Proof. intros E D. unfold convert_to_std_time, convert_time_since_to_std_time, num2date. rewrite E, D. reflexivity. Qed.
Theorem day_refused V U name long h l : knows V -> U (lit "day") = Some (mkUnit (Some 1) 86400 0) -> U (lit "day since 2000-01-01") = Some (mkUnit None 86400 12622780800) ->
  new_metadata V U name [] long (UText (lit "day")) h = Ok (l_meta l) -> convert_to_std_time U l (Some (lit "2000-01-01")) = (l, Some ValueError).
Proof.
  intros K D1 D2 N. destruct (new_ok V U name [] long (UText (lit "day")) h K) as [_ H]. destruct (H (or_introl eq_refl)) as (m & E & _ & _ & _ & M & _). rewrite N in E. injection E as <-.
  apply (stamp_ignored U l (mkUnit (Some 1) 86400 0) 1); [|reflexivity]. rewrite M. cbn [set_units]. change (tidy (lit "day")) with (lit "day"). rewrite D1. reflexivity.
Qed.
(** to dates and back *)
Theorem dates_of_std U l x : U (lit "DateTime Object") = None -> l_data l = Nums x -> m_units (l_meta l) = UUnit cis_standard_time_unit ->
  exists l' ms, convert_standard_time_to_datetime U l = (l', None) /\ l_data l' = Dates ms /\ days_of ms x /\ same_names l l' /\ snd (data_flattened l') = l_data l' /\
  exists l2 y, convert_to_std_time U l' None = (l2, None) /\ convert_datetime_to_standard_time U l' = (l2, None) /\ l_data l2 = Nums y /\ same_values x y /\ m_units (l_meta l2) = UUnit cis_standard_time_unit /\ same_names l l2.
Proof.
  intros ND L E. unfold convert_standard_time_to_datetime. rewrite E. cbn [units_eq]. change (unit_eqb cis_standard_time_unit cis_standard_time_unit) with true. cbv iota. unfold num2date. cbn [cis_standard_time_unit u_dim]. rewrite L.
  unfold put_units. cbn [set_data l_meta set_units]. change (tidy (lit "DateTime Object")) with (lit "DateTime Object"). rewrite ND. eexists _, _. split; [reflexivity|]. cbn [l_data with_meta]. split; [reflexivity|]. split.
  { unfold days_of. clear. induction x as [|[q|] x IH]; cbn [map option_map]; constructor; auto. cbn. Lqa.lra. }
  split; [repeat split; reflexivity|]. split; [reflexivity|]. unfold convert_to_std_time, convert_datetime_to_standard_time. cbn [with_meta l_meta m_units l_data]. change (starts_with (lit "datetime") (lower (lit "DateTime Object"))) with true. cbv iota. cbn [std_date2num finish]. eexists _, _. split; [reflexivity|]. split; [reflexivity|]. cbn [l_data put_units put_data with_meta]. split; [reflexivity|].
  split; [|split; [reflexivity|repeat split; reflexivity]]. unfold same_values. clear. induction x as [|[q|] x IH]; cbn [map option_map]; constructor; auto. cbn. field.
Qed.
Theorem dates_again U l : U (lit "DateTime Object") = None -> m_units (l_meta l) = UText (lit "DateTime Object") -> convert_standard_time_to_datetime U l = (l, Some ValueError).
Proof. intros N E. unfold convert_standard_time_to_datetime. rewrite E. cbn [units_eq]. rewrite N. reflexivity. Qed.
Theorem dates_other U l u : m_units (l_meta l) = UUnit u -> ~ same_unit u cis_standard_time_unit -> convert_standard_time_to_datetime U l = (l, None).
Proof. intros E N. unfold convert_standard_time_to_datetime. rewrite E. cbn [units_eq]. rewrite <- unit_eqb_iff in N. destruct (unit_eqb u cis_standard_time_unit); [congruence|reflexivity]. Qed.
(** ** ranges *)
Lemma in_present l y : In y (present l) <-> In (Some y) l.
Proof. unfold present. rewrite in_flat_map. split; [intros (o & H & K); destruct o as [x|]; [destruct K as [<-|[]]; exact H|destruct K]|]. intros H. exists (Some y). split; auto. left. reflexivity. Qed.
Lemma fold_min r : forall x, let z := fold_left (fun a b => if Qltb b a then b else a) r x in In z (x :: r) /\ forall y, In y (x :: r) -> (z <= y)%Q.
Proof.
  induction r as [|b r IH]; intros x; cbn [fold_left]; [split; [left; reflexivity|intros y [<-|[]]; apply Qle_refl]|]. destruct (Qltb_spec b x) as [H|H].
  - destruct (IH b) as [I A]. split; [right; exact I|]. intros y [<-|Y]; [eapply Qle_trans; [apply A; left; reflexivity|apply Qlt_le_weak; exact H]|apply A; exact Y].
  - destruct (IH x) as [I A]. split; [destruct I as [I|I]; [left; exact I|right; right; exact I]|]. intros y [<-|[<-|Y]]; [apply A; left; reflexivity| |apply A; right; exact Y]. eapply Qle_trans; [apply A; left; reflexivity|]. Lqa.lra.
Qed.
Lemma fold_max r : forall x, let z := fold_left (fun a b => if Qltb a b then b else a) r x in In z (x :: r) /\ forall y, In y (x :: r) -> (y <= z)%Q.
Proof.
  induction r as [|b r IH]; intros x; cbn [fold_left]; [split; [left; reflexivity|intros y [<-|[]]; apply Qle_refl]|]. destruct (Qltb_spec x b) as [H|H].
  - destruct (IH b) as [I A]. split; [right; exact I|]. intros y [<-|Y]; [eapply Qle_trans; [apply Qlt_le_weak; exact H|apply A; left; reflexivity]|apply A; exact Y].
  - destruct (IH x) as [I A]. split; [destruct I as [I|I]; [left; exact I|right; right; exact I]|]. intros y [<-|[<-|Y]]; [apply A; left; reflexivity| |apply A; right; exact Y]. eapply Qle_trans; [|apply A; left; reflexivity]. Lqa.lra.
Qed.
Lemma min_least l : least l (min_of l).
Proof.
  unfold min_of. destruct (present l) as [|x r] eqn:E; [intros y H; apply in_present in H; rewrite E in H; destruct H|]. destruct (fold_min r x) as [I A]. cbn [least]. split; [apply in_present; rewrite E; exact I|]. intros y H. apply A. rewrite <- E. apply in_present. exact H.
Qed.
Lemma max_greatest l : greatest l (max_of l).
Proof.
  unfold max_of. destruct (present l) as [|x r] eqn:E; [intros y H; apply in_present in H; rewrite E in H; destruct H|]. destruct (fold_max r x) as [I A]. cbn [greatest]. split; [apply in_present; rewrite E; exact I|]. intros y H. apply A. rewrite <- E. apply in_present. exact H.
Qed.
Lemma standard_iff U u : match units_eq U u (UUnit cis_standard_time_unit) with Ok b => b | Raises _ => false end = true <-> standard_time U u.
Proof.
  unfold standard_time. destruct u as [u|s]; cbn [units_eq same_units]; [apply unit_eqb_iff|]. destruct (U s) as [v|]; [|split; [discriminate|intros (b & [=] & _)]]. rewrite unit_eqb_iff. split; [eauto|]. intros (b & [= <-] & H). exact H.
Qed.
Theorem range_numbers U l x : l_data l = Nums x -> exists l', update_range U l = (l', None) /\ l_data l' = Nums x /\ m_units (l_meta l') = m_units (l_meta l) /\
  (x = [] -> m_range (l_meta l') = EmptyRange) /\
  (x <> [] -> ~ standard_time U (m_units (l_meta l)) -> exists a b, m_range (l_meta l') = Range a b /\ least x a /\ greatest x b) /\
  (x <> [] -> standard_time U (m_units (l_meta l)) -> exists a b, m_range (l_meta l') = DateRange (option_map (Qmult 86400) a) (option_map (Qmult 86400) b) /\ least x a /\ greatest x b).
Proof.
  intros L. unfold update_range. rewrite L. pose proof (standard_iff U (m_units (l_meta l))) as ST. set (s := match units_eq U _ _ with Ok b => b | Raises _ => false end) in *. cbv zeta. destruct x as [|o x].
  - eexists. split; [reflexivity|]. cbn. repeat split; auto; congruence.
  - eexists. split; [reflexivity|]. cbn [put_range with_meta l_data l_meta m_units m_range]. split; [exact L|]. split; [reflexivity|]. split; [discriminate|]. split; intros _ H.
    + destruct s; [exfalso; apply H, ST; reflexivity|]. eexists _, _. split; [reflexivity|]. split; [apply min_least|apply max_greatest].
    + destruct s; [|apply ST in H; discriminate]. eexists _, _. split; [reflexivity|]. split; [apply min_least|apply max_greatest].
Qed.
Theorem range_kept U l new l' : convert_units U l new = (l', None) -> m_range (l_meta l') = m_range (l_meta l).
Proof. unfold convert_units. destruct new as [v|s]; [|destruct (U s) as [v|]; [|discriminate]]; (destruct (m_units (l_meta l)) as [u|t]; [|discriminate]); destruct (unit_convert _ _ _); intros [= <-]; reflexivity. Qed.
Definition metre : unit := mkUnit (Some 0) 1 0.
Definition km : unit := mkUnit (Some 0) 1000 0.
Definition in_metres : lazy := mkLazy (mkMeta (lit "h") None [] (UUnit metre) NoRange []) (Nums [Some 1000%Q; Some 3000%Q]) true NotKept.
Theorem range_stale U : exists l l' l'' a b, update_range U in_metres = (l, None) /\ m_range (l_meta l) = Range (Some a) (Some b) /\ convert_units U l (UUnit km) = (l', None) /\ update_range U l' = (l'', None) /\ m_range (l_meta l'') <> m_range (l_meta l').
Proof. do 5 eexists. split; [vm_compute; reflexivity|]. split; [reflexivity|]. split; [vm_compute; reflexivity|]. split; [vm_compute; reflexivity|]. vm_compute. discriminate. Qed.
(** ** the flattened data *)
Theorem flat_fresh l : (l_flat l = NotKept \/ l_flat l = View) -> snd (data_flattened l) = l_data l /\ l_data (fst (data_flattened l)) = l_data l.
Proof. unfold data_flattened. intros [E|E]; rewrite E; auto. Qed.
Theorem flat_converted U l new l' : l_flat l = View \/ l_flat l = NotKept -> convert_units U l new = (l', None) -> snd (data_flattened l') = l_data l'.
Proof.
  intros F C. apply flat_fresh. assert (E : l_flat l' = l_flat l); [|rewrite E; tauto]. revert C. unfold convert_units. destruct new as [v|s]; [|destruct (U s) as [v|]; [|discriminate]]; (destruct (m_units (l_meta l)) as [u|t]; [|discriminate]); destruct (unit_convert _ _ _); intros [= <-]; reflexivity.
Qed.
Theorem flat_not_asked U l stamp l' : l_flat l = NotKept -> convert_to_std_time U l stamp = (l', None) -> snd (data_flattened l') = l_data l'.
Proof.
  intros F C. apply flat_fresh. left. assert (X : forall r, finish U l r = (l', None) -> l_flat l' = NotKept) by (intros r; unfold finish; destruct r; intros [= <-]; cbn; rewrite F; reflexivity). revert C. unfold convert_to_std_time. destruct (m_units (l_meta l)); [apply X|]. destruct (starts_with _ _); [apply X|]. destruct stamp; [apply X|discriminate].
Qed.
Definition since_1970 : unit := mkUnit None 1 11676096000.
Definition times_1970 : lazy := mkLazy (mkMeta (lit "time") (Some (lit "time")) [] (UUnit since_1970) NoRange []) (Nums [Some 0%Q; Some 86400%Q]) true NotKept.
Theorem flat_stale U : exists l a l', data_flattened times_1970 = (l, a) /\ a = l_data l /\ convert_to_std_time U l None = (l', None) /\ snd (data_flattened l') = a /\ l_data l' <> a.
Proof. do 3 eexists. split; [vm_compute; reflexivity|]. split; [reflexivity|]. split; [vm_compute; reflexivity|]. split; [vm_compute; reflexivity|]. vm_compute. discriminate. Qed.
Theorem flat_copy_stale U : exists l, l_data l = l_data in_metres /\ l_meta l = l_meta in_metres /\ l_flat l = NotKept /\ exists l1 a l2, data_flattened l = (l1, a) /\ a = l_data l /\ convert_units U l1 (UUnit km) = (l2, None) /\ snd (data_flattened l2) = a /\ l_data l2 <> a.
Proof. exists (mkLazy (l_meta in_metres) (l_data in_metres) false NotKept). split; [reflexivity|]. split; [reflexivity|]. split; [reflexivity|]. do 3 eexists. split; [vm_compute; reflexivity|]. split; [reflexivity|]. split; [vm_compute; reflexivity|]. split; [vm_compute; reflexivity|]. vm_compute. discriminate. Qed.
(** ** history *)
Theorem history_lines es : forall l, m_history (l_meta l) = [] -> Forall (fun e => fst e <> []) es ->
  m_history (l_meta (add_all l es)) = join_on "010" (map (fun e => fst e ++ snd e) es) /\ l_data (add_all l es) = l_data l /\ m_units (l_meta (add_all l es)) = m_units (l_meta l).
Proof.
  assert (G : forall es l, m_history (l_meta l) <> [] -> m_history (l_meta (add_all l es)) = m_history (l_meta l) ++ concat (map (fun e => "010"%char :: fst e ++ snd e) es) /\ l_data (add_all l es) = l_data l /\ m_units (l_meta (add_all l es)) = m_units (l_meta l)).
  { clear. induction es as [|[s n] es IH]; intros l N; cbn [add_all map concat]; [rewrite app_nil_r; auto|]. destruct (IH (add_history l s n)) as (H1 & H2 & H3).
    - unfold add_history. cbn. destruct (m_history (l_meta l)); [congruence|]. discriminate.
    - rewrite H1, H2, H3. unfold add_history. cbn [with_meta l_meta m_history l_data m_units fst snd]. destruct (m_history (l_meta l)) as [|c h]; [congruence|]. split; [cbn [app]; f_equal; rewrite <- !app_assoc; cbn [app]; rewrite <- ?app_assoc; reflexivity|auto]. }
  intros l E F. destruct es as [|[s n] es]; [cbn; auto|]. cbn [add_all]. apply Forall_cons_iff in F. destruct F as [F1 F]. cbn [fst] in F1.
  assert (H0 : m_history (l_meta (add_history l s n)) = s ++ n) by (unfold add_history; cbn [with_meta l_meta m_history]; rewrite E; reflexivity).
  destruct (G es (add_history l s n)) as (H1 & H2 & H3); [rewrite H0; destruct s; [congruence|discriminate]|]. rewrite H1, H2, H3, H0. split; [|auto].
  clear. assert (X : forall (x : str) (ts : list str), x ++ concat (map (cons "010"%char) ts) = join_on "010" (x :: ts)).
  { intros x ts. revert x. induction ts as [|t ts IH]; intros x; [cbn; apply app_nil_r|]. cbn [map concat]. change (join_on "010" (x :: t :: ts)) with (x ++ "010"%char :: join_on "010" (t :: ts)). rewrite <- IH. reflexivity. }
  cbn [map fst snd]. rewrite <- X, map_map. reflexivity.
Qed.
(** ** coordinates in "deg" *)
Theorem deg U m a o u : m_units m = UText (lit "deg") -> U (lit "degrees") = Some u -> m_units (l_meta (new_coord U m a o)) = UUnit u.
Proof. intros E H. unfold new_coord. rewrite E. change (str_eqb (lit "deg") (lit "deg")) with true. cbv iota. unfold put_units. cbn [with_meta l_meta m_units set_units]. change (tidy (lit "degrees")) with (lit "degrees"). rewrite H. reflexivity. Qed.
