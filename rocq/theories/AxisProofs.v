(** Proofs for C79. *)
From Coq Require Import String Ascii.
From Verif Require Import Base PyStr AxisModel AxisSpec.

Lemma none_filter : forall (f : acoord -> bool) cs, Forall (fun c => f c = false) cs -> filter f cs = [].
Proof. intros f cs F. induction F as [|c cs E F IH]; [reflexivity|]. cbn. rewrite E. exact IH. Qed.
Lemma only_filter : forall (f : acoord -> bool) P cs c, (forall x, f x = true <-> P x) -> only_one P cs c -> filter f cs = [c].
Proof.
  intros f P cs c FP (k & N & Pc & U). revert k N U. induction cs as [|x cs IH]; intros k N U; [destruct k; discriminate|]. destruct k as [|k].
  - cbn in N. injection N as ->. cbn. rewrite (proj2 (FP c) Pc). f_equal. apply none_filter. apply Forall_forall. intros y I. apply In_nth_error in I. destruct I as [j J]. destruct (f y) eqn:E; [|reflexivity]. apply FP in E. specialize (U (S j) y J E). discriminate.
  - cbn in N. cbn. destruct (f x) eqn:E. { apply FP in E. specialize (U 0 x eq_refl E). discriminate. } apply (IH k N). intros j y J Py. specialize (U (S j) y J Py). congruence.
Qed.
Lemma filter_only : forall (f : acoord -> bool) P cs c, (forall x, f x = true <-> P x) -> filter f cs = [c] -> only_one P cs c.
Proof.
  intros f P cs c FP. induction cs as [|x cs IH]; [discriminate|]. cbn. destruct (f x) eqn:E.
  - intros [= -> H]. exists 0. split; [reflexivity|]. split; [apply FP; exact E|]. intros [|j] y J Py; [reflexivity|]. exfalso. cbn in J. apply nth_error_In in J. assert (I : In y (filter f cs)) by (apply filter_In; split; [exact J|apply FP; exact Py]). rewrite H in I. exact I.
  - intros H. destruct (IH H) as (k & N & Pc & U). exists (S k). split; [exact N|]. split; [exact Pc|]. intros [|j] y J Py; [cbn in J; injection J as <-; apply FP in Py; congruence|]. f_equal. exact (U j y J Py).
Qed.
Lemma opt_is_iff : forall {A} (eqb : A -> A -> bool) o a, (forall x y, eqb x y = true <-> x = y) -> opt_is eqb o a = true <-> o = Some a.
Proof. intros A eqb o a H. unfold opt_is. destruct o as [x|]; [rewrite H; split; congruence|split; discriminate]. Qed.
Lemma str_iff : forall x y : str, str_eqb x y = true <-> x = y.
Proof. intros x y. split; [apply str_eqb_eq|intros ->; apply str_eqb_refl]. Qed.
Lemma by_name : forall n c, matches (ByName (Some n)) c = true <-> named n c.
Proof. intros n c. cbn. apply str_iff. Qed.
Lemma by_std : forall n c, matches (ByStd (Some n)) c = true <-> a_std c = Some n.
Proof. intros n c. cbn. apply opt_is_iff, str_iff. Qed.
Lemma by_axis : forall a c, matches (ByAxis a) c = true <-> of_axis a c.
Proof. intros a c. cbn. apply opt_is_iff. intros x y. apply Ascii.eqb_eq. Qed.
Lemma all_match : forall cs, filter (matches (ByStd None)) cs = cs.
Proof. induction cs as [|c cs IH]; [reflexivity|]. cbn in *. rewrite IH. reflexivity. Qed.
Lemma the_one_many : forall l, length l <> 1 -> the_one l = Raises CoordinateNotFoundError.
Proof. intros [|a [|b l]] N; try reflexivity. cbn in N. lia. Qed.
Lemma false_of : forall (b : bool) P, (b = true <-> P) -> ~ P -> b = false.
Proof. intros [|] P H N; [exfalso; apply N, H; reflexivity|reflexivity]. Qed.

Section Axis.
Variable d : adata.
Let cs := d_coords d.
Lemma coord_only : forall q P c, (forall x, matches q x = true <-> P x) -> only_one P cs c -> coord d q = Ok c.
Proof. intros q P c H O. unfold coord. fold cs. rewrite (only_filter _ P cs c H O). destruct (d_kind d); reflexivity. Qed.
(** nothing is found *)
Lemma coord_none : forall q P, (forall x, matches q x = true <-> P x) -> Forall (fun c => ~ P c) cs -> 2 <= length cs -> (forall n, q = ByName n -> exists n', n = Some n' /\ Forall (fun c => a_std c <> Some n') cs) -> coord d q = Raises CoordinateNotFoundError.
Proof.
  intros q P H F L Q. unfold coord. fold cs. rewrite (none_filter _ cs); [|apply Forall_forall; intros c I; rewrite Forall_forall in F; apply (false_of _ _ (H c)), F, I]. destruct (d_kind d); [reflexivity|].
  destruct q as [n|n|a]; [|rewrite all_match; apply the_one_many; lia|rewrite all_match; apply the_one_many; lia]. destruct (Q n eq_refl) as (n' & -> & FS). rewrite none_filter; [reflexivity|]. apply Forall_forall. intros c I. rewrite Forall_forall in FS. apply (false_of _ _ (by_std n' c)), FS, I.
Qed.
Lemma coord_all : forall q, (forall x, matches q x = true) -> 2 <= length cs -> coord d q = Raises CoordinateNotFoundError.
Proof.
  intros q H L. unfold coord. fold cs. assert (E : filter (matches q) cs = cs) by (clear L; induction cs as [|c l IH]; [reflexivity|]; cbn; rewrite H, IH; reflexivity). rewrite E.
  destruct (d_kind d); [apply the_one_many; lia|]. pose proof (the_one_many cs ltac:(lia)) as T. destruct cs as [|c l]; [cbn in L; lia|exact T].
Qed.
Lemma try_only : forall q P c, (forall x, matches q x = true <-> P x) -> only_one P cs c -> several c -> try_coord d q = Some c.
Proof. intros q P c H O S. unfold try_coord. rewrite (coord_only q P c H O). unfold several in S. apply Nat.ltb_lt in S. rewrite S. reflexivity. Qed.
Lemma try_unnamed : 2 <= length cs -> or_else (try_coord d (ByName None)) (or_else (try_coord d (ByStd None)) None) = None.
Proof. intros L. unfold try_coord. rewrite (coord_all (ByName None)), (coord_all (ByStd None)); auto. Qed.
Lemma named_ok : forall a n c, only_one (named n) cs c -> several c -> get_axis d a (Some n) = Ok c.
Proof. intros a n c O S. unfold get_axis. rewrite (try_only _ _ c (by_name n) O S). reflexivity. Qed.
Lemma guess : forall a name, try_coord d (ByName name) = None -> try_coord d (ByStd name) = None -> forall c, only_one (of_axis a) cs c -> several c -> get_axis d a name = Ok c.
Proof. intros a name E1 E2 c O S. unfold get_axis. rewrite E1, E2. cbn [or_else]. rewrite (try_only _ _ c (by_axis a) O S). reflexivity. Qed.
Lemma guess_ok : forall a c, 2 <= length cs -> only_one (of_axis a) cs c -> several c -> get_axis d a None = Ok c.
Proof. intros a c L. apply guess; unfold try_coord; rewrite coord_all; auto. Qed.
Lemma unknown_guess : forall a n c, 2 <= length cs -> Forall (unknown n) cs -> only_one (of_axis a) cs c -> several c -> get_axis d a (Some n) = Ok c.
Proof.
  intros a n c L U. assert (U1 : Forall (fun c => a_name c <> n) cs) by (eapply Forall_impl; [|exact U]; intros x [X _]; exact X). assert (U2 : Forall (fun c => a_std c <> Some n) cs) by (eapply Forall_impl; [|exact U]; intros x [_ X]; exact X).
  apply guess; unfold try_coord.
  - rewrite (coord_none _ _ (by_name n) U1 L); [reflexivity|]. intros n0 [= <-]. exists n. auto.
  - rewrite (coord_none _ _ (by_std n) U2 L); [reflexivity|]. intros n0 H. discriminate H.
Qed.
Lemma single_guess : forall a n c0 c, 2 <= length cs -> Forall well_named cs -> only_one (named n) cs c0 -> ~ several c0 -> only_one (of_axis a) cs c -> several c -> get_axis d a (Some n) = Ok c.
Proof.
  intros a n c0 c L W O N. assert (TL : (1 <? points c0) = false) by (apply Nat.ltb_ge; unfold several in N; lia). apply guess; unfold try_coord.
  - rewrite (coord_only _ _ c0 (by_name n) O), TL. reflexivity.
  - destruct O as (k & Nk & Pk & U). rewrite Forall_forall in W.
    assert (E : filter (matches (ByStd (Some n))) cs = [] \/ filter (matches (ByStd (Some n))) cs = [c0]).
    { destruct (matches (ByStd (Some n)) c0) eqn:M.
      - right. apply (only_filter _ (fun x => a_std x = Some n)); [apply by_std|]. exists k. split; [exact Nk|]. split; [apply by_std; exact M|]. intros j y J Sy. apply (U j y J). apply (W y); [exact (nth_error_In _ _ J)|exact Sy].
      - left. apply none_filter. apply Forall_forall. intros y I. destruct (matches (ByStd (Some n)) y) eqn:My; [|reflexivity]. apply by_std in My. apply In_nth_error in I. destruct I as [j J]. assert (j = k) by (apply (U j y J), (W y (nth_error_In _ _ J)); exact My). subst.
        assert (y = c0) by congruence. subst. apply by_std in My. congruence. }
    unfold coord. fold cs. destruct E as [E|E]; rewrite E; [|destruct (d_kind d); cbn [the_one]; rewrite TL; reflexivity]. destruct (d_kind d); [reflexivity|]. rewrite all_match, the_one_many; [reflexivity|lia].
Qed.
(** no coordinate of the axis *)
Lemma try_axis_none : forall a, 2 <= length cs -> (forall c, only_one (of_axis a) cs c -> ~ several c) -> try_coord d (ByAxis a) = None.
Proof.
  intros a L H. unfold try_coord, coord. fold cs. destruct (filter (matches (ByAxis a)) cs) as [|c [|c' l]] eqn:E.
  - destruct (d_kind d); [reflexivity|]. rewrite all_match, the_one_many; [reflexivity|lia].
  - assert (S : ~ several c) by (apply H; exact (filter_only _ _ cs c (by_axis a) E)). assert (TL : (1 <? points c) = false) by (apply Nat.ltb_ge; unfold several in S; lia). destruct (d_kind d); cbn [the_one]; rewrite TL; reflexivity.
  - destruct (d_kind d); reflexivity.
Qed.
Lemma no_guess : forall a, 2 <= length cs -> (forall c, only_one (of_axis a) cs c -> ~ several c) -> get_axis d a None = bind (first_fitting d a cs) (fun c => match c with Some c => Ok c | None => Raises AttributeError end).
Proof. intros a L H. unfold get_axis. fold cs. unfold try_coord at 1 2. rewrite (coord_all (ByName None)), (coord_all (ByStd None)); auto. cbn [or_else]. rewrite (try_axis_none a L H). reflexivity. Qed.
Lemma y_index_error : 2 <= length cs -> (forall c, only_one (of_axis "Y"%char) cs c -> ~ several c) -> 1 < length (d_shape d) -> Forall (fun c => length (a_shape c) = 1) cs -> get_axis d "Y" None = Raises IndexError.
Proof.
  intros L H S F. rewrite (no_guess _ L H). destruct cs as [|c l]; [cbn in L; lia|]. inversion F; subst. cbn [first_fitting]. change (Ascii.eqb "Y" "X") with false. change (Ascii.eqb "Y" "Y") with true. cbn [orb andb].
  replace (length (d_shape d) =? 1) with false by (symmetry; apply Nat.eqb_neq; lia). replace (1 <? length (d_shape d)) with true by (symmetry; apply Nat.ltb_lt; lia).
  unfold item. destruct (a_shape c) as [|n [|m r]]; try discriminate. reflexivity.
Qed.
Lemma fitting_first : forall a n r, d_shape d = n :: r -> a = "X"%char \/ r = [] -> forall l, Forall (fun c => a_shape c <> []) l ->
  (forall c, first_along l n c -> first_fitting d a l = Ok (Some c)) /\ (Forall (fun c => hd_error (a_shape c) <> Some n) l -> first_fitting d a l = Ok None).
Proof.
  intros a n r E A l F. assert (B : Ascii.eqb a "X" || (length (d_shape d) =? 1) = true) by (destruct A as [-> | ->]; [reflexivity|rewrite E; cbn; apply orb_true_r]).
  induction F as [|c l NE F [IH1 IH2]]; [split; [intros c (k & N & _); destruct k; discriminate|reflexivity]|]. cbn [first_fitting]. rewrite B, E. destruct (a_shape c) as [|m s] eqn:Ec; [congruence|]. cbn [item nth_error bind].
  split.
  - intros x (k & N & Hx & U). destruct (Nat.eqb_spec m n) as [->|NE'].
    + destruct k as [|k]; [cbn in N; congruence|]. exfalso. apply (U 0 c); [lia|reflexivity|rewrite Ec; reflexivity].
    + destruct k as [|k]; [cbn in N; injection N as <-; rewrite Ec in Hx; cbn in Hx; congruence|]. apply IH1. exists k. split; [exact N|]. split; [exact Hx|]. intros j y J NJ. apply (U (S j) y); [lia|exact NJ].
  - intros G. inversion G as [|y l' G1 G2]; subst. rewrite Ec in G1. cbn in G1. destruct (Nat.eqb_spec m n) as [->|_]; [congruence|]. apply IH2. exact G2.
Qed.
Lemma fallback : forall a n r, 2 <= length cs -> (forall c, only_one (of_axis a) cs c -> ~ several c) -> d_shape d = n :: r -> a = "X"%char \/ r = [] -> Forall (fun c => a_shape c <> []) cs ->
  (forall c, first_along cs n c -> get_axis d a None = Ok c) /\ (Forall (fun c => hd_error (a_shape c) <> Some n) cs -> get_axis d a None = Raises AttributeError).
Proof.
  intros a n r L H E A F. rewrite (no_guess a L H). destruct (fitting_first a n r E A cs F) as [F1 F2]. split; [intros c FA; rewrite (F1 c FA); reflexivity|intros G; rewrite (F2 G); reflexivity].
Qed.
(** whatever is found is a coordinate of the data *)
Lemma coord_in : forall q c, coord d q = Ok c -> In c cs.
Proof.
  assert (T : forall f c, the_one (filter f cs) = Ok c -> In c cs). { intros f c H. destruct (filter f cs) as [|x [|y l]] eqn:E; try discriminate. cbn in H. injection H as ->. assert (I : In c (filter f cs)) by (rewrite E; left; reflexivity). apply filter_In in I. tauto. }
  intros q c. unfold coord. fold cs. destruct (d_kind d); [apply T|]. destruct (filter (matches q) cs) as [|x l] eqn:E; [apply T|]. rewrite <- E. apply T.
Qed.
Lemma fitting_in : forall a l c, first_fitting d a l = Ok (Some c) -> In c l.
Proof.
  intros a l c. induction l as [|x l IH]; [discriminate|]. cbn [first_fitting]. destruct (Ascii.eqb a "X" || (length (d_shape d) =? 1)).
  - destruct (item (a_shape x) 0); [|discriminate]. cbn [bind]. destruct (item (d_shape d) 0); [|discriminate]. cbn [bind]. destruct (_ =? _); [intros [= <-]; left; reflexivity|intros H; right; auto].
  - destruct (Ascii.eqb a "Y" && (1 <? length (d_shape d))); [|intros H; right; auto]. destruct (item (a_shape x) 1); [|discriminate]. cbn [bind]. destruct (item (d_shape d) 1); [|discriminate]. cbn [bind]. destruct (_ =? _); [intros [= <-]; left; reflexivity|intros H; right; auto].
Qed.
Lemma axis_in : forall a name c, get_axis d a name = Ok c -> In c cs.
Proof.
  assert (T : forall q c, try_coord d q = Some c -> In c cs). { intros q c. unfold try_coord. destruct (coord d q) eqn:E; [|discriminate]. destruct (1 <? points a); [|discriminate]. intros [= <-]. exact (coord_in q a E). }
  intros a name c. unfold get_axis. destruct (try_coord d (ByName name)) eqn:E1; [cbn; intros [= <-]; exact (T _ _ E1)|]. destruct (try_coord d (ByStd name)) eqn:E2; [cbn; intros [= <-]; exact (T _ _ E2)|]. destruct (try_coord d (ByAxis a)) eqn:E3; [cbn; intros [= <-]; exact (T _ _ E3)|].
  cbn [or_else]. fold cs. destruct (first_fitting d a cs) as [[x|]|] eqn:E; try discriminate. cbn. intros [= <-]. exact (fitting_in a cs x E).
Qed.
End Axis.

(** ** Choosing what is drawn *)
Lemma is_std_iff : forall s n, is_std s n = true <-> s = Some (lit n).
Proof. intros s n. unfold is_std. apply opt_is_iff, str_iff. Qed.
Lemma default_usual : forall d cx cy t, default_type d (is_std (a_std cx) "longitude" && is_std (a_std cy) "latitude") = Ok t -> usual_type d cx cy t.
Proof.
  intros d cx cy t. unfold default_type, usual_type, std_is. destruct (d_kind d).
  - destruct (length (d_shape d)) as [|[|[|n]]]; try discriminate; intros [= <-]; auto.
  - destruct (is_std (a_std cx) "longitude") eqn:E1; destruct (is_std (a_std cy) "latitude") eqn:E2; cbn [andb]; intros H0; assert (t = _) as -> by (injection H0; intros X; symmetry; exact X); clear H0.
    + left. apply is_std_iff in E1, E2. auto.
    + right. split; [|reflexivity]. intros [_ H]. apply (proj2 (is_std_iff _ _)) in H. congruence.
    + right. split; [|reflexivity]. intros [H _]. apply (proj2 (is_std_iff _ _)) in H. congruence.
    + right. split; [|reflexivity]. intros [_ H]. apply (proj2 (is_std_iff _ _)) in H. congruence.
Qed.
Lemma plot_type_named : forall s t, plot_type (lit s) = Some t <-> type_named s t.
Proof.
  assert (LI : forall a b, lit a = lit b -> a = b) by (apply list_ascii_inj || (intros a b H; apply (f_equal string_of_list_ascii) in H; unfold lit in H; rewrite !string_of_list_ascii_of_string in H; exact H)).
  intros s t. unfold plot_type, plot_types. cbn [find fst snd option_map].
  repeat match goal with |- context [if str_eqb (lit ?x) (lit s) then _ else _] => let E := fresh "E" in destruct (str_eqb (lit x) (lit s)) eqn:E; [apply str_eqb_eq, LI in E; subst s; cbn; split; [intros [= <-]; reflexivity|destruct t; cbn; intros H; try discriminate H; reflexivity]|] end.
  cbn. split; [discriminate|]. destruct t; cbn; intros ->; exfalso; match goal with H : str_eqb ?a ?a = false |- _ => rewrite str_eqb_refl in H; discriminate H end.
Qed.
Definition compares (t : ptype) : bool := match t with ComparativeScatter | Histogram2D | HistogramP => true | _ => false end.
Lemma chosen : forall d how x y s, basic_plot d how (Named x) y = Ok s -> exists cx, s_x s = XCoord cx /\ get_axis (squeeze d) "X" x = Ok cx /\ get_axis (squeeze d) "Y" y = Ok (s_y s) /\
  (how = None -> usual_type (squeeze d) cx (s_y s) (s_type s)) /\ (forall h, h <> ""%string -> how = Some (lit h) -> type_named h (s_type s)) /\
  (one_dimensional (s_type s) -> y <> None -> s_drawn s = Coordinate (s_y s)) /\ (~ one_dimensional (s_type s) \/ y = None -> s_drawn s = Values) /\
  (s_dates s = true <-> std_is cx "time" /\ ~ In (s_type s) [ComparativeScatter; HistogramP; Histogram2D]) /\ (s_flip s = true <-> std_is (s_y s) "air_pressure").
Proof.
  intros d how x y s. unfold basic_plot. destruct (get_axis (squeeze d) "X" x) as [cx|] eqn:EX; [|discriminate]. cbn [bind]. destruct (get_axis (squeeze d) "Y" y) as [cy|] eqn:EY; [|discriminate]. cbn [bind x_std].
  match goal with |- bind ?m _ = _ -> _ => destruct m as [t|] eqn:ET end; [|discriminate]. cbn [bind]. intros [= <-]. cbn [s_x s_y s_type s_drawn s_dates s_flip]. exists cx. split; [reflexivity|]. split; [reflexivity|]. split; [reflexivity|].
  split; [intros ->; apply default_usual; exact ET|]. split.
  { intros h N ->. destruct h as [|c h]; [congruence|]. change (lit (String c h)) with (c :: lit h) in ET. cbv iota in ET. change (c :: lit h) with (lit (String c h)) in ET. destruct (plot_type (lit (String c h))) eqn:EP; [|discriminate]. injection ET as ->. apply plot_type_named. exact EP. }
  assert (AO : against_one t = true <-> one_dimensional t) by (unfold one_dimensional; destruct t; cbn; split; intros H; try discriminate; auto; decompose [or] H; discriminate).
  split; [intros O N; apply AO in O; rewrite O; destruct y; [reflexivity|congruence]|]. split; [intros [N|N]; [rewrite (false_of _ _ AO N); reflexivity|subst y; rewrite andb_false_r; reflexivity]|].
  split; [|unfold std_is; apply is_std_iff]. rewrite andb_true_iff, is_std_iff. unfold std_is. destruct t; cbn; split; intros [H1 H2]; (split; [exact H1|]); try discriminate; try reflexivity; try solve [intros H; decompose [or] H; (discriminate || contradiction)]; exfalso; apply H2; auto.
Qed.
Lemma bad_type : forall d x y cx cy h, get_axis (squeeze d) "X" x = Ok cx -> get_axis (squeeze d) "Y" y = Ok cy -> h <> ""%string -> (forall t, ~ type_named h t) -> basic_plot d (Some (lit h)) (Named x) y = Raises ValueError.
Proof.
  intros d x y cx cy h EX EY N U. unfold basic_plot. rewrite EX. cbn [bind]. rewrite EY. cbn [bind]. destruct h as [|c h]; [congruence|]. change (lit (String c h)) with (c :: lit h). cbv iota. change (c :: lit h) with (lit (String c h)).
  destruct (plot_type (lit (String c h))) eqn:EP; [exfalso; apply plot_type_named in EP; exact (U _ EP)|reflexivity].
Qed.
Lemma compared : forall d how std y s, basic_plot d how (OtherData std) y = Ok s -> s_x s = XData std /\ s_drawn s = Values /\ s_dates s = false /\ ((how = None /\ s_type s = ComparativeScatter) \/ (how = Some (lit "comparativescatter") /\ s_type s = ComparativeScatter) \/ (how = Some (lit "histogram2d") /\ s_type s = Histogram2D)).
Proof.
  assert (CORE : forall d h t std y s, plot_type (lit h) = Some t -> h <> ""%string -> against_one t = false -> compares t = true ->
    bind (get_axis (squeeze d) "Y" y) (fun ya => bind (match Some (lit h) with Some ((_ :: _) as h) => match plot_type h with Some t => Ok t | None => Raises ValueError end | _ => default_type (squeeze d) (is_std (x_std (XData std)) "longitude" && is_std (a_std ya) "latitude") end) (fun t =>
      Ok (mkShown t (XData std) ya (if against_one t && (match y with Some _ => true | None => false end) then Coordinate ya else Values) (is_std (x_std (XData std)) "time" && negb (match t with ComparativeScatter | Histogram2D | HistogramP => true | _ => false end)) (is_std (a_std ya) "air_pressure")))) = Ok s ->
    s_x s = XData std /\ s_drawn s = Values /\ s_dates s = false /\ s_type s = t).
  { intros d h t std y s PT NE AO CO. destruct (get_axis (squeeze d) "Y" y) as [cy|]; [|discriminate]. cbn [bind]. destruct h as [|c h]; [congruence|]. change (lit (String c h)) with (c :: lit h). cbv iota. change (c :: lit h) with (lit (String c h)). rewrite PT. cbn [bind]. rewrite AO.
    unfold compares in CO. rewrite CO. rewrite andb_false_r. intros [= <-]. auto. }
  intros d how std y s H. unfold basic_plot in H. destruct how as [h|].
  - destruct (str_eqb h (lit "comparativescatter")) eqn:E1.
    + apply str_eqb_eq in E1. subst h. cbn [orb] in H. apply (CORE d "comparativescatter"%string ComparativeScatter std y s) in H; [|reflexivity|discriminate|reflexivity|reflexivity]. intuition auto.
    + destruct (str_eqb h (lit "histogram2d")) eqn:E2; [|discriminate]. apply str_eqb_eq in E2. subst h. cbn [orb] in H. apply (CORE d "histogram2d"%string Histogram2D std y s) in H; [|reflexivity|discriminate|reflexivity|reflexivity]. intuition auto.
  - apply (CORE d "comparativescatter"%string ComparativeScatter std y s) in H; [|reflexivity|discriminate|reflexivity|reflexivity]. intuition auto.
Qed.
(** ** The y axis turned over *)
Lemma flips : forall layers up, fold_left (fun up s => if s_flip s then negb up else up) layers up = xorb up (Nat.odd (length (filter s_flip layers))).
Proof.
  induction layers as [|s l IH]; intros up; [cbn; rewrite xorb_false_r; reflexivity|]. cbn [fold_left filter]. rewrite IH. destruct (s_flip s); [|reflexivity]. cbn [length]. rewrite Nat.odd_succ, <- Nat.negb_odd. destruct up, (Nat.odd _); reflexivity.
Qed.
Lemma upside_odd : forall layers, upside_down layers = Nat.odd (length (filter s_flip layers)).
Proof. intros layers. unfold upside_down. rewrite flips. apply xorb_false_l. Qed.
Lemma no_ones_id : forall l, Forall (fun n => n <> 1) l -> no_ones l = l.
Proof. intros l F. induction F as [|n l N F IH]; [reflexivity|]. cbn. destruct (Nat.eqb_spec n 1) as [E|_]; [contradiction|]. cbn. f_equal. exact IH. Qed.
Lemma squeeze_id : forall d, squeezed d -> squeeze d = d.
Proof.
  intros [k s cs] H. unfold squeeze, squeezed in *. cbn [d_kind d_shape d_coords] in *. destruct k; [|reflexivity]. destruct (H eq_refl) as [H1 H2]. rewrite (no_ones_id s H1). f_equal. clear H. induction H2 as [|c cs C F IH]; [reflexivity|]. cbn [map]. rewrite IH. f_equal.
  unfold squeeze_coord. destruct c as [n st ax sh]. cbn [a_name a_std a_axis a_shape] in *. f_equal. destruct C as [[NE C]|C]; [rewrite (no_ones_id sh C); destruct sh; congruence|subst; reflexivity].
Qed.
(** a profile on pressure levels *)
Lemma profile : forall n ax, 1 < n -> basic_plot (mkData Gridded [n] [mkA (lit "air_pressure") (Some (lit "air_pressure")) ax [n]]) None (Named None) None =
  Ok (mkShown Line (XCoord (mkA (lit "air_pressure") (Some (lit "air_pressure")) ax [n])) (mkA (lit "air_pressure") (Some (lit "air_pressure")) ax [n]) Values false true).
Proof.
  intros n ax N. unfold basic_plot. rewrite squeeze_id; [|intros _; cbn; split; [constructor; [lia|constructor]|constructor; [left; split; [discriminate|constructor; [lia|constructor]]|constructor]]].
  set (c := mkA (lit "air_pressure") (Some (lit "air_pressure")) ax [n]). assert (G : forall a, get_axis (mkData Gridded [n] [c]) a None = Ok c). { intros a. unfold get_axis, try_coord, coord. cbn - [Nat.ltb]. replace (1 <? n) with true by (symmetry; apply Nat.ltb_lt; exact N). reflexivity. }
  rewrite !G. reflexivity.
Qed.
