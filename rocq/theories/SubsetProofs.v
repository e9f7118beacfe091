(** Proofs for C30-C33. *)
From Verif Require Import Base PyStr QBase LonModel LonSpec LonProofs DateModel FileListModel FileListProofs IndexModel IndexProofs UngrModel UngrSpec UngrProofs SubsetModel SubsetSpec.
Open Scope string_scope. Open Scope list_scope. Open Scope nat_scope.

(** ** Lookups *)
Lemma nodup_nth {A B} (g : A -> B) l i j a b : NoDup (map g l) -> nth_error l i = Some a -> nth_error l j = Some b -> g a = g b -> i = j.
Proof.
  intros N Ha Hb E. rewrite NoDup_nth_error in N. apply N. - rewrite map_length. apply nth_error_Some. congruence. - rewrite !nth_error_map, Ha, Hb. simpl. congruence.
Qed.
Lemma filter_one {A} (p : A -> bool) l : forall k c, nth_error l k = Some c -> p c = true -> (forall j x, nth_error l j = Some x -> p x = true -> j = k) -> filter p l = [c].
Proof.
  induction l as [|a l IH]; intros k c Hk Hc HU; [destruct k; discriminate|]. cbn [filter]. destruct k as [|k].
  - injection Hk as ->. rewrite Hc. f_equal. destruct (filter p l) as [|y r] eqn:E; auto. exfalso. assert (In y (filter p l)) by (rewrite E; left; auto). apply filter_In in H. destruct H as [H1 H2].
    apply In_nth_error in H1. destruct H1 as (j & Hj). specialize (HU (S j) y Hj H2). discriminate.
  - destruct (p a) eqn:Ea; [specialize (HU 0 a eq_refl Ea); discriminate|]. apply (IH k); auto. intros j x Hj Hx. specialize (HU (S j) x Hj Hx). lia.
Qed.
Lemma filter_none {A} (p : A -> bool) l : (forall x, In x l -> p x = false) -> filter p l = [].
Proof. induction l as [|a l IH]; intros H; [reflexivity|]. cbn [filter]. rewrite (H a) by (left; auto). apply IH. intros; apply H; right; auto. Qed.
Lemma matches_name n c : matches (by_name n) c = true <-> c_name c = n.
Proof. unfold matches, by_name. cbn [q_name q_std q_axis q_var]. rewrite !andb_true_r. apply str_eqb_eq. Qed.
Lemma matches_var n c : matches (mkCrit None None None (Some n)) c = true <-> c_var c = n.
Proof. unfold matches. cbn [q_name q_std q_axis q_var]. cbn [andb]. apply str_eqb_eq. Qed.
Lemma get_coords_name cs k c : own_names cs -> nth_error cs k = Some c -> get_coords cs (by_name (c_name c)) = [c].
Proof.
  intros [N _] Hk. unfold get_coords. apply (filter_one _ _ k); auto. - apply matches_name. auto.
  - intros j x Hj Hx. apply matches_name in Hx. eapply nodup_nth; eauto.
Qed.
Lemma get_coord_by_name cs k c : own_names cs -> nth_error cs k = Some c -> get_coord cs (by_name (c_name c)) = Ok c.
Proof. intros H Hk. unfold get_coord. rewrite (get_coords_name cs k c H Hk). reflexivity. Qed.
Lemma get_coord_by_std cs k c n : own_names cs -> nth_error cs k = Some c -> c_std c = Some n -> n <> [] -> get_coord cs (by_std n) = Ok c.
Proof.
  intros [_ HU] Hk Hc Hn. unfold get_coord, get_coords. rewrite (filter_one _ _ k c); auto. - apply matches_std. auto.
  - intros j x Hj Hx. apply matches_std in Hx. unfold has_std in Hx. eapply HU; eauto; congruence.
Qed.
Lemma axis_lookup l s : axis_name l s <-> standard_axis l = Some s.
Proof.
  unfold axis_name, standard_axis. split.
  - intros H. cbn [In] in H. repeat (destruct H as [H|H]; [injection H as <- <-; reflexivity|]). contradiction.
  - intros H. cbn [dict_get] in H. cbn [In].
    do 5 (match type of H with (if ?b then _ else _) = _ => destruct b as [E|_]; [rewrite <- E; assert (E2 : forall x y : str, Some x = Some y -> x = y) by congruence; apply E2 in H; rewrite <- H; auto 10|] end). discriminate H.
Qed.
Lemma axis_nonempty l s : axis_name l s -> s <> [].
Proof. intros H. unfold axis_name in H. cbn [In] in H. repeat (destruct H as [H|H]; [injection H as <- <-; discriminate|]). contradiction. Qed.
Lemma no_name cs n : (forall x, In x cs -> c_name x <> n /\ c_std x <> Some n) -> get_coords cs (by_name n) = [] /\ get_coords cs (by_std n) = [].
Proof.
  intros H. split; apply filter_none; intros x Hx; destruct (H x Hx) as [H1 H2].
  - destruct (matches (by_name n) x) eqn:E; auto. apply matches_name in E. contradiction.
  - destruct (matches (by_std n) x) eqn:E; auto. apply matches_std in E. contradiction.
Qed.
Lemma by_name_fails cs n : (forall x, In x cs -> c_name x <> n /\ c_std x <> Some n) -> try_coord cs (by_name n) = None.
Proof. intros H. destruct (no_name cs n H) as [H1 H2]. unfold try_coord, get_coord. rewrite H1. cbn [by_name q_name]. change (mkCrit None (Some n) None None) with (by_std n). rewrite H2. reflexivity. Qed.
(** without a criterion every coordinate matches *)
Lemma one_or_many cs k (c : coord) : nth_error cs k = Some c -> match cs with [x] => Ok x | _ => Raises CoordinateNotFoundError end = Ok c \/ match cs with [x] => Ok x | _ => Raises CoordinateNotFoundError end = Raises CoordinateNotFoundError.
Proof. destruct cs as [|a [|b cs]]; intros H; auto. destruct k as [|[|k]]; [injection H as ->; auto|discriminate|discriminate]. Qed.
Lemma std_fallback cs n : get_coords cs (by_std n) = [] -> get_coord cs (by_std n) = match cs with [x] => Ok x | _ => Raises CoordinateNotFoundError end.
Proof. intros H. unfold get_coord. rewrite H. cbn [by_std q_name]. unfold get_coords. rewrite no_criteria. reflexivity. Qed.
Lemma find_addressed cs n k c : own_names cs -> addresses cs n k -> nth_error cs k = Some c -> find_coord cs n = Some c.
Proof.
  intros HO HA Hk. unfold find_coord. destruct HA as [c' Hk' E|c' s Hk' HN HX E|c' Hk' HN HX E HU]; rewrite Hk in Hk'; injection Hk' as <-.
  - unfold try_coord at 1. rewrite <- E, (get_coord_by_name cs k c HO Hk). reflexivity.
  - rewrite (by_name_fails cs n HN). cbn [or_else]. destruct (no_name cs n HN) as [_ H2]. unfold try_coord at 1. rewrite (std_fallback cs n H2).
    destruct (one_or_many cs k c Hk) as [-> | ->]; [reflexivity|]. cbn [or_else]. assert (E2 := proj1 (axis_lookup _ _) HX). rewrite E2. unfold try_coord at 1.
    change (mkCrit None (Some s) None None) with (by_std s). rewrite (get_coord_by_std cs k c s HO Hk E (axis_nonempty _ _ HX)). reflexivity.
  - rewrite (by_name_fails cs n HN). cbn [or_else]. destruct (no_name cs n HN) as [_ H2]. unfold try_coord at 1. rewrite (std_fallback cs n H2).
    destruct (one_or_many cs k c Hk) as [O|O]; rewrite O; [reflexivity|]. cbn [or_else]. destruct (standard_axis (upper n)) as [s|] eqn:E2; [apply axis_lookup in E2; exfalso; apply (HX s); auto|].
    assert (T3 : try_coord cs (mkCrit None None None None) = None) by (unfold try_coord, get_coord, get_coords; cbn [q_name]; rewrite !no_criteria; destruct cs as [|y [|z cs]]; try reflexivity; discriminate O).
    rewrite T3.
    cbn [or_else]. unfold try_coord at 1, get_coord, get_coords. rewrite (filter_one _ _ k c Hk); [reflexivity|apply matches_var; auto|]. intros j x Hj Hx. apply matches_var in Hx. eapply HU; eauto.
Qed.

(** ** Names and positions *)
Lemma nodup_app_l {A} (l m : list A) : NoDup (l ++ m) -> NoDup l.
Proof. induction l as [|x l IH]; intros H; [constructor|]. cbn in H. inversion H as [|? ? N M]; subst. constructor; auto. intros HI. apply N, in_or_app. auto. Qed.
Definition cname (cs : list coord) (k : nat) : str := match nth_error cs k with Some c => c_name c | None => [] end.
Definition named (cs : list coord) (es : list (nat * (Q * Q))) : limits := map (fun e => (cname cs (fst e), snd e)) es.
Lemma dict_set_fresh {V} (d : list (str * V)) k v : ~ In k (map fst d) -> dict_set d k v = d ++ [(k, v)].
Proof. induction d as [|[k' v'] d IH]; intros H; [reflexivity|]. cbn [dict_set]. destruct (str_eq_dec k' k) as [->|]; [exfalso; apply H; left; auto|]. cbn [app]. f_equal. apply IH. intros HI. apply H. right. auto. Qed.
Lemma dict_set_named cs es k c l : own_names cs -> nth_error cs k = Some c -> Forall (fun e : nat * (Q * Q) => fst e < length cs) es -> ~ In k (map fst es) -> dict_set (named cs es) (c_name c) l = named cs (es ++ [(k, l)]).
Proof.
  intros [N _] Hk HF HN. rewrite dict_set_fresh. - unfold named. rewrite map_app. cbn [map fst snd]. unfold cname at 3. rewrite Hk. reflexivity.
  - unfold named. rewrite map_map. cbn [fst]. rewrite in_map_iff. intros ([j l'] & E & HI). cbn [fst] in E. apply HN. rewrite Forall_forall in HF. specialize (HF _ HI). cbn [fst] in HF.
    destruct (nth_error cs j) as [x|] eqn:Hj; [|apply nth_error_None in Hj; lia]. unfold cname in E. rewrite Hj in E. assert (j = k) by (eapply nodup_nth; eauto). subst j. apply in_map_iff. exists (k, l'). auto.
Qed.
(** what a keyword adds *)
Inductive resolves (cs : list coord) : kwarg -> option region -> list (nat * (Q * Q)) -> Prop :=
| res_limit n a b k c a' b' : addresses cs n k -> nth_error cs k = Some c -> default_to a (qmin_of (somes (c_points c))) = Ok a' -> default_to b (qmax_of (somes (c_points c))) = Ok b' ->
    resolves cs (Limit n a b) None [(k, (a', b'))]
| res_shape r kx ky lon lat : nth_error cs kx = Some lon -> nth_error cs ky = Some lat -> c_std lon = Some (lit "longitude") -> c_std lat = Some (lit "latitude") ->
    resolves cs (Shape r) (Some r) [(kx, (r_xmin r, r_xmax r)); (ky, (r_ymin r, r_ymax r))].
Lemma add_kwarg_spec cs g es kw g' es' : own_names cs -> resolves cs kw g' es' -> Forall (fun e : nat * (Q * Q) => fst e < length cs) es -> NoDup (map fst (es ++ es')) ->
  add_kwarg cs (g, named cs es) kw = Ok (or_else g' g, named cs (es ++ es')) /\ Forall (fun e : nat * (Q * Q) => fst e < length cs) es'.
Proof.
  intros HO HR HF HN. assert (HL : forall k c, nth_error cs k = Some c -> k < length cs) by (intros k c H; apply nth_error_Some; congruence). rewrite map_app in HN. destruct HR as [n a b k c a' b' HA Hk Ea Eb|r kx ky lon lat Hx Hy Ex Ey].
  - cbn [add_kwarg fst snd]. rewrite (find_addressed cs n k c HO HA Hk), Ea, Eb. cbn [bind or_else]. rewrite (dict_set_named cs es k c); auto.
    + split; [reflexivity|]. constructor; eauto.
    + intros HI. cbn [map] in HN. apply NoDup_remove_2 in HN. apply HN. apply in_or_app. auto.
  - cbn [add_kwarg fst snd]. rewrite (get_coord_by_std cs kx lon _ HO Hx Ex) by discriminate. cbn [bind]. rewrite (get_coord_by_std cs ky lat _ HO Hy Ey) by discriminate. cbn [bind or_else map fst] in *.
    assert (N1 : ~ In kx (map fst es)) by (apply NoDup_remove_2 in HN; intros HI; apply HN, in_or_app; auto).
    assert (N2 : ~ In ky (map fst (es ++ [(kx, (r_xmin r, r_xmax r))]))).
    { rewrite map_app. cbn [map fst]. change (map fst es ++ [kx; ky]) with (map fst es ++ [kx] ++ [ky]) in HN. rewrite app_assoc in HN. apply NoDup_remove_2 in HN. rewrite app_nil_r in HN. auto. }
    rewrite (dict_set_named cs es kx lon) by auto. rewrite (dict_set_named cs _ ky lat); auto; [|apply Forall_app; split; auto; constructor; eauto].
    rewrite <- app_assoc. split; [reflexivity|]. repeat constructor; eauto.
Qed.
Fixpoint regions (l : list (option region)) (g : option region) : option region := match l with [] => g | r :: l => regions l (or_else r g) end.
Lemma make_limits_spec cs kws : own_names cs -> forall gs ess, Forall2 (fun kw ge => resolves cs kw (fst ge) (snd ge)) kws (combine gs ess) -> length gs = length ess ->
  NoDup (map fst (concat ess)) -> make_limits cs kws = Ok (regions gs None, named cs (concat ess)) /\ Forall (fun e : nat * (Q * Q) => fst e < length cs) (concat ess).
Proof.
  intros HO. assert (G : forall gs ess g es, Forall2 (fun kw ge => resolves cs kw (fst ge) (snd ge)) kws (combine gs ess) -> length gs = length ess -> Forall (fun e : nat * (Q * Q) => fst e < length cs) es ->
    NoDup (map fst (es ++ concat ess)) -> fold_left (fun k kw => bind k (fun k => add_kwarg cs k kw)) kws (Ok (g, named cs es)) = Ok (regions gs g, named cs (es ++ concat ess)) /\ Forall (fun e : nat * (Q * Q) => fst e < length cs) (es ++ concat ess)).
  { induction kws as [|kw kws IH]; intros gs ess g es HF HL HE HN.
    - inversion HF. destruct gs as [|x gs], ess as [|y ess]; try discriminate. cbn. rewrite app_nil_r. auto.
    - destruct gs as [|x gs], ess as [|y ess]; try discriminate; [inversion HF|]. cbn [combine] in HF. inversion HF as [|? ? ? ? HR HF']; subst. cbn [fst snd] in HR. cbn [concat] in HN. rewrite app_assoc in HN.
      destruct (add_kwarg_spec cs g es kw x y HO HR HE) as [E F].
      { rewrite map_app in HN. eapply nodup_app_l; eauto. }
      cbn [fold_left bind]. rewrite E. cbn [concat regions]. rewrite app_assoc. apply IH; auto; [apply Forall_app; auto]. }
  intros gs ess HF HL HN. destruct (G gs ess None [] HF HL) as [E F]; auto.
Qed.

(** ** The copy with converted longitudes *)
Lemma names_identity cs cs' : map identity_of cs' = map identity_of cs -> map c_name cs' = map c_name cs.
Proof.
  intros H. set (g := fun i : option str * str * str * str => let '(s, l, v, _) := i in c_name (mkCoord s l v [] [] [])).
  assert (E : forall l, map c_name l = map g (map identity_of l)) by (intros l; rewrite map_map; apply map_ext; intros c; reflexivity). rewrite !E, H. reflexivity.
Qed.
Lemma own_names_identity cs cs' : map identity_of cs' = map identity_of cs -> own_names cs -> own_names cs'.
Proof.
  intros H [N U]. split; [rewrite (names_identity cs cs'); auto|]. intros i j a b Hi Hj E NE.
  assert (G : forall k x, nth_error cs' k = Some x -> exists y, nth_error cs k = Some y /\ c_std y = c_std x).
  { intros k x Hk. assert (E' : nth_error (map identity_of cs') k = Some (identity_of x)) by (rewrite nth_error_map, Hk; reflexivity). rewrite H, nth_error_map in E'. destruct (nth_error cs k) as [y|]; [|discriminate]. exists y. split; auto. injection E'. auto. }
  destruct (G _ _ Hi) as (a' & Ha & Ea). destruct (G _ _ Hj) as (b' & Hb & Eb). eapply U; eauto; congruence.
Qed.
Lemma cname_identity cs cs' k : map identity_of cs' = map identity_of cs -> cname cs' k = cname cs k.
Proof.
  intros H. apply names_identity in H. unfold cname. assert (E : nth_error (map c_name cs') k = nth_error (map c_name cs) k) by congruence. rewrite !nth_error_map in E.
  destruct (nth_error cs' k), (nth_error cs k); cbn in E; congruence.
Qed.
Lemma named_identity cs cs' es : map identity_of cs' = map identity_of cs -> named cs' es = named cs es.
Proof. intros H. unfold named. apply map_ext. intros e. rewrite (cname_identity cs cs'); auto. Qed.
Lemma append_all_own l cs : (forall i j a b, nth_error (l ++ cs) i = Some a -> nth_error (l ++ cs) j = Some b -> c_std a = c_std b -> c_std a <> Some [] -> i = j) -> append_all l cs = Ok (l ++ cs).
Proof.
  revert l. induction cs as [|c cs IH]; intros l H; cbn [append_all]; [rewrite app_nil_r; reflexivity|]. unfold coords_append. destruct (existsb (coord_eq c) l) eqn:E.
  - apply existsb_exists in E. destruct E as (x & Hx & E). apply coord_eq_spec in E. destruct E as [E1 E2]. apply In_nth_error in Hx. destruct Hx as (i & Hi). assert (Li : i < length l) by (apply nth_error_Some; congruence).
    assert (i = length l); [|lia]. apply (H i (length l) x c); [rewrite nth_error_app1; auto|rewrite nth_error_app2, Nat.sub_diag; auto|congruence|congruence].
  - cbn [bind]. rewrite IH; rewrite <- app_assoc; auto.
Qed.
Lemma copy_same d : aligned d -> complete d -> own_names (u_coords d) -> copy d = Ok d.
Proof.
  intros HA HC [_ HU]. unfold copy. rewrite (aligned_complete d HA HC). cbn [bind]. rewrite append_all_own by (cbn [app]; exact HU). cbn [bind app]. destruct d as [cs sh v]. cbn [u_coords u_shape u_values] in *. apply aligned_complete; auto.
Qed.
Definition convert (f : Q -> Q) (c : coord) : coord := set_points c (c_shape c) (map (option_map f) (c_points c)).
Lemma convert_id c : convert (fun x => x) c = c.
Proof. destruct c as [s l v a sh p]. unfold convert, set_points. cbn. f_equal. rewrite <- (map_id p) at 2. apply map_ext. intros [x|]; reflexivity. Qed.
Lemma at_pos_id {A} k (g : A -> A) l : (forall x, g x = x) -> at_pos k g l = l.
Proof. intros H. revert k. induction l as [|x l IH]; intros [|k]; cbn; auto; [rewrite H; auto|rewrite IH; auto]. Qed.
Lemma map_unique_pos {A} (p : A -> bool) g l : forall k c, nth_error l k = Some c -> p c = true -> (forall j x, nth_error l j = Some x -> p x = true -> j = k) -> map (fun x => if p x then g x else x) l = at_pos k g l.
Proof.
  induction l as [|a l IH]; intros k c Hk Hc HU; [destruct k; discriminate|]. destruct k as [|k]; cbn [map at_pos].
  - injection Hk as ->. rewrite Hc. f_equal. rewrite <- (map_id l) at 2. apply map_ext_in. intros x Hx. destruct (p x) eqn:E; auto. apply In_nth_error in Hx. destruct Hx as (j & Hj). specialize (HU (S j) x Hj E). discriminate.
  - destruct (p a) eqn:Ea; [specialize (HU 0 a eq_refl Ea); discriminate|]. f_equal. apply (IH k c); auto. intros j x Hj Hx. specialize (HU (S j) x Hj Hx). lia.
Qed.
Lemma at_pos_identity k f cs : map identity_of (at_pos k (convert f) cs) = map identity_of cs.
Proof. revert k. induction cs as [|c cs IH]; intros [|k]; cbn; auto. f_equal. auto. Qed.
Lemma at_pos_rows k f cs shape v : let d := mkU cs shape v in rows (mkU (at_pos k (convert f) cs) shape v) = map (change k f) (rows d).
Proof.
  intros d. unfold rows. cbn [u_values d]. rewrite map_map. apply map_ext. intros i. unfold row_at, change, d. cbn [u_coords u_values fst snd]. f_equal. clear d. revert k. induction cs as [|c cs IH]; intros [|k]; cbn [at_pos map]; auto.
  - f_equal. cbn [convert set_points c_points]. change (@None Q) with (option_map f None) at 1. apply map_nth.
  - f_equal. apply IH.
Qed.
Lemma at_pos_aligned k f cs shape v : aligned (mkU cs shape v) -> aligned (mkU (at_pos k (convert f) cs) shape v).
Proof. unfold aligned. cbn [u_coords u_values]. intros H. revert k. induction H as [|c cs Hc H IH]; intros [|k]; cbn; constructor; auto. cbn [convert set_points c_points]. rewrite map_length. auto. Qed.
Lemma located_change k f r : located (change k f r) = located r.
Proof. unfold located, change. cbn [fst]. generalize (fst r). intros l. revert k. induction l as [|o l IH]; intros [|k]; cbn [at_pos forallb]; auto. - destruct o; auto. - rewrite IH. auto. Qed.

(** the decision for the longitude at position k *)
Definition start_for (c : coord) (l : Q * Q) : res (option Q) :=
  bind (qmin_of (somes (c_points c))) (fun cmin => bind (qmax_of (somes (c_points c))) (fun cmax => Ok (new_start cmin cmax (fst l) (snd l)))).
Definition conversion (s : option Q) : Q -> Q := match s with Some s => wrap_lon s | None => fun x => x end.
Lemma is_longitude_spec c : is_longitude c = true <-> c_std c = Some (lit "longitude").
Proof. apply std_eqb_eq. Qed.
Lemma prepare_other cs k c l : own_names cs -> nth_error cs k = Some c -> is_longitude c = false -> prepare_limit cs (cname cs k, l) = Ok cs.
Proof. intros HO Hk HL. unfold prepare_limit, cname. rewrite Hk. cbn [fst snd]. rewrite (get_coord_by_name cs k c HO Hk), HL. reflexivity. Qed.
Lemma prepare_longitude cs k c l s : own_names cs -> nth_error cs k = Some c -> is_longitude c = true -> start_for c l = Ok s -> prepare_limit cs (cname cs k, l) = Ok (at_pos k (convert (conversion s)) cs).
Proof.
  intros HO Hk HL HS. unfold prepare_limit, cname. rewrite Hk. cbn [fst snd]. rewrite (get_coord_by_name cs k c HO Hk), HL. unfold start_for in HS. destruct (qmin_of _) as [m|]; [|discriminate]. destruct (qmax_of _) as [M|]; [|discriminate]. cbn [bind] in *.
  injection HS as HS. rewrite HS. destruct s as [s|]; cbn [conversion].
  - f_equal. unfold name_query. rewrite (get_coords_name cs k c HO Hk). change (wrap_coord s) with (convert (wrap_lon s)). apply (map_unique_pos _ _ _ k c); auto; [apply matches_name; auto|]. intros j x Hj Hx. apply matches_name in Hx. destruct HO as [N _]. eapply nodup_nth; eauto.
  - f_equal. symmetry. apply at_pos_id. apply convert_id.
Qed.
Lemma prepare_others cs es : own_names cs -> (forall e, In e es -> exists c, nth_error cs (fst e) = Some c /\ is_longitude c = false) ->
  fold_left (fun cs l => bind cs (fun cs => prepare_limit cs l)) (named cs es) (Ok cs) = Ok cs.
Proof.
  intros HO. induction es as [|e es IH]; intros H; [reflexivity|]. cbn [named map fold_left bind]. destruct (H e) as (c & Hc & HL); [left; auto|]. rewrite (prepare_other cs (fst e) c (snd e) HO Hc HL). apply IH. intros; apply H; right; auto.
Qed.
Lemma nth_identity cs cs' k c : map identity_of cs' = map identity_of cs -> nth_error cs k = Some c -> exists c', nth_error cs' k = Some c' /\ identity_of c' = identity_of c.
Proof. intros H Hk. assert (E : nth_error (map identity_of cs') k = Some (identity_of c)) by (rewrite H, nth_error_map, Hk; reflexivity). rewrite nth_error_map in E. destruct (nth_error cs' k) as [y|]; [|discriminate]. exists y. split; auto. cbn in E. congruence. Qed.
Lemma is_longitude_identity c c' : identity_of c' = identity_of c -> is_longitude c' = is_longitude c.
Proof. intros E. unfold is_longitude. injection E. intros _ _ _ ->. auto. Qed.
Lemma prepare_one cs es1 k l es2 c s : own_names cs -> nth_error cs k = Some c -> is_longitude c = true -> start_for c l = Ok s ->
  (forall e, In e (es1 ++ es2) -> exists c, nth_error cs (fst e) = Some c /\ is_longitude c = false) ->
  fold_left (fun cs l => bind cs (fun cs => prepare_limit cs l)) (named cs (es1 ++ (k, l) :: es2)) (Ok cs) = Ok (at_pos k (convert (conversion s)) cs).
Proof.
  intros HO Hk HL HS H. unfold named. rewrite map_app, fold_left_app. cbn [map]. fold (named cs es1). rewrite (prepare_others cs es1 HO) by (intros; apply H, in_or_app; auto). cbn [fold_left bind fst snd].
  rewrite (prepare_longitude cs k c l s HO Hk HL HS). fold (named cs es2). rewrite <- (named_identity cs (at_pos k (convert (conversion s)) cs)) by apply at_pos_identity. apply prepare_others.
  - eapply own_names_identity; [apply at_pos_identity|auto].
  - intros e He. destruct (H e) as (x & Hx & HN); [apply in_or_app; auto|]. destruct (nth_identity cs (at_pos k (convert (conversion s)) cs) (fst e) x (at_pos_identity _ _ _) Hx) as (y & Hy & E). exists y. split; auto. rewrite (is_longitude_identity _ _ E). auto.
Qed.

(** ** The mask *)
Definition qual (es : list (nat * (Q * Q))) (r : row) : bool := forallb (fun e : nat * (Q * Q) => in_limits (snd e) (nth (fst e) (fst r) None)) es.
Lemma nth_and a b i : length a = length b -> nth i (map (fun ab : bool * bool => fst ab && snd ab) (combine a b)) false = nth i a false && nth i b false.
Proof. revert i b. induction a as [|x a IH]; intros i [|y b] L; try discriminate; [destruct i; reflexivity|]. destruct i; [reflexivity|]. cbn. apply IH. injection L; auto. Qed.
Lemma row_coord d k c i : nth_error (u_coords d) k = Some c -> nth k (fst (row_at d i)) None = nth i (c_points c) None.
Proof. intros H. unfold row_at. cbn [fst]. apply nth_error_nth. rewrite nth_error_map, H. reflexivity. Qed.
Lemma limits_mask_spec d es : aligned d -> u_coords d <> [] -> own_names (u_coords d) -> Forall (fun e : nat * (Q * Q) => fst e < length (u_coords d)) es ->
  exists m, limits_mask (named (u_coords d) es) (u_coords d) = Ok m /\ length m = length (u_values d) /\ forall i, i < length (u_values d) -> nth i m false = qual es (row_at d i).
Proof.
  intros HA HN HO HF. unfold limits_mask. destruct (u_coords d) as [|c0 cs] eqn:EC; [congruence|]. rewrite <- EC in *. assert (L0 : length (c_points c0) = length (u_values d)) by (unfold aligned in HA; rewrite EC in HA; inversion HA; auto). rewrite L0. clear HN.
  assert (G : forall m0, length m0 = length (u_values d) -> exists m, fold_left (fun m l => bind m (fun m => bind (get_coord (u_coords d) (by_name (fst l))) (fun c => and_masks m (map (in_limits (snd l)) (c_points c))))) (named (u_coords d) es) (Ok m0) = Ok m /\ length m = length (u_values d) /\ forall i, i < length (u_values d) -> nth i m false = nth i m0 false && qual es (row_at d i)).
  { induction HF as [|e es He HF IH]; intros m0 L; [exists m0; repeat split; auto; intros; cbn; rewrite andb_true_r; auto|].
    destruct (nth_error (u_coords d) (fst e)) as [c|] eqn:Hc; [|apply nth_error_None in Hc; lia]. cbn [named map fold_left bind fst snd]. unfold cname at 2. rewrite Hc, (get_coord_by_name _ (fst e) c HO Hc). cbn [bind].
    assert (Lc : length (c_points c) = length (u_values d)) by (unfold aligned in HA; rewrite Forall_forall in HA; apply HA; eapply nth_error_In; eauto).
    unfold and_masks at 2. rewrite map_length, Lc, L, Nat.eqb_refl. destruct (IH (map (fun ab : bool * bool => fst ab && snd ab) (combine m0 (map (in_limits (snd e)) (c_points c))))) as (m & E & Lm & Hm).
    { rewrite map_length, combine_length, map_length. lia. }
    exists m. split; [exact E|]. split; auto. intros i Hi. rewrite Hm, nth_and by (auto; rewrite map_length; congruence). cbn [qual forallb]. rewrite (row_coord d (fst e) c i Hc).
    erewrite (nth_indep (map _ _)) by (rewrite map_length, Lc; auto). rewrite (map_nth (in_limits (snd e)) (c_points c) None i), andb_assoc. reflexivity. }
  destruct (G (repeat true (length (u_values d)))) as (m & E & Lm & Hm); [apply repeat_length|]. exists m. repeat split; auto. intros i Hi. rewrite Hm by auto. rewrite (nth_indep _ false true), nth_repeat by (rewrite repeat_length; auto). reflexivity.
Qed.
Lemma kept_negb m (p : nat -> bool) : (forall i, i < length m -> nth i m false = p i) -> kept_indices (map negb m) = filter p (seq 0 (length m)).
Proof.
  intros H. unfold kept_indices. rewrite map_length. apply filter_ext_in. intros i Hi. apply in_seq in Hi. rewrite (nth_indep _ false (negb false)) by (rewrite map_length; lia). rewrite map_nth, negb_involutive. apply H. lia.
Qed.
Lemma mask_get_spec d m (p : row -> bool) : aligned d -> complete d -> length m = length (u_values d) -> (forall i, i < length (u_values d) -> nth i m false = p (row_at d i)) ->
  exists d', data_mask_get m d = Ok d' /\ aligned d' /\ rows d' = filter p (rows d) /\ map identity_of (u_coords d') = map identity_of (u_coords d).
Proof.
  intros HA HC L H. unfold data_mask_get. rewrite (aligned_complete d HA HC). cbn [bind].
  assert (E : map_res (coord_mask_get m) (u_coords d) = Ok (map (fun c => let p := compress (map negb m) (c_points c) in set_points c [length p] p) (u_coords d))).
  { assert (G : forall cs, Forall (fun c => length (c_points c) = length (u_values d)) cs -> map_res (coord_mask_get m) cs = Ok (map (fun c => let p := compress (map negb m) (c_points c) in set_points c [length p] p) cs)).
    { intros cs HF. induction HF as [|c cs Hc HF IH]; [reflexivity|]. cbn [map_res map]. unfold coord_mask_get at 1, mask_get at 1. rewrite Hc, L, Nat.eqb_refl. cbn [bind]. rewrite IH. reflexivity. }
    apply G. exact HA. }
  rewrite E. cbn [bind]. unfold mask_get at 1. rewrite L, Nat.eqb_refl. cbn [bind].
  destruct (compress_rows (map negb m) (u_coords d) (u_values d) (u_shape d)) as (A & R & I); [rewrite map_length; auto|exact HA|].
  set (d' := mkU _ [_] _) in *. assert (R' : rows d' = filter p (rows d)).
  { rewrite R. rewrite (kept_negb m (fun i => p (row_at d i))) by (intros; apply H; lia). unfold rows. rewrite filter_map, L. destruct d. reflexivity. }
  exists d'. split; [|auto]. apply aligned_complete; auto. intros r Hr. rewrite R' in Hr. apply filter_In in Hr. apply HC. tauto.
Qed.

(** ** One variable *)
Lemma longitude_split cs es : own_names cs -> Forall (fun e : nat * (Q * Q) => fst e < length cs) es -> NoDup (map fst es) ->
  (forall e, In e es -> exists c, nth_error cs (fst e) = Some c /\ is_longitude c = false) \/
  (exists es1 k l es2 c, es = es1 ++ (k, l) :: es2 /\ nth_error cs k = Some c /\ is_longitude c = true /\ forall e, In e (es1 ++ es2) -> exists c, nth_error cs (fst e) = Some c /\ is_longitude c = false).
Proof.
  intros HO HF HN. induction HF as [|[k l] es He HF IH]; [left; intros e []|]. cbn [fst] in He. inversion HN as [|? ? NI HN']; subst. cbn [fst] in NI. destruct (nth_error cs k) as [c|] eqn:Hk; [|apply nth_error_None in Hk; lia].
  destruct (is_longitude c) eqn:HL.
  - right. exists [], k, l, es, c. split; [reflexivity|]. split; auto. split; auto. intros e HI. cbn [app] in HI. rewrite Forall_forall in HF. specialize (HF e HI). destruct (nth_error cs (fst e)) as [x|] eqn:Hx; [|apply nth_error_None in Hx; lia].
    exists x. split; auto. destruct (is_longitude x) eqn:HX; auto. exfalso. apply NI. apply is_longitude_spec in HL. apply is_longitude_spec in HX. destruct HO as [_ U].
    assert (k = fst e) as -> by (apply (U k (fst e) c x); auto; [congruence|rewrite HL; discriminate]). apply in_map. auto.
  - destruct (IH HN') as [H|(es1 & k' & l' & es2 & c' & E & Hk' & HL' & H)].
    + left. intros e [<-|HI]; [exists c; auto|auto].
    + right. exists ((k, l) :: es1), k', l', es2, c'. split; [cbn; congruence|]. split; auto. split; auto. intros e [<-|HI]; [exists c; auto|auto].
Qed.
(** what happens to the longitudes: position k, conversion f *)
Definition converted (cs : list coord) (es : list (nat * (Q * Q))) (k : nat) (f : Q -> Q) : Prop :=
  ((forall e c, In e es -> nth_error cs (fst e) = Some c -> is_longitude c = false) /\ f = (fun x => x)) \/
  (exists l c s, In (k, l) es /\ nth_error cs k = Some c /\ is_longitude c = true /\ start_for c l = Ok s /\ f = conversion s).
Lemma qmin_of_some l : l <> [] -> exists m, qmin_of l = Ok m.
Proof. destruct l; [congruence|]. eexists; reflexivity. Qed.
Lemma qmax_of_some l : l <> [] -> exists m, qmax_of l = Ok m.
Proof. destruct l; [congruence|]. eexists; reflexivity. Qed.
Lemma complete_points d k c i : aligned d -> complete d -> nth_error (u_coords d) k = Some c -> i < length (u_values d) -> exists x, nth i (c_points c) None = Some x.
Proof.
  intros HA HC Hk Hi. assert (HL : located (row_at d i) = true) by (apply HC; unfold rows; apply in_map, in_seq; lia). rewrite located_row, negb_true_iff in HL.
  destruct (nth i (c_points c) None) as [x|] eqn:E; [eauto|]. exfalso. assert (X : existsb (fun c => is_missing (nth i (c_points c) None)) (u_coords d) = true); [|congruence]. apply existsb_exists. exists c. split; [eapply nth_error_In; eauto|]. rewrite E. reflexivity.
Qed.
Lemma somes_nonempty d k c : aligned d -> complete d -> nth_error (u_coords d) k = Some c -> rows d <> [] -> somes (c_points c) <> [].
Proof.
  intros HA HC Hk HR. assert (HL : 0 < length (u_values d)) by (rewrite <- rows_length; destruct (rows d); [congruence|cbn; lia]). destruct (complete_points d k c 0 HA HC Hk HL) as (x & E).
  destruct (c_points c) as [|o l]; cbn in E; [discriminate|]. subst o. discriminate.
Qed.
Lemma create_spec d es : aligned d -> complete d -> u_coords d <> [] -> own_names (u_coords d) -> Forall (fun e : nat * (Q * Q) => fst e < length (u_coords d)) es -> NoDup (map fst es) ->
  (rows d <> [] \/ forall e c, In e es -> nth_error (u_coords d) (fst e) = Some c -> is_longitude c = false) ->
  exists k f d', create_data (named (u_coords d) es) d = Ok d' /\ converted (u_coords d) es k f /\ rows d' = map (change k f) (rows d) /\ aligned d' /\ map identity_of (u_coords d') = map identity_of (u_coords d).
Proof.
  intros HA HC HN HO HF HD HR. unfold create_data. rewrite (copy_same d HA HC HO). cbn [bind]. destruct (longitude_split (u_coords d) es HO HF HD) as [H|(es1 & k & l & es2 & c & E & Hk & HL & H)].
  - exists 0, (fun x => x), d. rewrite (prepare_others _ es HO H). cbn [bind]. split; [destruct d; reflexivity|]. split; [left; split; auto; intros e c He Hc; destruct (H e He) as (x & Hx & E); congruence|].
    split; [|auto]. symmetry. rewrite <- (map_id (rows d)) at 2. apply map_ext. intros [r v]. unfold change. cbn [fst snd]. rewrite at_pos_id; auto. intros [x|]; auto.
  - assert (HR' : rows d <> []).
    { destruct HR as [HR|HR]; auto. exfalso. rewrite (HR (k, l) c) in HL; [discriminate| |auto]. rewrite E. apply in_or_app. right. left. auto. }
    pose proof (somes_nonempty d k c HA HC Hk HR') as NE. destruct (qmin_of_some _ NE) as (mn & Emn). destruct (qmax_of_some _ NE) as (mx & Emx).
    assert (HS : start_for c l = Ok (new_start mn mx (fst l) (snd l))) by (unfold start_for; rewrite Emn, Emx; reflexivity).
    exists k, (conversion (new_start mn mx (fst l) (snd l))). rewrite E, (prepare_one (u_coords d) es1 k l es2 c _ HO Hk HL HS H). cbn [bind]. eexists. split; [reflexivity|].
    split; [right; exists l, c, (new_start mn mx (fst l) (snd l)); repeat split; auto; apply in_or_app; right; left; auto|]. destruct d as [cs sh v]. cbn [u_coords u_shape u_values] in *.
    split; [apply at_pos_rows|]. split; [apply at_pos_aligned; auto|]. apply at_pos_identity.
Qed.
Lemma take_spec {A} (d : A) is l : Forall (fun i => i < length l) is -> take is l = Ok (map (fun i => nth i l d) is).
Proof. unfold take. induction 1 as [|i is Hi HF IH]; [reflexivity|]. cbn [map_res map]. rewrite (nth_error_nth' l d Hi). cbn [bind]. rewrite IH. reflexivity. Qed.
Lemma data_take_spec d is : aligned d -> complete d -> Forall (fun i => i < length (u_values d)) is -> is <> [] ->
  exists d', data_take is d = Ok d' /\ aligned d' /\ rows d' = map (row_at d) is /\ map identity_of (u_coords d') = map identity_of (u_coords d).
Proof.
  intros HA HC HF HN. unfold data_take. replace (match is with [] => Raises TypeError | _ :: _ => _ end) with
    (bind (map_res (fun c => bind (take is (c_points c)) (fun p => Ok (set_points c [length p] p))) (u_coords d)) (fun cs => bind (take is (u_values d)) (fun v => post_process (mkU cs [length v] v)))) by (destruct is; [congruence|reflexivity]).
  rewrite (take_spec None is (u_values d)) by auto.
  assert (E : forall cs, Forall (fun c => length (c_points c) = length (u_values d)) cs -> map_res (fun c => bind (take is (c_points c)) (fun p => Ok (set_points c [length p] p))) cs = Ok (map (fun c => let p := map (fun i => nth i (c_points c) None) is in set_points c [length p] p) cs)).
  { induction 1 as [|c cs Hc Hcs IH]; [reflexivity|]. cbn [map_res map]. rewrite (take_spec None is (c_points c)) by (rewrite Hc; auto). cbn [bind]. rewrite IH. reflexivity. }
  rewrite E by exact HA. cbn [bind]. set (d' := mkU _ _ _). assert (AL : aligned d').
  { unfold aligned, d'. cbn [u_coords u_values]. rewrite Forall_map. apply Forall_forall. intros c _. cbn [set_points c_points]. rewrite !map_length. auto. }
  assert (R : rows d' = map (row_at d) is).
  { unfold rows, d' at 2. cbn [u_values]. rewrite map_length. rewrite <- (map_seq_nth (row_at d)). apply map_ext_in. intros j Hj. apply in_seq in Hj. unfold row_at, d'. cbn [u_coords u_values]. f_equal.
    - rewrite map_map. apply map_ext. intros c. cbn [set_points c_points]. rewrite (nth_indep _ None ((fun i => nth i (c_points c) None) 0)) by (rewrite map_length; lia). rewrite (map_nth (fun i => nth i (c_points c) None)). reflexivity.
    - rewrite (nth_indep _ None ((fun i => nth i (u_values d) None) 0)) by (rewrite map_length; lia). rewrite (map_nth (fun i => nth i (u_values d) None)). reflexivity. }
  exists d'. split; [|split; [auto|split; [auto|]]].
  - apply aligned_complete; auto. intros r Hr. rewrite R in Hr. apply in_map_iff in Hr. destruct Hr as (i & <- & Hi). apply HC. unfold rows. apply in_map, in_seq. rewrite Forall_forall in HF. specialize (HF i Hi). lia.
  - unfold d'. cbn [u_coords]. rewrite map_map. reflexivity.
Qed.
Lemma region_indices_spec r d kx ky lon lat : aligned d -> own_names (u_coords d) -> nth_error (u_coords d) kx = Some lon -> nth_error (u_coords d) ky = Some lat -> c_std lon = Some (lit "longitude") -> c_std lat = Some (lit "latitude") ->
  region_indices r (u_coords d) = Ok (filter (fun i => in_shape r kx ky (row_at d i)) (seq 0 (length (u_values d)))).
Proof.
  intros HA HO Hx Hy Ex Ey. unfold region_indices. rewrite (get_coord_by_std _ kx lon _ HO Hx Ex) by discriminate. cbn [bind]. rewrite (get_coord_by_std _ ky lat _ HO Hy Ey) by discriminate. cbn [bind]. f_equal.
  unfold aligned in HA. rewrite Forall_forall in HA. pose proof (HA lon (nth_error_In _ _ Hx)) as Lx. pose proof (HA lat (nth_error_In _ _ Hy)) as Ly. rewrite combine_length, Lx, Ly, Nat.min_id.
  apply filter_ext_in. intros i Hi. apply in_seq in Hi. rewrite combine_nth by congruence. unfold in_shape. rewrite (row_coord d kx lon i Hx), (row_coord d ky lat i Hy). reflexivity.
Qed.
Lemma rows_take d (p : row -> bool) : map (row_at d) (filter (fun i => p (row_at d i)) (seq 0 (length (u_values d)))) = filter p (rows d).
Proof. unfold rows. rewrite filter_map. reflexivity. Qed.
Lemma size_zero d : (length (u_values d) =? 0)%nat = true <-> rows d = [].
Proof. rewrite Nat.eqb_eq, <- rows_length. destruct (rows d); cbn; split; congruence || discriminate || auto. Qed.

(** the whole of [constrain_one] at the first use of the constraint, without and with a shape *)
Lemma constrain_limits d es : aligned d -> complete d -> u_coords d <> [] -> own_names (u_coords d) -> Forall (fun e : nat * (Q * Q) => fst e < length (u_coords d)) es -> NoDup (map fst es) ->
  (rows d <> [] \/ forall e c, In e es -> nth_error (u_coords d) (fst e) = Some c -> is_longitude c = false) ->
  exists k f r k', converted (u_coords d) es k f /\ constrain_one (mkK None (named (u_coords d) es) None None) d = Ok (r, k') /\ result_rows d (filter (qual es) (map (change k f) (rows d))) r.
Proof.
  intros HA HC HN HO HF HD HR. destruct (create_spec d es HA HC HN HO HF HD HR) as (k & f & d2 & E & HV & R2 & A2 & I2). exists k, f. unfold constrain_one. cbn [k_limits k_mask k_region k_indices]. rewrite E. cbn [bind].
  assert (C2 : complete d2) by (intros r Hr; rewrite R2 in Hr; apply in_map_iff in Hr; destruct Hr as (x & <- & Hx); rewrite located_change; auto).
  assert (L : length (u_coords d2) = length (u_coords d)) by (rewrite <- (map_length identity_of), I2, map_length; auto).
  destruct (limits_mask_spec d2 es A2) as (m & Em & Lm & Hm); [intros Z; apply HN; rewrite Z in L; destruct (u_coords d); [auto|discriminate]|eapply own_names_identity; eauto|rewrite L; auto|]. rewrite <- (named_identity (u_coords d) (u_coords d2)) by auto. rewrite Em. cbn [bind].
  destruct (mask_get_spec d2 m (qual es) A2 C2 Lm Hm) as (d3 & E3 & A3 & R3 & I3). rewrite E3. cbn [bind fst snd]. eexists. eexists. split; auto. split; [reflexivity|]. rewrite <- R2, <- R3. unfold result_rows.
  destruct (length (u_values d3) =? 0) eqn:Z; [apply size_zero; auto|]. split; [intros Y; apply size_zero in Y; congruence|]. split; auto. split; auto. congruence.
Qed.
Lemma constrain_shape g d es kx ky lon lat : aligned d -> complete d -> u_coords d <> [] -> own_names (u_coords d) -> Forall (fun e : nat * (Q * Q) => fst e < length (u_coords d)) es -> NoDup (map fst es) ->
  nth_error (u_coords d) kx = Some lon -> nth_error (u_coords d) ky = Some lat -> c_std lon = Some (lit "longitude") -> c_std lat = Some (lit "latitude") -> rows d <> [] ->
  exists k f, converted (u_coords d) es k f /\ let rs := filter (in_shape g kx ky) (filter (qual es) (map (change k f) (rows d))) in
    match constrain_one (mkK (Some g) (named (u_coords d) es) None None) d with
    | Ok (r, k') => rs <> [] /\ exists d', r = Some d' /\ rows d' = rs /\ aligned d' /\ map identity_of (u_coords d') = map identity_of (u_coords d)
    | Raises e => e = TypeError /\ rs = []
    end.
Proof.
  intros HA HC HN HO HF HD Hx Hy Ex Ey HR. destruct (create_spec d es HA HC HN HO HF HD (or_introl HR)) as (k & f & d2 & E & HV & R2 & A2 & I2). exists k, f. split; auto. cbv zeta. unfold constrain_one. cbn [k_limits k_mask k_region k_indices]. rewrite E. cbn [bind].
  assert (C2 : complete d2) by (intros r Hr; rewrite R2 in Hr; apply in_map_iff in Hr; destruct Hr as (x & <- & Hxx); rewrite located_change; auto).
  assert (L : length (u_coords d2) = length (u_coords d)) by (rewrite <- (map_length identity_of), I2, map_length; auto).
  destruct (limits_mask_spec d2 es A2) as (m & Em & Lm & Hm); [intros Z; apply HN; rewrite Z in L; destruct (u_coords d); [auto|discriminate]|eapply own_names_identity; eauto|rewrite L; auto|]. rewrite <- (named_identity (u_coords d) (u_coords d2)) by auto. rewrite Em. cbn [bind].
  destruct (mask_get_spec d2 m (qual es) A2 C2 Lm Hm) as (d3 & E3 & A3 & R3 & I3). rewrite E3. cbn [bind fst snd].
  assert (I4 : map identity_of (u_coords d3) = map identity_of (u_coords d)) by congruence. assert (C3 : complete d3) by (intros r Hr; rewrite R3 in Hr; apply filter_In in Hr; apply C2; tauto).
  destruct (nth_identity _ _ kx lon I4 Hx) as (lon' & Hx' & Ix). destruct (nth_identity _ _ ky lat I4 Hy) as (lat' & Hy' & Iy).
  assert (Ex' : c_std lon' = Some (lit "longitude")) by (cbn in Ix; injection Ix; intros; congruence). assert (Ey' : c_std lat' = Some (lit "latitude")) by (cbn in Iy; injection Iy; intros; congruence).
  rewrite (region_indices_spec g d3 kx ky lon' lat' A3 (own_names_identity _ _ I4 HO) Hx' Hy' Ex' Ey'). cbn [bind]. set (is := filter _ (seq 0 (length (u_values d3)))). rewrite <- R2, <- R3, <- (rows_take d3). fold is.
  assert (D : is = [] \/ is <> []) by (destruct is; [left|right]; congruence). destruct D as [EI|EI]; [rewrite EI; cbn; auto|].
  destruct (data_take_spec d3 is A3 C3) as (d4 & E4 & A4 & R4 & I5); [apply Forall_forall; intros i Hi; apply filter_In in Hi; destruct Hi as [Hi _]; apply in_seq in Hi; lia|auto|].
  rewrite E4. cbn [bind fst snd]. destruct (length (u_values d4) =? 0) eqn:Z; [apply size_zero in Z; rewrite Z in R4; destruct is; [congruence|discriminate]|].
  split; [destruct is; [congruence|discriminate]|]. exists d4. repeat split; auto. congruence.
Qed.
