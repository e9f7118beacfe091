(** Proofs about gridded data (C93): file names, attributes, saving, construction, history, kernels. *)
From Coq Require Import String Ascii.
From Verif Require Import Base PyStr FileListModel FileListProofs UngrModel GlModel GlSpec GlProofs Gl2Proofs.

(** ** File names *)
Lemma own_get h a r b : a < List.length (h_cubes h) -> k_files (get (own_filenames h a r) b) = if Nat.eq_dec b a then r else k_files (get h b).
Proof. intros Ha. unfold own_filenames. rewrite get_put by auto. now destruct (Nat.eq_dec b a). Qed.
Lemma own_length h a r : List.length (h_cubes (own_filenames h a r)) = List.length (h_cubes h).
Proof. apply put_length. Qed.
Lemma read_filenames_files : forall l h r b, live h l -> k_files (get (read_filenames h l r) b) = if in_dec Nat.eq_dec b l then r else k_files (get h b).
Proof.
  induction l as [|a l IH]; intros h r b Hl; cbn [read_filenames]; auto.
  rewrite IH by (intros x Hx; rewrite own_length; apply Hl; now right).
  rewrite own_get by (apply Hl; now left).
  destruct (in_dec Nat.eq_dec b l) as [Hi|Hi], (in_dec Nat.eq_dec b (a :: l)) as [Hj|Hj]; auto; try (exfalso; apply Hj; now right).
  - destruct Hj as [->|]; [|contradiction]. now destruct (Nat.eq_dec b b).
  - destruct (Nat.eq_dec b a) as [->|]; auto. exfalso. apply Hj. now left.
Qed.
Lemma read_filenames_lists : forall l h r, h_lists (read_filenames h l r) = h_lists h.
Proof. induction l as [|a l IH]; intros h r; cbn; auto. now rewrite IH. Qed.
Theorem read_files : forall h l r fs, live h l -> nth_error (h_lists h) r = Some fs ->
  (forall a, In a l -> files_of (read_filenames h l r) a fs) /\ list_filenames (read_filenames h l r) l = concat (repeat fs (List.length l)).
Proof.
  intros h l r fs Hl Hr.
  assert (G : forall a, In a l -> files_of (read_filenames h l r) a fs).
  { intros a Ha. unfold files_of. rewrite read_filenames_lists, read_filenames_files by auto. now destruct (in_dec _ _ _). }
  split; auto. unfold list_filenames. f_equal. revert G. generalize (read_filenames h l r) as h'. clear. intros h'.
  induction l as [|a l IH]; intros G; cbn; auto. rewrite IH by (intros; apply G; now right). f_equal.
  specialize (G a (or_introl eq_refl)). unfold filenames_of. now apply nth_error_nth.
Qed.
Lemma set_filenames_cubes : forall l h r, h_cubes (set_filenames h l r) = h_cubes h.
Proof. induction l as [|a l IH]; intros h r; cbn [set_filenames]; auto. now rewrite IH. Qed.
Lemma nth_error_upd {A} (l : list A) i x j : nth_error (upd l i x) j = if Nat.eq_dec j i then (if lt_dec i (List.length l) then Some x else None) else nth_error l j.
Proof.
  revert i j; induction l as [|y l IH]; intros i j.
  - cbn [upd]. destruct (Nat.eq_dec j i) as [->|]; [destruct i|]; cbn; auto.
  - destruct i as [|i], j as [|j]; cbn [upd nth_error List.length].
    + destruct (Nat.eq_dec 0 0), (lt_dec 0 (S (List.length l))); auto; lia.
    + now destruct (Nat.eq_dec (S j) 0).
    + now destruct (Nat.eq_dec 0 (S i)).
    + rewrite IH. destruct (Nat.eq_dec j i), (Nat.eq_dec (S j) (S i)); try lia; auto. destruct (lt_dec i (List.length l)), (lt_dec (S i) (S (List.length l))); auto; lia.
Qed.
Theorem set_files : forall h l r names, NoDup (map (fun a => k_files (get h a)) l) -> nth_error (h_lists h) r = Some names ->
  (forall a, In a l -> k_files (get h a) <> r) ->
  (forall a fs, In a l -> files_of h a fs -> files_of (set_filenames h l r) a (fs ++ names)) /\
  (forall f, ~ In f (map (fun a => k_files (get h a)) l) -> nth_error (h_lists (set_filenames h l r)) f = nth_error (h_lists h) f) /\
  h_cubes (set_filenames h l r) = h_cubes h.
Proof.
  intros h l r names ND Hr Hn.
  assert (G : forall f, nth_error (h_lists (set_filenames h l r)) f =
    if in_dec Nat.eq_dec f (map (fun a => k_files (get h a)) l) then option_map (fun fs => fs ++ names) (nth_error (h_lists h) f) else nth_error (h_lists h) f).
  { revert h ND Hr Hn. induction l as [|a l IH]; intros h ND Hr Hn f; cbn [set_filenames map]; auto. inversion ND as [|? ? Ni ND']; subst.
    set (f0 := k_files (get h a)) in *. set (h1 := mkHeap _ _).
    assert (Eg : forall b, get h1 b = get h b) by reflexivity.
    assert (Em : map (fun b => k_files (get h1 b)) l = map (fun b => k_files (get h b)) l) by (apply map_ext; intros; now rewrite Eg).
    assert (E1 : forall j, nth_error (h_lists h1) j = if Nat.eq_dec j f0 then option_map (fun fs => fs ++ names) (nth_error (h_lists h) j) else nth_error (h_lists h) j).
    { intros j. unfold h1. cbn [h_lists]. rewrite nth_error_upd. destruct (Nat.eq_dec j f0) as [->|]; auto.
      rewrite (nth_error_nth _ _ _ Hr). destruct (lt_dec f0 _) as [Hl|Hl].
      - rewrite (nth_error_nth' _ [] Hl). reflexivity.
      - rewrite (proj2 (nth_error_None _ _)); auto; lia. }
    assert (Hn0 : f0 <> r) by (apply Hn; now left).
    rewrite IH; [|now rewrite Em|rewrite E1; destruct (Nat.eq_dec r f0); [congruence|exact Hr]|intros b Hb; rewrite Eg; apply Hn; now right].
    rewrite Em. rewrite E1.
    destruct (in_dec Nat.eq_dec f (map _ l)) as [Hi|Hi], (in_dec Nat.eq_dec f (f0 :: map _ l)) as [Hj|Hj]; try (exfalso; apply Hj; now right).
    - destruct (Nat.eq_dec f f0) as [->|]; [contradiction|auto].
    - destruct Hj as [<-|]; [|contradiction]. now destruct (Nat.eq_dec f0 f0).
    - destruct (Nat.eq_dec f f0) as [->|]; auto. exfalso. apply Hj. now left. }
  split; [|split; [|apply set_filenames_cubes]].
  - intros a fs Ha Hf. unfold files_of in *. unfold get. rewrite set_filenames_cubes. fold (get h a). rewrite G. destruct (in_dec _ _ _) as [_|n].
    + now rewrite Hf.
    + exfalso. apply n. now apply (in_map (fun a => k_files (get h a))).
  - intros f Hf. rewrite G. now destruct (in_dec _ _ _).
Qed.

(** ** Attributes *)
Lemma fold_add_local fb ac : forall l c, k_local (fold_left (add_attribute fb ac) l c) = k_local c.
Proof.
  induction l as [|[k v] l IH]; intros c; cbn [fold_left]; auto. rewrite IH. unfold add_attribute. cbn [fst snd]. destruct (negb (fb k)); auto. now destruct (ac k v).
Qed.
Lemma dict_get_set_eq (d : list (str * str)) k v : dict_get (dict_set d k v) k = Some v.
Proof. rewrite dict_get_set. now destruct (str_eq_dec k k). Qed.
Lemma dict_get_set_neq (d : list (str * str)) k v k' : k <> k' -> dict_get (dict_set d k v) k' = dict_get d k'.
Proof. intros H. rewrite dict_get_set. now destruct (str_eq_dec k k'). Qed.
Lemma fold_add_other fb ac : forall l c k, ~ In k (map fst l) -> dict_get (k_attrs (fold_left (add_attribute fb ac) l c)) k = dict_get (k_attrs c) k /\
  dict_get (k_slots (fold_left (add_attribute fb ac) l c)) k = dict_get (k_slots c) k.
Proof.
  induction l as [|[x v] l IH]; intros c k Hk; cbn [fold_left map fst] in *; auto.
  assert (Hx : x <> k) by (intros ->; apply Hk; now left).
  destruct (IH (add_attribute fb ac c (x, v)) k) as [-> ->]; [intros Hi; apply Hk; now right|].
  unfold add_attribute. cbn [fst snd]. destruct (negb (fb x)); [|destruct (ac x v)]; cbn [k_attrs k_slots with_attrs]; rewrite ?dict_get_set_neq by auto; auto.
Qed.
Lemma fold_add_slots fb ac : forall l c k v, NoDup (map fst l) -> In (k, v) l ->
  dict_get (k_attrs (fold_left (add_attribute fb ac) l c)) k = (if fb k then dict_get (k_attrs c) k else Some v) /\
  dict_get (k_slots (fold_left (add_attribute fb ac) l c)) k = (if fb k && ac k v then Some v else dict_get (k_slots c) k).
Proof.
  induction l as [|[x w] l IH]; intros c k v ND Hin; [destruct Hin|]. destruct Hin as [E|Hi]; cbn [fold_left map fst] in *; inversion ND as [|? ? Nx ND']; subst.
  - injection E as -> ->. destruct (fold_add_other fb ac l (add_attribute fb ac c (k, v)) k Nx) as [-> ->].
    unfold add_attribute. cbn [fst snd]. destruct (fb k); cbn [negb andb]; [destruct (ac k v)|]; cbn [k_attrs k_slots with_attrs]; rewrite ?dict_get_set_eq; auto.
  - assert (Hx : x <> k) by (intros ->; apply Nx; now apply (in_map fst) in Hi).
    destruct (IH (add_attribute fb ac c (x, w)) k v ND' Hi) as [-> ->].
    unfold add_attribute. cbn [fst snd]. destruct (negb (fb x)); [|destruct (ac x w)]; cbn [k_attrs k_slots with_attrs]; rewrite ?dict_get_set_neq by auto; auto.
Qed.
Theorem attributes_added : forall fb ac attributes c, NoDup (map fst attributes) -> let c' := add_attributes fb ac attributes c in
  (forall k v, In (k, v) attributes -> fb k = false -> dict_get (k_attrs c') k = Some v) /\
  (forall k v, In (k, v) attributes -> fb k = true -> ac k v = true -> dict_get (k_slots c') k = Some v /\ dict_get (k_attrs c') k = dict_get (k_attrs c) k) /\
  (forall k v, In (k, v) attributes -> fb k = true -> ac k v = false -> dict_get (k_slots c') k = dict_get (k_slots c) k /\ dict_get (k_attrs c') k = dict_get (k_attrs c) k) /\
  (forall k, ~ In k (map fst attributes) -> dict_get (k_attrs c') k = dict_get (k_attrs c) k /\ dict_get (k_slots c') k = dict_get (k_slots c) k) /\
  (forall k, In k (k_local c') <-> In k (k_local c) \/ In k (map fst attributes)).
Proof.
  intros fb ac l c ND. cbv zeta. unfold add_attributes. cbn [k_attrs k_slots k_local with_attrs]. repeat split.
  - intros k v Hi Hf. destruct (fold_add_slots fb ac l c k v ND Hi) as [-> _]. now rewrite Hf.
  - destruct (fold_add_slots fb ac l c k v ND H) as [_ ->]. now rewrite H0, H1.
  - destruct (fold_add_slots fb ac l c k v ND H) as [-> _]. now rewrite H0.
  - destruct (fold_add_slots fb ac l c k v ND H) as [_ ->]. now rewrite H0, H1.
  - destruct (fold_add_slots fb ac l c k v ND H) as [-> _]. now rewrite H0.
  - now apply fold_add_other.
  - now apply fold_add_other.
  - rewrite fold_add_local. apply in_app_or.
  - rewrite fold_add_local. apply in_or_app.
Qed.
Lemma dict_get_pop d k k' : dict_get (dict_pop d k) k' = if str_eq_dec k k' then None else dict_get d k'.
Proof.
  induction d as [|[x v] d IH]; cbn [dict_pop filter]; [now destruct (str_eq_dec k k')|]. cbn [fst dict_get].
  destruct (str_eqb x k) eqn:E; cbn [negb].
  - apply str_eqb_eq in E as ->. fold (dict_pop d k). rewrite IH. destruct (str_eq_dec k k'); auto.
  - apply str_eqb_neq in E. cbn [dict_get]. fold (dict_pop d k). rewrite IH. destruct (str_eq_dec x k'), (str_eq_dec k k'); congruence.
Qed.
Lemma remove_first_other l k x : x <> k -> (In x (remove_first l k) <-> In x l).
Proof.
  intros Hx. induction l as [|y l IH]; cbn [remove_first]; [tauto|]. destruct (str_eqb y k) eqn:E.
  - apply str_eqb_eq in E as ->. cbn. split; auto. intros [->|]; [congruence|auto].
  - cbn. rewrite IH. tauto.
Qed.
Lemma remove_first_once l k : count_occ str_eq_dec l k <= 1 -> ~ In k (remove_first l k).
Proof.
  induction l as [|y l IH]; cbn [remove_first]; auto. intros Hc. destruct (str_eqb y k) eqn:E.
  - apply str_eqb_eq in E as ->. rewrite count_occ_cons_eq in Hc by auto. intros Hi. apply (count_occ_In str_eq_dec) in Hi. lia.
  - apply str_eqb_neq in E. rewrite count_occ_cons_neq in Hc by auto. intros [->|Hi]; [congruence|]. now apply IH.
Qed.
Theorem attribute_removed : forall k c, let c' := remove_attribute k c in
  dict_get (k_attrs c') k = None /\ (forall x, x <> k -> dict_get (k_attrs c') x = dict_get (k_attrs c) x /\ (In x (k_local c') <-> In x (k_local c))) /\
  k_slots c' = k_slots c /\ (count_occ str_eq_dec (k_local c) k <= 1 -> ~ In k (k_local c')).
Proof.
  intros k c. cbn [k_attrs k_slots k_local with_attrs remove_attribute]. split; [|split; [|split; [reflexivity|apply remove_first_once]]].
  - rewrite dict_get_pop. now destruct (str_eq_dec k k).
  - intros x Hx. split; [|now apply remove_first_other]. rewrite dict_get_pop. destruct (str_eq_dec k x); congruence.
Qed.

(** ** Saving *)
Lemma existsb_eqb k l : existsb (str_eqb k) l = true <-> In k l.
Proof.
  rewrite existsb_exists. split; [intros (x & Hx & E); apply str_eqb_eq in E; now subst|]. intros H. exists k. split; auto. apply str_eqb_refl.
Qed.
Theorem saved_on_variable : forall c k v, dict_get (k_attrs c) k = Some v -> (written_globally (save_data c) [c] k = true <-> ~ In k (k_local c)).
Proof.
  intros c k v Hv. unfold written_globally, save_data, same_attr. cbn [sv_local forallb]. rewrite Hv, str_eqb_refl. cbn [andb]. rewrite andb_true_r, negb_true_iff.
  rewrite <- existsb_eqb. destruct (existsb _ _); intuition congruence.
Qed.
Lemma has_coord_spec n c : has_coord n c = true <-> exists s, In (n, s) (k_coords c).
Proof.
  unfold has_coord. rewrite existsb_exists. split.
  - intros ([m s] & Hi & E). cbn in E. apply str_eqb_eq in E as ->. eauto.
  - intros (s & Hi). exists (n, s). split; auto. apply str_eqb_refl.
Qed.
Theorem unlimited_time : forall c, ((exists s, In (lit "time", s) (k_coords c)) -> sv_unlimited (save_data c) = [lit "time"]) /\
  ((forall s, ~ In (lit "time", s) (k_coords c)) -> sv_unlimited (save_data c) = []).
Proof.
  intros c. unfold save_data, unlimited. cbn [sv_unlimited]. split.
  - intros H. apply has_coord_spec in H. now rewrite H.
  - intros H. destruct (has_coord (lit "time") c) eqn:E; auto. apply has_coord_spec in E as (s & Hs). now apply H in Hs.
Qed.

(** ** Construction *)
Theorem init_ok : forall std_ok unit_ok std units, exists m, gridded_init std_ok unit_ok (mkKw std units true) = Ok m /\
  (forall s, m_std m = Some s <-> std = Some (Some s) /\ std_ok s = true) /\ (forall u, m_units m = Some u <-> units = Some (Some u) /\ unit_ok u = true).
Proof.
  intros std_ok unit_ok std units. unfold gridded_init, cube_init. cbn [w_std w_units w_rest].
  assert (G : forall u0 : option str, exists m, Ok (mkMade (join_opt (match std with Some (Some s) => if std_ok s then std else None | _ => None end)) u0) = Ok m /\
     (forall s, m_std m = Some s <-> std = Some (Some s) /\ std_ok s = true) /\ m_units m = u0).
  { intros u0. eexists. split; [reflexivity|]. cbn [m_std m_units]. split; auto. intros s. destruct std as [[t|]|]; cbn [join_opt]; try (split; [discriminate|intros [? _]; discriminate]).
    destruct (std_ok t) eqn:E; cbn [join_opt]; split; try discriminate; [intros [= ->]; auto|intros [[= ->] _]; auto|intros [[= ->] ?]; congruence]. }
  destruct units as [[u|]|]; cbn [join_opt].
  - destruct (unit_ok u) eqn:E; cbn [negb].
    + destruct (G (Some u)) as (m & -> & H1 & H2). exists m. split; auto. split; auto. intros x. rewrite H2. split; [intros [= <-]; auto|intros [[= ->] _]; auto].
    + cbn [join_opt]. destruct (G None) as (m & -> & H1 & H2). exists m. split; auto. split; auto. intros x. rewrite H2. split; [discriminate|intros [[= ->] ?]; congruence].
  - destruct (G None) as (m & -> & H1 & H2). exists m. split; auto. split; auto. intros x. rewrite H2. split; [discriminate|intros [? _]; discriminate].
  - destruct (G None) as (m & -> & H1 & H2). exists m. split; auto. split; auto. intros x. rewrite H2. split; [discriminate|intros [? _]; discriminate].
Qed.
Theorem init_bad_rest : forall std_ok unit_ok std u, gridded_init std_ok unit_ok (mkKw std (Some u) false) = Raises ValueError.
Proof. intros std_ok unit_ok std [u|]; unfold gridded_init, cube_init; cbn [w_units w_rest join_opt]; [destruct (negb (unit_ok u))|]; reflexivity. Qed.
Theorem init_bad_rest_no_units : forall std_ok unit_ok std, gridded_init std_ok unit_ok (mkKw std None false) = Raises KeyError.
Proof. reflexivity. Qed.
Theorem make_new_ok : forall std_ok unit_ok stamp std units t, exists m attrs, make_new std_ok unit_ok stamp std units (Some t) true = Ok (m, attrs) /\
  (forall s, m_std m = Some s <-> std = Some s /\ std_ok s = true) /\ (forall u, m_units m = Some u <-> units = Some u /\ unit_ok u = true) /\
  history attrs = Ok (stamp ++ t).
Proof.
  intros std_ok unit_ok stamp std units t. destruct (init_ok std_ok unit_ok (Some std) (Some units)) as (m & E & H1 & H2).
  unfold make_new. rewrite E. cbn [bind add_history dict_get]. eexists _, _. split; [reflexivity|]. split; [|split].
  - intros s. rewrite H1. split; intros [H ?]; split; auto; congruence.
  - intros s. rewrite H2. split; intros [H ?]; split; auto; congruence.
  - unfold history. now rewrite dict_get_set_eq.
Qed.
Theorem make_new_default : forall std_ok unit_ok stamp std units, make_new std_ok unit_ok stamp std units None true = Raises TypeError.
Proof.
  intros std_ok unit_ok stamp std units. destruct (init_ok std_ok unit_ok (Some std) (Some units)) as (m & E & _). unfold make_new. now rewrite E.
Qed.

(** ** History *)
Lemma record_all_from : forall es attrs old, dict_get attrs (lit "history") = Some old ->
  exists attrs', record_all es attrs = Ok attrs' /\ history attrs' = Ok (join_on "010"%char (old :: map entry es)) /\
  (forall k, k <> lit "history" -> dict_get attrs' k = dict_get attrs k).
Proof.
  induction es as [|e es IH]; intros attrs old Ho; cbn [record_all].
  - exists attrs. unfold history. rewrite Ho. auto.
  - unfold add_history at 1. rewrite Ho. cbn [bind].
    destruct (IH (dict_set attrs (lit "history") (old ++ ["010"%char] ++ fst e ++ snd e)) (old ++ "010"%char :: entry e)) as (a' & E & H & O).
    + apply dict_get_set_eq.
    + exists a'. split; auto. split; [|intros k Hk; rewrite O by auto; apply dict_get_set_neq; auto]. rewrite H. f_equal.
      cbn [map]. destruct es as [|e2 es]; cbn [map join_on]; auto. rewrite <- app_assoc. reflexivity.
Qed.
Theorem history_kept : forall es attrs, es <> [] -> dict_get attrs (lit "history") = None ->
  exists attrs', record_all es attrs = Ok attrs' /\ history attrs' = Ok (join_on "010"%char (map entry es)) /\ (forall k, k <> lit "history" -> dict_get attrs' k = dict_get attrs k).
Proof.
  intros [|e es] attrs Hn Ha; [congruence|]. cbn [record_all]. unfold add_history at 1. rewrite Ha. cbn [bind].
  destruct (record_all_from es (dict_set attrs (lit "history") (fst e ++ snd e)) (entry e)) as (a' & E & H & O); [apply dict_get_set_eq|].
  exists a'. split; auto. split; auto. intros k Hk. rewrite O by auto. apply dict_get_set_neq; auto.
Qed.

(** ** Kernels *)
Theorem kernels_known : forall name subs, In (name, subs) known_kernels -> exists k, choose_kernel (AStr (lit name)) = Ok k /\ sub_kernels k = map lit subs.
Proof.
  intros name subs H. cbn [known_kernels In] in H.
  repeat destruct H as [[= <- <-]|H]; try (eexists; split; [vm_compute; reflexivity|reflexivity]). contradiction.
Qed.
Theorem kernel_default : forall a, a = ANone \/ a = AStr [] -> exists k, choose_kernel a = Ok k /\ sub_kernels k = map lit ["mean"; "standard_deviation"; "count"]%string.
Proof. intros a [->| ->]; eexists; split; reflexivity. Qed.
Theorem kernel_unknown : forall s, s <> [] -> (forall name, In name (map fst known_kernels) -> s <> lit name) -> choose_kernel (AStr s) = Raises KeyError.
Proof.
  intros s Hs H. unfold choose_kernel. replace (match s with [] => lit "moments" | _ => s end) with s by (now destruct s).
  destruct (dict_get aggregation_kernels s) as [k|] eqn:E; auto. exfalso.
  assert (Hi : In s (map fst aggregation_kernels)) by (apply dict_get_in; congruence).
  cbn [aggregation_kernels map fst In] in Hi.
  repeat destruct Hi as [<-|Hi]; try contradiction;
    (eapply H; [|reflexivity]; cbn [known_kernels map fst In]; auto 12).
Qed.
Theorem moments_named : forall vars k, choose_kernel ANone = Ok k -> collapsed_names k vars = flat_map moments_of vars.
Proof.
  intros vars k [= <-]. unfold collapsed_names. apply flat_map_ext. intros v. cbn [sub_kernels map]. unfold moments_of, collapsed_name.
  change (str_eqb (lit "mean") (lit "standard_deviation")) with false. change (str_eqb (lit "mean") (lit "count")) with false.
  change (str_eqb (lit "standard_deviation") (lit "standard_deviation")) with true. change (str_eqb (lit "count") (lit "standard_deviation")) with false.
  change (str_eqb (lit "count") (lit "count")) with true. reflexivity.
Qed.
Lemma last_std (v : str) : last (v ++ lit "_std_dev") "x"%char = "v"%char.
Proof. change (lit "_std_dev") with (lit "_std_de" ++ ["v"%char]). rewrite app_assoc. apply last_last. Qed.
Lemma last_num (v : str) : last (v ++ lit "_num_points") "x"%char = "s"%char.
Proof. change (lit "_num_points") with (lit "_num_point" ++ ["s"%char]). rewrite app_assoc. apply last_last. Qed.
Lemma app_self_neq (v w : str) : w <> [] -> v ++ w <> v.
Proof. intros Hw E. apply (f_equal (@List.length ascii)) in E. rewrite app_length in E. destruct w; [congruence|cbn in E; lia]. Qed.
Theorem moments_distinct : forall vars, NoDup vars -> (forall v w, In v vars -> In w vars -> v <> w ++ lit "_std_dev" /\ v <> w ++ lit "_num_points") ->
  NoDup (flat_map moments_of vars).
Proof.
  intros vars ND. induction ND as [|v vars Hv ND IH]; intros H; cbn [flat_map]; [constructor|].
  assert (Hin : forall x, In x (flat_map moments_of vars) -> exists w, In w vars /\ (x = w \/ x = w ++ lit "_std_dev" \/ x = w ++ lit "_num_points")).
  { intros x Hx. apply in_flat_map in Hx as (w & Hw & Hx). exists w. split; auto. unfold moments_of in Hx. cbn [In] in Hx. intuition. }
  assert (IH' : NoDup (flat_map moments_of vars)) by (apply IH; intros; apply H; now right).
  unfold moments_of at 1. cbn [List.app]. constructor; [|constructor; [|constructor; auto]].
  - cbn [In]. intros [E|[E|Hx]]; [now apply app_self_neq in E|now apply app_self_neq in E|].
    apply Hin in Hx as (w & Hw & [->|[E|E]]); auto; [|]; destruct (H v w (or_introl eq_refl) (or_intror Hw)); auto.
  - cbn [In]. intros [E|Hx].
    + apply (f_equal (fun s => last s "x"%char)) in E. rewrite last_std, last_num in E. discriminate.
    + apply Hin in Hx as (w & Hw & [E|[E|E]]).
      * destruct (H w v (or_intror Hw) (or_introl eq_refl)); auto.
      * apply app_inv_tail in E as ->. auto.
      * apply (f_equal (fun s => last s "x"%char)) in E. rewrite last_std, last_num in E. discriminate.
  - intros Hx. apply Hin in Hx as (w & Hw & [E|[E|E]]).
    + destruct (H w v (or_intror Hw) (or_introl eq_refl)); auto.
    + apply (f_equal (fun s => last s "x"%char)) in E. rewrite last_std, last_num in E. discriminate.
    + apply app_inv_tail in E as ->. auto.
Qed.
