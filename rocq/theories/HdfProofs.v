(** Proofs for C72 and C73: handles and values. *)
From Coq Require Import String.
From Verif Require Import Base PyStr QBase DateModel DateProofs FileListModel FileListProofs UtilModel UtilSpec ReadModel ReadSpec ReadProofs ProdModel UngrModel UngrSpec UngrProofs GU3Proofs GG3Proofs RafModel RafProofs Raf2Proofs Raf3Proofs HdfModel HdfSpec.
From Coq Require Import List Lia.
Import ListNotations.
Open Scope string_scope. Open Scope list_scope. Open Scope nat_scope. Notation length := List.length.

Lemma dataset_get {V} (l : list (str * V)) n : dict_get l n = dataset l n.
Proof. apply dict_get_find. Qed.
Lemma starts_iff p : forall s, starts_with p s = true <-> exists r, s = p ++ r.
Proof.
  induction p as [|a p IH]; intros s; cbn [starts_with app]; [split; [exists s|]; auto|]. destruct s as [|b s]; [split; [discriminate|intros (r & E); discriminate E]|].
  destruct (ascii_dec a b) as [->|N]; [rewrite IH; split; intros (r & E); exists r; congruence|]. split; [discriminate|intros (r & E); congruence].
Qed.
Lemma ends_iff p s : ends_with p s = true <-> exists r, s = r ++ p.
Proof.
  unfold ends_with. rewrite starts_iff. split; intros (r & E).
  - exists (rev r). rewrite <- (rev_involutive s), E, rev_app_distr, rev_involutive. reflexivity.
  - exists (rev r). rewrite E, rev_app_distr. reflexivity.
Qed.

(** ** handles *)
Definition nonempty {A} (l : list A) : option (list A) := match l with [] => None | _ => Some l end.
Definition opt_list {A} (o : option A) : list A := match o with Some x => [x] | None => [] end.
Section Handles.
Context {SD VD : Type}.
Implicit Types (f : hfile SD VD) (files : list (hfile SD VD)).
Definition sd_list files x := flat_map (fun f => opt_list (dataset (h_sd f) x)) files.
Definition vd_list files x := flat_map (fun f => match dataset (h_sd f) x with Some _ => [] | None => opt_list (dataset (h_vd f) x) end) files.

Lemma picked_get {V} (g : str -> option V) vars x : dict_get (flat_map (fun x => match g x with Some d => [(x, d)] | None => [] end) vars) x = if in_dec str_eq_dec x vars then g x else None.
Proof.
  induction vars as [|y vars IH]; [reflexivity|]. cbn [flat_map]. destruct (g y) as [d|] eqn:G; cbn [app dict_get].
  - destruct (str_eq_dec y x) as [->|N]; [destruct (in_dec str_eq_dec x (x :: vars)) as [|X]; [auto|exfalso; apply X; left; auto]|]. rewrite IH. destruct (in_dec str_eq_dec x vars), (in_dec str_eq_dec x (y :: vars)) as [I|I]; auto; [exfalso; apply I; right; auto|].
    destruct I; [congruence|contradiction].
  - rewrite IH. destruct (in_dec str_eq_dec x vars), (in_dec str_eq_dec x (y :: vars)) as [I|I]; auto; [exfalso; apply I; right; auto|]. destruct I; [congruence|contradiction].
Qed.
Lemma picked_nodup {V} (g : str -> option V) vars : NoDup vars -> NoDup (map fst (flat_map (fun x => match g x with Some d => [(x, d)] | None => [] end) vars)).
Proof.
  induction 1 as [|y vars NI ND IH]; [constructor|]. cbn [flat_map]. destruct (g y); [|exact IH]. cbn [app map]. constructor; [|exact IH]. cbn [fst]. intros X. apply NI. apply in_map_iff in X. destruct X as ([k w] & E & X). apply in_flat_map in X. destruct X as (z & Hz & X). cbn in E. subst k.
  destruct (g z); [destruct X as [[= <- _]|[]]; auto|contradiction].
Qed.
Lemma add_all_get {V} l : forall (d : list (str * list V)) x, NoDup (map fst l) ->
  dict_get (add_all d l) x = match dict_get l x with Some v => Some (match dict_get d x with Some m => m | None => [] end ++ [v]) | None => dict_get d x end.
Proof.
  induction l as [|[k v] l IH]; intros d x ND; [reflexivity|]. inversion ND as [|? ? NI ND']; subst. change (add_all d ((k, v) :: l)) with (add_all (add_element d k v) l). rewrite IH by auto. unfold add_element. cbn [dict_get].
  rewrite dict_get_set. destruct (str_eq_dec k x) as [->|N]; [|reflexivity].
  destruct (dict_get l x) eqn:G; [exfalso; apply NI; cbn [fst]; apply dict_get_in; congruence|]. destruct (dict_get d x); reflexivity.
Qed.
Lemma read_hdf4_ok f vars s v : NoDup vars -> read_hdf4 f vars = Ok (s, v) ->
  hdf_name (h_name f) /\ NoDup (map fst s) /\ NoDup (map fst v) /\ forall x, In x vars -> dict_get s x = dataset (h_sd f) x /\ dict_get v x = (match dataset (h_sd f) x with Some _ => None | None => dataset (h_vd f) x end) /\ (dataset (h_sd f) x <> None \/ dataset (h_vd f) x <> None).
Proof.
  unfold read_hdf4. intros ND. destruct (ends_with (lit ".hdf") (h_name f)) eqn:EN; [|discriminate]. cbn [negb]. match goal with |- (if ?b then _ else _) = _ -> _ => destruct b eqn:FB end; [|discriminate]. intros [= <- <-].
  split; [apply ends_iff; auto|]. split; [apply picked_nodup; auto|]. split; [apply picked_nodup, NoDup_filter; auto|]. intros x Hx.
  set (sds := flat_map (fun x => match dict_get (h_sd f) x with Some d => [(x, d)] | None => [] end) vars) in *.
  assert (G : forall y, In y vars -> dict_get sds y = dataset (h_sd f) y). { intros y Hy. unfold sds. rewrite picked_get. destruct (in_dec _ _ _); [apply dataset_get|contradiction]. }
  assert (GV : dict_get (flat_map (fun x => match dict_get (h_vd f) x with Some d => [(x, d)] | None => [] end) (filter (fun x => match dict_get sds x with Some _ => false | None => true end) vars)) x = match dataset (h_sd f) x with Some _ => None | None => dataset (h_vd f) x end).
  { rewrite picked_get. destruct (in_dec _ _ _) as [I|I].
    - apply filter_In in I. destruct I as [_ I]. rewrite (G x Hx) in I. destruct (dataset (h_sd f) x); [discriminate|]. apply dataset_get.
    - destruct (dataset (h_sd f) x) eqn:D; [auto|]. exfalso. apply I. apply filter_In. rewrite (G x Hx), D. auto. }
  split; [apply G; auto|]. split; [exact GV|]. rewrite forallb_forall in FB. specialize (FB x Hx). rewrite GV, (G x Hx) in FB. destruct (dataset (h_sd f) x); [left; congruence|]. destruct (dataset (h_vd f) x); [right; congruence|discriminate].
Qed.
Lemma read_hdf4_total f vars : hdf_name (h_name f) -> (forall x, In x vars -> dataset (h_sd f) x <> None \/ dataset (h_vd f) x <> None) -> exists s v, read_hdf4 f vars = Ok (s, v).
Proof.
  intros N H. unfold read_hdf4. apply ends_iff in N. rewrite N. cbn [negb]. match goal with |- exists _ _, (if ?b then _ else _) = _ => assert (FB : b = true); [|rewrite FB; eauto] end.
  apply forallb_forall. intros x Hx. rewrite !picked_get. destruct (in_dec str_eq_dec x vars); [|contradiction]. rewrite dataset_get. destruct (dataset (h_sd f) x) eqn:D; [auto|]. destruct (in_dec str_eq_dec x (filter _ vars)) as [I|I].
  - rewrite dataset_get. destruct (dataset (h_vd f) x) eqn:E; auto. destruct (H x Hx); congruence.
  - exfalso. apply I. apply filter_In. split; auto. rewrite picked_get. destruct (in_dec str_eq_dec x vars); [|contradiction]. rewrite dataset_get, D. reflexivity.
Qed.
Lemma read_hdf4_missing f vars x : hdf_name (h_name f) -> In x vars -> dataset (h_sd f) x = None -> dataset (h_vd f) x = None -> read_hdf4 f vars = Raises InvalidVariableError.
Proof.
  intros N Hx D E. unfold read_hdf4. apply ends_iff in N. rewrite N. cbn [negb]. match goal with |- (if ?b then _ else _) = _ => assert (FB : b = false); [|rewrite FB; eauto] end.
  apply not_true_iff_false. intros FB. rewrite forallb_forall in FB. specialize (FB x Hx). rewrite !picked_get in FB. destruct (in_dec str_eq_dec x vars); [|contradiction]. rewrite dataset_get, D in FB. destruct (in_dec str_eq_dec x (filter _ vars)); [|discriminate]. rewrite dataset_get, E in FB. discriminate.
Qed.
Lemma read_hdf4_other f vars e : read_hdf4 f vars = Raises e -> (e = OSError /\ ~ hdf_name (h_name f)) \/ (e = InvalidVariableError /\ exists x, In x vars /\ dataset (h_sd f) x = None /\ dataset (h_vd f) x = None).
Proof.
  intros E. destruct (ends_with (lit ".hdf") (h_name f)) eqn:N.
  - right. destruct (existsb (fun x => match dataset (h_sd f) x, dataset (h_vd f) x with None, None => true | _, _ => false end) vars) eqn:X.
    + apply existsb_exists in X. destruct X as (x & Hx & X). apply ends_iff in N. destruct (dataset (h_sd f) x) eqn:D; [discriminate|]. destruct (dataset (h_vd f) x) eqn:D'; [discriminate|]. split; [rewrite (read_hdf4_missing f vars x N Hx D D') in E; congruence|eauto].
    + destruct (read_hdf4_total f vars) as (s & v & E'); [apply ends_iff; auto| |congruence]. intros x Hx. apply not_true_iff_false in X. destruct (dataset (h_sd f) x) eqn:D; [left; congruence|]. destruct (dataset (h_vd f) x) eqn:D'; [right; congruence|]. exfalso. apply X. apply existsb_exists. exists x. rewrite D, D'. auto.
  - left. unfold read_hdf4 in E. rewrite N in E. cbn in E. split; [congruence|]. intros X. apply ends_iff in X. congruence.
Qed.
Lemma nonempty_app {A} (l : list A) v : nonempty (l ++ [v]) = Some (l ++ [v]).
Proof. destruct l; reflexivity. Qed.
Lemma read_from_ok files vars : NoDup vars -> forall sd vd s v, read_from sd vd files vars = Ok (s, v) -> forall x, In x vars ->
  dict_get s x = (match dict_get sd x with Some l => Some (l ++ sd_list files x) | None => nonempty (sd_list files x) end) /\
  dict_get v x = (match dict_get vd x with Some l => Some (l ++ vd_list files x) | None => nonempty (vd_list files x) end).
Proof.
  intros ND. induction files as [|f files IH]; intros sd vd s v E x Hx; cbn [read_from] in E.
  - injection E as <- <-. cbn. destruct (dict_get sd x), (dict_get vd x); rewrite ?app_nil_r; auto.
  - destruct (read_hdf4 f vars) as [[s1 v1]|] eqn:R; [|discriminate]. cbn [bind fst snd] in E. destruct (read_hdf4_ok f vars s1 v1 ND R) as (_ & N1 & N2 & H). destruct (H x Hx) as (H1 & H2 & _). destruct (IH _ _ _ _ E x Hx) as [I1 I2].
    rewrite add_all_get, H1 in I1 by auto. rewrite add_all_get, H2 in I2 by auto. change (sd_list (f :: files) x) with (opt_list (dataset (h_sd f) x) ++ sd_list files x).
    change (vd_list (f :: files) x) with ((match dataset (h_sd f) x with Some _ => [] | None => opt_list (dataset (h_vd f) x) end) ++ vd_list files x). split.
    + rewrite I1. destruct (dataset (h_sd f) x); cbn [opt_list app]; [|reflexivity]. destruct (dict_get sd x); cbn [app]; [rewrite <- app_assoc|]; reflexivity.
    + rewrite I2. destruct (dataset (h_sd f) x); [reflexivity|]. destruct (dataset (h_vd f) x); cbn [opt_list app]; [|reflexivity]. destruct (dict_get vd x); cbn [app]; [rewrite <- app_assoc|]; reflexivity.
Qed.
Lemma hdf_read_ok files vars s v x : NoDup vars -> hdf_read files vars = Ok (s, v) -> In x vars -> dict_get s x = nonempty (sd_list files x) /\ dict_get v x = nonempty (vd_list files x).
Proof. intros ND E Hx. apply (read_from_ok files vars ND [] [] s v E x Hx). Qed.
Lemma hdf_read_total files vars : (forall f, In f files -> hdf_name (h_name f) /\ forall x, In x vars -> dataset (h_sd f) x <> None \/ dataset (h_vd f) x <> None) -> exists s v, hdf_read files vars = Ok (s, v).
Proof.
  unfold hdf_read. generalize (@nil (str * list SD)) as sd. generalize (@nil (str * list VD)) as vd. induction files as [|f files IH]; intros vd sd H; cbn [read_from]; [eauto|].
  destruct (H f (or_introl eq_refl)) as [N HX]. destruct (read_hdf4_total f vars N HX) as (s & v & ->). cbn [bind]. apply IH. intros g Hg. apply H. right. auto.
Qed.
Lemma hdf_read_missing files vars x f : (forall f, In f files -> hdf_name (h_name f)) -> In x vars -> In f files -> dataset (h_sd f) x = None -> dataset (h_vd f) x = None -> hdf_read files vars = Raises InvalidVariableError.
Proof.
  unfold hdf_read. generalize (@nil (str * list SD)) as sd. generalize (@nil (str * list VD)) as vd. induction files as [|g files IH]; intros vd sd N Hx Hf D E; [contradiction|]. cbn [read_from]. destruct Hf as [->|Hf].
  - rewrite (read_hdf4_missing f vars x); auto. apply N. left; auto.
  - destruct (read_hdf4 g vars) as [sv|e] eqn:R; cbn [bind].
    + apply IH; auto. intros h Hh. apply N. right; auto.
    + destruct (read_hdf4_other g vars e R) as [[_ X]|[-> _]]; [exfalso; apply X, N; left; auto|reflexivity].
Qed.
Lemma hdf_read_name files vars s v f : hdf_read files vars = Ok (s, v) -> In f files -> hdf_name (h_name f).
Proof.
  unfold hdf_read. generalize (@nil (str * list SD)) as sd. generalize (@nil (str * list VD)) as vd. induction files as [|g files IH]; intros vd sd E Hf; [contradiction|]. cbn [read_from] in E. destruct (read_hdf4 g vars) as [sv|e] eqn:R; [|discriminate]. cbn [bind] in E. destruct Hf as [->|Hf]; [|eapply IH; eauto].
  unfold read_hdf4 in R. destruct (ends_with (lit ".hdf") (h_name f)) eqn:EN; [apply ends_iff; auto|discriminate].
Qed.
Lemma sd_list_all files x (vs : list SD) : Forall2 (fun f v => dataset (h_sd f) x = Some v) files vs -> sd_list files x = vs.
Proof. induction 1 as [|f v files vs E F IH]; [reflexivity|]. unfold sd_list in *. cbn [flat_map]. rewrite E, IH. reflexivity. Qed.
Lemma sd_list_none files x : (forall f, In f files -> dataset (h_sd f) x = None) -> sd_list files x = [].
Proof. induction files as [|f files IH]; intros H; [reflexivity|]. unfold sd_list in *. cbn [flat_map]. rewrite (H f (or_introl eq_refl)). apply IH. intros g Hg. apply H. right; auto. Qed.
Lemma vd_list_all files x (vs : list VD) : Forall2 (fun f v => dataset (h_sd f) x = None /\ dataset (h_vd f) x = Some v) files vs -> vd_list files x = vs.
Proof. induction 1 as [|f v files vs (E1 & E2) F IH]; [reflexivity|]. unfold vd_list in *. cbn [flat_map]. rewrite E1, E2, IH. reflexivity. Qed.
Lemma vd_list_none files x : (forall f, In f files -> dataset (h_sd f) x <> None) -> vd_list files x = [].
Proof. induction files as [|f files IH]; intros H; [reflexivity|]. unfold vd_list in *. cbn [flat_map]. destruct (dataset (h_sd f) x) eqn:D; [apply IH; intros g Hg; apply H; right; auto|]. exfalso. apply (H f); auto. left; auto. Qed.
End Handles.
Lemma Forall_choice {A B} (R : A -> B -> Prop) l : Forall (fun x => exists y, R x y) l -> exists ys, Forall2 R l ys.
Proof. induction 1 as [|x l (y & H) F (ys & IH)]; [exists []; constructor|exists (y :: ys); constructor; auto]. Qed.

(** ** values *)
Lemma getmask_len {A} (a : anarray A) : array_ok a -> length (getmaskarray a) = length (an_data a).
Proof. destruct a as [d|d [m|]]; cbn; rewrite ?repeat_length; auto. Qed.
Lemma seen_len a : array_ok a -> length (seen a) = length (an_data a).
Proof. intros H. unfold seen. rewrite map_length, combine_length, getmask_len by auto. lia. Qed.
Lemma seen_nth a i o : nth_error (seen a) i = Some o -> exists x m, element a i x m /\ o = if m : bool then None else x.
Proof.
  unfold seen. rewrite nth_error_map. destruct (nth_error (combine (an_data a) (getmaskarray a)) i) as [[x m]|] eqn:E; [|discriminate]. intros [= <-]. exists x, m. split; [|reflexivity].
  unfold element. revert i E. generalize (getmaskarray a) as ms. induction (an_data a) as [|y d IH]; intros [|m' ms] [|i] E; cbn in *; try discriminate; [injection E as -> ->; auto|apply IH; auto].
Qed.
Lemma shows_reads invalid f raw out : reads invalid f (Plain raw) out -> array_ok out -> length (seen out) = length raw /\ forall i x, nth_error raw i = Some x -> exists o, nth_error (seen out) i = Some o /\ shows invalid f x o.
Proof.
  intros [L H] OK. cbn [an_data] in L. split; [rewrite seen_len; auto|]. intros i x Ex. assert (Hi : i < length raw) by (apply nth_error_Some; congruence).
  assert (EL : element (Plain raw) i x false). { split; [exact Ex|]. cbn [getmaskarray]. rewrite (nth_error_nth' _ false) by (rewrite repeat_length; auto). rewrite nth_repeat. reflexivity. }
  destruct (H i x false EL) as (y & m' & E' & HM & HV). destruct (nth_error (seen out) i) as [o|] eqn:Eo; [|apply nth_error_None in Eo; rewrite seen_len, L in Eo by auto; lia].
  exists o. split; [reflexivity|]. destruct (seen_nth _ _ _ Eo) as (y2 & m2 & [Y1 Y2] & ->). destruct E' as [E1 E2]. rewrite E1 in Y1. rewrite E2 in Y2. injection Y1 as <-. injection Y2 as <-. destruct m'.
  - destruct HM as [HM _]. destruct (HM eq_refl) as [X|X]; [discriminate|]. apply not_valid. exact X.
  - specialize (HV eq_refl). destruct x as [q|]; cbn in HV; destruct y as [y|]; try contradiction.
    + apply a_value; auto. intros X. destruct HM as [_ HM]. discriminate (HM (or_intror X)).
    + apply not_a_number.
Qed.
Lemma map_data_ok f a : array_ok a -> array_ok (map_data f a).
Proof. destruct a as [d|d [m|]]; cbn; rewrite ?map_length; auto. Qed.
Lemma cloudsat_vds_shows v : (forall q, cv_factor v = Some q -> ~ (q == 0)%Q) -> length (snd (vds_array v)) = length (cv_raw v) /\
  forall i x, nth_error (cv_raw v) i = Some x -> exists o, nth_error (snd (vds_array v)) i = Some o /\ shows (vd_invalid v) (science (cv_factor v) (cv_offset v)) x o.
Proof.
  intros NZ. apply (shows_reads (vd_invalid v) (science (cv_factor v) (cv_offset v))).
  - apply cloudsat_vds_reads. destruct (cv_factor v); cbn; [apply NZ; auto|]. intros X. discriminate X.
  - apply map_data_ok. destruct (fill_mask_ok (cv_missing v) (cv_raw v)) as [A _]. destruct (range_mask_ok (cv_range v) _ A) as [B _]. exact B.
Qed.
Lemma cloudsat_sds_shows v : (forall q, cs_factor v = Some q -> ~ (q == 0)%Q) /\ cs_missop v <> Some (lit ">=") -> length (snd (sds_array v)) = length (cs_raw v) /\
  forall i x, nth_error (cs_raw v) i = Some x -> exists o, nth_error (snd (sds_array v)) i = Some o /\ shows (sd_invalid v) (science (cs_factor v) (cs_offset v)) x o.
Proof.
  intros [NZ NM]. apply (shows_reads (sd_invalid v) (science (cs_factor v) (cs_offset v))).
  - apply cloudsat_sds_reads; auto. destruct (cs_factor v); cbn; [apply NZ; auto|]. intros X. discriminate X.
  - apply map_data_ok. destruct (fill_mask_ok (cs_fill v) (cs_raw v)) as [A _]. destruct (missop_ok (cs_missing v) (cs_missop v) _ A) as [B _]. destruct (range_mask_ok (cs_range v) _ B) as [C _]. exact C.
Qed.
Lemma masked_where_ok {A} (e : A -> A -> bool) v a : array_ok a -> array_ok (masked_where e v a).
Proof. intros H. unfold masked_where, orl. cbn. pose proof (getmask_len a H). rewrite map_length, combine_length, map_length, combine_length. lia. Qed.
Lemma plain_vd_shows raw m : length (seen (vd_get_data raw None m)) = length raw /\
  forall i x, nth_error raw i = Some x -> exists o, nth_error (seen (vd_get_data raw None m)) i = Some o /\ shows (fun x => given m (fun v => is_value v x)) (fun q => q) x o.
Proof.
  apply (shows_reads (fun x => given m (fun v => is_value v x)) (fun q => q)); [apply (vd_reads raw None m)|]. unfold vd_get_data, create_masked_array_for_missing_values. cbn [fold_left]. destruct m; [apply masked_where_ok|]; exact I.
Qed.
Lemma opt_nz (o : option Q) : (forall q, o = Some q -> ~ (q == 0)%Q) -> ~ (or_default o 1 == 0)%Q.
Proof. intros NZ. destruct o; cbn; [apply NZ; auto|]. intros X. discriminate X. Qed.
