(** Proofs for C73: CALIOP. *)
From Coq Require Import String.
From Verif Require Import Base PyStr QBase DateModel DateProofs FileListModel FileListProofs UtilModel UtilSpec ReadModel ReadSpec ReadProofs ProdModel UngrModel UngrSpec UngrProofs GU3Proofs GG3Proofs RafModel RafProofs Raf2Proofs Raf3Proofs Raf4Proofs HdfModel HdfSpec HdfProofs Hdf2Proofs Hdf3Proofs Hdf4Proofs CalSpec.
From Coq Require Import List Lia Lqa.
Import ListNotations.
Open Scope string_scope. Open Scope list_scope. Open Scope nat_scope. Notation length := List.length.

Lemma sd_handles_fold vars : NoDup vars -> forall (files : list cal_file) d x, In x vars ->
  dict_get (fold_left (fun d f => add_all d (flat_map (fun x => match dict_get (h_sd f) x with Some v => [(x, v)] | None => [] end) vars)) files d) x =
  match dict_get d x with Some l => Some (l ++ sd_list files x) | None => nonempty (sd_list files x) end.
Proof.
  intros ND. induction files as [|f files IH]; intros d x Hx; cbn [fold_left].
  - cbn. destruct (dict_get d x); rewrite ?app_nil_r; auto.
  - rewrite IH by auto. rewrite add_all_get by (apply picked_nodup; auto). rewrite picked_get. destruct (in_dec str_eq_dec x vars); [|contradiction]. rewrite dataset_get.
    change (sd_list (f :: files) x) with (opt_list (dataset (h_sd f) x) ++ sd_list files x). destruct (dataset (h_sd f) x); cbn [opt_list app]; [|reflexivity]. destruct (dict_get d x); cbn [app]; [rewrite <- app_assoc|]; reflexivity.
Qed.
Lemma sd_handles_get vars files x : NoDup vars -> In x vars -> dict_get (sd_handles files vars) x = nonempty (sd_list files x).
Proof. intros ND Hx. unfold sd_handles. rewrite (sd_handles_fold vars ND files [] x Hx). reflexivity. Qed.

Lemma calipso_shows v : (forall q, ca_scale v = Some q -> ~ (q == 0)%Q) -> length (snd (calipso_data v)) = length (ca_raw v) /\
  forall i x, nth_error (ca_raw v) i = Some x -> exists o, nth_error (snd (calipso_data v)) i = Some o /\ shows (cal_invalid v) (cal_science v) x o.
Proof.
  intros NZ. apply (shows_reads (cal_invalid v) (cal_science v)).
  - apply caliop_reads'. apply opt_nz. exact NZ.
  - apply map_data_ok. destruct (fill_mask_ok (caliop_missing (ca_fillvalue v) (ca_format v) (ca_fill v)) (ca_raw v)) as [A _].
    set (r := match ca_range v with Some l => pair_of l | None => None end). destruct (range_mask_ok r _ A) as [B _].
    replace (match ca_range v with Some [a; b] => _ | _ => _ end) with (range_mask r (fill_mask (caliop_missing (ca_fillvalue v) (ca_format v) (ca_fill v)) (ca_raw v))); [exact B|].
    unfold r. destruct (ca_range v) as [[|a [|b [|]]]|]; reflexivity.
Qed.
Lemma calipso_at f n v : dataset (h_sd f) n = Some v -> (forall q, ca_scale v = Some q -> ~ (q == 0)%Q) -> forall i o, nth_error (snd (calipso_data v)) i = Some o -> cal_at f n i o.
Proof. intros E NZ i o Eo. destruct (calipso_shows v NZ) as [L S]. destruct (shown_at _ _ _ L S i o Eo) as (x & Ex & HS). exists v, x. auto. Qed.

(** one array for each file, of shape [profiles; m] *)
Definition file_array (P : cal_file -> nat -> option Q -> Prop) (m : nat) (f : cal_file) (a : arr) : Prop :=
  fst a = [cal_profiles f; m] /\ length (snd a) = cal_profiles f * m /\ forall i o, nth_error (snd a) i = Some o -> P f i o.
Lemma cells_of_files m files : cal_cells m files = flat_map (fun f => map (fun jk => ((f, fst jk), snd jk)) (flat_map (fun j => map (fun b => (j, b)) (seq 0 m)) (seq 0 (cal_profiles f)))) files.
Proof.
  unfold cal_cells, cal_points. induction files as [|f l IH]; [reflexivity|]. cbn [flat_map]. rewrite flat_map_app, IH. f_equal. rewrite !flat_map_concat_map, map_map, concat_map, map_map. f_equal. apply map_ext. intros j. rewrite map_map. reflexivity.
Qed.
Lemma arrays_column P m files arrs : files <> [] -> Forall2 (file_array P m) files arrs -> exists a, concat_arrays arrs = Ok a /\ fst a = [list_sum (map cal_profiles files); m] /\
  Forall2 (fun fjk o => P (fst (fst fjk)) (snd (fst fjk) * m + snd fjk) o) (cal_cells m files) (snd a).
Proof.
  intros NE F. destruct (concat_shape [m] arrs (map cal_profiles files)) as (a & EA & FA & SA).
  - apply (F2_nonempty _ _ _ NE F).
  - apply F2_map_r. apply F2_flip. eapply F2_imp; [|exact F]. cbn beta. intros f b (H & _). exact H.
  - exists a. split; [exact EA|]. split; [exact FA|]. rewrite SA, cells_of_files. apply chunks. apply F2_map_r. eapply F2_imp; [|exact F]. cbn beta. intros f b (_ & L & H). apply F2_map_l. eapply F2_imp; [|apply (grid_F2 m (cal_profiles f) (snd b) L)].
    cbn beta. cbn [fst snd]. intros [j k] o Eo. apply H. exact Eo.
Qed.
Lemma take_column_F2 {X} (P : X * nat -> option Q -> Prop) w off : off < w -> forall pts data, Forall2 P (flat_map (fun x => map (fun k => (x, k)) (seq 0 w)) pts) data ->
  Forall2 (fun x o => P (x, off) o) pts (map (fun j => nth (j * w + off) data None) (seq 0 (length pts))).
Proof.
  intros Hw. induction pts as [|x pts IH]; intros data F; [constructor|]. cbn [flat_map] in F. apply Forall2_app_inv_l in F. destruct F as (d1 & d2 & F1 & F2 & ->). pose proof (forall2_len _ _ _ F1) as L. rewrite map_length, seq_length in L.
  cbn [length seq map]. constructor.
  - cbn [Nat.mul Nat.add]. rewrite app_nth1 by lia. destruct (nth_error d1 off) as [o|] eqn:Eo; [|apply nth_error_None in Eo; lia]. rewrite (nth_error_nth _ _ _ Eo).
    destruct (F2_nth _ _ _ F1 _ _ Eo) as (k & Ek & HP). rewrite nth_error_map, (nth_error_nth' _ 0) in Ek by (rewrite seq_length; lia). rewrite seq_nth in Ek by lia. injection Ek as <-. exact HP.
  - rewrite <- seq_shift, map_map. erewrite map_ext; [apply (IH d2 F2)|]. intros j. cbn beta. rewrite app_nth2 by lia. f_equal. lia.
Qed.
Lemma points_length files : length (cal_points files) = list_sum (map cal_profiles files).
Proof. unfold cal_points. induction files as [|f files IH]; [reflexivity|]. cbn [flat_map map list_sum fold_right]. rewrite app_length, map_length, seq_length, IH. reflexivity. Qed.
Lemma cells_length m files : length (cal_cells m files) = list_sum (map cal_profiles files) * m.
Proof. rewrite <- points_length. unfold cal_cells. induction (cal_points files) as [|x l IH]; [reflexivity|]. cbn [flat_map]. rewrite app_length, map_length, seq_length, IH. cbn [length]. lia. Qed.

Definition Pcal (x : str) (w off : nat) (fj : cal_file * nat) (o : option Q) : Prop := cal_at (fst fj) x (snd fj * w + off) o.
Definition Pcell (x : str) (m z : nat) (fjk : cal_file * nat * nat) (o : option Q) : Prop := cal_at (fst (fst fjk)) x ((snd (fst fjk) * m + snd fjk) * z) o.
Definition Pt (w off : nat) (fj : cal_file * nat) (o : option Q) : Prop := time_of (fst fj) (snd fj * w + off) o.
Definition Palt (fjk : cal_file * nat * nat) (o : option Q) : Prop := altitude_at (fst (fst fjk)) (snd fjk) o.

Section Orbits.
Variables (files : list cal_file) (w off : nat).
Hypothesis NE : files <> [].
Hypothesis G : forall f, In f files -> orbit w f.
Hypothesis W : off < w.

Lemma handles x ds : Forall2 (fun f v => dataset (h_sd f) x = Some v) files ds -> nonempty (sd_list files x) = Some ds.
Proof. intros F. rewrite (sd_list_all _ _ _ F). pose proof (F2_nonempty _ _ _ NE F). destruct ds; [congruence|reflexivity]. Qed.
Lemma shape2_arrays x m ds : (forall f, In f files -> of_shape f x [cal_profiles f; m]) -> Forall2 (fun f v => dataset (h_sd f) x = Some v) files ds ->
  Forall2 (file_array (fun f i o => cal_at f x i o) m) files (map calipso_data ds).
Proof.
  intros H F. apply F2_map_r. eapply F2_imp; [|apply F2_in_l; exact F]. cbn beta. intros f v (Hf & Ev). destruct (H f Hf) as (v' & Ev' & Sh & L). rewrite Ev in Ev'. injection Ev' as <-. cbn [fold_right] in L.
  assert (NZ : forall q, ca_scale v = Some q -> ~ (q == 0)%Q) by (apply (o_scale w f (G f Hf) x v Ev)). destruct (calipso_shows v NZ) as [LS _].
  split; [exact Sh|]. split; [rewrite LS, L; lia|]. apply (calipso_at f x v Ev NZ).
Qed.
Lemma shape_datasets x m : (forall f, In f files -> of_shape f x m \/ exists v, dataset (h_sd f) x = Some v) -> exists ds, Forall2 (fun f v => dataset (h_sd f) x = Some v) files ds.
Proof. intros H. apply files_F2. intros f Hf. destruct (H f Hf) as [(v & E & _)|(v & E)]; eauto. Qed.
Lemma read_shape2 vars x m : NoDup vars -> In x vars -> (forall f, In f files -> of_shape f x [cal_profiles f; m]) ->
  exists a, calipso_read (sd_handles files vars) x = Ok a /\ fst a = [list_sum (map cal_profiles files); m] /\ Forall2 (Pcell x m 1) (cal_cells m files) (snd a).
Proof.
  intros ND Hx H. destruct (files_F2 (fun f v => dataset (h_sd f) x = Some v) files) as (ds & F). { intros f Hf. destruct (H f Hf) as (v & E & _). eauto. }
  destruct (arrays_column _ _ _ _ NE (shape2_arrays x m ds H F)) as (a & EA & FA & SA). exists a. unfold calipso_read, key. rewrite sd_handles_get, (handles x ds F) by auto. cbn [bind]. split; [exact EA|]. split; [exact FA|].
  eapply F2_imp; [|exact SA]. cbn beta. unfold Pcell. intros y o. rewrite Nat.mul_1_r. auto.
Qed.
Lemma read_column vars x : NoDup vars -> In x vars -> (forall f, In f files -> of_shape f x [cal_profiles f; w]) ->
  exists a l, calipso_read (sd_handles files vars) x = Ok a /\ fst a = [list_sum (map cal_profiles files); w] /\ take_column off a = Ok l /\ Forall2 (Pcal x w off) (cal_points files) l.
Proof.
  intros ND Hx H. destruct (read_shape2 vars x w ND Hx H) as (a & EA & FA & SA). exists a. unfold take_column. rewrite FA. assert (B : (off <? w) = true) by (apply Nat.ltb_lt; exact W). rewrite B. eexists. split; [exact EA|]. split; [reflexivity|]. split; [reflexivity|].
  rewrite <- points_length. pose proof (take_column_F2 _ w off W (cal_points files) (snd a) SA) as T. eapply F2_imp; [|exact T]. cbn beta. unfold Pcell, Pcal. cbn [fst snd]. intros y o. rewrite Nat.mul_1_r. auto.
Qed.
Lemma times l : Forall2 (Pcal (lit "Profile_Time") w off) (cal_points files) l -> Forall2 (Pt w off) (cal_points files) (map (option_map since_1993) l).
Proof. intros F. apply F2_map_r. eapply F2_imp; [|exact F]. cbn beta. intros y o H. exists o. split; [exact H|]. destruct o; cbn; auto. apply since_1993_day. Qed.

(** the altitudes of the first file *)
Lemma altitudes_ok first m : (exists l, files = first :: l) -> (forall f, In f files -> same_altitudes f first) -> (exists v, dataset (h_first first) (lit "Lidar_Data_Altitudes") = Some v /\ length (cf_raw v) = m) ->
  exists al, lidar_altitudes files = Ok al /\ length al = m /\ forall pts : list (cal_file * nat), (forall fj, In fj pts -> In (fst fj) files) ->
    Forall2 Palt (flat_map (fun x => map (fun k => (x, k)) (seq 0 m)) pts) (snd (expand_0 (length pts) (map (option_map (fun q => q * 1000)%Q) al))).
Proof.
  intros (l & FL) SA (v & Ev & LM). destruct (plain_vd_shows (cf_raw v) (cf_missing v)) as [L S]. exists (seen (vd_get_data (cf_raw v) None (cf_missing v))). split; [|split].
  - unfold lidar_altitudes. rewrite FL, dataset_get, Ev. reflexivity.
  - congruence.
  - intros pts HP. set (al := map (option_map (fun q => q * 1000)%Q) (seen (vd_get_data (cf_raw v) None (cf_missing v)))) in *. assert (LA : length al = m) by (unfold al; rewrite map_length; congruence).
    pose proof (bins_F2 al pts) as B. rewrite LA in B. cbn [snd expand_0]. eapply F2_imp; [|apply F2_in_l; exact B]. cbn beta. intros [[f j] k] o (Hin & E). cbn [fst snd] in *. unfold Palt. cbn [fst snd].
    apply in_flat_map in Hin. destruct Hin as (x & Hx & Hk). apply in_map_iff in Hk. destruct Hk as (k' & [= -> ->] & _). pose proof (HP _ Hx) as Hf. cbn [fst] in Hf.
    unfold al in E. rewrite nth_error_map in E. destruct (nth_error (seen (vd_get_data (cf_raw v) None (cf_missing v))) k) as [a|] eqn:Ea; [|discriminate]. cbn [option_map] in E. injection E as <-. destruct (shown_at _ _ _ L S k a Ea) as (y & Ey & HS).
    exists v, y. split; [rewrite (SA f Hf); exact Ev|]. split; [exact Ey|]. inversion HS; subst; cbn [option_map]; [apply not_a_number|apply not_valid; auto|apply a_value; auto]. match goal with X : (_ == _)%Q |- _ => rewrite X; reflexivity end.
Qed.
End Orbits.
