(** Proofs for C72: what CloudSat files are not read. *)
From Coq Require Import String.
From Verif Require Import Base PyStr QBase DateModel DateProofs FileListModel FileListProofs UtilModel UtilSpec ReadModel ReadSpec ReadProofs ProdModel UngrModel UngrSpec UngrProofs GU3Proofs GG3Proofs RafModel RafProofs Raf2Proofs Raf3Proofs Raf4Proofs HdfModel HdfSpec HdfProofs Hdf2Proofs Hdf3Proofs.
From Coq Require Import List Lia.
Import ListNotations.
Open Scope string_scope. Open Scope list_scope. Open Scope nat_scope. Notation length := List.length.

Lemma mask_fold_raises n cs e : fold_left (fun m c => bind m (fun m => if (length (c_points c) =? n)%nat then Ok (or_masks m (map is_missing (c_points c))) else Raises ValueError)) cs (Raises e) = Raises e.
Proof. induction cs; cbn [fold_left bind]; auto. Qed.
Lemma misaligned cs shape vals c : In c cs -> length (c_points c) <> length vals -> post_process (mkU cs shape vals) = Raises ValueError.
Proof.
  intros Hc N. unfold post_process. cbn [u_coords u_values]. assert (M : missing_mask (length vals) cs = Raises ValueError); [|rewrite M; reflexivity].
  unfold missing_mask. generalize (repeat false (length vals)) as m. induction cs as [|b cs IH]; intros m; [contradiction|]. cbn [fold_left bind]. destruct (length (c_points b) =? length vals)%nat eqn:E.
  - destruct Hc as [->|Hc]; [apply Nat.eqb_eq in E; congruence|apply IH; auto].
  - apply mask_fold_raises.
Qed.
Lemma column_in {X} (pts : list X) cs P Ps : columns_are pts cs (P :: Ps) -> exists c, In c cs /\ length (c_points c) = length pts.
Proof. intros H. inversion H as [|c ? cs' ? HC F E1 E2]; subst. exists c. split; [left; auto|]. apply forall2_len in HC. auto. Qed.
Lemma all_profiles_length files : length (all_profiles files) = list_sum (map profiles files).
Proof. unfold all_profiles. induction files as [|f files IH]; [reflexivity|]. cbn [flat_map map list_sum fold_right]. rewrite app_length, map_length, seq_length, IH. reflexivity. Qed.
Lemma concat_len_sum {A} (ls : list (list A)) : length (concat ls) = list_sum (map (@length A) ls).
Proof. induction ls; cbn; [reflexivity|]. rewrite app_length, IHls. reflexivity. Qed.

Section Granules.
Variable files : list cs_file.
Hypothesis G : forall f, In f files -> granule f.

(** an SD dataset in one file, a vdata in another *)
Theorem cloudsat_mixed name f g : In f files -> In g files -> dataset (h_sd f) name <> None -> profiles f <> 0 -> dataset (h_sd g) name = None ->
  (forall h, In h files -> dataset (h_sd h) name = None -> per_profile h name) -> read_cloudsat files name = Raises ValueError.
Proof.
  intros Hf Hg Sf Nf Sg H. assert (NE : files <> []) by (destruct files; [contradiction|discriminate]). destruct (hdf_read_total files [name]) as (s & v & R).
  { intros h Hh. split; [apply (g_name h (G h Hh))|]. intros x [<-|[]]. destruct (dataset (h_sd h) name) eqn:D; [left; congruence|right]. destruct (H h Hh D) as (_ & w & E & _). congruence. }
  destruct (hdf_read_ok files [name] s v name (one_nodup name) R (or_introl eq_refl)) as [_ EV].
  assert (LV : forall l, (forall h, In h l -> In h files) -> list_sum (map (fun d => length (cv_raw d)) (vd_list l name)) <= list_sum (map profiles l) /\ (In f l -> list_sum (map (fun d => length (cv_raw d)) (vd_list l name)) < list_sum (map profiles l)) /\ (In g l -> vd_list l name <> []) /\
        Forall (fun d => exists h, In h files /\ dataset (h_vd h) name = Some d) (vd_list l name)).
  { induction l as [|h l IH]; intros HI; [cbn; repeat split; auto; contradiction|]. destruct (IH (fun x Hx => HI x (or_intror Hx))) as (I1 & I2 & I3 & I4). unfold vd_list in *. cbn [flat_map map list_sum fold_right].
    change (fold_right Nat.add 0) with list_sum in *. destruct (dataset (h_sd h) name) as [sd|] eqn:D.
    - cbn [app]. split; [lia|]. split; [intros [->|X]; [lia|specialize (I2 X); lia]|]. split; [intros [->|X]; [congruence|auto]|exact I4].
    - destruct (H h (HI h (or_introl eq_refl)) D) as (_ & w & E & L). rewrite E. cbn [opt_list app map list_sum fold_right]. change (fold_right Nat.add 0) with list_sum. rewrite L. split; [lia|]. split; [intros [->|X]; [congruence|specialize (I2 X); lia]|]. split; [discriminate|]. constructor; auto. exists h. split; auto. apply HI. left; auto. }
  destruct (LV files (fun h Hh => Hh)) as (_ & L2 & L3 & L4). specialize (L2 Hf). specialize (L3 Hg). destruct (vd_list files name) as [|d0 ds0] eqn:VL; [congruence|]. rewrite <- VL in *.
  assert (NV : nonempty (vd_list files name) = Some (vd_list files name)) by (rewrite VL; reflexivity). rewrite NV in EV. destruct (profile_coords_ok files NE G) as (cs & EC & SC & COL).
  unfold read_cloudsat, cloudsat_create. rewrite R. cbn [bind snd]. rewrite EV, EC. cbn [bind].
  destruct (concat_shape [] (map vds_array (vd_list files name)) (map (fun d => length (cv_raw d)) (vd_list files name))) as (a & EA & _ & SA).
  { rewrite VL. discriminate. }
  { apply F2_map_l, F2_map_r. clear. induction (vd_list files name); constructor; auto. }
  rewrite EA. cbn [bind]. destruct (column_in _ _ _ _ COL) as (c & Hc & LC). apply (misaligned cs (fst a) (snd a) c Hc). rewrite LC, all_profiles_length, SA, concat_len_sum, !map_map.
  assert (ML : map (fun x => length (snd (vds_array x))) (vd_list files name) = map (fun d => length (cv_raw d)) (vd_list files name)).
  { apply map_ext_in. intros d Hd. rewrite Forall_forall in L4. destruct (L4 d Hd) as (h & Hh & E). apply (cloudsat_vds_shows d). apply (g_vd h (G h Hh) name d E). }
  rewrite ML. lia.
Qed.
(** a file without heights *)
Theorem cloudsat_no_height m name f : In f files -> dataset (h_sd f) (lit "Height") = None -> dataset (h_vd f) (lit "Height") = None -> (forall h, In h files -> per_cell h m name) -> m <> 1 -> list_sum (map profiles files) <> 0 -> read_cloudsat files name = Raises ValueError.
Proof.
  intros Hf D E H M NZ. assert (NE : files <> []) by (destruct files; [contradiction|discriminate]). destruct (hdf_read_total files [name]) as (s & v & R).
  { intros h Hh. split; [apply (g_name h (G h Hh))|]. intros x [<-|[]]. left. destruct (H h Hh) as (w & X & _). congruence. }
  destruct (sd_column files NE G [name] s v name m (one_nodup name) R) as (ds & a & K & C & FA & F); [left; auto|exact H|].
  destruct (hdf_read_ok files [name] s v name (one_nodup name) R (or_introl eq_refl)) as [_ EV]. rewrite vd_list_none in EV by (intros h Hh; destruct (H h Hh) as (w & X & _); congruence).
  assert (CC : cloudsat_coords files = cloudsat_profile_coords files). { unfold cloudsat_coords. rewrite (hdf_read_missing files _ (lit "Height") f); auto; [intros h Hh; apply (g_name h (G h Hh))|right; right; right; right; left; auto]. }
  destruct (profile_coords_ok files NE G) as (cs & EC & SC & COL).
  unfold read_cloudsat, cloudsat_create. rewrite R. cbn [bind fst snd]. rewrite EV. cbn [nonempty]. unfold key in K. destruct (dict_get s name) as [ds'|]; [|discriminate]. injection K as ->. rewrite CC, EC. cbn [bind]. rewrite C. cbn [bind].
  destruct (column_in _ _ _ _ COL) as (c & Hc & LC). apply (misaligned cs (fst a) (snd a) c Hc). rewrite LC. apply forall2_len in F. unfold all_cells in F. rewrite <- F. rewrite all_profiles_length in *.
  assert (L : length (flat_map (fun fj : cs_file * nat => map (fun k => (fj, k)) (seq 0 m)) (all_profiles files)) = list_sum (map profiles files) * m).
  { rewrite <- all_profiles_length. clear. induction (all_profiles files) as [|x l IH]; [reflexivity|]. cbn [flat_map]. rewrite app_length, map_length, seq_length, IH. cbn [length]. lia. }
  rewrite L. nia.
Qed.
End Granules.
(** the names *)
Theorem cloudsat_names_ok files l : cloudsat_names files = Ok l -> forall n, In n l <-> exists f lat, In f files /\ dataset (h_vd f) (lit "Latitude") = Some lat /\
  ((exists v, In (n, v) (h_vd f) /\ length (cv_raw v) = length (cv_raw lat)) \/ (exists v h, In (n, v) (h_sd f) /\ dataset (h_sd f) (lit "Height") = Some h /\ cs_shape v = cs_shape h)).
Proof.
  unfold cloudsat_names. destruct (map_res _ files) as [ls|] eqn:M; [|discriminate]. cbn [bind]. intros [= <-] n. apply map_res_ok in M. rewrite in_concat.
  assert (ONE : forall f l0 , (match dict_get (h_vd f) (lit "Latitude") with
    | None => Raises IndexError
    | Some l => Ok (map fst (filter (fun nv : str * cs_vd => length (cv_raw (snd nv)) =? length (cv_raw l)) (h_vd f)) ++
                    match dict_get (h_sd f) (lit "Height") with
                    | Some h => map fst (filter (fun nv : str * cs_sd => if list_eq_dec Nat.eq_dec (cs_shape (snd nv)) (cs_shape h) then true else false) (h_sd f))
                    | None => []
                    end)
    end) = Ok l0 -> In n l0 <-> exists lat, dataset (h_vd f) (lit "Latitude") = Some lat /\
  ((exists v, In (n, v) (h_vd f) /\ length (cv_raw v) = length (cv_raw lat)) \/ (exists v h, In (n, v) (h_sd f) /\ dataset (h_sd f) (lit "Height") = Some h /\ cs_shape v = cs_shape h))).
  { intros f l0. rewrite !dataset_get. destruct (dataset (h_vd f) (lit "Latitude")) as [lat|]; [|discriminate]. intros E0. apply (f_equal (fun r => match r with Ok x => x | Raises _ => [] end)) in E0. cbn beta iota in E0. subst l0. rewrite in_app_iff.
    assert (A : In n (map fst (filter (fun nv : str * cs_vd => length (cv_raw (snd nv)) =? length (cv_raw lat)) (h_vd f))) <-> exists v, In (n, v) (h_vd f) /\ length (cv_raw v) = length (cv_raw lat)).
    { rewrite in_map_iff. split; [intros ([k w] & <- & X); apply filter_In in X; destruct X as [X Y]; apply Nat.eqb_eq in Y; exists w; auto|intros (w & X & Y); exists (n, w); split; auto; apply filter_In; split; auto; apply Nat.eqb_eq; auto]. }
    rewrite A. destruct (dataset (h_sd f) (lit "Height")) as [h|].
    - assert (B : In n (map fst (filter (fun nv : str * cs_sd => if list_eq_dec Nat.eq_dec (cs_shape (snd nv)) (cs_shape h) then true else false) (h_sd f))) <-> exists v, In (n, v) (h_sd f) /\ cs_shape v = cs_shape h).
      { rewrite in_map_iff. split; [intros ([k w] & <- & X); apply filter_In in X; destruct X as [X Y]; cbn [snd] in Y; destruct (list_eq_dec Nat.eq_dec (cs_shape w) (cs_shape h)); [exists w; auto|discriminate]|intros (w & X & Y); exists (n, w); split; auto; apply filter_In; split; auto; cbn [snd]; destruct (list_eq_dec _ _ _); auto]. }
      rewrite B. split.
      + intros [X|(w & X & Y)]; [exists lat; auto|exists lat; split; auto; right; exists w, h; auto].
      + intros (l' & [= <-] & [X|(w & h' & X & [= <-] & Y)]); [left; auto|right; exists w; auto].
    - split; [intros [X|[]]; exists lat; auto|intros (l' & [= <-] & [X|(w & h' & X & Y & _)]); [left; auto|discriminate]]. }
  split.
  - intros (l0 & Hl & Hn). apply In_nth_error in Hl. destruct Hl as (i & Hi). destruct (F2_nth _ _ _ M _ _ Hi) as (f & Hf & E). apply (ONE f l0 E) in Hn. destruct Hn as (lat & X). exists f, lat. split; [apply nth_error_In in Hf; auto|auto].
  - intros (f & lat & Hf & X). apply In_nth_error in Hf. destruct Hf as (i & Hi). destruct (F2_nth_l _ _ _ M _ _ Hi) as (l0 & Hl & E). exists l0. split; [apply nth_error_In in Hl; auto|]. apply (ONE f l0 E). exists lat. auto.
Qed.
