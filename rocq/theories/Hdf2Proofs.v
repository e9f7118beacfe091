(** Proofs for C72: CloudSat. *)
From Coq Require Import String.
From Verif Require Import Base PyStr QBase DateModel DateProofs FileListModel FileListProofs UtilModel UtilSpec ReadModel ReadSpec ReadProofs ProdModel UngrModel UngrSpec UngrProofs GU3Proofs GG3Proofs RafModel RafProofs Raf2Proofs Raf3Proofs Raf4Proofs HdfModel HdfSpec HdfProofs.
From Coq Require Import List Lia Lqa.
Import ListNotations.
Open Scope string_scope. Open Scope list_scope. Open Scope nat_scope. Notation length := List.length.

Lemma concat_fold_shape tail l ns : Forall2 (fun (a : arr) n => fst a = n :: tail) l ns -> forall a0 n0, fst a0 = n0 :: tail -> exists r, fold_left (fun acc b => bind acc (fun a => concat2 a b)) l (Ok a0) = Ok r /\ fst r = (n0 + list_sum ns) :: tail.
Proof.
  induction 1 as [|a n l ns E F IH]; intros a0 n0 E0; cbn [fold_left list_sum fold_right]; [exists a0; rewrite Nat.add_0_r; auto|]. cbn [bind]. unfold concat2 at 2. rewrite E0, E. destruct (list_eq_dec Nat.eq_dec tail tail) as [_|X]; [|congruence].
  destruct (IH ((n0 + n) :: tail, snd a0 ++ snd a) (n0 + n) eq_refl) as (r & R1 & R2). exists r. split; [exact R1|]. rewrite R2. change (fold_right Nat.add 0 ns) with (list_sum ns). f_equal. lia.
Qed.
Lemma concat_shape tail l ns : l <> [] -> Forall2 (fun (a : arr) n => fst a = n :: tail) l ns -> exists r, concat_arrays l = Ok r /\ fst r = list_sum ns :: tail /\ snd r = concat (map snd l).
Proof.
  intros N F. destruct F as [|a n l ns E F]; [congruence|]. destruct (concat_fold_shape tail l ns F a n E) as (r & R1 & R2). exists r. split; [exact R1|]. split; [exact R2|]. apply concat_arrays_data. exact R1.
Qed.
Lemma chunks {F X} (pts : F -> list X) (P : X -> option Q -> Prop) files chs : Forall2 (fun f ch => Forall2 P (pts f) ch) files chs -> Forall2 P (flat_map pts files) (concat chs).
Proof. induction 1; cbn [flat_map concat]; [constructor|]. apply Forall2_app; auto. Qed.
Lemma F2_map_r {A B C} (R : A -> C -> Prop) (g : B -> C) l m : Forall2 R l (map g m) <-> Forall2 (fun a b => R a (g b)) l m.
Proof. revert l. induction m as [|b m IH]; intros l; cbn [map]; split; intros H; inversion H; subst; constructor; auto; apply IH; auto. Qed.
Lemma F2_map_l {A B C} (R : B -> C -> Prop) (g : A -> B) l m : Forall2 R (map g l) m <-> Forall2 (fun a b => R (g a) b) l m.
Proof. revert m. induction l as [|b l IH]; intros m; cbn [map]; split; intros H; inversion H; subst; constructor; auto; apply IH; auto. Qed.
Lemma indexed {F} (f : F) n (P : F -> nat -> option Q -> Prop) l : length l = n -> (forall j o, nth_error l j = Some o -> P f j o) -> Forall2 (fun fj o => P (fst fj) (snd fj) o) (map (fun j => (f, j)) (seq 0 n)) l.
Proof.
  intros L H. apply F2_map_l. cbn [fst snd]. apply F2_intro; [rewrite seq_length; auto|]. intros i x y Ex Ey. assert (i < n) by (rewrite <- L; apply nth_error_Some; congruence). rewrite (nth_error_nth' _ 0) in Ex by (rewrite seq_length; auto). rewrite seq_nth in Ex by auto. injection Ex as <-. auto.
Qed.
Lemma shown_at (P : fval -> option Q -> Prop) raw l : length l = length raw -> (forall i x, nth_error raw i = Some x -> exists o, nth_error l i = Some o /\ P x o) -> forall i o, nth_error l i = Some o -> exists x, nth_error raw i = Some x /\ P x o.
Proof.
  intros L H i o E. destruct (nth_error raw i) as [x|] eqn:X; [|apply nth_error_None in X; assert (i < length l) by (apply nth_error_Some; congruence); lia]. exists x. split; auto. destruct (H i x X) as (o' & E' & HP). congruence.
Qed.
Lemma key_nonempty {V} (d : list (str * list V)) x l : dict_get d x = nonempty l -> l <> [] -> key d x = Ok l.
Proof. unfold key. intros ->. destruct l; [congruence|reflexivity]. Qed.
Lemma files_F2 {A B} (R : A -> B -> Prop) l : (forall x, In x l -> exists y, R x y) -> exists ys, Forall2 R l ys.
Proof. intros H. apply Forall_choice. apply Forall_forall. exact H. Qed.
Lemma F2_in_l {A B} (R : A -> B -> Prop) l m : Forall2 R l m -> Forall2 (fun x y => In x l /\ R x y) l m.
Proof. induction 1 as [|x y l m H F IH]; constructor; [split; [left|]; auto|]. eapply F2_imp; [|exact IH]. cbn. tauto. Qed.

Lemma F2_flip {A B} (R : A -> B -> Prop) l m : Forall2 R l m -> Forall2 (fun y x => R x y) m l.
Proof. induction 1; constructor; auto. Qed.
Lemma F2_combine {A B C} (R : A -> B -> Prop) (S : A -> C -> Prop) l m n : Forall2 R l m -> Forall2 S l n -> Forall2 (fun x yz => R x (fst yz) /\ S x (snd yz)) l (combine m n).
Proof. intros F. revert n. induction F as [|x y l m H F IH]; intros n FS; [constructor|]. apply F2inv in FS. destruct FS as (z & n' & -> & HZ & FS). cbn [combine]. constructor; [cbn; auto|apply IH; auto]. Qed.
Section Granules.
Variable files : list cs_file.
Hypothesis NE : files <> [].
Hypothesis G : forall f, In f files -> granule f.

Lemma vd_column vars s v x : NoDup vars -> hdf_read files vars = Ok (s, v) -> In x vars -> (forall f, In f files -> per_profile f x) ->
  exists ds a, key v x = Ok ds /\ concat_arrays (map vds_array ds) = Ok a /\ Forall2 (fun fj o => vd_at (fst fj) x (snd fj) o) (all_profiles files) (snd a).
Proof.
  intros ND R Hx PP. destruct (files_F2 (fun f v => dataset (h_sd f) x = None /\ dataset (h_vd f) x = Some v) files) as (ds & F). { intros f Hf. destruct (PP f Hf) as (A & w & B & _). exists w. auto. }
  destruct (hdf_read_ok files vars s v x ND R Hx) as [_ E]. rewrite (vd_list_all _ _ _ F) in E. assert (NEd : ds <> []) by (apply (F2_nonempty _ _ _ NE F)).
  exists ds. destruct (concat_shape [] (map vds_array ds) (map (fun d => length (cv_raw d)) ds)) as (a & EA & _ & SA).
  { intros X. apply NEd. destruct ds; [reflexivity|discriminate]. }
  { apply F2_map_l, F2_map_r. clear. induction ds; constructor; auto. }
  exists a. split; [apply key_nonempty; auto|]. split; [exact EA|]. rewrite SA, map_map. apply (chunks (fun f => map (fun j => (f, j)) (seq 0 (profiles f)))). apply F2_map_r. eapply F2_imp; [|apply F2_in_l; exact F]. cbn beta. intros f d (Hf & _ & Ed).
  destruct (cloudsat_vds_shows d) as [L S]. { apply (g_vd f (G f Hf) x d Ed). }
  destruct (PP f Hf) as (_ & d' & Ed' & Ld). rewrite Ed in Ed'. injection Ed' as <-.
  apply (indexed f (profiles f) (fun f j o => vd_at f x j o)); [congruence|]. intros j o Eo. destruct (shown_at _ _ _ L S j o Eo) as (y & Ey & HS). exists d, y. auto.
Qed.
Lemma sd_column vars s v x m : NoDup vars -> hdf_read files vars = Ok (s, v) -> In x vars -> (forall f, In f files -> per_cell f m x) ->
  exists ds a, key s x = Ok ds /\ concat_arrays (map sds_array ds) = Ok a /\ fst a = [list_sum (map profiles files); m] /\ Forall2 (fun fjk o => sd_at (fst (fst fjk)) x (snd (fst fjk) * m + snd fjk) o) (all_cells m files) (snd a).
Proof.
  intros ND R Hx PP. destruct (files_F2 (fun f v => dataset (h_sd f) x = Some v) files) as (ds & F). { intros f Hf. destruct (PP f Hf) as (w & B & _). exists w. auto. }
  destruct (hdf_read_ok files vars s v x ND R Hx) as [E _]. rewrite (sd_list_all _ _ _ F) in E. assert (NEd : ds <> []) by (apply (F2_nonempty _ _ _ NE F)).
  exists ds. destruct (concat_shape [m] (map sds_array ds) (map profiles files)) as (a & EA & FA & SA).
  { intros X. apply NEd. destruct ds; [reflexivity|discriminate]. }
  { apply F2_map_l, F2_map_r. pose proof (F2_flip _ _ _ (F2_in_l _ _ _ F)) as F'. cbn beta in F'.
    eapply F2_imp; [|exact F']. cbn beta. intros d f (Hf & Ed). destruct (PP f Hf) as (d' & Ed' & Sh & _). cbn [sds_array fst]. congruence. }
  exists a. split; [apply key_nonempty; auto|]. split; [exact EA|]. split; [exact FA|]. rewrite SA, map_map. unfold all_cells, all_profiles. rewrite flat_map_concat_map.
  assert (AC : concat (map (fun fj : cs_file * nat => map (fun k => (fj, k)) (seq 0 m)) (flat_map (fun f => map (fun j => (f, j)) (seq 0 (profiles f))) files)) = flat_map (fun f => flat_map (fun j => map (fun k => ((f, j), k)) (seq 0 m)) (seq 0 (profiles f))) files).
  { rewrite <- flat_map_concat_map. clear. induction files as [|f l IH]; [reflexivity|]. cbn [flat_map]. rewrite flat_map_app, IH. f_equal. rewrite !flat_map_concat_map, map_map. reflexivity. }
  rewrite AC. apply chunks. apply F2_map_r. eapply F2_imp; [|apply F2_in_l; exact F]. cbn beta. intros f d (Hf & Ed).
  destruct (cloudsat_sds_shows d) as [L S]. { apply (g_sd f (G f Hf) x d Ed). }
  destruct (PP f Hf) as (d' & Ed' & _ & Ld). rewrite Ed in Ed'. injection Ed' as <-.
  pose proof (grid_F2 m (profiles f) (snd (sds_array d)) ltac:(congruence)) as GF.
  assert (FM : flat_map (fun j => map (fun k => ((f, j), k)) (seq 0 m)) (seq 0 (profiles f)) = map (fun jk => ((f, fst jk), snd jk)) (flat_map (fun j => map (fun b => (j, b)) (seq 0 m)) (seq 0 (profiles f)))).
  { rewrite !flat_map_concat_map, concat_map, !map_map. f_equal. apply map_ext. intros j. rewrite map_map. reflexivity. }
  rewrite FM. apply F2_map_l. eapply F2_imp; [|exact GF]. cbn beta. cbn [fst snd]. intros [j k] o Eo. cbn [fst snd] in *. destruct (shown_at _ _ _ L S _ o Eo) as (y & Ey & HS). exists d, y. auto.
Qed.
Lemma since_1993_day q : (since_1993 q == day_of q)%Q.
Proof. unfold since_1993, convert_sec_since_to_std_time, day_of. change (inject_Z (offset_days (mkDT 1993 1 1 0 0 0))) with 143541%Q. reflexivity. Qed.
Lemma time_column vars s v : NoDup vars -> hdf_read files vars = Ok (s, v) -> In (lit "Profile_time") vars -> In (lit "TAI_start") vars ->
  exists a, generate_time_array v = Ok a /\ Forall2 (fun fj o => time_at (fst fj) (snd fj) o) (all_profiles files) (snd a).
Proof.
  intros ND R H1 H2.
  destruct (files_F2 (fun f v => dataset (h_sd f) (lit "Profile_time") = None /\ dataset (h_vd f) (lit "Profile_time") = Some v) files) as (ps & FP). { intros f Hf. destruct (g_time f (G f Hf)) as (A & w & B & _). exists w. auto. }
  destruct (files_F2 (fun f v => dataset (h_sd f) (lit "TAI_start") = None /\ dataset (h_vd f) (lit "TAI_start") = Some v) files) as (ss & FS). { intros f Hf. destruct (g_start f (G f Hf)) as (A & w & x & B & _). exists w. auto. }
  destruct (hdf_read_ok files vars s v _ ND R H1) as [_ E1]. destruct (hdf_read_ok files vars s v _ ND R H2) as [_ E2]. rewrite (vd_list_all _ _ _ FP) in E1. rewrite (vd_list_all _ _ _ FS) in E2.
  unfold generate_time_array. rewrite (key_nonempty _ _ _ E1 (F2_nonempty _ _ _ NE FP)), (key_nonempty _ _ _ E2 (F2_nonempty _ _ _ NE FS)). cbn [bind].
  assert (Z : Forall2 (fun f ij => In f files /\ dataset (h_vd f) (lit "Profile_time") = Some (fst ij) /\ dataset (h_vd f) (lit "TAI_start") = Some (snd ij)) files (combine ps ss)).
  { eapply F2_imp; [|apply (F2_combine _ _ _ _ _ (F2_in_l _ _ _ FP) FS)]. cbn beta. tauto. }
  assert (M : exists arrs, map_res (fun ij : cs_vd * cs_vd => bind (add_in_place (plain_vd (fst ij)) (plain_vd (snd ij))) (fun l => Ok ([length l], map (option_map since_1993) l))) (combine ps ss) = Ok arrs /\
     Forall2 (fun f (a : arr) => fst a = [profiles f] /\ Forall2 (fun fj o => time_at (fst fj) (snd fj) o) (map (fun j => (f, j)) (seq 0 (profiles f))) (snd a)) files arrs).
  { clear E1 E2 FP FS. induction Z as [|f [p q] l ls (Hf & EP & ES) F IH]; [exists []; split; [reflexivity|constructor]|]. cbn [fst snd] in EP, ES. cbn [map_res fst snd].
    destruct (g_time f (G f Hf)) as (_ & p' & EP' & LP). rewrite EP in EP'. injection EP' as <-. destruct (g_start f (G f Hf)) as (_ & q' & y & ES' & EQ). rewrite ES in ES'. injection ES' as <-.
    destruct (plain_vd_shows (cv_raw p) (cv_missing p)) as [L1 S1]. destruct (plain_vd_shows (cv_raw q) (cv_missing q)) as [L2 S2]. fold (plain_vd p) in L1, S1. fold (plain_vd q) in L2, S2.
    destruct (S2 0 y) as (b & Eb & SB); [rewrite EQ; reflexivity|]. rewrite EQ in L2. destruct (plain_vd q) as [|b' [|]]; try discriminate. injection Eb as ->.
    assert (A : add_in_place (plain_vd p) [b] = Ok (map (fun t => add_opt t b) (plain_vd p))).
    { unfold add_in_place. cbn [length]. destruct (plain_vd p) as [|t [|t' l']]; [reflexivity|reflexivity|]. cbn [length Nat.eqb]. reflexivity. }
    rewrite A. cbn [bind]. destruct IH as (arrs & -> & FA). cbn [bind]. eexists. split; [reflexivity|]. constructor; [|exact FA]. cbn [fst snd]. rewrite map_length. split; [congruence|].
    apply (indexed f (profiles f) time_at); [rewrite !map_length; congruence|]. intros j o Eo. rewrite !nth_error_map in Eo. destruct (nth_error (plain_vd p) j) as [a|] eqn:Ea; [|discriminate]. cbn [option_map] in Eo. injection Eo as <-.
    destruct (shown_at _ _ _ L1 S1 j a Ea) as (x & Ex & SX). exists p, q, x, y, a, b. repeat split; auto. destruct a as [a|], b as [b|]; cbn; auto. apply since_1993_day. }
  destruct M as (arrs & -> & FA). cbn [bind]. destruct (concat_shape [] arrs (map profiles files)) as (a & EA & _ & SA).
  - apply (F2_nonempty _ _ _ NE FA).
  - apply F2_map_r. clear - FA. induction FA as [|f a l m (H & _) F IH]; constructor; auto.
  - exists a. split; [exact EA|]. rewrite SA. apply chunks. apply F2_map_r. eapply F2_imp; [|exact FA]. cbn. tauto.
Qed.
End Granules.
