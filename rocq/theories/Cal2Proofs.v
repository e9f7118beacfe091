(** Proofs for C73: the rows of CALIOP files. *)
From Coq Require Import String.
From Verif Require Import Base PyStr QBase DateModel DateProofs FileListModel FileListProofs UtilModel UtilSpec ReadModel ReadSpec ReadProofs ProdModel UngrModel UngrSpec UngrProofs GU3Proofs GG3Proofs RafModel RafProofs Raf2Proofs Raf3Proofs Raf4Proofs HdfModel HdfSpec HdfProofs Hdf2Proofs Hdf3Proofs Hdf4Proofs CalSpec CalProofs.
From Coq Require Import List Lia Lqa.
Import ListNotations.
Open Scope string_scope. Open Scope list_scope. Open Scope nat_scope. Notation length := List.length.

Definition vars3 : list str := [lit "Latitude"; lit "Longitude"; lit "Profile_Time"].
Definition vars4 : list str := [lit "Latitude"; lit "Longitude"; lit "Profile_Time"; lit "Pressure"].
Lemma vars3_nodup : NoDup vars3. Proof. apply (nodupb_ok str_eq_dec). vm_compute. reflexivity. Qed.
Lemma vars4_nodup : NoDup vars4. Proof. apply (nodupb_ok str_eq_dec). vm_compute. reflexivity. Qed.
Lemma shape_dec (a b n : nat) : (exists E, list_eq_dec Nat.eq_dec [n; a] [n; b] = left E) /\ a = b \/ (exists E, list_eq_dec Nat.eq_dec [n; a] [n; b] = right E) /\ a <> b.
Proof. destruct (list_eq_dec Nat.eq_dec [n; a] [n; b]) as [E|E]; [left|right]; (split; [eauto|]); [injection E; auto|intros ->; apply E; auto]. Qed.

Section Orbits.
Variables (files : list cal_file) (w off : nat) (first : cal_file) (m : nat).
Hypothesis FIRST : exists l, files = first :: l.
Hypothesis G : forall f, In f files -> orbit w f.
Hypothesis W : off < w.
Let NE : files <> [].
Proof. destruct FIRST as (l & ->). discriminate. Qed.

Lemma column_coords_ok : exists cs, caliop_column_coords files off = Ok cs /\ map c_std cs = [Some (lit "latitude"); Some (lit "longitude"); Some (lit "time")] /\
  columns_are (cal_points files) cs [Pcal (lit "Latitude") w off; Pcal (lit "Longitude") w off; Pt w off].
Proof.
  destruct (read_column files w off NE G W vars3 (lit "Latitude") vars3_nodup) as (a1 & l1 & R1 & S1 & T1 & F1); [left; auto|intros f Hf; apply (o_lat w f (G f Hf))|].
  destruct (read_column files w off NE G W vars3 (lit "Longitude") vars3_nodup) as (a2 & l2 & R2 & S2 & T2 & F2); [right; left; auto|intros f Hf; apply (o_lon w f (G f Hf))|].
  destruct (read_column files w off NE G W vars3 (lit "Profile_Time") vars3_nodup) as (a3 & l3 & R3 & S3 & T3 & F3); [right; right; left; auto|intros f Hf; apply (o_time w f (G f Hf))|].
  unfold caliop_column_coords. fold vars3. cbv zeta. rewrite R1. cbn [bind]. rewrite T1. cbn [bind]. rewrite R2. cbn [bind]. rewrite T2. cbn [bind]. rewrite R3. cbn [bind]. rewrite T3. cbn [bind].
  rewrite append_distinct; [|intros c [<-|[<-|[<-|[]]]]; discriminate|cbn [app map]; apply (nodupb_ok (option_eq_dec str_eq_dec)); vm_compute; reflexivity].
  eexists. split; [reflexivity|]. split; [reflexivity|]. constructor; [exact F1|]. constructor; [exact F2|]. constructor; [apply times; exact F3|constructor].
Qed.

Hypothesis SA : forall f, In f files -> same_altitudes f first.
Hypothesis AL : exists v, dataset (h_first first) (lit "Lidar_Data_Altitudes") = Some v /\ length (cf_raw v) = m.
Lemma cell_coords_ok ip mp : (ip = true -> forall f, In f files -> of_shape f (lit "Pressure") [cal_profiles f; mp]) -> let pres := ip && (mp =? m) in
  exists cs, caliop_coords ip files off = Ok cs /\ map c_std cs = cal_names pres /\
    columns_are (cal_cells m files) cs ([up (Pcal (lit "Latitude") w off); up (Pcal (lit "Longitude") w off); up (Pt w off); Palt] ++ if pres then [Pcell (lit "Pressure") m 1] else []).
Proof.
  intros HP pres.
  destruct (read_column files w off NE G W vars4 (lit "Latitude") vars4_nodup) as (a1 & l1 & R1 & S1 & T1 & F1); [left; auto|intros f Hf; apply (o_lat w f (G f Hf))|].
  destruct (read_column files w off NE G W vars4 (lit "Longitude") vars4_nodup) as (a2 & l2 & R2 & S2 & T2 & F2); [right; left; auto|intros f Hf; apply (o_lon w f (G f Hf))|].
  destruct (read_column files w off NE G W vars4 (lit "Profile_Time") vars4_nodup) as (a3 & l3 & R3 & S3 & T3 & F3); [right; right; left; auto|intros f Hf; apply (o_time w f (G f Hf))|].
  destruct (altitudes_ok files w NE G first m FIRST SA AL) as (al & EA & LA & FA).
  assert (FA' : Forall2 Palt (cal_cells m files) (snd (expand_0 (list_sum (map cal_profiles files)) (map (option_map (fun q => q * 1000)%Q) al)))).
  { rewrite <- points_length. apply FA. intros [f j] H. unfold cal_points in H. apply in_flat_map in H. destruct H as (f' & Hf & H). apply in_map_iff in H. destruct H as (j' & [= <- _] & _). exact Hf. }
  unfold caliop_coords. fold vars4. cbv zeta. rewrite EA. cbn [bind]. rewrite R1. cbn [bind]. rewrite S1. cbn [bind]. rewrite map_length, LA.
  destruct ip; cbn [andb] in pres; subst pres.
  - destruct (read_shape2 files w off NE G W vars4 (lit "Pressure") mp vars4_nodup) as (a4 & R4 & S4 & F4); [right; right; right; left; auto|intros f Hf; apply HP; auto|].
    rewrite R4. cbn [bind]. rewrite T1. cbn [bind]. rewrite R2. cbn [bind]. rewrite T2. cbn [bind]. rewrite R3. cbn [bind]. rewrite T3. cbn [bind]. rewrite S4. cbn [fst expand_0]. rewrite map_length, LA.
    destruct (shape_dec mp m (list_sum (map cal_profiles files))) as [[(E & ->) EM]|[(E & ->) EM]].
    + rewrite EM, Nat.eqb_refl. rewrite append_distinct; [|intros c [<-|[<-|[<-|[<-|[<-|[]]]]]]; discriminate|cbn [app map]; apply (nodupb_ok (option_eq_dec str_eq_dec)); vm_compute; reflexivity].
      eexists. split; [reflexivity|]. split; [reflexivity|]. constructor; [apply expand_column; exact F1|]. constructor; [apply expand_column; exact F2|]. constructor; [apply expand_column; apply times; exact F3|]. constructor; [exact FA'|]. constructor; [rewrite <- EM; exact F4|constructor].
    + apply Nat.eqb_neq in EM. rewrite EM. rewrite append_distinct; [|intros c [<-|[<-|[<-|[<-|[]]]]]; discriminate|cbn [app map]; apply (nodupb_ok (option_eq_dec str_eq_dec)); vm_compute; reflexivity].
      eexists. split; [reflexivity|]. split; [reflexivity|]. constructor; [apply expand_column; exact F1|]. constructor; [apply expand_column; exact F2|]. constructor; [apply expand_column; apply times; exact F3|]. constructor; [exact FA'|constructor].
  - cbn [bind]. rewrite T1. cbn [bind]. rewrite R2. cbn [bind]. rewrite T2. cbn [bind]. rewrite R3. cbn [bind]. rewrite T3. cbn [bind].
    rewrite append_distinct; [|intros c [<-|[<-|[<-|[<-|[]]]]]; discriminate|cbn [app map]; apply (nodupb_ok (option_eq_dec str_eq_dec)); vm_compute; reflexivity].
    eexists. split; [reflexivity|]. split; [reflexivity|]. constructor; [apply expand_column; exact F1|]. constructor; [apply expand_column; exact F2|]. constructor; [apply expand_column; apply times; exact F3|]. constructor; [exact FA'|constructor].
Qed.
End Orbits.

(** the values *)
Lemma several_iff p name : several p name <-> p <> Caliop_L1 /\ existsb (str_eqb name) mixed_resolution = true.
Proof.
  unfold several. split; intros [H1 H2]; (split; [exact H1|]).
  - apply existsb_exists. exists name. split; [exact H2|apply str_eqb_refl].
  - apply existsb_exists in H2. destruct H2 as (x & Hx & E). apply str_eqb_eq in E. subst. exact Hx.
Qed.
Definition get_values (p : caliop_product) (variable : str) (d : cal_sd) : res arr :=
  match p with Caliop_L1 => Ok (calipso_data d) | _ => if existsb (str_eqb variable) mixed_resolution then first_slice (calipso_data d) else Ok (calipso_data d) end.
Lemma get_values_plain p name d : ~ several p name -> get_values p name d = Ok (calipso_data d).
Proof. intros N. rewrite several_iff in N. unfold get_values. destruct p; auto; destruct (existsb (str_eqb name) mixed_resolution); auto; exfalso; apply N; split; auto; discriminate. Qed.
Lemma get_values_several p name d : several p name -> get_values p name d = first_slice (calipso_data d).
Proof. intros N. rewrite several_iff in N. destruct N as [N1 N2]. unfold get_values. rewrite N2. destruct p; congruence. Qed.
Lemma cell_values p w files m z name s v : files <> [] -> (forall f, In f files -> orbit w f) -> (forall f, In f files -> cell_variable p f m z name) -> hdf_read files [name] = Ok (s, v) ->
  exists ds arrs a, key s name = Ok ds /\ map_res (get_values p name) ds = Ok arrs /\ concat_arrays arrs = Ok a /\ fst a = [list_sum (map cal_profiles files); m] /\ Forall2 (Pcell name m z) (cal_cells m files) (snd a).
Proof.
  intros NE G H R. destruct (files_F2 (fun f v => dataset (h_sd f) name = Some v) files) as (ds & F). { intros f Hf. destruct (H f Hf) as [(_ & _ & u & E & _)|(_ & _ & u & E & _)]; eauto. }
  destruct (hdf_read_ok files [name] s v name (one_nodup name) R (or_introl eq_refl)) as [E _]. rewrite (handles files NE name ds F) in E.
  assert (M : exists arrs, map_res (get_values p name) ds = Ok arrs /\ Forall2 (file_array (fun f i o => cal_at f name (i * z) o) m) files arrs).
  { pose proof (F2_in_l _ _ _ F) as F'. clear E F R. induction F' as [|f d l ds (Hf & Ed) F IH]; [exists []; split; [reflexivity|constructor]|]. destruct IH as (arrs & EM & FA). cbn [map_res].
    assert (NZ : forall q, ca_scale d = Some q -> ~ (q == 0)%Q) by (apply (o_scale w f (G f Hf) name d Ed)). destruct (calipso_shows d NZ) as [LS _]. pose proof (calipso_at f name d Ed NZ) as AT.
    destruct (H f Hf) as [(N & Z & u & Eu & Sh & L)|(N & Z & u & Eu & Sh & L)]; rewrite Ed in Eu; injection Eu as <-; cbn [fold_right] in L.
    - rewrite (get_values_plain p name d N), EM. cbn [bind]. eexists. split; [reflexivity|]. constructor; [|exact FA]. split; [exact Sh|]. split; [rewrite LS, L; lia|]. intros i o Eo. rewrite Z, Nat.mul_1_r. auto.
    - rewrite (get_values_several p name d N). unfold first_slice. cbn [fst calipso_data]. rewrite Sh. destruct z as [|z]; [congruence|]. cbn [bind]. rewrite EM. cbn [bind]. eexists. split; [reflexivity|]. constructor; [|exact FA].
      split; [reflexivity|]. cbn [snd]. split; [rewrite map_length, seq_length; reflexivity|]. intros i o Eo. rewrite nth_error_map in Eo. destruct (nth_error (seq 0 (cal_profiles f * m)) i) as [k|] eqn:Ek; [|discriminate]. cbn [option_map] in Eo.
      assert (Hi : i < cal_profiles f * m) by (rewrite <- (seq_length (cal_profiles f * m) 0); apply nth_error_Some; congruence). rewrite (nth_error_nth' _ 0) in Ek by (rewrite seq_length; auto). rewrite seq_nth in Ek by auto. injection Ek as <-. injection Eo as <-.
      apply AT. apply nth_error_nth'. cbn [Nat.add]. change (seen _) with (snd (calipso_data d)). rewrite LS, L. nia. }
  destruct M as (arrs & EM & FA). destruct (arrays_column _ _ _ _ NE FA) as (a & EC & SC & COL). exists ds, arrs, a. unfold key. rewrite E. auto.
Qed.
Lemma create_eq p files name : caliop_create p files name =
  bind (if (match p with Caliop_L1 => false | _ => starts_with (lit "Column") name end) then caliop_column_coords files (shot p) else caliop_coords (has_pressure p) files (shot p)) (fun cs =>
  bind (hdf_read files [name]) (fun sv => bind (key (fst sv) name) (fun ds => bind (map_res (get_values p name) ds) (fun arrs => bind (concat_arrays arrs) (fun a => Ok (mkU cs (fst a) (snd a))))))).
Proof. destruct p; unfold caliop_create, shot, has_pressure; [reflexivity| |]; destruct (starts_with (lit "Column") name); reflexivity. Qed.
Lemma column_iff p name : (match p with Caliop_L1 => false | _ => starts_with (lit "Column") name end) = true <-> column_variable p name.
Proof.
  unfold column_variable. destruct p; [split; [discriminate|intros [H _]; congruence]| |]; (split; [intros H; apply starts_iff in H; split; [discriminate|exact H]|intros [_ H]; apply starts_iff; exact H]).
Qed.
Lemma not_column p name : ~ column_variable p name -> (match p with Caliop_L1 => false | _ => starts_with (lit "Column") name end) = false.
Proof. intros N. destruct (match p with Caliop_L1 => false | _ => starts_with (lit "Column") name end) eqn:E; [|reflexivity]. apply column_iff in E. contradiction. Qed.
Section Reads.
Variables (p : caliop_product) (files : list cal_file) (first : cal_file) (w : nat).
Hypothesis FIRST : exists l, files = first :: l.
Hypothesis G : forall f, In f files -> orbit w f.
Hypothesis W : shot p < w.
Let NE : files <> [].
Proof. destruct FIRST as (l & ->). discriminate. Qed.
Lemma named_there name : (forall f, In f files -> exists v, dataset (h_sd f) name = Some v) -> exists s v, hdf_read files [name] = Ok (s, v).
Proof. intros H. apply hdf_read_total. intros f Hf. split; [apply (o_name w f (G f Hf))|]. intros x [<-|[]]. left. destruct (H f Hf) as (v & E). congruence. Qed.
Lemma cell_there m z name f : cell_variable p f m z name -> exists v, dataset (h_sd f) name = Some v.
Proof. intros [(_ & _ & v & E & _)|(_ & _ & v & E & _)]; eauto. Qed.

Theorem caliop_cells m mp z name : (forall f, In f files -> same_altitudes f first) -> (exists v, dataset (h_first first) (lit "Lidar_Data_Altitudes") = Some v /\ length (cf_raw v) = m) ->
  (has_pressure p = true -> forall f, In f files -> of_shape f (lit "Pressure") [cal_profiles f; mp]) -> ~ column_variable p name -> (forall f, In f files -> cell_variable p f m z name) ->
  let pres := has_pressure p && (mp =? m) in
  exists d, read_caliop p files name = Ok d /\ map c_std (u_coords d) = cal_names pres /\ exists raw, Forall2 (cal_cell p w m z pres name) (cal_cells m files) raw /\ rows d = filter located raw.
Proof.
  intros SA AL HP NC H pres. destruct (named_there name) as (s & v & R). { intros f Hf. apply (cell_there m z). apply H; auto. }
  destruct (cell_values p w files m z name s v NE G H R) as (ds & arrs & a & K & M & C & _ & F). destruct (cell_coords_ok files w (shot p) first m FIRST G W SA AL (has_pressure p) mp HP) as (cs & EC & SC & COL). fold pres in SC, COL.
  unfold read_caliop. rewrite create_eq, (not_column p name NC), EC. cbn [bind]. rewrite R. cbn [bind fst]. rewrite K. cbn [bind]. rewrite M. cbn [bind]. rewrite C. cbn [bind]. rewrite <- SC.
  apply (rows_of_columns (cal_cells m files) cs _ (Pcell name m z) (fst a) (snd a) (cal_cell p w m z pres name) COL F). intros [[f j] k] [pos o] HF HV. cbn [fst snd app] in *.
  apply F2inv in HF. destruct HF as (la & p1 & -> & H1 & HF). apply F2inv in HF. destruct HF as (lo & p2 & -> & H2 & HF). apply F2inv in HF. destruct HF as (t & p3 & -> & H3 & HF). apply F2inv in HF. destruct HF as (al & p4 & -> & H4 & HF).
  exists la, lo, t, al, p4. split; [reflexivity|]. split; [exact H1|]. split; [exact H2|]. split; [exact H3|]. split; [exact H4|]. split; [|exact HV].
  destruct pres; [|inversion HF; reflexivity]. apply F2inv in HF. destruct HF as (pr & p5 & -> & H5 & HF). inversion HF; subst. exists pr. split; [reflexivity|]. unfold Pcell in H5. cbn [fst snd] in H5. rewrite Nat.mul_1_r in H5. exact H5.
Qed.
Theorem caliop_columns name : column_variable p name -> ~ several p name -> (forall f, In f files -> of_shape f name [cal_profiles f; 1]) ->
  exists d, read_caliop p files name = Ok d /\ map c_std (u_coords d) = [Some (lit "latitude"); Some (lit "longitude"); Some (lit "time")] /\ exists raw, Forall2 (cal_column p w name) (cal_points files) raw /\ rows d = filter located raw.
Proof.
  intros HC NS H. destruct (named_there name) as (s & v & R). { intros f Hf. destruct (H f Hf) as (u & E & _). eauto. }
  destruct (cell_values p w files 1 1 name s v NE G) as (ds & arrs & a & K & M & C & _ & F); [intros f Hf; left; auto|exact R|]. destruct (column_coords_ok files w (shot p) first FIRST G W) as (cs & EC & SC & COL).
  unfold read_caliop. apply column_iff in HC. rewrite create_eq, HC, EC. cbn [bind]. rewrite R. cbn [bind fst]. rewrite K. cbn [bind]. rewrite M. cbn [bind]. rewrite C. cbn [bind]. rewrite <- SC.
  assert (F' : Forall2 (fun fj o => Pcell name 1 1 (fj, 0) o) (cal_points files) (snd a)).
  { clear - F. unfold cal_cells in F. revert F. generalize (snd a) as l. induction (cal_points files) as [|x pts IH]; intros l F; cbn [flat_map seq map app] in F; [inversion F; constructor|]. apply F2inv in F. destruct F as (y & l' & -> & HY & F). constructor; [exact HY|apply IH; exact F]. }
  apply (rows_of_columns (cal_points files) cs _ _ (fst a) (snd a) (cal_column p w name) COL F'). intros [f j] [pos o] HF HV. cbn [fst snd] in *.
  apply F2inv in HF. destruct HF as (la & p1 & -> & H1 & HF). apply F2inv in HF. destruct HF as (lo & p2 & -> & H2 & HF). apply F2inv in HF. destruct HF as (t & p3 & -> & H3 & HF). inversion HF; subst. exists la, lo, t.
  split; [reflexivity|]. split; [exact H1|]. split; [exact H2|]. split; [exact H3|]. unfold Pcell in HV. cbn [fst snd] in HV. replace ((j * 1 + 0) * 1) with j in HV by lia. exact HV.
Qed.
(** values that have no place are refused *)
Theorem caliop_other_levels m mv mp z name : (forall f, In f files -> same_altitudes f first) -> (exists v, dataset (h_first first) (lit "Lidar_Data_Altitudes") = Some v /\ length (cf_raw v) = m) ->
  (has_pressure p = true -> forall f, In f files -> of_shape f (lit "Pressure") [cal_profiles f; mp]) -> ~ column_variable p name -> (forall f, In f files -> cell_variable p f mv z name) ->
  mv <> m -> cal_points files <> [] -> read_caliop p files name = Raises ValueError.
Proof.
  intros SA AL HP NC H NM NP. destruct (named_there name) as (s & v & R). { intros f Hf. apply (cell_there mv z). apply H; auto. }
  destruct (cell_values p w files mv z name s v NE G H R) as (ds & arrs & a & K & M & C & _ & F). destruct (cell_coords_ok files w (shot p) first m FIRST G W SA AL (has_pressure p) mp HP) as (cs & EC & SC & COL).
  unfold read_caliop. rewrite create_eq, (not_column p name NC), EC. cbn [bind]. rewrite R. cbn [bind fst]. rewrite K. cbn [bind]. rewrite M. cbn [bind]. rewrite C. cbn [bind].
  destruct (column_in _ _ _ _ COL) as (c & Hc & LC). apply (misaligned cs (fst a) (snd a) c Hc). rewrite LC. apply forall2_len in F. rewrite <- F, !cells_length, <- points_length. destruct (cal_points files); [congruence|]. cbn [length]. nia.
Qed.
Theorem caliop_missing m mp name f : (forall f, In f files -> same_altitudes f first) -> (exists v, dataset (h_first first) (lit "Lidar_Data_Altitudes") = Some v /\ length (cf_raw v) = m) ->
  (has_pressure p = true -> forall f, In f files -> of_shape f (lit "Pressure") [cal_profiles f; mp]) -> In f files -> dataset (h_sd f) name = None -> dataset (h_vd f) name = None -> read_caliop p files name = Raises InvalidVariableError.
Proof.
  intros SA AL HP Hf D E. unfold read_caliop. rewrite create_eq. rewrite (hdf_read_missing files [name] name f); [|intros h Hh; apply (o_name w h (G h Hh))|left; auto|auto|auto|auto].
  destruct (match p with Caliop_L1 => false | _ => starts_with (lit "Column") name end).
  - destruct (column_coords_ok files w (shot p) first FIRST G W) as (cs & -> & _). reflexivity.
  - destruct (cell_coords_ok files w (shot p) first m FIRST G W SA AL (has_pressure p) mp HP) as (cs & -> & _). reflexivity.
Qed.
End Reads.
(** the names *)
Theorem caliop_names_ok files first l : caliop_names (first :: files) = Ok l -> exists v, dataset (h_sd first) (lit "Latitude") = Some v /\ forall n, In n l <-> exists f u, In f (first :: files) /\ In (n, u) (h_sd f) /\ ca_shape u = [cal_profiles first; altitudes first].
Proof.
  unfold caliop_names, key. rewrite dataset_get. destruct (dataset (h_sd first) (lit "Latitude")) as [la|] eqn:D; [|discriminate]. cbn [bind]. destruct (ca_shape la) as [|n sh] eqn:SH; [discriminate|]. cbn [bind]. unfold lidar_altitudes. rewrite dataset_get.
  destruct (dataset (h_first first) (lit "Lidar_Data_Altitudes")) as [v|] eqn:A; [|discriminate]. cbn [bind]. intros [= <-]. exists la. split; [reflexivity|]. intros x.
  unfold cal_profiles, altitudes. rewrite D, SH, A. destruct (plain_vd_shows (cf_raw v) (cf_missing v)) as [L _]. rewrite L.
  change (map fst (filter (fun nv : str * cal_sd => if list_eq_dec Nat.eq_dec (ca_shape (snd nv)) [n; length (cf_raw v)] then true else false) (h_sd first)) ++ flat_map (fun f : cal_file => map fst (filter (fun nv : str * cal_sd => if list_eq_dec Nat.eq_dec (ca_shape (snd nv)) [n; length (cf_raw v)] then true else false) (h_sd f))) files)
    with (flat_map (fun f : cal_file => map fst (filter (fun nv : str * cal_sd => if list_eq_dec Nat.eq_dec (ca_shape (snd nv)) [n; length (cf_raw v)] then true else false) (h_sd f))) (first :: files)). rewrite in_flat_map. split.
  - intros (f & Hf & H). apply in_map_iff in H. destruct H as ([y u] & <- & H). apply filter_In in H. destruct H as [H1 H2]. cbn [snd] in H2. destruct (list_eq_dec Nat.eq_dec (ca_shape u) [n; length (cf_raw v)]) as [E|]; [|discriminate]. exists f, u. auto.
  - intros (f & u & Hf & Hu & E). exists f. split; [exact Hf|]. apply in_map_iff. exists (x, u). split; [reflexivity|]. apply filter_In. split; [exact Hu|]. cbn [snd]. rewrite E. destruct (list_eq_dec _ _ _); congruence.
Qed.
