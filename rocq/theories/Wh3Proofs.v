From Coq Require Import String.
From Verif Require Import Base PyStr FileListModel ProdModel AeroModel AeroSpec AeroProofs RafModel RafSpec RafProofs MtProofs WhModel WhSpec WhProofs Wh2Proofs.
From Verif Require LstProofs.
From Coq Require Import List Ascii ZArith Lia Bool.
Import ListNotations.
Open Scope string_scope. Open Scope list_scope. Open Scope nat_scope. Notation length := List.length.

Lemma called_name n P b : In (n, P) naming -> (called (lit n) b <-> P b).
Proof.
  intros N. unfold called. split; [|intros H; exists n, P; auto]. intros (n' & P' & I' & E' & H). apply lit_inj in E'. subst n'. rewrite (nodup_fst naming n P P' naming_nodup N I'). exact H.
Qed.
Section World.
Variable W : str -> file.
Variable show : attr -> str.
Lemma raf_format_iff f t : raf_format W show f = Ok t <-> has_format W show f (lit "NCAR_NetCDF_RAF") t.
Proof.
  unfold raf_format. split.
  - destruct (f_isfile (W f)) eqn:I; cbn [negb]; [|discriminate]. destruct (f_attributes (W f)) as [l|] eqn:A; [|discriminate]. rewrite !attr_of_eq. destruct (attribute (mkFile l []) (lit "GASSP_Version")) as [v|] eqn:G.
    + intros [= <-]. exact (gassp W show f l v I A G).
    + destruct (attribute (mkFile l []) (lit "Conventions")) as [[c|q]|] eqn:C; try discriminate. destruct (str_eqb c (lit "NCAR-RAF/nimbus")) eqn:E; [|discriminate]. apply str_eqb_eq in E. subst c.
      destruct (attribute (mkFile l []) (lit "ConventionsVersion")) as [v|] eqn:V; intros H; apply Ok_inj in H || injection H as H; subst t.
      * exact (raf_version W show f l v I A G C V).
      * exact (raf W show f l I A G C V).
  - intros H. remember (lit "NCAR_NetCDF_RAF") as n eqn:N. destruct H as [m t I|l v I A G|l I A G C V|l v I A G C V|v t E I].
    + apply lit_inj in N. subst m. cbn [In formats] in I. repeat (destruct I as [I|I]; [discriminate|]). destruct I.
    + rewrite I, A. cbn [negb]. rewrite attr_of_eq, G. reflexivity.
    + rewrite I, A. cbn [negb]. rewrite !attr_of_eq, G, C, str_eqb_refl, V. reflexivity.
    + rewrite I, A. cbn [negb]. rewrite !attr_of_eq, G, C, str_eqb_refl, V. reflexivity.
    + apply lit_inj in N. discriminate.
Qed.
Lemma raf_accepts f : (exists t, raf_format W show f = Ok t) <-> by_raf W f.
Proof.
  unfold by_raf. split.
  - intros (t & H). apply raf_format_iff in H. remember (lit "NCAR_NetCDF_RAF") as n eqn:N. destruct H as [m t I|l v I A G|l I A G C V|l v I A G C V|v t E I].
    + apply lit_inj in N. subst m. cbn [In formats] in I. repeat (destruct I as [I|I]; [discriminate|]). destruct I.
    + split; [exact I|]. exists l. split; [exact A|]. left. congruence.
    + split; [exact I|]. exists l. auto.
    + split; [exact I|]. exists l. auto.
    + apply lit_inj in N. discriminate.
  - intros (I & l & A & H). destruct (attribute (mkFile l []) (lit "GASSP_Version")) as [v|] eqn:G; [eexists; apply raf_format_iff; exact (gassp W show f l v I A G)|]. destruct H as [H|C]; [congruence|].
    destruct (attribute (mkFile l []) (lit "ConventionsVersion")) as [v|] eqn:V; eexists; apply raf_format_iff; [exact (raf_version W show f l v I A G C V)|exact (raf W show f l I A G C V)].
Qed.
Lemma refused_cases n f : openable W f -> (n = lit "cis" -> ends_in ".nc" (basename f)) -> (refused W show n f = Ok false /\ accepted W n f) \/ (refused W show n f = Ok true /\ ~ accepted W n f).
Proof.
  intros O C. unfold refused. destruct (str_eqb n (lit "cis")) eqn:E.
  - apply str_eqb_eq in E. subst n. destruct (O (C eq_refl)) as (l & A & S1). rewrite A. destruct (dict_get l (lit "source")) as [[s|q]|] eqn:D; [|exfalso; exact (S1 q eq_refl)|].
    + destruct (starts_with (lit "CIS") s) eqn:B; cbn [negb]; [left|right]; (split; [reflexivity|]).
      * apply starts_with_iff in B. destruct B as (r & ->). split; [intros _; exists l, r; auto|intros H; apply lit_inj in H; discriminate].
      * intros [H _]. destruct (H eq_refl) as (l' & r & A' & D'). rewrite A in A'. injection A' as <-. rewrite D in D'. assert (s = lit "CIS" ++ r) by congruence. subst s.
        rewrite (proj2 (starts_with_iff _ _) (ex_intro _ r eq_refl)) in B. discriminate.
    + right. split; [reflexivity|]. intros [H _]. destruct (H eq_refl) as (l' & r & A' & D'). rewrite A in A'. injection A' as <-. congruence.
  - assert (NC : n <> lit "cis") by (intros ->; rewrite str_eqb_refl in E; discriminate). destruct (str_eqb n (lit "NCAR_NetCDF_RAF")) eqn:R.
    + apply str_eqb_eq in R. subst n. pose proof (raf_accepts f) as RA. destruct (raf_format W show f) as [t|e]; [left|right]; (split; [reflexivity|]).
      * split; [intros; contradiction|]. intros _. apply RA. exists t. reflexivity.
      * intros [_ H]. destruct (proj2 RA (H eq_refl)) as (t & T). discriminate.
    + left. split; [reflexivity|]. split; [intros; contradiction|intros ->; rewrite str_eqb_refl in R; discriminate].
Qed.
Lemma try_unsigned name f ps : (forall p, In p ps -> re_match (p ++ lit "$") (basename f) = false) -> try_patterns W show name f ps = Ok false.
Proof. induction ps as [|p ps IH]; intros H; cbn [try_patterns]; [reflexivity|]. rewrite (H p (or_introl eq_refl)). apply IH. intros q I. apply H. right. exact I. Qed.
Lemma try_accepted name f ps p : In p ps -> re_match (p ++ lit "$") (basename f) = true -> refused W show name f = Ok false -> try_patterns W show name f ps = Ok true.
Proof.
  intros I M R. induction ps as [|q ps IH]; [destruct I|]. cbn [try_patterns]. destruct (re_match (q ++ lit "$") (basename f)) eqn:E; [rewrite R; reflexivity|]. apply IH. destruct I as [->|I]; [congruence|exact I].
Qed.
Lemma try_refused name f ps : refused W show name f = Ok true -> try_patterns W show name f ps = Ok false.
Proof. intros R. induction ps as [|q ps IH]; [reflexivity|]. cbn [try_patterns]. rewrite R. cbn [bind]. rewrite IH. destruct (re_match _ _); reflexivity. Qed.
Lemma try_error name f ps p e : In p ps -> re_match (p ++ lit "$") (basename f) = true -> refused W show name f = Raises e -> try_patterns W show name f ps = Raises e.
Proof.
  intros I M R. induction ps as [|q ps IH]; [destruct I|]. cbn [try_patterns]. destruct (re_match (q ++ lit "$") (basename f)) eqn:E; [rewrite R; reflexivity|]. apply IH. destruct I as [->|I]; [congruence|exact I].
Qed.
Lemma in_precedence c : In c sorted_products -> In (c_name c) precedence.
Proof. rewrite table_sorted, <- table_names. intros I. apply in_map_iff in I. destruct I as (e & <- & I). apply in_map_iff. exists e. auto. Qed.
Lemma step c f : In c sorted_products -> one_line (basename f) -> openable W f ->
  (try_patterns W show (c_name c) f (c_signature c) = Ok true /\ fits W f (c_name c)) \/ (try_patterns W show (c_name c) f (c_signature c) = Ok false /\ ~ fits W f (c_name c)).
Proof.
  intros I L O. pose proof (called_iff c (basename f) I L) as C. destruct (existsb (fun p => re_match (p ++ lit "$") (basename f)) (c_signature c)) eqn:E.
  - apply existsb_exists in E. destruct E as (p & Ip & M). assert (D : called (c_name c) (basename f)) by (apply C; exists p; auto).
    destruct (refused_cases (c_name c) f O) as [[R A]|[R A]].
    + intros EC. rewrite EC in D. apply (called_name "cis" (ends_in ".nc")) in D; [exact D|left; reflexivity].
    + left. split; [exact (try_accepted _ _ _ p Ip M R)|]. split; [exact (in_precedence c I)|auto].
    + right. split; [exact (try_refused _ _ _ R)|]. intros (_ & _ & A'). contradiction.
  - right. split.
    + apply try_unsigned. intros p Ip. destruct (re_match (p ++ lit "$") (basename f)) eqn:M; [|reflexivity]. rewrite <- E. symmetry. apply existsb_exists. exists p. auto.
    + intros (_ & D & _). apply C in D. destruct D as (p & Ip & M). assert (existsb (fun p => re_match (p ++ lit "$") (basename f)) (c_signature c) = true) by (apply existsb_exists; exists p; auto). congruence.
Qed.
Lemma search_cases f : one_line (basename f) -> openable W f -> forall l, (forall c, In c l -> In c sorted_products) ->
  (exists before n after, map c_name l = before ++ n :: after /\ fits W f n /\ (forall p, In p before -> ~ fits W f p) /\ search W show f None l = Ok n) \/
  ((forall p, In p (map c_name l) -> ~ fits W f p) /\ search W show f None l = Raises ClassNotFoundError).
Proof.
  intros L O. induction l as [|c l IH]; intros I; cbn [search map]; [right; split; [intros ? []|reflexivity]|].
  destruct (step c f (I c (or_introl eq_refl)) L O) as [[T F]|[T F]]; rewrite T; cbn [bind].
  - left. exists [], (c_name c), (map c_name l). split; [reflexivity|]. split; [exact F|]. split; [intros ? []|reflexivity].
  - destruct (IH (fun c' I' => I c' (or_intror I'))) as [(b & n & a & E & F' & N & H)|[N H]].
    + left. exists (c_name c :: b), n, a. rewrite E. split; [reflexivity|]. split; [exact F'|]. split; [|exact H]. intros p [<-|I']; auto.
    + right. split; [|exact H]. intros p [<-|I']; auto.
Qed.
Lemma first_unique {A} (P : A -> Prop) : forall b b' x x' a a', b ++ x :: a = b' ++ x' :: a' -> P x -> P x' -> (forall p, In p b -> ~ P p) -> (forall p, In p b' -> ~ P p) -> x = x'.
Proof.
  induction b as [|y b IH]; intros [|y' b'] x x' a a' E Px Px' N N'; cbn [app] in E; injection E; intros E1 E2.
  - exact E2.
  - subst y'. exfalso. exact (N' x (or_introl eq_refl) Px).
  - subst y. exfalso. exact (N x' (or_introl eq_refl) Px').
  - exact (IH b' x x' a a' E1 Px Px' (fun p I => N p (or_intror I)) (fun p I => N' p (or_intror I))).
Qed.
Lemma names_sorted : map c_name sorted_products = precedence.
Proof. rewrite table_sorted, map_map. exact table_names. Qed.
Lemma product_iff f n : one_line (basename f) -> openable W f -> (get_class W show f None = Ok n <-> chosen W f n).
Proof.
  intros L O. unfold get_class, chosen. rewrite <- names_sorted. destruct (search_cases f L O sorted_products (fun c I => I)) as [(b & m & a & E & F & N & H)|[N H]]; rewrite H.
  - split; [intros [= <-]; exists b, a; auto|]. intros (b' & a' & E' & F' & N'). f_equal. rewrite E in E'. exact (first_unique _ b b' m n a a' E' F F' N N').
  - split; [discriminate|]. intros (b' & a' & E' & F' & _). exfalso. apply (N n); [rewrite E'; apply in_or_app; right; left; reflexivity|exact F'].
Qed.
Lemma no_product f : one_line (basename f) -> openable W f -> (get_class W show f None = Raises ClassNotFoundError <-> forall n, ~ fits W f n).
Proof.
  intros L O. unfold get_class. destruct (search_cases f L O sorted_products (fun c I => I)) as [(b & m & a & E & F & N & H)|[N H]]; rewrite H.
  - split; [discriminate|]. intros K. exfalso. exact (K m F).
  - split; [|reflexivity]. intros _ n F. apply (N n); [rewrite names_sorted; apply F|exact F].
Qed.
Lemma only_error f e : one_line (basename f) -> openable W f -> get_class W show f None = Raises e -> e = ClassNotFoundError.
Proof. intros L O. unfold get_class. destruct (search_cases f L O sorted_products (fun c I => I)) as [(b & m & a & E & F & N & H)|[N H]]; rewrite H; congruence. Qed.
Lemma sorted_head : exists l, sorted_products = p_cis :: l.
Proof. eexists. rewrite table_sorted. reflexivity. Qed.
Lemma cis_error f e : one_line (basename f) -> ends_in ".nc" (basename f) -> refused W show (lit "cis") f = Raises e -> get_class W show f None = Raises e.
Proof.
  intros L N R. unfold get_class. destruct sorted_head as (l & E). assert (I : In p_cis sorted_products) by (rewrite E; left; reflexivity). rewrite E. cbn [search].
  assert (C : called (c_name p_cis) (basename f)) by (apply (called_name "cis" (ends_in ".nc")); [left; reflexivity|exact N]).
  apply (called_iff p_cis _ I L) in C. destruct C as (p & Ip & M). change (c_name p_cis) with (lit "cis"). rewrite (try_error (lit "cis") f _ p e Ip M R). reflexivity.
Qed.
Lemma unreadable f : one_line (basename f) -> ends_in ".nc" (basename f) -> f_attributes (W f) = None -> get_class W show f None = Raises OSError.
Proof. intros L N A. apply cis_error; [exact L|exact N|]. unfold refused. rewrite str_eqb_refl, A. reflexivity. Qed.
Lemma numeric_source f l q : one_line (basename f) -> ends_in ".nc" (basename f) -> f_attributes (W f) = Some l -> dict_get l (lit "source") = Some (Num q) -> get_class W show f None = Raises AttributeError.
Proof. intros L N A D. apply cis_error; [exact L|exact N|]. unfold refused. rewrite str_eqb_refl, A, D. reflexivity. Qed.
Lemma netcdf_always f : one_line (basename f) -> openable W f -> ends_in ".nc" (basename f) -> exists n, get_class W show f None = Ok n.
Proof.
  intros L O N. destruct (get_class W show f None) as [n|e] eqn:E; [exists n; reflexivity|]. exfalso. pose proof (only_error f e L O E) as ->. apply (proj1 (no_product f L O) E (lit "NetCDF_Gridded")).
  split; [unfold precedence; apply in_map; cbn [In]; tauto|]. split; [apply (called_name "NetCDF_Gridded" (ends_in ".nc")); [unfold naming; cbn [In]; tauto|exact N]|].
  split; intros H; apply lit_inj in H; discriminate.
Qed.
Lemma saved_by_cis f : one_line (basename f) -> ends_in ".nc" (basename f) -> by_cis W f -> get_class W show f None = Ok (lit "cis").
Proof.
  intros L N B. apply product_iff; [exact L| |].
  - intros _. destruct B as (l & r & A & D). exists l. split; [exact A|]. intros q H. rewrite D in H. discriminate.
  - exists []. eexists. split; [reflexivity|]. split; [|intros ? []]. split; [left; reflexivity|]. split; [apply (called_name "cis" (ends_in ".nc")); [left; reflexivity|exact N]|].
    split; [auto|]. intros H. apply lit_inj in H. discriminate.
Qed.
Lemma cons_inj {A} (x y : A) l m : x :: l = y :: m -> x = y /\ l = m.
Proof. intros H. injection H. auto. Qed.
Lemma never_no_pressure f : one_line (basename f) -> openable W f -> get_class W show f None <> Ok (lit "Caliop_L2_NO_PRESSURE").
Proof.
  intros L O H. apply product_iff in H; [|exact L|exact O]. destruct H as (b & a & E & F & N). apply (N (lit "Caliop_L2")).
  - assert (E2 : precedence = (map lit ["cis"; "NCAR_NetCDF_RAF"; "ASCII_Hyperpoints"; "Aeronet"; "Aerosol_CCI_L2"; "Aerosol_CCI_L3"; "Caliop_L1"; "Caliop_L2"]) ++ lit "Caliop_L2_NO_PRESSURE" ::
      map lit ["CloudSat"; "Cloud_CCI_L2"; "Cloud_CCI_L3"; "EarthCARE_MSI_ATL"; "HadGEM_CONVSH"; "HadGEM_PP"; "MODIS_L2"; "MODIS_L3"; "NetCDF_Gridded"]) by reflexivity.
    revert E. rewrite E2. cbn [map app]. intros E. do 8 (destruct b as [|? b]; cbn [app] in E; [apply cons_inj in E; destruct E as [X _]; apply lit_inj in X; discriminate|apply cons_inj in E; destruct E as [X E]; subst]). cbn [In]. tauto.
  - destruct F as (_ & C & _). split; [unfold precedence; apply in_map; cbn [In]; tauto|]. split; [|split; intros H; apply lit_inj in H; discriminate].
    apply (called_name "Caliop_L2" (begins_and_ends "CAL_LID_L2_05kmAPro" "hdf")); [unfold naming; cbn [In]; tauto|].
    apply (called_name "Caliop_L2_NO_PRESSURE" (begins_and_ends "CAL_LID_L2_05kmAPro" "hdf")) in C; [exact C|unfold naming; cbn [In]; tauto].
Qed.
Lemma named f p n : get_class W show f (Some p) = Ok n <-> n = p /\ In p precedence.
Proof.
  unfold get_class. rewrite <- names_sorted. induction sorted_products as [|c l IH]; cbn [search map In]; [split; [discriminate|intros [_ []]]|]. destruct (str_eqb p (c_name c)) eqn:E.
  - apply str_eqb_eq in E. split; [intros [= <-]; auto|intros [-> _]; congruence].
  - rewrite IH. assert (c_name c <> p) by (intros <-; rewrite str_eqb_refl in E; discriminate). tauto.
Qed.
Lemma named_error f p e : get_class W show f (Some p) = Raises e -> e = ClassNotFoundError.
Proof. unfold get_class. induction sorted_products as [|c l IH]; cbn [search]; [congruence|]. destruct (str_eqb p (c_name c)); [discriminate|exact IH]. Qed.

(** *** formats *)
Lemma formats_same n t : In n precedence -> n <> lit "NCAR_NetCDF_RAF" -> n <> lit "Aeronet" -> (dict_get fixed_formats n = Some t <-> exists a b, In (a, b) formats /\ n = lit a /\ t = lit b).
Proof.
  intros I _ _. assert (ND : NoDup (map fst fixed_formats)) by (repeat constructor; cbn [map fst In fixed_formats]; intros X; repeat (destruct X as [X|X]; [apply lit_inj in X; discriminate|]); destruct X).
  assert (P : forall a b, In (a, b) formats <-> In (a, b) [("cis", "NetCDF/CIS"); ("ASCII_Hyperpoints", "ASCII/ASCIIHyperpoints"); ("CloudSat", "HDF4/CloudSat"); ("NetCDF_Gridded", "NetCDF/Gridded"); ("HadGEM_CONVSH", "NetCDF/Gridded"); ("HadGEM_PP", "NetCDF/Gridded");
     ("MODIS_L3", "HDF4/ModisL3"); ("MODIS_L2", "HDF4/ModisL2"); ("Caliop_L2", "HDF4/CaliopL2"); ("Caliop_L2_NO_PRESSURE", "HDF4/CaliopL2"); ("Caliop_L1", "HDF4/CaliopL1");
     ("Cloud_CCI_L2", "NetCDF/Cloud_CCI_L2"); ("Aerosol_CCI_L2", "NetCDF/Aerosol_CCI_L2"); ("Cloud_CCI_L3", "NetCDF/Cloud_CCI_L3"); ("Aerosol_CCI_L3", "NetCDF/Aerosol_CCI_L3");
     ("EarthCARE_MSI_ATL", "h5/NetCDF/EarthCARE_MSI_ATL")]) by (intros a b; unfold formats; cbn [In]; tauto).
  assert (D : dict_get fixed_formats n = Some t <-> In (n, t) fixed_formats) by (split; [apply LstProofs.dict_get_in|apply LstProofs.in_dict_get; exact ND]).
  rewrite D. unfold fixed_formats. rewrite in_map_iff. split.
  - intros ([a b] & E & H). apply pair_equal_spec in E. destruct E as [<- <-]. exists a, b. split; [apply P; exact H|auto].
  - intros (a & b & H & -> & ->). exists (a, b). split; [reflexivity|]. apply P. exact H.
Qed.
Lemma formats_in n : In n precedence -> n <> lit "NCAR_NetCDF_RAF" -> n <> lit "Aeronet" -> exists a b, In (a, b) formats /\ n = lit a.
Proof.
  intros I N1 N2. apply in_map_iff in I. destruct I as (a & <- & I). cbn [In] in I. repeat (destruct I as [<-|I]); try destruct I; try (exfalso; apply N1; reflexivity); try (exfalso; apply N2; reflexivity);
  eexists; eexists; (split; [|reflexivity]); unfold formats; cbn [In]; repeat first [left; reflexivity|right].
Qed.
Lemma format_iff n f t : In n precedence -> (product_format W show n f = Ok t <-> has_format W show f n t).
Proof.
  intros I. unfold product_format. destruct (str_eqb n (lit "NCAR_NetCDF_RAF")) eqn:E1; [apply str_eqb_eq in E1; subst n; apply raf_format_iff|].
  assert (N1 : n <> lit "NCAR_NetCDF_RAF") by (intros ->; rewrite str_eqb_refl in E1; discriminate).
  destruct (str_eqb n (lit "Aeronet")) eqn:E2.
  - apply str_eqb_eq in E2. subst n. split.
    + destruct (get_version (f_lines (W f))) as [v|] eqn:V; cbn [bind]; [|discriminate]. intros H. assert (t = lit "ASCII" ++ version_name v) as -> by congruence. apply version_of in V.
      assert (X : exists u, lit "ASCII" ++ version_name v = lit u /\ In (v, u) [(Aeronet2, "ASCIIAERONET/2"); (AeronetSda2, "ASCIIAERONET-SDA/2"); (Man2, "ASCIIMAN/2"); (ManSda2, "ASCIIMAN-SDA/2"); (Aeronet3, "ASCIIAERONET/3"); (AeronetSda3, "ASCIIAERONET-SDA/3")]).
      { destruct v; eexists; (split; [|cbn [In]; repeat first [left; reflexivity|right]]); reflexivity. }
      destruct X as (u & -> & X). exact (aeronet W show f v u V X).
    + intros H. remember (lit "Aeronet") as n eqn:N. destruct H as [m t J|l v J A G|l J A G C V|l v J A G C V|v t V J]; try (apply lit_inj in N; discriminate).
      * apply lit_inj in N. subst m. cbn [In formats] in J. repeat (destruct J as [J|J]; [discriminate|]). destruct J.
      * apply version_of in V. rewrite V. cbn [bind]. f_equal. cbn [In] in J. repeat (destruct J as [J|J]); try (injection J as <- <-; reflexivity). destruct J.
  - assert (N2 : n <> lit "Aeronet") by (intros ->; rewrite str_eqb_refl in E2; discriminate). pose proof (formats_same n t I N1 N2) as FS. split.
    + destruct (dict_get fixed_formats n) as [u|] eqn:D.
      * intros [= ->]. destruct (proj1 FS eq_refl) as (a & b & X & -> & ->). exact (fixed W show f a b X).
      * intros _. exfalso. destruct (formats_in n I N1 N2) as (a & b & X & ->). assert (Y : dict_get fixed_formats (lit a) = Some (lit b)) by (apply (formats_same (lit a) (lit b) I N1 N2); exists a, b; auto). congruence.
    + intros H. destruct H as [m t J|l v J A G|l J A G C V|l v J A G C V|v t V J]; try (exfalso; apply N1; reflexivity); [|exfalso; apply N2; reflexivity].
      rewrite (proj2 FS); [reflexivity|]. exists m, t. auto.
Qed.
Lemma get_class_known f product n : get_class W show f product = Ok n -> In n precedence.
Proof.
  destruct product as [p|]; [intros H; apply named in H; destruct H as [-> H]; exact H|]. unfold get_class. rewrite <- names_sorted. induction sorted_products as [|c l IH]; cbn [search map In]; [discriminate|].
  destruct (try_patterns W show (c_name c) f (c_signature c)) as [[|]|]; cbn [bind]; [intros [= <-]; auto|auto|discriminate].
Qed.
Lemma file_format_iff coords files product t :
  get_file_format W show coords files product = Format t <-> exists f rest n, files = f :: rest /\ get_class W show f product = Ok n /\ has_format W show f n t /\ coords n files = true.
Proof.
  unfold get_file_format. split.
  - destruct files as [|f rest]; [discriminate|]. destruct (get_class W show f product) as [n|] eqn:G; [|discriminate]. destruct (product_format W show n f) as [u|] eqn:P; [|discriminate].
    destruct (coords n (f :: rest)) eqn:C; [|discriminate]. intros [= ->]. exists f, rest, n. repeat split; auto. apply (format_iff n f t (get_class_known f product n G)). exact P.
  - intros (f & rest & n & -> & G & F & C). rewrite G. apply (format_iff n f t (get_class_known f product n G)) in F. rewrite F, C. reflexivity.
Qed.
Lemma no_coordinates coords f rest product n t : get_class W show f product = Ok n -> has_format W show f n t -> coords n (f :: rest) = false -> get_file_format W show coords (f :: rest) product = NoCoordinates.
Proof. intros G F C. unfold get_file_format. rewrite G. apply (format_iff n f t (get_class_known f product n G)) in F. rewrite F, C. reflexivity. Qed.
Lemma no_format coords f rest product n : get_class W show f product = Ok n -> (forall t, ~ has_format W show f n t) -> get_file_format W show coords (f :: rest) product = PluginError.
Proof. intros G F. unfold get_file_format. rewrite G. destruct (product_format W show n f) as [t|] eqn:P; [|reflexivity]. exfalso. apply (F t). apply (format_iff n f t (get_class_known f product n G)). exact P. Qed.
Lemma hierarchy n f t : n <> lit "Aeronet" -> has_format W show f n t -> hierarchical t.
Proof.
  intros N H. destruct H as [m t J|l v J A G|l J A G C V|l v J A G C V|v t V J]; [| | | |contradiction].
  - cbn [In formats] in J. repeat (destruct J as [J|J]; [apply pair_equal_spec in J; destruct J as [<- <-]|]); [..|destruct J];
    first [exists (lit "NetCDF"); eexists; split; [right; left; reflexivity|reflexivity]|exists (lit "ASCII"); eexists; split; [left; reflexivity|reflexivity]|exists (lit "HDF4"); eexists; split; [right; right; left; reflexivity|reflexivity]|exists (lit "h5"); eexists; split; [right; right; right; left; reflexivity|reflexivity]].
  - exists (lit "NetCDF"), (lit "GASSP/" ++ show v). split; [right; left; reflexivity|reflexivity].
  - exists (lit "NetCDF"), (lit "NCAR-RAF/nimbus"). split; [right; left; reflexivity|reflexivity].
  - exists (lit "NetCDF"), (lit "NCAR-RAF/nimbus/" ++ show v). split; [right; left; reflexivity|reflexivity].
Qed.
Lemma full_name_iff version files product t : get_product_full_name W show version files product = Ok t <-> exists f rest n, files = f :: rest /\ get_class W show f product = Ok n /\ t = lit "CIS/" ++ n ++ lit "/" ++ version.
Proof.
  unfold get_product_full_name. split.
  - destruct files as [|f rest]; [discriminate|]. destruct (get_class W show f product) as [n|] eqn:G; cbn [bind]; [|discriminate]. intros [= <-]. exists f, rest, n. auto.
  - intros (f & rest & n & -> & G & ->). rewrite G. reflexivity.
Qed.
End World.
