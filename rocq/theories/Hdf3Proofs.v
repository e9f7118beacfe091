(** Proofs for C72: the rows of CloudSat files. *)
From Coq Require Import String.
From Verif Require Import Base PyStr QBase DateModel DateProofs FileListModel FileListProofs UtilModel UtilSpec ReadModel ReadSpec ReadProofs ProdModel UngrModel UngrSpec UngrProofs GU3Proofs GG3Proofs RafModel RafProofs Raf2Proofs Raf3Proofs Raf4Proofs HdfModel HdfSpec HdfProofs Hdf2Proofs.
From Coq Require Import List Lia.
Import ListNotations.
Open Scope string_scope. Open Scope list_scope. Open Scope nat_scope. Notation length := List.length.

(** from columns to rows *)
Lemma rows_of_columns {X} (pts : list X) cs Ps (V : X -> option Q -> Prop) shape vals (Row : X -> list (option Q) * option Q -> Prop) : columns_are pts cs Ps -> Forall2 V pts vals ->
  (forall x r, Forall2 (fun (P : X -> option Q -> Prop) o => P x o) Ps (fst r) -> V x (snd r) -> Row x r) ->
  exists d, post_process (mkU cs shape vals) = Ok d /\ map c_std (u_coords d) = map c_std cs /\ exists raw, Forall2 Row pts raw /\ rows d = filter located raw.
Proof.
  intros COL VV H. pose proof (columns_aligned _ _ _ _ shape _ COL VV) as AL. destruct (post_process_spec _ AL) as (d & E & _ & R & ID). exists d. split; [exact E|]. split.
  - cbn [u_coords] in ID. apply (f_equal (map (fun i : option str * str * str * str => fst (fst (fst i))))) in ID. rewrite !map_map in ID. exact ID.
  - exists (rows (mkU cs shape vals)). split; [|exact R]. eapply F2_imp; [|apply (columns_rows _ _ _ _ shape _ COL VV)]. cbn beta. intros x r [H1 H2]. apply H; auto.
Qed.
Lemma append_distinct cs : forall l, (forall c, In c cs -> c_std c <> None) -> NoDup (map c_std (l ++ cs)) -> append_all l cs = Ok (l ++ cs).
Proof.
  induction cs as [|c cs IH]; intros l S ND; cbn [append_all]; [rewrite app_nil_r; auto|]. rewrite append_fresh.
  - cbn [bind]. rewrite IH; rewrite <- ?app_assoc; auto. intros x Hx. apply S. right; auto.
  - intros b Hb. destruct (std_eqb (c_std c) (c_std b)) eqn:E; [|auto]. exfalso. apply std_eqb_eq in E. rewrite map_app in ND. cbn [map] in ND. apply NoDup_remove_2 in ND. apply ND. apply in_or_app. left. rewrite E. apply in_map. auto.
Qed.
Definition option_eq_dec {A} (d : forall a b : A, {a = b} + {a <> b}) (a b : option A) : {a = b} + {a <> b}.
Proof. decide equality. Defined.
Fixpoint nodupb {A} (d : forall a b : A, {a = b} + {a <> b}) (l : list A) : bool := match l with [] => true | x :: l => (if in_dec d x l then false else true) && nodupb d l end.
Lemma nodupb_ok {A} (d : forall a b : A, {a = b} + {a <> b}) (l : list A) : nodupb d l = true -> NoDup l.
Proof. induction l as [|x l IH]; cbn [nodupb]; [constructor|]. destruct (in_dec d x l); [discriminate|]. cbn. constructor; auto. Qed.
Definition four : list str := [lit "Latitude"; lit "Longitude"; lit "TAI_start"; lit "Profile_time"].
Definition five : list str := [lit "Latitude"; lit "Longitude"; lit "TAI_start"; lit "Profile_time"; lit "Height"].
Lemma four_nodup : NoDup four. Proof. apply (nodupb_ok str_eq_dec). vm_compute. reflexivity. Qed.
Lemma five_nodup : NoDup five. Proof. apply (nodupb_ok str_eq_dec). vm_compute. reflexivity. Qed.
Lemma one_nodup (x : str) : NoDup [x]. Proof. constructor; [intros []|constructor]. Qed.

Section Granules.
Variable files : list cs_file.
Hypothesis NE : files <> [].
Hypothesis G : forall f, In f files -> granule f.
Definition Pvd (x : str) (fj : cs_file * nat) (o : option Q) : Prop := vd_at (fst fj) x (snd fj) o.
Definition Ptime (fj : cs_file * nat) (o : option Q) : Prop := time_at (fst fj) (snd fj) o.
Definition up {X} (P : X -> option Q -> Prop) (xk : X * nat) (o : option Q) : Prop := P (fst xk) o.
Definition Psd (x : str) (m : nat) (fjk : cs_file * nat * nat) (o : option Q) : Prop := sd_at (fst (fst fjk)) x (snd (fst fjk) * m + snd fjk) o.

Lemma plain_coords vars s v : NoDup vars -> incl four vars -> hdf_read files vars = Ok (s, v) ->
  exists cs, profile_coords v None None = Ok cs /\ map c_std cs = profile_names /\ columns_are (all_profiles files) cs [Pvd (lit "Latitude"); Pvd (lit "Longitude"); Ptime].
Proof.
  intros ND I R. assert (IN : forall x, In x four -> In x vars) by auto.
  destruct (vd_column files NE G vars s v (lit "Latitude") ND R) as (d1 & a1 & K1 & C1 & F1); [apply IN; left; auto|intros f Hf; apply (g_lat f (G f Hf))|].
  destruct (vd_column files NE G vars s v (lit "Longitude") ND R) as (d2 & a2 & K2 & C2 & F2); [apply IN; right; left; auto|intros f Hf; apply (g_lon f (G f Hf))|].
  destruct (time_column files NE G vars s v ND R) as (a3 & C3 & F3); [apply IN; right; right; right; left; auto|apply IN; right; right; left; auto|].
  unfold profile_coords, vd_coord. rewrite K1. cbn [bind]. rewrite C1. cbn [bind]. rewrite K2. cbn [bind]. rewrite C2. cbn [bind]. rewrite C3. cbn [bind app].
  rewrite append_distinct; [|intros c [<-|[<-|[<-|[]]]]; discriminate|cbn [app map]; apply (nodupb_ok (option_eq_dec str_eq_dec)); vm_compute; reflexivity].
  eexists. split; [reflexivity|]. split; [reflexivity|]. constructor; [exact F1|]. constructor; [exact F2|]. constructor; [exact F3|constructor].
Qed.
Lemma expand_column {X} (P : X -> option Q -> Prop) m pts l : Forall2 P pts l -> Forall2 (up P) (flat_map (fun x => map (fun k => (x, k)) (seq 0 m)) pts) (snd (expand_1 m l)).
Proof. apply stretch_F2. Qed.
Lemma cell_coords vars s v m h : NoDup vars -> incl four vars -> hdf_read files vars = Ok (s, v) -> c_std h = Some (lit "altitude") -> Forall2 (Psd (lit "Height") m) (all_cells m files) (c_points h) ->
  exists cs, profile_coords v (Some m) (Some h) = Ok cs /\ map c_std cs = cell_names /\ columns_are (all_cells m files) cs [up (Pvd (lit "Latitude")); up (Pvd (lit "Longitude")); Psd (lit "Height") m; up Ptime].
Proof.
  intros ND I R HS HP. assert (IN : forall x, In x four -> In x vars) by auto.
  destruct (vd_column files NE G vars s v (lit "Latitude") ND R) as (d1 & a1 & K1 & C1 & F1); [apply IN; left; auto|intros f Hf; apply (g_lat f (G f Hf))|].
  destruct (vd_column files NE G vars s v (lit "Longitude") ND R) as (d2 & a2 & K2 & C2 & F2); [apply IN; right; left; auto|intros f Hf; apply (g_lon f (G f Hf))|].
  destruct (time_column files NE G vars s v ND R) as (a3 & C3 & F3); [apply IN; right; right; right; left; auto|apply IN; right; right; left; auto|].
  unfold profile_coords, vd_coord. rewrite K1. cbn [bind]. rewrite C1. cbn [bind]. rewrite K2. cbn [bind]. rewrite C2. cbn [bind]. rewrite C3. cbn [bind app].
  rewrite append_distinct; [|intros c [<-|[<-|[<-|[<-|[]]]]]; try discriminate; rewrite HS; discriminate|cbn [app map]; rewrite HS; apply (nodupb_ok (option_eq_dec str_eq_dec)); vm_compute; reflexivity].
  eexists. split; [reflexivity|]. split; [cbn [app map]; rewrite HS; reflexivity|]. constructor; [apply expand_column; exact F1|]. constructor; [apply expand_column; exact F2|]. constructor; [exact HP|]. constructor; [apply expand_column; exact F3|constructor].
Qed.
Lemma four_there x f : In f files -> In x four -> dataset (h_sd f) x <> None \/ dataset (h_vd f) x <> None.
Proof.
  intros Hf Hx. right. destruct (G f Hf) as [_ (_ & v1 & E1 & _) (_ & v2 & E2 & _) (_ & v3 & E3 & _) (_ & v4 & y & E4 & _) _ _]. destruct Hx as [<-|[<-|[<-|[<-|[]]]]]; congruence.
Qed.
Lemma read_four : exists s v, hdf_read files four = Ok (s, v).
Proof. apply hdf_read_total. intros f Hf. split; [apply (g_name f (G f Hf))|]. intros x Hx. apply four_there; auto. Qed.
Lemma profile_coords_ok : exists cs, cloudsat_profile_coords files = Ok cs /\ map c_std cs = profile_names /\ columns_are (all_profiles files) cs [Pvd (lit "Latitude"); Pvd (lit "Longitude"); Ptime].
Proof.
  destruct read_four as (s & v & R). destruct (plain_coords four s v four_nodup (incl_refl _) R) as (cs & E & H). exists cs. split; [|exact H]. unfold cloudsat_profile_coords. fold four. rewrite R. exact E.
Qed.
Lemma cloudsat_coords_cells m : (forall f, In f files -> per_cell f m (lit "Height")) -> list_sum (map profiles files) <> 0 ->
  exists cs, cloudsat_coords files = Ok cs /\ map c_std cs = cell_names /\ columns_are (all_cells m files) cs [up (Pvd (lit "Latitude")); up (Pvd (lit "Longitude")); Psd (lit "Height") m; up Ptime].
Proof.
  intros H NZ. destruct (hdf_read_total files five) as (s & v & R).
  { intros f Hf. split; [apply (g_name f (G f Hf))|]. intros x Hx. change five with (four ++ [lit "Height"]) in Hx. apply in_app_or in Hx. destruct Hx as [Hx|[<-|[]]]; [apply four_there; auto|]. left. destruct (H f Hf) as (w & E & _). congruence. }
  destruct (sd_column files NE G five s v (lit "Height") m five_nodup R) as (ds & a & K & C & FA & F); [right; right; right; right; left; reflexivity|exact H|].
  unfold cloudsat_coords. fold five. rewrite R, K. cbn [bind]. rewrite C. cbn [bind]. rewrite FA. unfold levels_of. destruct (list_sum (map profiles files)) as [|n]; [congruence|]. cbn [bind].
  apply (cell_coords five s v m); [exact five_nodup| |exact R|reflexivity|exact F]. intros x Hx. change five with (four ++ [lit "Height"]). apply in_or_app. left. exact Hx.
Qed.
Theorem cloudsat_profiles name : (forall f, In f files -> per_profile f name) -> exists d, read_cloudsat files name = Ok d /\ map c_std (u_coords d) = profile_names /\
  exists raw, Forall2 (own_profile name) (all_profiles files) raw /\ rows d = filter located raw.
Proof.
  intros H. destruct (hdf_read_total files [name]) as (s & v & R).
  { intros f Hf. split; [apply (g_name f (G f Hf))|]. intros x [<-|[]]. right. destruct (H f Hf) as (_ & w & E & _). congruence. }
  destruct (vd_column files NE G [name] s v name (one_nodup name) R) as (ds & a & K & C & F); [left; auto|exact H|]. destruct profile_coords_ok as (cs & EC & SC & COL).
  unfold read_cloudsat, cloudsat_create. rewrite R. cbn [bind snd]. unfold key in K. destruct (dict_get v name) as [ds'|]; [|discriminate]. injection K as ->. rewrite EC. cbn [bind]. rewrite C. cbn [bind]. rewrite <- SC.
  apply (rows_of_columns (all_profiles files) cs _ (Pvd name) (fst a) (snd a) (own_profile name) COL F). intros [f j] [pos o] HF HV. cbn [fst snd] in *.
  apply F2inv in HF. destruct HF as (la & p1 & -> & H1 & HF). apply F2inv in HF. destruct HF as (lo & p2 & -> & H2 & HF). apply F2inv in HF. destruct HF as (t & p3 & -> & H3 & HF). inversion HF; subst. exists la, lo, t. auto.
Qed.
Theorem cloudsat_cells m name : (forall f, In f files -> per_cell f m (lit "Height") /\ per_cell f m name) -> list_sum (map profiles files) <> 0 -> exists d, read_cloudsat files name = Ok d /\ map c_std (u_coords d) = cell_names /\
  exists raw, Forall2 (own_cell m name) (all_cells m files) raw /\ rows d = filter located raw.
Proof.
  intros H NZ. destruct (hdf_read_total files [name]) as (s & v & R).
  { intros f Hf. split; [apply (g_name f (G f Hf))|]. intros x [<-|[]]. left. destruct (H f Hf) as (_ & w & E & _). congruence. }
  destruct (sd_column files NE G [name] s v name m (one_nodup name) R) as (ds & a & K & C & _ & F); [left; auto|intros f Hf; apply H; auto|]. destruct (cloudsat_coords_cells m) as (cs & EC & SC & COL); [intros f Hf; apply H; auto|auto|].
  destruct (hdf_read_ok files [name] s v name (one_nodup name) R (or_introl eq_refl)) as [_ EV]. rewrite vd_list_none in EV by (intros f Hf; destruct (H f Hf) as (_ & w & E & _); congruence).
  unfold read_cloudsat, cloudsat_create. rewrite R. cbn [bind fst snd]. rewrite EV. cbn [nonempty]. unfold key in K. destruct (dict_get s name) as [ds'|]; [|discriminate]. injection K as ->. rewrite EC. cbn [bind]. rewrite C. cbn [bind]. rewrite <- SC.
  apply (rows_of_columns (all_cells m files) cs _ (Psd name m) (fst a) (snd a) (own_cell m name) COL F). intros [[f j] k] [pos o] HF HV. cbn [fst snd] in *.
  apply F2inv in HF. destruct HF as (la & p1 & -> & H1 & HF). apply F2inv in HF. destruct HF as (lo & p2 & -> & H2 & HF). apply F2inv in HF. destruct HF as (h & p3 & -> & H3 & HF). apply F2inv in HF. destruct HF as (t & p4 & -> & H4 & HF). inversion HF; subst. exists la, lo, h, t.
  split; [reflexivity|]. split; [exact H1|]. split; [exact H2|]. split; [exact H4|]. split; [exact H3|exact HV].
Qed.
(** a variable that one file does not have *)
End Granules.
Theorem cloudsat_missing files f name : (forall f, In f files -> hdf_name (h_name f)) -> In f files -> dataset (h_sd f) name = None -> dataset (h_vd f) name = None -> read_cloudsat files name = Raises InvalidVariableError.
Proof. intros N Hf D E. unfold read_cloudsat, cloudsat_create. rewrite (hdf_read_missing files [name] name f); auto. left; auto. Qed.
