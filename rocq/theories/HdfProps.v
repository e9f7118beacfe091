(** C72: the profiles and cells of CloudSat files. *)
From Coq Require Import String.
From Verif Require Import Base PyStr QBase UtilModel UtilSpec ReadModel ReadSpec UngrModel UngrSpec RafModel HdfModel HdfSpec HdfProofs Hdf2Proofs Hdf3Proofs Hdf4Proofs.
From Coq Require Import List Lia.
Import ListNotations.
Open Scope string_scope. Open Scope list_scope. Open Scope nat_scope. Notation length := List.length.

(** A variable with one value for every profile: each value with the latitude, longitude and time of its own profile, file after file. *)
Theorem C72_profiles_partial : forall files name, files <> [] -> (forall f, In f files -> granule f /\ per_profile f name) ->
  exists d, read_cloudsat files name = Ok d /\ map c_std (u_coords d) = profile_names /\ exists raw, Forall2 (own_profile name) (all_profiles files) raw /\ rows d = filter located raw.
Proof. intros files name NE H. apply cloudsat_profiles; auto; intros f Hf; apply H; auto. Qed.
Print Assumptions C72_profiles_partial.
(** A variable with one value for every cell: also with the height of its own cell. *)
Theorem C72_cells_partial : forall files m name, (forall f, In f files -> granule f /\ per_cell f m (lit "Height") /\ per_cell f m name) -> all_profiles files <> [] ->
  exists d, read_cloudsat files name = Ok d /\ map c_std (u_coords d) = cell_names /\ exists raw, Forall2 (own_cell m name) (all_cells m files) raw /\ rows d = filter located raw.
Proof.
  intros files m name H NE. apply cloudsat_cells; [intros ->; apply NE; reflexivity|intros f Hf; apply H; auto|intros f Hf; split; apply H; auto|]. rewrite <- all_profiles_length. destruct (all_profiles files); [congruence|discriminate].
Qed.
Print Assumptions C72_cells_partial.
(** Values that could not be placed are not read: a file has not got the variable; one file has it for cells and another for profiles; a file has no heights. *)
Theorem C72_missing : forall files f name, (forall f, In f files -> hdf_name (h_name f)) -> In f files -> dataset (h_sd f) name = None -> dataset (h_vd f) name = None -> read_cloudsat files name = Raises InvalidVariableError.
Proof. exact cloudsat_missing. Qed.
Print Assumptions C72_missing.
Theorem C72_mixed : forall files name f g, (forall f, In f files -> granule f) -> In f files -> In g files -> dataset (h_sd f) name <> None -> profiles f <> 0 -> dataset (h_sd g) name = None ->
  (forall h, In h files -> dataset (h_sd h) name = None -> per_profile h name) -> read_cloudsat files name = Raises ValueError.
Proof. intros files name f g G. apply cloudsat_mixed. exact G. Qed.
Print Assumptions C72_mixed.
Theorem C72_no_height : forall files m name f, (forall f, In f files -> granule f) -> In f files -> dataset (h_sd f) (lit "Height") = None -> dataset (h_vd f) (lit "Height") = None ->
  (forall h, In h files -> per_cell h m name) -> m <> 1 -> all_profiles files <> [] -> read_cloudsat files name = Raises ValueError.
Proof. intros files m name f G Hf D E H M NE. apply (cloudsat_no_height files G m name f); auto. rewrite <- all_profiles_length. destruct (all_profiles files); [congruence|discriminate]. Qed.
Print Assumptions C72_no_height.
(** The variables offered: those with a value for every profile or every cell of one of the files. *)
Theorem C72_names : forall files l, cloudsat_names files = Ok l -> forall n, In n l <-> exists f lat, In f files /\ dataset (h_vd f) (lit "Latitude") = Some lat /\
  ((exists v, In (n, v) (h_vd f) /\ length (cv_raw v) = length (cv_raw lat)) \/ (exists v h, In (n, v) (h_sd f) /\ dataset (h_sd f) (lit "Height") = Some h /\ cs_shape v = cs_shape h)).
Proof. exact cloudsat_names_ok. Qed.
Print Assumptions C72_names.

(** *** examples *)
Definition vd (l : list Q) : cs_vd := mkCvd (map Some l) None None None None [].
Definition sd (n m : nat) (l : list Q) : cs_sd := mkCsd [n; m] (map Some l) None None None None None None [].
Definition g1 : cs_file := mkHfile (lit "a.hdf") [(lit "Height", mkCsd [2; 2]%nat [Some 100; Some 200; Some 110; Some 210] (Some (Some 200)) None None None None None []); (lit "reflectivity", mkCsd [2; 2]%nat [Some 1; Some 2; Some 3; Some 40] None (Some 39) (Some (lit ">")) None (Some 10) (Some 1) [])]%Q
  [(lit "Latitude", vd [10; 11]%Q); (lit "Longitude", vd [20; 21]%Q); (lit "Profile_time", vd [0; 10]%Q); (lit "TAI_start", vd [86400]%Q); (lit "elevation", vd [5; 6]%Q)] [].
Definition g2 : cs_file := mkHfile (lit "b.hdf") [(lit "Height", sd 1 2 [120; 220]%Q); (lit "reflectivity", sd 1 2 [7; 8]%Q)]
  [(lit "Latitude", vd [12]%Q); (lit "Longitude", vd [22]%Q); (lit "Profile_time", vd [0]%Q); (lit "TAI_start", vd [172800]%Q); (lit "elevation", vd [7]%Q)] [].
Ltac cases E := unfold dataset in E; try match type of E with context [h_vd ?g] => let l := eval vm_compute in (h_vd g) in change (h_vd g) with l in E end; try match type of E with context [h_sd ?g] => let l := eval vm_compute in (h_sd g) in change (h_sd g) with l in E end; cbn [find h_vd h_sd fst] in E; repeat match type of E with context [if ?b then _ else _] => destruct b end; cbn [option_map snd] in E; try discriminate E.
Ltac nonzero := let q := fresh in let X := fresh in let Y := fresh in intros q X; try discriminate X; cbn in X; injection X as <-; intros Y; discriminate Y.
Ltac granule_tac := constructor;
  [eexists; match goal with |- ?s = _ => instantiate (1 := firstn (length s - 4) s) end; reflexivity
  |split; [reflexivity|eexists; split; reflexivity]..
  |split; [reflexivity|eexists; eexists; split; reflexivity]
  |let E := fresh in intros ? ? E; cases E; injection E as <-; nonzero
  |let E := fresh in intros ? ? E; cases E; injection E as <-; (split; [nonzero|discriminate])].
Example C72_ex_granules : granule g1 /\ granule g2.
Proof. split; granule_tac. Qed.
Example C72_ex_profiles : (forall f, In f [g1; g2] -> granule f /\ per_profile f (lit "elevation")) /\ exists d, read_cloudsat [g1; g2] (lit "elevation") = Ok d /\ length (rows d) = 3.
Proof.
  split; [intros f [<-|[<-|[]]]; (split; [apply C72_ex_granules|split; [reflexivity|eexists; split; reflexivity]])|]. eexists. split; [vm_compute; reflexivity|vm_compute; reflexivity].
Qed.
Example C72_ex_cells : (forall f, In f [g1; g2] -> granule f /\ per_cell f 2 (lit "Height") /\ per_cell f 2 (lit "reflectivity")) /\ exists d, read_cloudsat [g1; g2] (lit "reflectivity") = Ok d /\ map snd (rows d) = [Some (0 # 10); Some (2 # 10); None; Some 7; Some 8]%Q.
Proof.
  split; [intros f [<-|[<-|[]]]; (split; [apply C72_ex_granules|]); (split; eexists; split; [reflexivity|split; reflexivity|reflexivity|split; reflexivity])|]. eexists. split; vm_compute; reflexivity.
Qed.
Definition without_height (f : cs_file) : cs_file := mkHfile (h_name f) (filter (fun nv => negb (str_eqb (fst nv) (lit "Height"))) (h_sd f)) (h_vd f) (h_first f).
Example C72_ex_no_height : granule (without_height g2) /\ read_cloudsat [g1; without_height g2] (lit "reflectivity") = Raises ValueError.
Proof. split; [granule_tac|vm_compute; reflexivity]. Qed.
Definition mixed : cs_file := mkHfile (lit "c.hdf") [] ((lit "reflectivity", vd [1]%Q) :: h_vd g2) [].
Example C72_ex_mixed : granule mixed /\ read_cloudsat [g1; mixed] (lit "reflectivity") = Raises ValueError.
Proof. split; [granule_tac|vm_compute; reflexivity]. Qed.
Example C72_ex_names : exists l, cloudsat_names [g1] = Ok l /\ l = map lit ["Latitude"; "Longitude"; "Profile_time"; "elevation"; "Height"; "reflectivity"]%string.
Proof. eexists. split; [vm_compute; reflexivity|reflexivity]. Qed.

(** The times are not scaled: a factor or offset of Profile_time is not applied, those of the other variables are. *)
Definition tenths : cs_file := mkHfile (lit "t.hdf") []
  [(lit "Latitude", vd [10]%Q); (lit "Longitude", vd [20]%Q); (lit "Profile_time", mkCvd [Some 100%Q] None None (Some 10%Q) None []); (lit "TAI_start", vd [0]%Q); (lit "elevation", vd [5]%Q)] [].
Theorem C72_refuted_time : exists f d, granule f /\ per_profile f (lit "elevation") /\ read_cloudsat [f] (lit "elevation") = Ok d /\ forallb located (rows d) = true /\
  ~ Forall2 (fun fj r => exists la lo t, fst r = [la; lo; t] /\ scaled_time_at (fst fj) (snd fj) t) (all_profiles [f]) (rows d).
Proof.
  exists tenths. eexists. split; [granule_tac|]. split; [split; [reflexivity|eexists; split; reflexivity]|]. split; [vm_compute; reflexivity|]. split; [vm_compute; reflexivity|].
  match goal with |- ~ Forall2 _ _ (rows ?d) => let l := eval vm_compute in (rows d) in change (rows d) with l end. change (all_profiles [tenths]) with [(tenths, 0)]. intros H. inversion H as [|? ? ? ? (la & lo & t & E & a & b & (v & x & E1 & E2 & S1) & (w & y & E3 & E4 & S2) & SN) _]; clear H; subst. cbn [fst snd] in *. injection E as <- <- <-.
  vm_compute in E1. injection E1 as <-. cbn in E2. injection E2 as <-. vm_compute in E3. injection E3 as <-. cbn in E4. injection E4 as <-.
  inversion S1; subst; [match goal with X : vd_invalid _ _ |- _ => destruct X as [(? & X & _)|(? & X & _)]; discriminate X end|]. inversion S2; subst; [match goal with X : vd_invalid _ _ |- _ => destruct X as [(? & X & _)|(? & X & _)]; discriminate X end|].
  match type of SN with same_num (Some ?t) (Some (day_of (?y + ?z))) => match goal with A : (y == ?u)%Q, B : (z == ?w)%Q |- _ => assert (X : (t == day_of (u + w))%Q) by (unfold day_of; rewrite <- A, <- B; exact SN) end end. vm_compute in X. discriminate X.
Qed.
Print Assumptions C72_refuted_time.
