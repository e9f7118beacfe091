(** C73: the profiles and cells of CALIOP files. *)
From Coq Require Import String.
From Verif Require Import Base PyStr QBase UtilModel UtilSpec ReadModel ReadSpec UngrModel UngrSpec ProdModel RafModel HdfModel HdfSpec CalSpec Cal2Proofs.
From Coq Require Import List Lia.
Import ListNotations.
Open Scope string_scope. Open Scope list_scope. Open Scope nat_scope. Notation length := List.length.

(** A variable with values for every cell: each value with the position and time of (the middle shot of) its own profile, the altitude of its own level in m and, if the files give it at these levels, its own pressure. *)
Theorem C73_cells_partial : forall p files first w, (exists l, files = first :: l) -> (forall f, In f files -> orbit w f) -> shot p < w -> forall m mp z name,
  (forall f, In f files -> same_altitudes f first) -> (exists v, dataset (h_first first) (lit "Lidar_Data_Altitudes") = Some v /\ length (cf_raw v) = m) ->
  (has_pressure p = true -> forall f, In f files -> of_shape f (lit "Pressure") [cal_profiles f; mp]) -> ~ column_variable p name -> (forall f, In f files -> cell_variable p f m z name) ->
  let pres := has_pressure p && (mp =? m) in
  exists d, read_caliop p files name = Ok d /\ map c_std (u_coords d) = cal_names pres /\ exists raw, Forall2 (cal_cell p w m z pres name) (cal_cells m files) raw /\ rows d = filter located raw.
Proof. exact caliop_cells. Qed.
Print Assumptions C73_cells_partial.
(** A variable with one value for every column. *)
Theorem C73_columns : forall p files first w, (exists l, files = first :: l) -> (forall f, In f files -> orbit w f) -> shot p < w -> forall name, column_variable p name -> ~ several p name ->
  (forall f, In f files -> of_shape f name [cal_profiles f; 1]) ->
  exists d, read_caliop p files name = Ok d /\ map c_std (u_coords d) = [Some (lit "latitude"); Some (lit "longitude"); Some (lit "time")] /\ exists raw, Forall2 (cal_column p w name) (cal_points files) raw /\ rows d = filter located raw.
Proof. exact caliop_columns. Qed.
Print Assumptions C73_columns.
(** Values that have no place are refused: those at other levels than the altitudes; and a variable that one of the files has not got. *)
Theorem C73_other_levels : forall p files first w, (exists l, files = first :: l) -> (forall f, In f files -> orbit w f) -> shot p < w -> forall m mv mp z name,
  (forall f, In f files -> same_altitudes f first) -> (exists v, dataset (h_first first) (lit "Lidar_Data_Altitudes") = Some v /\ length (cf_raw v) = m) ->
  (has_pressure p = true -> forall f, In f files -> of_shape f (lit "Pressure") [cal_profiles f; mp]) -> ~ column_variable p name -> (forall f, In f files -> cell_variable p f mv z name) ->
  mv <> m -> cal_points files <> [] -> read_caliop p files name = Raises ValueError.
Proof. exact caliop_other_levels. Qed.
Print Assumptions C73_other_levels.
Theorem C73_missing : forall p files first w, (exists l, files = first :: l) -> (forall f, In f files -> orbit w f) -> shot p < w -> forall m mp name f,
  (forall f, In f files -> same_altitudes f first) -> (exists v, dataset (h_first first) (lit "Lidar_Data_Altitudes") = Some v /\ length (cf_raw v) = m) ->
  (has_pressure p = true -> forall f, In f files -> of_shape f (lit "Pressure") [cal_profiles f; mp]) -> In f files -> dataset (h_sd f) name = None -> dataset (h_vd f) name = None -> read_caliop p files name = Raises InvalidVariableError.
Proof. exact caliop_missing. Qed.
Print Assumptions C73_missing.
(** The variables offered: those of any of the files with a value for every cell of the first file. *)
Theorem C73_names : forall files first l, caliop_names (first :: files) = Ok l ->
  exists v, dataset (h_sd first) (lit "Latitude") = Some v /\ forall n, In n l <-> exists f u, In f (first :: files) /\ In (n, u) (h_sd f) /\ ca_shape u = [cal_profiles first; altitudes first].
Proof. exact caliop_names_ok. Qed.
Print Assumptions C73_names.

(** *** examples *)
Definition sdn (sh : list nat) (l : list Q) : cal_sd := mkCal sh (map Some l) None None None None None None [].
Definition alts (l : list Q) : list (str * cal_field) := [(lit "Lidar_Data_Altitudes", mkField (map Some l) None)].
Definition o1 : cal_file := mkHfile (lit "a.hdf")
  [(lit "Latitude", sdn [2; 3]%nat [1; 10; 2; 3; 11; 4]%Q); (lit "Longitude", sdn [2; 3]%nat [5; 20; 6; 7; 21; 8]%Q); (lit "Profile_Time", sdn [2; 3]%nat [0; 86400; 0; 0; 172800; 0]%Q);
   (lit "Pressure", sdn [2; 2]%nat [900; 800; 901; 801]%Q); (lit "CAD_Score", sdn [2; 2; 2]%nat [1; 0; 2; 0; 3; 0; 4; 0]%Q); (lit "Column_Optical_Depth", sdn [2; 1]%nat [30; 31]%Q);
   (lit "Backscatter", mkCal [2; 2]%nat [Some 10; Some (-(9999)); Some 30; Some 99]%Q None (Some (lit "Float_32")) None (Some [0; 50]%Q) (Some 1%Q) (Some 10%Q) []); (lit "Other", sdn [2; 1]%nat [1; 2]%Q)] [] (alts [8; 1 # 2]%Q).
Definition o2 : cal_file := mkHfile (lit "b.hdf")
  [(lit "Latitude", sdn [1; 3]%nat [0; 12; 0]%Q); (lit "Longitude", sdn [1; 3]%nat [0; 22; 0]%Q); (lit "Profile_Time", sdn [1; 3]%nat [0; 0; 0]%Q);
   (lit "Pressure", sdn [1; 2]%nat [902; 802]%Q); (lit "CAD_Score", sdn [1; 2; 2]%nat [5; 0; 6; 0]%Q); (lit "Column_Optical_Depth", sdn [1; 1]%nat [32]%Q); (lit "Backscatter", sdn [1; 2]%nat [7; 8]%Q); (lit "Other", sdn [1; 1]%nat [3]%Q)] [] (alts [8; 1 # 2]%Q).
Ltac cases E := unfold dataset in E; match type of E with context [h_sd ?g] => let l := eval vm_compute in (h_sd g) in change (h_sd g) with l in E end; cbn [find h_sd fst] in E; repeat match type of E with context [if ?b then _ else _] => destruct b end; cbn [option_map snd] in E; try discriminate E.
Ltac nonzero := let q := fresh in let X := fresh in let Y := fresh in intros q X; try discriminate X; cbn in X; injection X as <-; intros Y; discriminate Y.
Ltac orbit_tac := constructor;
  [eexists; match goal with |- ?s = _ => instantiate (1 := firstn (length s - 4) s) end; reflexivity
  |eexists; split; [reflexivity|split; reflexivity]..
  |let E := fresh in intros ? ? E; cases E; injection E as <-; nonzero].
Example C73_ex_orbits : forall f, In f [o1; o2] -> orbit 3 f /\ same_altitudes f o1.
Proof. intros f [<-|[<-|[]]]; (split; [orbit_tac|reflexivity]). Qed.
Lemma not_col p n : starts_with (lit "Column") n = false -> ~ column_variable p n.
Proof. intros H (_ & r & ->). discriminate H. Qed.
Example C73_ex_cells : (forall f, In f [o1; o2] -> of_shape f (lit "Pressure") [cal_profiles f; 2] /\ cell_variable Caliop_L2 f 2 1 (lit "Backscatter")) /\ ~ column_variable Caliop_L2 (lit "Backscatter") /\
  exists d, read_caliop Caliop_L2 [o1; o2] (lit "Backscatter") = Ok d /\ map snd (rows d) = [Some (20 # 10); None; Some (40 # 10); None; Some 7; Some 8]%Q /\ map (fun r => nth 0 (fst r) None) (rows d) = map Some [10; 10; 11; 11; 12; 12]%Q.
Proof.
  split; [|split; [apply not_col; reflexivity|eexists; split; [vm_compute; reflexivity|split; vm_compute; reflexivity]]].
  intros f [<-|[<-|[]]]; (split; [eexists; split; [reflexivity|split; reflexivity]|left; split; [intros [_ H]; repeat (destruct H as [H|H]; [discriminate H|]); exact H|split; [reflexivity|eexists; split; [reflexivity|split; reflexivity]]]]).
Qed.
Example C73_ex_several : several Caliop_L2 (lit "CAD_Score") /\ exists d, read_caliop Caliop_L2 [o1; o2] (lit "CAD_Score") = Ok d /\ map snd (rows d) = map Some [1; 2; 3; 4; 5; 6]%Q.
Proof. split; [split; [discriminate|right; left; reflexivity]|eexists; split; vm_compute; reflexivity]. Qed.
Example C73_ex_columns : column_variable Caliop_L2 (lit "Column_Optical_Depth") /\ (forall f, In f [o1; o2] -> of_shape f (lit "Column_Optical_Depth") [cal_profiles f; 1]) /\
  exists d, read_caliop Caliop_L2 [o1; o2] (lit "Column_Optical_Depth") = Ok d /\ map snd (rows d) = map Some [30; 31; 32]%Q.
Proof.
  split; [split; [discriminate|exists (lit "_Optical_Depth"); reflexivity]|]. split; [intros f [<-|[<-|[]]]; (eexists; split; [reflexivity|split; reflexivity])|eexists; split; vm_compute; reflexivity].
Qed.
Example C73_ex_refused : read_caliop Caliop_L2 [o1; o2] (lit "Other") = Raises ValueError /\ read_caliop Caliop_L2 [o1; o2] (lit "Nothing") = Raises InvalidVariableError.
Proof. split; vm_compute; reflexivity. Qed.
Example C73_ex_names : caliop_names [o1; o2] = Ok (map lit ["Pressure"; "Backscatter"]).
Proof. vm_compute. reflexivity. Qed.

(** The altitudes of the later files are not read: theirs are replaced by those of the first. *)
Definition o3 : cal_file := mkHfile (h_name o2) (h_sd o2) (h_vd o2) (alts [9; 1]%Q).
Theorem C73_refuted_altitudes : exists f g d, (forall h, In h [f; g] -> orbit 3 h /\ altitudes h = 2 /\ of_shape h (lit "Pressure") [cal_profiles h; 2] /\ of_shape h (lit "Backscatter") [cal_profiles h; 2]) /\
  read_caliop Caliop_L2 [f; g] (lit "Backscatter") = Ok d /\ forallb located (rows d) = true /\
  ~ Forall2 (fun fjk r => exists la lo t al pr, fst r = la :: lo :: t :: al :: pr /\ altitude_at (fst (fst fjk)) (snd fjk) al) (cal_cells 2 [f; g]) (rows d).
Proof.
  exists o1, o3. eexists. split; [|split; [vm_compute; reflexivity|split; [vm_compute; reflexivity|]]].
  - intros h [<-|[<-|[]]]; (split; [orbit_tac|split; [reflexivity|split; (eexists; split; [reflexivity|split; reflexivity])]]).
  - match goal with |- ~ Forall2 _ _ (rows ?d) => let l := eval vm_compute in (rows d) in change (rows d) with l end. change (cal_cells 2 [o1; o3]) with [(o1, 0, 0); (o1, 0, 1); (o1, 1, 0); (o1, 1, 1); (o3, 0, 0); (o3, 0, 1)].
    intros H. do 4 (inversion H as [|? ? ? ? _ H']; clear H; subst; rename H' into H). inversion H as [|? ? ? ? X _]; clear H; subst. destruct X as (la & lo & t & al & pr & E & v & x & E1 & E2 & SH). cbn [fst snd] in *. injection E as _ _ _ <- _. vm_compute in E1. injection E1 as <-. cbn in E2. injection E2 as <-.
    inversion SH as [|? _|? ? ? Y]; subst. vm_compute in Y. discriminate Y.
Qed.
Print Assumptions C73_refuted_altitudes.
