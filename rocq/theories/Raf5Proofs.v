(** Proofs for C71: what goes wrong; names offered; file types; examples. *)
From Coq Require Import String.
From Verif Require Import Base PyStr QBase DateModel DateProofs FileListModel AeroModel UngrModel UngrSpec UngrProofs GU3Proofs GU5Proofs GG3Proofs RafModel RafSpec RafProofs Raf2Proofs Raf3Proofs.
From Coq Require Import List Lia.
Import ListNotations.
Open Scope string_scope. Open Scope list_scope. Open Scope nat_scope. Notation length := List.length.

Definition no_float : str -> option Q := fun _ => None.
Definition as_given : str -> option attr -> res (Q -> Q) := fun _ _ => Ok (fun x => x).
Definition var1 (dims : list str) (shape : list nat) (data : list Q) : nvar := mkVar dims shape (lit "days since 1600-1-1") None [] (map Some data).
Definition station_file (lat : Q) (extra : list (str * attr)) (vars : list (str * nvar)) : ncfile :=
  mkFile ([(lit "time_coordinate", Txt (lit "t")); (lit "Station_Lat", Num lat); (lit "STATION_LON", Num 7%Q)] ++ extra) vars.
Definition low_file : ncfile := station_file 50 [] [(lit "t", var1 [lit "t"] [1] [10%Q]); (lit "aod", var1 [lit "t"] [1] [(1 # 10)%Q])].
Definition high_file : ncfile := station_file 51 [(lit "Station_Altitude", Num 500%Q)] [(lit "t", var1 [lit "t"] [2] [11%Q; 12%Q]); (lit "aod", var1 [lit "t"] [2] [(2 # 10)%Q; (3 # 10)%Q])].
Ltac has := split; [vm_compute; reflexivity|vm_compute; discriminate].
Lemma low_described : described low_file (lit "t") (In_attribute (lit "Station_Lat")) (In_attribute (lit "Station_Lon")) Sea_level.
Proof. apply (station low_file (lit "t")); [has|reflexivity|vm_compute; discriminate..]. Qed.
Lemma high_described : described high_file (lit "t") (In_attribute (lit "Station_Lat")) (In_attribute (lit "Station_Lon")) (In_attribute (lit "Station_Altitude")).
Proof. apply (station high_file (lit "t")); [has|reflexivity|vm_compute; discriminate..]. Qed.
Lemma found_cases (f : ncfile) n v : variable f n = Some v -> In (n, v) (f_vars f).
Proof. unfold variable. destruct (find _ (f_vars f)) as [[k w]|] eqn:F; [|discriminate]. intros [= <-]. apply find_some in F. destruct F as [H E]. apply str_eqb_eq in E. cbn in E. subst k. exact H. Qed.
Ltac formed := intros n v H; apply found_cases in H; cbn in H; repeat (destruct H as [H|H]; [injection H as <- <-; reflexivity|]); contradiction.
Theorem height_lost : exists f g d, well_formed f /\ well_formed g /\ on_times f (lit "t") (lit "aod") /\ on_times g (lit "t") (lit "aod") /\
  described f (lit "t") (In_attribute (lit "Station_Lat")) (In_attribute (lit "Station_Lon")) Sea_level /\
  described g (lit "t") (In_attribute (lit "Station_Lat")) (In_attribute (lit "Station_Lon")) (In_attribute (lit "Station_Altitude")) /\
  read_raf no_float as_given [f; g] (lit "aod") = Ok d /\ forallb located (rows d) = true /\
  ~ Forall2 (own_description no_float as_given (lit "aod")) (all_points_of [f; g] (lit "t")) (rows d).
Proof.
  exists low_file, high_file. eexists. split; [formed|]. split; [formed|]. split; [intros v w [= <-] [= <-]; split; reflexivity|]. split; [intros v w [= <-] [= <-]; split; reflexivity|]. split; [exact low_described|]. split; [exact high_described|]. split; [vm_compute; reflexivity|].
  split; [reflexivity|]. intros H. destruct (F2_nth_l _ _ _ H 1 (high_file, 0) eq_refl) as (r & Er & t & la & lo & al & p & D & _ & (tm & lat & lon & alt & pres & E & _ & _ & _ & A & _) & _). clear H. cbn [fst snd] in *.
  destruct (described_unique _ _ _ _ _ _ _ _ _ D high_described) as (_ & _ & _ & ->). destruct A as (a & q & EA & R & ->). vm_compute in EA. injection EA as <-. vm_compute in Er. injection Er as <-. cbn [fst] in E. injection E as _ _ _ EQ _. subst q.
  inversion R as [a q R'|]. inversion R'.
Qed.
(** bins of sizes that differ between files: those of the first file are used *)
Definition bins_file (bins data : list Q) (dims : list str) : ncfile :=
  station_file 50 [] [(lit "t", var1 [lit "t"] [2] [10%Q; 11%Q]); (lit "size", var1 [lit "size"] [2] bins); (lit "n", var1 dims [2; 2] data)].
Definition bins1 := bins_file [1%Q; 2%Q] [1%Q; 2%Q; 3%Q; 4%Q] [lit "t"; lit "size"].
Definition bins2 := bins_file [3%Q; 4%Q] [5%Q; 6%Q; 7%Q; 8%Q] [lit "t"; lit "size"].
Lemma bins_described b data dims : described (bins_file b data dims) (lit "t") (In_attribute (lit "Station_Lat")) (In_attribute (lit "Station_Lon")) Sea_level.
Proof. apply (station (bins_file b data dims) (lit "t")); [has|reflexivity|vm_compute; discriminate..]. Qed.
Theorem bins_lost : exists f g d, well_formed f /\ well_formed g /\ (forall h, In h [f; g] -> described h (lit "t") (In_attribute (lit "Station_Lat")) (In_attribute (lit "Station_Lon")) Sea_level /\ pressure_named h [] /\
    option_map v_dims (variable h (lit "n")) = Some [lit "t"; lit "size"] /\ option_map v_dims (variable h (lit "size")) = Some [lit "size"]) /\
  read_raf no_float as_given [f; g] (lit "n") = Ok d /\ forallb located (rows d) = true /\
  ~ Forall2 (own_bin no_float as_given (lit "t") (In_attribute (lit "Station_Lat")) (In_attribute (lit "Station_Lon")) Sea_level [] (lit "size") (lit "n")) (all_bins_of [f; g] (lit "t") (lit "size")) (rows d).
Proof.
  exists bins1, bins2. eexists. split; [formed|]. split; [formed|]. split.
  { intros h [<-|[<-|[]]]; (split; [apply bins_described|]; split; [right; right; repeat split; reflexivity|split; reflexivity]). }
  split; [vm_compute; reflexivity|]. split; [reflexivity|]. intros H. destruct (F2_nth_l _ _ _ H 4 (bins2, 0, 0) eq_refl) as (r & Er & pos & x & v & w & E & _ & Ew & Ex & _). vm_compute in Ew. injection Ew as <-. vm_compute in Ex. injection Ex as <-. vm_compute in Er. injection Er as <-. cbn [fst] in E.
  apply (f_equal (fun l => last l None)) in E. rewrite last_last in E. discriminate.
Qed.
(** a variable with the bins first: every value is put at another time and bin *)
Theorem order_lost : exists f d v tv bv, well_formed f /\ described f (lit "t") (In_attribute (lit "Station_Lat")) (In_attribute (lit "Station_Lon")) Sea_level /\
  variable f (lit "n") = Some v /\ v_dims v = [lit "size"; lit "t"] /\ variable f (lit "t") = Some tv /\ v_dims tv = [lit "t"] /\ variable f (lit "size") = Some bv /\ v_dims bv = [lit "size"] /\
  read_raf no_float as_given [f] (lit "n") = Ok d /\ exists r j b,
    In r (rows d) /\ nth_error (fst r) 0 = nth_error (v_data tv) j /\ last (fst r) None = nth b (v_data bv) None /\ NoDup (v_data tv) /\ NoDup (v_data bv) /\ NoDup (v_data v) /\
    nth_error (v_data v) (b * length (v_data tv) + j) <> Some (snd r).
Proof.
  exists (bins_file [1%Q; 2%Q] [1%Q; 2%Q; 3%Q; 4%Q] [lit "size"; lit "t"]). do 4 eexists. split; [formed|]. split; [apply bins_described|]. split; [vm_compute; reflexivity|]. split; [reflexivity|]. split; [vm_compute; reflexivity|]. split; [reflexivity|]. split; [vm_compute; reflexivity|]. split; [reflexivity|].
  split; [vm_compute; reflexivity|]. eexists. exists 0, 1. split; [right; left; reflexivity|]. split; [reflexivity|]. split; [reflexivity|]. split; [repeat constructor; cbn; intuition discriminate|]. split; [repeat constructor; cbn; intuition discriminate|]. split; [repeat constructor; cbn; intuition discriminate|]. vm_compute. discriminate.
Qed.

(** ** The names offered *)
Lemma compatible_spec a : forall b, dimensions_compatible a b = true <-> starts_like a b.
Proof.
  unfold dimensions_compatible, starts_like. induction a as [|x a IH]; intros b; [split; auto; intros _; exists b; auto|]. destruct b as [|y b]; [split; auto; intros _; exists (x :: a); auto|]. cbn [combine forallb fst snd]. rewrite andb_true_iff, str_eqb_eq, IH. split.
  - intros [-> (r & [->| ->])]; exists r; auto.
  - intros (r & [[= -> ->]|[= -> ->]]); split; auto; exists r; auto.
Qed.
Section Names.
Variable float_of : str -> option Q.
Theorem names_offered f rest l t la lo al : variable_names float_of (f :: rest) = Ok l -> described f t la lo al ->
  forall n, In n l <-> exists v tv, In (n, v) (f_vars f) /\ v_dims v <> [] /\ variable f t = Some tv /\ starts_like (v_dims v) (v_dims tv).
Proof.
  unfold variable_names. destruct (select float_of (f :: rest)) as [s|] eqn:S; [|discriminate]. cbn [bind]. intros [= <-] D n. destruct (select_sound float_of f rest s S) as (t' & la' & lo' & al' & p' & D' & _ & (ET & _) & _ & TM). destruct (described_unique _ _ _ _ _ _ _ _ _ D D') as (<- & _).
  destruct (TM f rest eq_refl) as (tv & Et & Ed). rewrite ET in Et. rewrite in_map_iff. split.
  - intros ([n' v] & <- & H). apply filter_In in H. destruct H as [H C]. cbn [snd] in C. apply andb_true_iff in C. destruct C as [C1 C2]. exists v, tv. split; auto. split; [intros X; rewrite X in C1; discriminate|]. split; auto. rewrite <- Ed. apply compatible_spec. exact C2.
  - intros (v & tv' & Hin & N & Et' & SL). rewrite Et in Et'. injection Et' as <-. exists (n, v). split; auto. apply filter_In. split; auto. cbn [snd]. apply andb_true_iff. split; [destruct (v_dims v); [congruence|reflexivity]|]. rewrite Ed. apply compatible_spec. exact SL.
Qed.
Theorem never_guessed f rest name d : forall convert, read_raf float_of convert (f :: rest) name = Ok d -> exists t la lo al p, described f t la lo al /\ pressure_named f p.
Proof.
  intros convert E. unfold read_raf in E. destruct (create_data_object float_of convert (f :: rest) name) as [d0|] eqn:C; [|discriminate]. destruct (create_parts float_of convert f rest name d0 C) as (s & _ & _ & _ & _ & _ & S & _). destruct (select_sound float_of f rest s S) as (t & la & lo & al & p & D & P & _). exists t, la, lo, al, p. auto.
Qed.
End Names.
Theorem file_types is_file attrs : (exists ft, file_format is_file attrs = Ok ft) <->
  is_file = true /\ exists l, attrs = Some l /\ (attribute (mkFile l []) (lit "GASSP_Version") <> None \/ attribute (mkFile l []) (lit "Conventions") = Some (Txt (lit "NCAR-RAF/nimbus"))).
Proof.
  unfold file_format. destruct is_file; cbn [negb]; [|split; [intros (ft & E); discriminate|intros [E _]; discriminate]]. destruct attrs as [l|]; [|split; [intros (ft & E); discriminate|intros (_ & l & E & _); discriminate]]. rewrite !attr_of_eq. split.
  - intros (ft & E). split; auto. exists l. split; auto. destruct (attribute (mkFile l []) (lit "GASSP_Version")); [left; discriminate|right]. destruct (attribute (mkFile l []) (lit "Conventions")) as [[c|]|]; try discriminate. destruct (str_eqb c (lit "NCAR-RAF/nimbus")) eqn:X; [apply str_eqb_eq in X; congruence|discriminate].
  - intros (_ & l' & [= <-] & [H|H]); [destruct (attribute (mkFile l []) (lit "GASSP_Version")); [eauto|congruence]|]. rewrite H, str_eqb_refl. destruct (attribute (mkFile l []) (lit "GASSP_Version")); eauto.
Qed.
