(** Proofs for C74: the files together. *)
From Coq Require Import String.
From Verif Require Import Base PyStr QBase DateModel DateProofs FileListModel FileListProofs AeroModel AeroSpec AeroProofs ProdModel UngrModel UngrSpec UngrProofs GU2Proofs GG3Proofs RafModel Raf2Proofs Raf4Proofs HdfModel HdfSpec HdfProofs Hdf2Proofs Hdf3Proofs SunModel SunSpec SunProofs.
From Coq Require Import List Ascii Lia.
Import ListNotations.
Open Scope string_scope. Open Scope list_scope. Open Scope nat_scope. Notation length := List.length.

Lemma F2_const {A B} (P : A -> B -> Prop) (l : list A) (b : B) {C} (l' : list C) (g : A -> C) : l' = map g l -> (forall a, In a l -> P a b) -> Forall2 P l (map (fun _ => b) l').
Proof. intros -> H. rewrite map_map. apply F2_map_r. induction l as [|a l IH]; constructor; [apply H; left; auto|apply IH; intros; apply H; right; auto]. Qed.
Lemma v2_cases v : is_man v = false -> is_2 v = true -> version2 v.
Proof. unfold version2. destruct v; cbn; auto; discriminate. Qed.
Lemma man_cases v : is_man v = true <-> maritime v.
Proof. unfold maritime. destruct v; cbn; split; auto; try discriminate; intros [?|?]; discriminate. Qed.
Lemma not2_cases v : is_2 v = false -> ~ version2 v /\ ~ maritime v.
Proof. unfold version2, maritime. destruct v; cbn; try discriminate; split; intros [?|?]; discriminate. Qed.
Lemma man_not2 v : is_man v = true -> ~ version2 v.
Proof. unfold version2. destruct v; cbn; try discriminate; intros _ [?|?]; discriminate. Qed.

Section Sun.
Variable float_of : str -> option Q.
Variable stamp : str -> str -> option Q.
Notation load := (load_aeronet float_of stamp).
Section File.
Variables (f : afile) (names : list str) (variable : str).
Hypothesis H : header_ok f.
Hypothesis WF : well_formed float_of stamp f names.
Hypothesis NI : numbers_in float_of f names variable.
Hypothesis PV : plain_variable variable.
Definition wanted : list (str * (str -> option Q -> Prop)) :=
  [(lit "longitude", longitude_of float_of f names); (lit "latitude", latitude_of float_of f names); (lit "altitude", altitude_of float_of f names); (lit "datetime", time_of_line stamp names); (variable, fun line => in_column float_of f names line variable)].
Notation recs := (records (snd f) names (fst f)).
Let cols := filter (fun c => isin c names) [lit "date"; lit "time"; lit "latitude"; lit "longitude"; lit "altitude"] ++ [variable].
Let numcols := nodup str_eq_dec (filter (fun c => negb (isin c [lit "date"; lit "time"])) cols).
Lemma in_numcols c : In c numcols <-> c = variable \/ (In c [lit "latitude"; lit "longitude"; lit "altitude"] /\ In c names).
Proof.
  unfold numcols, cols. rewrite nodup_In, filter_In, Bool.negb_true_iff, isin_not, in_app_iff, filter_In, isin_iff. cbn [In]. unfold plain_variable in PV. cbn [In] in PV. split.
  - intros [[[[<-|[<-|[<-|[<-|[<-|[]]]]]] Hn]|[->|[]]] N]; try (exfalso; apply N; solve [auto]); auto 8.
  - intros [->|[[<-|[<-|[<-|[]]]] Hn]]; (split; [|intros [X|[X|[]]]; try discriminate X; subst; tauto]); auto 10.
Qed.
Lemma numcols_numbers c : In c numcols -> numbers_in float_of f names c.
Proof. intros Hc. apply in_numcols in Hc. destruct Hc as [->|[Hc Hn]]; [exact NI|]. split; [exact Hn|]. intros l s Hl Fl. apply (w_numbers _ _ _ _ WF l c s Hl Hc Fl). Qed.
Lemma checks_pass : nodups names && forallb (fun c => isin c names) (lit "date" :: lit "time" :: cols) = true.
Proof.
  apply Bool.andb_true_iff. split; [apply nodups_iff, (w_distinct _ _ _ _ WF)|]. apply forallb_forall. intros c Hc. apply isin_iff. destruct Hc as [<-|[<-|Hc]]; [apply (w_date _ _ _ _ WF)|apply (w_time _ _ _ _ WF)|].
  unfold cols in Hc. apply in_app_iff in Hc. destruct Hc as [Hc|[<-|[]]]; [apply filter_In in Hc; apply isin_iff, Hc|apply NI].
Qed.
Lemma numbers_found : exists numbers, map_res (fun c => bind (map_res (fun r => csv_number float_of (snd f) (cell names c r)) recs) (fun l => Ok (c, l))) numcols = Ok numbers /\ map fst numbers = numcols /\
  forall c, In c numcols -> exists l, dict_get numbers c = Some l /\ Forall2 (fun line => in_column float_of f names line c) (data_lines f) l.
Proof.
  destruct (map_res_F2 (fun c => bind (map_res (fun r => csv_number float_of (snd f) (cell names c r)) recs) (fun l => Ok (c, l))) (fun _ _ => True) numcols) as (numbers & E & _).
  { intros c Hc. destruct (numbers_column float_of stamp f names H WF c (numcols_numbers c Hc)) as (l & El & _). exists (c, l). rewrite El. auto. }
  exists numbers. split; [exact E|]. destruct (keyed_columns _ _ _ E) as [K1 K2]. split; [exact K1|]. intros c Hc. destruct (K2 c Hc (NoDup_nodup _ _)) as (l & G & El). exists l. split; [exact G|].
  destruct (numbers_column float_of stamp f names H WF c (numcols_numbers c Hc)) as (l' & El' & F). cbv beta in El. rewrite El in El'. injection El' as <-. exact F.
Qed.
Definition nothing : list (str * list (option Q)) := [(lit "datetime", []); (lit "latitude", []); (lit "longitude", []); (lit "altitude", [])].
Lemma load_ok : exists d, load (fst f) [variable] = Ok d /\ NoDup (map fst d) /\
  (forall k R, In (k, R) wanted -> exists l, Forall2 R (data_lines f) l /\ (dict_get d k = Some l \/ (dict_get d k = None /\ l = []))) /\ (data_lines f = [] -> d = nothing).
Proof.
  unfold load_aeronet. destruct H as [V HB]. rewrite (proj2 (version_of _ _) V). cbn [bind]. rewrite (column_names_vars f names V (w_names _ _ _ _ WF)). cbn [bind].
  destruct (names_length f names (w_names _ _ _ _ WF)) as [_ NE]. destruct numbers_found as (numbers & EN & KN & GN). destruct (times_column float_of stamp f names H WF) as (ts & ET & FT).
  pose proof checks_pass as CP. pose proof (recs_are float_of stamp f names H WF) as RA. pose proof in_numcols as IN.
  assert (M : forall X Y : res (list (str * list (option Q))), match names with [] => X | _ :: _ => Y end = Y) by (clear -NE; intros; destruct names; congruence). rewrite M. cbv zeta. fold cols. rewrite CP. cbn [negb]. fold numcols. rewrite EN.
  destruct recs as [|r0 rl] eqn:ER.
  - assert (DL : data_lines f = []) by (destruct (data_lines f); [reflexivity|discriminate RA]). eexists. split; [reflexivity|]. split; [apply (nodupb_ok str_eq_dec); vm_compute; reflexivity|]. split; [|reflexivity].
    intros k R Hk. exists []. rewrite DL. split; [constructor|]. unfold wanted in Hk. unfold plain_variable in PV. cbn [In] in Hk, PV. destruct Hk as [E|[E|[E|[E|[E|[]]]]]]; injection E as <- _; try (left; reflexivity).
    right. split; [|reflexivity]. cbn [dict_get]. repeat (destruct (str_eq_dec _ _) as [X|_]; [exfalso; rewrite X in PV; tauto|]). reflexivity.
  - assert (DN : data_lines f <> []) by (intros X; rewrite X in RA; discriminate RA). rewrite <- ER in *. clear r0 rl ER. rewrite ET. cbn [bind].
    assert (ND : NoDup (map fst ((lit "datetime", ts) :: numbers))).
    { cbn [map fst]. rewrite KN. constructor; [|apply NoDup_nodup]. rewrite IN. unfold plain_variable in PV. cbn [In] in *. intros [X|[[X|[X|[X|[]]]] _]]; try discriminate X. apply PV. auto. }
    assert (GD : forall c, In c numcols -> exists l, dict_get ((lit "datetime", ts) :: numbers) c = Some l /\ Forall2 (fun line => in_column float_of f names line c) (data_lines f) l).
    { intros c Hc. cbn [dict_get]. destruct (str_eq_dec _ _) as [X|_]; [exfalso|apply GN, Hc]. subst c. apply IN in Hc. unfold plain_variable in PV. cbn [In] in *. destruct Hc as [X|[[X|[X|[X|[]]]] _]]; try discriminate X. apply PV. auto. }
    assert (GT : dict_get ((lit "datetime", ts) :: numbers) (lit "datetime") = Some ts) by (cbn [dict_get]; destruct (str_eq_dec _ _); congruence).
    set (raw := (lit "datetime", ts) :: numbers) in *. clearbody raw.
    assert (GV : exists l, dict_get raw variable = Some l /\ Forall2 (fun line => in_column float_of f names line variable) (data_lines f) l) by (apply GD, IN; auto).
    assert (PV' : ~ In variable [lit "longitude"; lit "latitude"; lit "altitude"]) by (unfold plain_variable in PV; cbn [In] in *; tauto).
    destruct (is_man (snd f)) eqn:IM; [|destruct (is_2 (snd f)) eqn:I2].
    + eexists. split; [reflexivity|]. split; [apply dict_set_nodup, ND|]. split; [|contradiction]. pose proof (man_not2 _ IM) as N2. assert (MA : maritime (snd f)) by (apply man_cases, IM).
      assert (GL : forall c, In c [lit "latitude"; lit "longitude"] -> exists l, dict_get raw c = Some l /\ Forall2 (fun line => in_column float_of f names line c) (data_lines f) l).
      { intros c Hc. apply GD, IN. right. split; [destruct Hc as [<-|[<-|[]]]; cbn; auto|]. destruct Hc as [<-|[<-|[]]]; [apply (w_lat _ _ _ _ WF N2)|apply (w_lon _ _ _ _ WF N2)]. }
      intros k R Hk. unfold wanted in Hk. cbn [In] in Hk. destruct Hk as [E|[E|[E|[E|[E|[]]]]]]; injection E as <- <-.
      * destruct (GL (lit "longitude")) as (l & G & F); [cbn; auto|]. exists l. rewrite dict_get_set. destruct (str_eq_dec _ _) as [X|_]; [discriminate X|]. split; [|auto]. eapply F2_imp; [|exact F]. cbn beta. intros. right. auto.
      * destruct (GL (lit "latitude")) as (l & G & F); [cbn; auto|]. exists l. rewrite dict_get_set. destruct (str_eq_dec _ _) as [X|_]; [discriminate X|]. split; [|auto]. eapply F2_imp; [|exact F]. cbn beta. intros. right. auto.
      * eexists. rewrite dict_get_set. destruct (str_eq_dec _ _) as [_|X]; [|exfalso; apply X; reflexivity]. split; [|left; reflexivity]. eapply F2_const; [exact RA|]. intros. right. left. auto.
      * exists ts. rewrite dict_get_set. destruct (str_eq_dec _ _) as [X|_]; [discriminate X|]. auto.
      * destruct GV as (l & G & F). exists l. rewrite dict_get_set. destruct (str_eq_dec _ _) as [X|_]; [exfalso; apply PV'; subst; cbn; auto|]. auto.
    + pose proof (v2_cases _ IM I2) as V2. destruct (w_header _ _ _ _ WF V2) as ((lon & E1) & (lat & E2) & (alt & E3)).
      rewrite (header_number_ok _ _ _ _ E1), (header_number_ok _ _ _ _ E2), (header_number_ok _ _ _ _ E3). cbn [bind]. eexists. split; [reflexivity|]. split; [repeat apply dict_set_nodup; exact ND|]. split; [|contradiction].
      intros k R Hk. unfold wanted in Hk. cbn [In] in Hk. rewrite !dict_get_set. destruct Hk as [E|[E|[E|[E|[E|[]]]]]]; injection E as <- <-;
        repeat match goal with |- context [str_eq_dec ?a ?b] => let X := fresh in destruct (str_eq_dec a b) as [X|X]; [try discriminate X; try (exfalso; apply PV'; rewrite <- X; cbn; tauto)|try (exfalso; apply X; reflexivity)] end.
      * eexists. split; [|left; reflexivity]. eapply F2_const; [exact RA|]. intros. left. split; [exact V2|]. eauto.
      * eexists. split; [|left; reflexivity]. eapply F2_const; [exact RA|]. intros. left. split; [exact V2|]. eauto.
      * eexists. split; [|left; reflexivity]. eapply F2_const; [exact RA|]. intros. left. split; [exact V2|]. eauto.
      * exists ts. auto.
      * destruct GV as (l & G & F). exists l. auto.
    + destruct (not2_cases _ I2) as [N2 NM]. eexists. split; [reflexivity|]. split; [exact ND|]. split; [|contradiction].
      assert (GL : forall c, In c [lit "latitude"; lit "longitude"; lit "altitude"] -> exists l, dict_get raw c = Some l /\ Forall2 (fun line => in_column float_of f names line c) (data_lines f) l).
      { intros c Hc. apply GD, IN. right. split; [exact Hc|]. destruct Hc as [<-|[<-|[<-|[]]]]; [apply (w_lat _ _ _ _ WF N2)|apply (w_lon _ _ _ _ WF N2)|apply (w_alt _ _ _ _ WF N2 NM)]. }
      intros k R Hk. unfold wanted in Hk. cbn [In] in Hk. destruct Hk as [E|[E|[E|[E|[E|[]]]]]]; injection E as <- <-.
      * destruct (GL (lit "longitude")) as (l & G & F); [cbn; auto|]. exists l. split; [|auto]. eapply F2_imp; [|exact F]. cbn beta. intros. right. auto.
      * destruct (GL (lit "latitude")) as (l & G & F); [cbn; auto|]. exists l. split; [|auto]. eapply F2_imp; [|exact F]. cbn beta. intros. right. auto.
      * destruct (GL (lit "altitude")) as (l & G & F); [cbn; auto|]. exists l. split; [|auto]. eapply F2_imp; [|exact F]. cbn beta. intros. right. right. auto.
      * exists ts. auto.
      * destruct GV as (l & G & F). exists l. auto.
Qed.
End File.
End Sun.
