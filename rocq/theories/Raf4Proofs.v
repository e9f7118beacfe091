(** Proofs for C71: files that can be read are read. *)
From Coq Require Import String.
From Verif Require Import Base PyStr QBase DateModel DateProofs FileListModel AeroModel UngrModel UngrSpec UngrProofs GU3Proofs GU5Proofs GG3Proofs RafModel RafSpec RafProofs Raf2Proofs Raf3Proofs.
From Coq Require Import List Lia.
Import ListNotations.
Open Scope string_scope. Open Scope list_scope. Open Scope nat_scope. Notation length := List.length.

Lemma concat_fold_ok tail l : Forall (fun a : arr => exists n, fst a = n :: tail) l -> forall a n, fst a = n :: tail -> exists r, fold_left (fun acc b => bind acc (fun a => concat2 a b)) l (Ok a) = Ok r.
Proof.
  induction 1 as [|b l (m & Hb) F IH]; intros a n Ha; [exists a; reflexivity|]. cbn [fold_left bind]. unfold concat2. rewrite Ha, Hb. destruct (list_eq_dec Nat.eq_dec tail tail); [|congruence]. eapply IH. reflexivity.
Qed.
Lemma concat_arrays_ok tail l : l <> [] -> Forall (fun a : arr => exists n, fst a = n :: tail) l -> exists r, concat_arrays l = Ok r.
Proof. intros N F. destruct l as [|a l]; [congruence|]. apply Finv in F. destruct F as [(n & Ha) F]. eapply concat_fold_ok; eauto. Qed.
Lemma F2_nonempty {A B} (R : A -> B -> Prop) l m : l <> [] -> Forall2 R l m -> m <> [].
Proof. intros N F. destruct F; congruence. Qed.
Lemma cne {A} (x : A) l : x :: l <> [].
Proof. discriminate. Qed.
Lemma append_fresh l c : (forall b, In b l -> std_eqb (c_std c) (c_std b) = false) -> coords_append l c = Ok (l ++ [c]).
Proof.
  intros H. unfold coords_append. replace (existsb (coord_eq c) l) with false; [reflexivity|]. symmetry. apply not_true_is_false. intros X. apply existsb_exists in X. destruct X as (b & Hb & Eb). unfold coord_eq in Eb. rewrite (H b Hb) in Eb. discriminate.
Qed.
Lemma map_reading_exists (rd : attr -> Q -> Prop) parse n files : (forall a q, parse a = Ok q <-> rd a q) -> (forall g, In g files -> exists v q, attribute g n = Some v /\ rd v q) -> exists l, map_res (fun g => bind (attr_or_key_error g n) parse) files = Ok l.
Proof.
  intros HP H. destruct (map_res_F2 (fun g => bind (attr_or_key_error g n) parse) (fun _ _ => True) files) as (m & E & _); [|exists m; exact E]. intros g Hg. destruct (H g Hg) as (v & q & Ev & R). exists q. split; auto. apply (attr_reading rd parse); auto. exists v. auto.
Qed.

Section Raf.
Variable float_of : str -> option Q.
Variable convert : str -> option attr -> res (Q -> Q).

Lemma positions_complete f rest t la lo al p name tail : described f t la lo al -> Forall (can_be_read float_of convert f t la lo al p name tail) (f :: rest) -> exists s, positions float_of (f :: rest) f = Ok s.
Proof.
  intros D R. rewrite Forall_forall in R. unfold positions. destruct D as [t la lo al T La Lo Al|t la lo T La Lo Al|t T La SLa SLo|s t la lo al T C W H].
  - assert (HT : has_attr f (lit "Time_Coordinate") = true) by (apply has_attr_true; destruct T; congruence). rewrite HT, (proj2 (coordinate_variable_ok f _ _) T). cbn [bind].
    assert (HL : has_attr f (lit "Latitude_Coordinate") = true) by (apply has_attr_true; destruct La; congruence). rewrite HL. unfold lat_lon_specified. rewrite (proj2 (coordinate_variable_ok f _ _) La). cbn [bind]. rewrite (proj2 (coordinate_variable_ok f _ _) Lo). cbn [bind].
    assert (HV : has_attr f (lit "Vertical_Coordinate") = true) by (apply has_attr_true; destruct Al; congruence). rewrite HV, (proj2 (coordinate_variable_ok f _ _) Al). cbn [bind]. eauto.
  - assert (HT : has_attr f (lit "Time_Coordinate") = true) by (apply has_attr_true; destruct T; congruence). rewrite HT, (proj2 (coordinate_variable_ok f _ _) T). cbn [bind].
    assert (HL : has_attr f (lit "Latitude_Coordinate") = true) by (apply has_attr_true; destruct La; congruence). rewrite HL. unfold lat_lon_specified. rewrite (proj2 (coordinate_variable_ok f _ _) La). cbn [bind]. rewrite (proj2 (coordinate_variable_ok f _ _) Lo). cbn [bind].
    apply has_attr_false in Al. rewrite Al. eauto.
  - assert (HT : has_attr f (lit "Time_Coordinate") = true) by (apply has_attr_true; destruct T; congruence). rewrite HT, (proj2 (coordinate_variable_ok f _ _) T). cbn [bind]. apply has_attr_false in La. rewrite La. apply has_attr_true in SLa. rewrite SLa. unfold stationary.
    destruct (map_reading_exists (reads float_of) (parse_lat_lon float_of) (lit "Station_Lat") (f :: rest) (parse_lat_lon_ok float_of)) as (lats & ->). { intros g Hg. destruct (R g Hg) as (_ & _ & _ & H & _). apply H. auto. }
    cbn [bind]. apply has_attr_true in SLo. rewrite SLo. cbn [negb].
    destruct (map_reading_exists (reads float_of) (parse_lat_lon float_of) (lit "Station_Lon") (f :: rest) (parse_lat_lon_ok float_of)) as (lons & ->). { intros g Hg. destruct (R g Hg) as (_ & _ & _ & H & _). apply H. auto. }
    cbn [bind]. destruct (has_attr f (lit "Station_Altitude")) eqn:HA; [|cbn [bind]; eauto]. apply has_attr_true in HA.
    destruct (map_reading_exists (reads_height float_of) (parse_altitude float_of) (lit "Station_Altitude") (f :: rest) (parse_altitude_ok float_of)) as (alts & ->); [|cbn [bind]; eauto].
    intros g Hg. destruct (R g Hg) as (_ & _ & _ & _ & H & _). apply H. destruct (attribute f (lit "Station_Altitude")); [reflexivity|congruence].
  - apply has_attr_false in T. rewrite T. assert (HC : has_attr f (lit "Coordinates") = true) by (apply has_attr_true; congruence). rewrite HC. unfold best_coordinates. rewrite attr_of_eq, C, (words_unique _ _ W).
    replace (forallb (has_var f) [lo; la; al; t]) with true; [eauto|]. symmetry. apply forallb_forall. intros n Hn. apply has_var_true. apply H. exact Hn.
Qed.
Lemma described_file f t la lo al : described f t la lo al -> variable f t <> None /\ length (f_vars f) <> 0 /\ length (f_attrs f) <> 0.
Proof.
  intros D. assert (V : variable f t <> None /\ exists a, attribute f a <> None).
  { destruct D as [? ? ? ? [T1 T2]|? ? ? [T1 T2]|? [T1 T2]|s t la lo al T C W H]; [split; [exact T2|]; eexists; rewrite T1; discriminate..|split; [apply H; cbn; auto|exists (lit "Coordinates"); congruence]]. }
  destruct V as (V & a & A). split; auto. split.
  - intros L. apply V. unfold variable. destruct (f_vars f); [reflexivity|discriminate].
  - intros L. apply A. unfold attribute. destruct (f_attrs f); [reflexivity|discriminate].
Qed.
Lemma select_complete f rest t la lo al p name tail : described f t la lo al -> Forall (can_be_read float_of convert f t la lo al p name tail) (f :: rest) -> exists s, select float_of (f :: rest) = Ok s.
Proof.
  intros D R. destruct (described_file _ _ _ _ _ D) as (V & LV & LA). unfold select. rewrite (proj2 (Nat.eqb_neq _ _) LV), (proj2 (Nat.eqb_neq _ _) LA). cbn [orb]. fold (positions float_of (f :: rest) f).
  destruct (positions_complete _ _ _ _ _ _ _ _ _ D R) as (s & E). rewrite E. cbn [bind]. apply positions_sound in E. destruct E as (t' & la' & lo' & al' & D' & (ET & _)). destruct (described_unique _ _ _ _ _ _ _ _ _ D D') as (<- & _). rewrite ET, var_of_eq.
  assert (ST : exists st, (if has_attr f (lit "Time_Stamp_Info") then bind (map_res (fun g => attr_or_key_error g (lit "Time_Stamp_Info")) (f :: rest)) (fun l => Ok (Some l)) else Ok None) = Ok st).
  { destruct (has_attr f (lit "Time_Stamp_Info")) eqn:HS; [|eauto]. apply has_attr_true in HS. destruct (map_res_F2 (fun g => attr_or_key_error g (lit "Time_Stamp_Info")) (fun _ _ => True) (f :: rest)) as (m & -> & _); [|cbn [bind]; eauto].
    intros g Hg. rewrite Forall_forall in R. destruct (R g Hg) as (_ & _ & _ & _ & _ & H). specialize (H HS). unfold attr_or_key_error. rewrite attr_of_eq. destruct (attribute g (lit "Time_Stamp_Info")); [eauto|congruence]. }
  destruct ST as (st & ->). cbn [bind]. destruct (variable f t); [cbn [bind]; eauto|congruence].
Qed.
Lemma column_exists files x : (forall g, In g files -> variable g x <> None) -> exists vs, column files x = Ok vs /\ Forall2 (fun g v => variable g x = Some v) files vs.
Proof.
  intros H. destruct (map_res_F2 (fun f => match var_of f x with Some v => Ok v | None => Raises InvalidVariableError end) (fun _ _ => True) files) as (vs & E & _).
  - intros g Hg. specialize (H g Hg). rewrite var_of_eq. destruct (variable g x); [eauto|congruence].
  - exists vs. split; [exact E|]. apply column_ok. exact E.
Qed.
Lemma variable_coord_exists f rest t la lo al p name tail axis std x : Forall (can_be_read float_of convert f t la lo al p name tail) (f :: rest) -> needed la lo al p name x -> exists c, variable_coord (f :: rest) axis std (Some x) = Ok c.
Proof.
  intros R N. rewrite Forall_forall in R. unfold variable_coord, create_coord. destruct (column_exists (f :: rest) x) as (vs & -> & V). { intros g Hg. destruct (R g Hg) as (_ & _ & H & _). apply H. exact N. }
  cbn [bind]. destruct (concat_arrays_ok tail (map array_of vs)) as (a & ->); [intros X; apply (F2_nonempty _ _ _ (cne _ _) V); destruct vs; [reflexivity|discriminate]| |cbn [bind]; eauto].
  apply Forall_forall. intros a Ha. apply in_map_iff in Ha. destruct Ha as (v & <- & Hv). apply In_nth_error in Hv. destruct Hv as (i & Hi). destruct (F2_nth _ _ _ V _ _ Hi) as (g & Hg & Ev). apply nth_error_In in Hg.
  destruct (R g Hg) as (_ & (vt & n & Et & Sh & _) & H & _). destruct (H x N) as [_ O]. destruct (O _ _ Et Ev) as [_ E]. exists n. cbn [array_of fst]. congruence.
Qed.
Theorem read_complete f rest t la lo al p name tail : described f t la lo al -> pressure_named f p -> stamps_alike (f :: rest) -> Forall (can_be_read float_of convert f t la lo al p name tail) (f :: rest) -> exists d, read_raf float_of convert (f :: rest) name = Ok d.
Proof.
  intros D P SA R. destruct (select_complete _ _ _ _ _ _ _ _ _ D R) as (s & ES). destruct (select_sound float_of f rest s ES) as (t' & la' & lo' & al' & p' & D' & P' & SV & ST & TM). destruct (described_unique _ _ _ _ _ _ _ _ _ D D') as (<- & <- & <- & <-).
  rewrite <- (pressure_unique _ _ _ P P') in *. clear p' P' D'. pose proof (fun axis std x => variable_coord_exists f rest t la lo al p name tail axis std x R) as VC. assert (R' := R). rewrite Forall_forall in R'.
  assert (NE : forall x, needed la lo al p name x -> exists vs, column (f :: rest) x = Ok vs /\ Forall2 (fun g v => variable g x = Some v) (f :: rest) vs).
  { intros x N. apply column_exists. intros g Hg. destruct (R' g Hg) as (_ & _ & H & _). apply H. exact N. }
  assert (NT : exists ts, column (f :: rest) t = Ok ts /\ Forall2 (fun g v => variable g t = Some v) (f :: rest) ts).
  { apply column_exists. intros g Hg. destruct (R' g Hg) as (_ & (vt & n & Et & _) & _). congruence. }
  assert (CR : exists d0, create_data_object float_of convert (f :: rest) name = Ok d0).
  { unfold create_data_object. rewrite ES. cbn [bind].
    assert (LD : exists l, load (f :: rest) s (Some name) = Ok l).
    { unfold load. destruct (map_res_F2 (column (f :: rest)) (fun _ _ => True) (s_time s :: opt_list (s_lat s) ++ opt_list (s_lon s) ++ opt_list (s_alt s) ++ opt_list (s_pressure s) ++ opt_list (Some name))) as (l & -> & _); [|eauto].
      intros x Hx. assert (HX : x = t \/ needed la lo al p name x).
      { destruct Hx as [<-|Hx]; [left; destruct SV as (-> & _); reflexivity|right]. rewrite !in_app_iff in Hx. destruct SV as (_ & EP & LL & AL). rewrite EP in Hx. unfold needed. cbn [opt_list In] in Hx.
        destruct Hx as [Hx|[Hx|[Hx|[Hx|[<-|[]]]]]]; auto.
        - destruct LL as [(n & m & -> & _ & _ & El & _)|(_ & _ & El & _)]; rewrite El in Hx; cbn in Hx; [destruct Hx as [->|[]]; auto|contradiction].
        - destruct LL as [(n & m & _ & -> & _ & _ & El)|(_ & _ & _ & El & _)]; rewrite El in Hx; cbn in Hx; [destruct Hx as [->|[]]; auto|contradiction].
        - destruct AL as [(n & -> & El & _)|[(_ & El & _)|(_ & El & _)]]; rewrite El in Hx; cbn in Hx; [destruct Hx as [->|[]]; auto 6|contradiction..]. }
      destruct HX as [->|N]; [destruct NT as (ts & E & _); eauto|destruct (NE x N) as (vs & E & _); eauto]. }
    destruct LD as (ld & ->). cbn [bind].
    assert (CC : exists cs, create_coordinates_list convert (f :: rest) s = Ok cs).
    { unfold create_coordinates_list. destruct SV as (ET & EP & LL & AL). rewrite ET. destruct NT as (ts & -> & VT). cbn [bind].
      assert (TC : exists tc, create_time_coord convert (s_stamps s) t ts = Ok tc /\ c_std tc = Some (lit "time")).
      { unfold create_time_coord. assert (Z : Forall2 (fun f vt => variable f t = Some (fst vt) /\ snd vt = attribute f (lit "Time_Stamp_Info")) (f :: rest) (zip_stamps ts (match s_stamps s with Some l => map Some l | None => [None] end))).
        { unfold stamped in ST. destruct (s_stamps s) as [l|]; [apply zip_some; auto|]. apply zip_none; auto. intros g [<-|Hg]; [apply (ST f rest); auto|]. apply (SA f rest); auto. apply (ST f rest); auto. }
        set (zs := zip_stamps ts _) in *. clearbody zs.
        destruct (map_res_F2 (fun vt : nvar * option attr => bind (convert (v_units (fst vt)) (snd vt)) (fun g => Ok (v_shape (fst vt), map (option_map g) (v_data (fst vt))))) (fun _ (a : arr) => exists n, fst a = n :: tail) zs) as (m & -> & Fm).
        { intros vt Hvt. apply In_nth_error in Hvt. destruct Hvt as (i & Hi). destruct (F2_nth _ _ _ Z _ _ Hi) as (g & Hg & E1 & E2). apply nth_error_In in Hg. destruct (R' g Hg) as (_ & (v0 & n & Ev0 & Sh & h & Ch) & _). rewrite Ev0 in E1. injection E1 as E1. rewrite <- E1, E2, Ch. cbn [bind]. eexists. split; [reflexivity|]. exists n. exact Sh. }
        cbn [bind]. destruct (concat_arrays_ok tail m) as (a & ->); [exact (F2_nonempty _ _ _ (F2_nonempty _ _ _ (cne _ _) Z) Fm)| |cbn [bind]; eexists; split; reflexivity]. clear - Fm. induction Fm; constructor; auto. }
      destruct TC as (tc & -> & TS). cbn [bind].
      assert (LLE : exists lac loc, match s_station s with
         | Some (lats, lons) => Ok (create_fixed_value_coord (lit "Y") (lit "latitude") lats (map (fun v => size (v_shape v)) ts), create_fixed_value_coord (lit "X") (lit "longitude") lons (map (fun v => size (v_shape v)) ts))
         | None => bind (variable_coord (f :: rest) (lit "Y") (lit "latitude") (s_lat s)) (fun la => bind (variable_coord (f :: rest) (lit "X") (lit "longitude") (s_lon s)) (fun lo => Ok (la, lo)))
         end = Ok (lac, loc) /\ c_std lac = Some (lit "latitude") /\ c_std loc = Some (lit "longitude")).
      { destruct LL as [(n & m & EL & EO & -> & -> & ->)|(EL & EO & _ & _ & lats & lons & -> & _)]; [|eexists; eexists; split; [reflexivity|]; split; reflexivity].
        destruct (VC (lit "Y") (lit "latitude") n) as (c1 & E1); [unfold needed; auto|]. destruct (VC (lit "X") (lit "longitude") m) as (c2 & E2); [unfold needed; auto|]. exists c1, c2. rewrite E1. cbn [bind]. rewrite E2. cbn [bind]. split; [reflexivity|].
        unfold variable_coord, create_coord in E1, E2. destruct (column (f :: rest) n); [|discriminate]. cbn [bind] in E1. destruct (concat_arrays _); [|discriminate]. injection E1 as <-. destruct (column (f :: rest) m); [|discriminate]. cbn [bind] in E2. destruct (concat_arrays (map array_of a1)); [|discriminate]. injection E2 as <-. split; reflexivity. }
      destruct LLE as (lac & loc & -> & SLa & SLo). cbn [bind fst snd].
      assert (ALE : exists alc, match s_altitude s with Some alts => Ok (create_fixed_value_coord (lit "Z") (lit "altitude") alts (map (fun v => size (v_shape v)) ts)) | None => variable_coord (f :: rest) (lit "Z") (lit "altitude") (s_alt s) end = Ok alc /\ c_std alc = Some (lit "altitude")).
      { destruct AL as [(n & EA & -> & ->)|[(_ & _ & l & -> & _)|(_ & _ & ->)]]; [|eexists; split; reflexivity..]. destruct (VC (lit "Z") (lit "altitude") n) as (c1 & E1); [unfold needed; auto 6|]. exists c1. split; [exact E1|].
        unfold variable_coord, create_coord in E1. destruct (column (f :: rest) n); [|discriminate]. cbn [bind] in E1. destruct (concat_arrays _); [|discriminate]. injection E1 as <-. reflexivity. }
      destruct ALE as (alc & -> & SAl). cbn [bind].
      assert (AP : append_all [] [tc; lac; loc; alc] = Ok [tc; lac; loc; alc]). { cbn [append_all]. rewrite append_fresh by (intros b []). cbn [bind app]. rewrite append_fresh by (intros b [<-|[]]; rewrite TS, SLa; reflexivity). cbn [bind app]. rewrite append_fresh by (intros b [<-|[<-|[]]]; rewrite SLo, ?TS, ?SLa; reflexivity). cbn [bind app].
        rewrite append_fresh by (intros b [<-|[<-|[<-|[]]]]; rewrite SAl, ?TS, ?SLa, ?SLo; reflexivity). reflexivity. }
      rewrite AP. cbn [bind]. destruct (s_pressure s) as [pn|] eqn:EPN; [|eauto]. destruct (VC (lit "P") (lit "air_pressure") pn) as (pc & E1); [unfold needed; rewrite <- EP; cbn; auto|]. rewrite E1. cbn [bind].
      unfold variable_coord, create_coord in E1. destruct (column (f :: rest) pn); [|discriminate]. cbn [bind] in E1. destruct (concat_arrays _); [|discriminate]. injection E1 as <-. eexists. apply append_fresh. cbn [c_std]. intros b [<-|[<-|[<-|[<-|[]]]]]; rewrite ?TS, ?SLa, ?SLo, ?SAl; reflexivity. }
    destruct CC as (cs & ->). cbn [bind]. destruct (NE name) as (vs & EV & V); [unfold needed; auto|].
    assert (FA : find_auxiliary_coordinate f s name = Ok None).
    { unfold find_auxiliary_coordinate. rewrite var_of_eq. pose proof (F2inv _ _ _ _ V) as (v0 & vs' & _ & Ev0 & _). rewrite Ev0. destruct (TM f rest eq_refl) as (vt & Et & Ed). destruct SV as (ET & _). rewrite ET in Et. destruct (R' f (or_introl eq_refl)) as (_ & _ & H & _). destruct (H name) as [_ O]; [unfold needed; auto|]. destruct (O _ _ Et Ev0) as [DD _].
      match goal with |- match ?F with _ => _ end = _ => replace F with (@nil str); [reflexivity|] end. symmetry. assert (KN : forall d, In d (v_dims v0) -> In d (opt_list (s_lat s) ++ opt_list (s_lon s) ++ opt_list (s_alt s) ++ opt_list (s_pressure s) ++ s_time_dims s)) by (intros d1 Hd; rewrite Ed, <- DD, !in_app_iff; auto).
      clear - KN. induction (v_dims v0) as [|d1 l IH]; [reflexivity|]. cbn [filter]. replace (existsb (str_eqb d1) _) with true; [cbn [negb]; apply IH; intros; apply KN; right; auto|]. symmetry. apply existsb_exists. exists d1. split; [apply KN; left; auto|apply str_eqb_refl]. }
    rewrite FA. cbn [bind]. rewrite EV. cbn [bind]. destruct (VC [] [] name) as (c & E1); [unfold needed; auto|]. unfold variable_coord, create_coord in E1. rewrite EV in E1. cbn [bind] in E1. destruct (concat_arrays (map array_of vs)); [cbn [bind]; eauto|discriminate]. }
  destruct CR as (d0 & C). destruct (rows_plain0 float_of convert f rest name d0 t la lo al p C D P) as (d & E & _); auto.
  - eapply Forall_impl; [|exact R]. intros g H. apply H.
  - eapply Forall_impl; [|exact R]. intros g (_ & _ & H & _). unfold source_on_times. repeat split; intros; try (eapply H; [|eassumption|eassumption]; unfold needed; auto 6).
    all: try (apply (H n); unfold needed; auto 6). all: try (apply (H name); unfold needed; auto 6).
  - exists d. unfold read_raf. rewrite C. exact E.
Qed.
End Raf.
