(** Proofs for C80. *)
From Coq Require Import String.
From Verif Require Import Base PyStr QBase DateModel DateProofs UngrModel UngrSpec UngrProofs GU3Proofs GU5Proofs GG3Proofs RafModel RafSpec RafProofs Raf2Proofs Raf3Proofs Raf4Proofs HdfModel CciModel CciSpec.
From Coq Require Import List Lia Lqa.
Import ListNotations.
Open Scope string_scope. Open Scope list_scope. Open Scope nat_scope. Notation length := List.length.

Lemma column_total files x : (exists vs, column files x = Ok vs) \/ column files x = Raises InvalidVariableError.
Proof.
  unfold column. induction files as [|f files IH]; cbn [map_res]; [left; eauto|]. rewrite var_of_eq. destruct (variable f x); cbn [bind]; [|auto]. destruct IH as [(vs & ->)| ->]; cbn [bind]; eauto.
Qed.
Lemma column_all files x : (exists vs, column files x = Ok vs) <-> Forall (fun f => variable f x <> None) files.
Proof.
  split.
  - intros (vs & E). apply column_ok in E. induction E; constructor; auto. congruence.
  - intros F. rewrite Forall_forall in F. destruct (column_exists files x F) as (vs & E & _). eauto.
Qed.
Lemma read3 files a b c : (exists x y z, read_variables files [a; b; c] = Ok [x; y; z] /\ column files a = Ok x /\ column files b = Ok y /\ column files c = Ok z) \/ read_variables files [a; b; c] = Raises InvalidVariableError.
Proof.
  unfold read_variables. cbn [map_res]. destruct (column_total files a) as [(x & ->)| ->]; cbn [bind]; [|auto]. destruct (column_total files b) as [(y & ->)| ->]; cbn [bind]; [|auto]. destruct (column_total files c) as [(z & ->)| ->]; cbn [bind]; [|auto].
  left. exists x, y, z. auto.
Qed.
Lemma has_all3 files a b c : Forall (has_all [a; b; c]) files <-> (exists x, column files a = Ok x) /\ (exists x, column files b = Ok x) /\ (exists x, column files c = Ok x).
Proof.
  rewrite !column_all, !Forall_forall. unfold has_all. split.
  - intros H. split; [|split]; intros f Hf; apply (H f Hf); cbn; auto.
  - intros (A & B & C) f Hf n [<-|[<-|[<-|[]]]]; auto.
Qed.
(** what a successful reading went through *)
Definition built (k : cci) (files : list ncfile) (lo la : str) (cs : list coord) : Prop :=
  exists los las ts x y t, column files lo = Ok los /\ column files la = Ok las /\ column files (lit "time") = Ok ts /\
    cci_coord (lit "X") lo (fun x => x) los = Ok x /\ cci_coord (lit "Y") la (fun x => x) las = Ok y /\ cci_coord (lit "T") (lit "time") (fix_time k) ts = Ok t /\ append_all [] [x; y; t] = Ok cs.
Lemma coord_list_built k files cs : coord_list k files = Ok cs -> files <> [] /\ exists lo la, names_for files lo la /\ built k files lo la cs.
Proof.
  unfold coord_list. destruct files as [|f rest]; [discriminate|]. remember (f :: rest) as files eqn:EF. intros H. split; [subst; discriminate|].
  destruct (read3 files (lit "lon") (lit "lat") (lit "time")) as [(x & y & z & E & Ex & Ey & Ez)|E]; rewrite E in H.
  - cbn [bind] in H. exists (lit "lon"), (lit "lat"). split; [left; repeat (split; [reflexivity|]); apply has_all3; repeat split; eauto|].
    destruct (cci_coord (lit "X") _ _ x) as [cx|] eqn:CX; [|discriminate]. cbn [bind] in H. destruct (cci_coord (lit "Y") _ _ y) as [cy|] eqn:CY; [|discriminate]. cbn [bind] in H. destruct (cci_coord (lit "T") _ _ z) as [ct|] eqn:CT; [|discriminate]. cbn [bind] in H.
    exists x, y, z; exists cx, cy, ct; auto 10.
  - destruct (read3 files (lit "longitude") (lit "latitude") (lit "time")) as [(x & y & z & E' & Ex & Ey & Ez)|E']; rewrite E' in H; [|discriminate]. cbn [bind] in H. exists (lit "longitude"), (lit "latitude"). split.
    + right. repeat (split; [reflexivity|]). split; [|apply has_all3; repeat split; eauto]. intros F. apply has_all3 in F. destruct F as ((a & A) & (b & B) & (c & C)). unfold read_variables in E. cbn [map_res] in E. rewrite A in E. cbn [bind] in E. rewrite B in E. cbn [bind] in E. rewrite C in E. discriminate.
    + destruct (cci_coord (lit "X") _ _ x) as [cx|] eqn:CX; [|discriminate]. cbn [bind] in H. destruct (cci_coord (lit "Y") _ _ y) as [cy|] eqn:CY; [|discriminate]. cbn [bind] in H. destruct (cci_coord (lit "T") _ _ z) as [ct|] eqn:CT; [|discriminate]. cbn [bind] in H.
      exists x, y, z; exists cx, cy, ct; auto 10.
Qed.
Lemma built_coord_list k files lo la cs : files <> [] -> names_for files lo la -> built k files lo la cs -> coord_list k files = Ok cs.
Proof.
  intros N NF (los & las & ts & x & y & t & Elo & Ela & Et & CX & CY & CT & AP). unfold coord_list. destruct files as [|f rest]; [congruence|]. remember (f :: rest) as files eqn:EF. destruct NF as [(-> & -> & F)|(-> & -> & NF & F)].
  - assert (E : read_variables files [lit "lon"; lit "lat"; lit "time"] = Ok [los; las; ts]) by (unfold read_variables; cbn [map_res]; rewrite Elo; cbn [bind]; rewrite Ela; cbn [bind]; rewrite Et; reflexivity).
    rewrite E. cbn [bind]. rewrite CX. cbn [bind]. rewrite CY. cbn [bind]. rewrite CT. cbn [bind]. exact AP.
  - destruct (read3 files (lit "lon") (lit "lat") (lit "time")) as [(a & b & c & E & Ea & Eb & Ec)|E]; [exfalso; apply NF; apply has_all3; repeat split; eauto|]. rewrite E.
    assert (E' : read_variables files [lit "longitude"; lit "latitude"; lit "time"] = Ok [los; las; ts]) by (unfold read_variables; cbn [map_res]; rewrite Elo; cbn [bind]; rewrite Ela; cbn [bind]; rewrite Et; reflexivity).
    rewrite E'. cbn [bind]. rewrite CX. cbn [bind]. rewrite CY. cbn [bind]. rewrite CT. cbn [bind]. exact AP.
Qed.
Lemma names_unique files lo la lo' la' : names_for files lo la -> names_for files lo' la' -> lo = lo' /\ la = la'.
Proof. intros [(-> & -> & A)|(-> & -> & A & B)] [(-> & -> & C)|(-> & -> & C & D)]; try tauto; auto. Qed.

(** ** times *)
Lemma fix_time_days k x : (fix_time k x == days_since_1600 k x)%Q.
Proof.
  destruct k; cbn [fix_time days_since_1600].
  - unfold convert_julian_date_to_std_time. assert (E : (julian_ordinal std_ref == 4610895 # 2)%Q) by (vm_compute; reflexivity). rewrite E. reflexivity.
  - unfold convert_sec_since_to_std_time. assert (E : offset_days (mkDT 1970 1 1 0 0 0) = 135140%Z) by (vm_compute; reflexivity). rewrite E. unfold inject_Z. field.
Qed.
Lemma moments k t : valid_datetime t = true -> (days_since_1600 k (number_for k t) * 86400 == inject_Z (seconds_between std_ref t))%Q.
Proof.
  intros _. destruct k; cbn [days_since_1600 number_for].
  - unfold julian_date, seconds_between. change (toordinal (mkDT 2000 1 1 12 0 0)) with 730120%Z. change (seconds_of_day (mkDT 2000 1 1 12 0 0)) with 43200%Z. change (toordinal std_ref) with 584023%Z. change (seconds_of_day std_ref) with 0%Z.
    set (o := toordinal t). set (s := seconds_of_day t). rewrite !inject_Z_plus || idtac. unfold Z.sub. rewrite !inject_Z_plus, !inject_Z_mult, !inject_Z_plus, !inject_Z_opp. generalize (inject_Z o) (inject_Z s). intros a b. change (inject_Z 86400) with 86400%Q. change (inject_Z 730120) with 730120%Q. change (inject_Z 584023) with 584023%Q. change (inject_Z 43200) with 43200%Q. change (inject_Z 0) with 0%Q. field.
  - unfold seconds_between. change (toordinal (mkDT 1970 1 1 0 0 0)) with 719163%Z. change (seconds_of_day (mkDT 1970 1 1 0 0 0)) with 0%Z. change (toordinal std_ref) with 584023%Z. change (seconds_of_day std_ref) with 0%Z.
    set (o := toordinal t). set (s := seconds_of_day t). unfold Z.sub. rewrite !inject_Z_plus, !inject_Z_mult, !inject_Z_plus, !inject_Z_opp. generalize (inject_Z o) (inject_Z s). intros a b. change (inject_Z 86400) with 86400%Q. change (inject_Z 719163) with 719163%Q. change (inject_Z 584023) with 584023%Q. change (inject_Z 0) with 0%Q. field.
Qed.

(** ** rows *)
Lemma coord_points axis n g vs c : cci_coord axis n g vs = Ok c -> c_points c = map (option_map g) (concat (map v_data vs)) /\ c_std c = first_std vs /\ c_axis c = axis.
Proof.
  unfold cci_coord. destruct (concat_arrays (map array_of vs)) as [a|] eqn:A; [|discriminate]. cbn [bind]. intros [= <-]. cbn. rewrite (concat_arrays_data _ _ A), map_map. auto.
Qed.
Lemma F2_map_g {A B C} (R : A -> C -> Prop) (g : B -> C) l m : Forall2 (fun x y => R x (g y)) l m -> Forall2 R l (map g m).
Proof. induction 1; cbn; constructor; auto. Qed.
Lemma point_column files n vs : Forall well_formed files -> Forall (fun f => on_times f (lit "time") n) files -> Forall (fun f => variable f (lit "time") <> None) files -> column files n = Ok vs ->
  Forall2 (fun fj o => at_point (fst fj) n (snd fj) o) (all_points_of files (lit "time")) (concat (map v_data vs)).
Proof. intros W O T E. apply column_ok in E. exact (variable_column files (lit "time") n vs (fun _ _ => False) W O T E). Qed.
Lemma first_named files n vs : column files n = Ok vs -> first_std vs = named_in files n.
Proof. intros E. apply column_ok in E. destruct E as [|f v files vs E _]; [reflexivity|]. cbn. rewrite E. reflexivity. Qed.
Lemma on_times_self f t : on_times f t t.
Proof. intros v w -> [= ->]. auto. Qed.
Theorem rows_cci k files name d lo la : read_cci k files name = Ok d -> names_for files lo la -> Forall well_formed files ->
  Forall (fun f => forall n, In n [lo; la; name] -> on_times f (lit "time") n) files ->
  map c_std (u_coords d) = [named_in files lo; named_in files la; named_in files (lit "time")] /\ map c_axis (u_coords d) = [lit "X"; lit "Y"; lit "T"] /\
  exists raw, Forall2 (own_row3 k lo la name) (all_points_of files (lit "time")) raw /\ rows d = filter located raw.
Proof.
  intros E NF W ON. unfold read_cci, create_data_object in E. destruct (coord_list k files) as [cs|] eqn:CL; [|discriminate]. cbn [bind] in E. destruct (column files name) as [vs|] eqn:CV; [|discriminate]. cbn [bind] in E. destruct (concat_arrays (map array_of vs)) as [a|] eqn:CA; [|discriminate]. cbn [bind] in E.
  apply coord_list_built in CL. destruct CL as (NE & lo' & la' & NF' & (los & las & ts & x & y & t & Elo & Ela & Et & CX & CY & CT & AP)). destruct (names_unique _ _ _ _ _ NF NF') as [<- <-].
  apply append_all_ok in AP. cbn [app] in AP. subst cs. destruct (coord_points _ _ _ _ _ CX) as (PX & SX & AX). destruct (coord_points _ _ _ _ _ CY) as (PY & SY & AY). destruct (coord_points _ _ _ _ _ CT) as (PT & ST & AT).
  assert (TT : Forall (fun f => variable f (lit "time") <> None) files) by (apply column_all; eauto).
  assert (O : forall n, In n [lo; la; name] -> Forall (fun f => on_times f (lit "time") n) files) by (intros n Hn; eapply Forall_impl; [|exact ON]; cbn beta; auto).
  pose proof (point_column _ _ _ W (O lo (or_introl eq_refl)) TT Elo) as FX. pose proof (point_column _ _ _ W (O la (or_intror (or_introl eq_refl))) TT Ela) as FY.
  assert (OT : Forall (fun f => on_times f (lit "time") (lit "time")) files) by (apply Forall_forall; intros f _; apply on_times_self).
  pose proof (point_column _ _ _ W OT TT Et) as FT. pose proof (point_column _ _ _ W (O name (or_intror (or_intror (or_introl eq_refl)))) TT CV) as FV.
  set (pts := all_points_of files (lit "time")) in *.
  set (P1 := fun (fj : ncfile * nat) o => at_point (fst fj) lo (snd fj) o). set (P2 := fun (fj : ncfile * nat) o => at_point (fst fj) la (snd fj) o). set (P3 := fun (fj : ncfile * nat) s => exists t, at_point (fst fj) (lit "time") (snd fj) t /\ same_moment k t s).
  assert (IDM : forall l : list (option Q), map (option_map (fun q => q)) l = l) by (intros l; induction l as [|[q|] l IH]; cbn; congruence).
  assert (COL : columns_are pts [x; y; t] [P1; P2; P3]).
  { unfold columns_are. repeat apply Forall2_cons; [rewrite PX, IDM; exact FX|rewrite PY, IDM; exact FY| |apply Forall2_nil]. rewrite PT. apply F2_map_g. eapply F2_imp; [|exact FT]. cbn beta. intros fj o H. exists o. split; [exact H|]. destruct o; cbn; [apply fix_time_days|exact I]. }
  assert (MV : snd a = concat (map v_data vs)) by (rewrite (concat_arrays_data _ _ CA), map_map; reflexivity). rewrite MV in E.
  pose proof (columns_aligned _ _ _ _ (fst a) _ COL FV) as AL. destruct (post_process_spec _ AL) as (d' & E' & _ & R & ID). rewrite E' in E. injection E as <-. split; [|split].
  - apply (f_equal (map (fun i : option str * str * str * str => fst (fst (fst i))))) in ID. rewrite !map_map in ID. cbn [u_coords map identity_of fst] in ID. etransitivity; [exact ID|]. rewrite SX, SY, ST.
    rewrite (first_named _ _ _ Et), (first_named _ _ _ Elo), (first_named _ _ _ Ela). reflexivity.
  - apply (f_equal (map (fun i : option str * str * str * str => snd i))) in ID. rewrite !map_map in ID. cbn [u_coords map identity_of snd] in ID. etransitivity; [exact ID|]. rewrite AX, AY, AT. reflexivity.
  - exists (rows (mkU [x; y; t] (fst a) (concat (map v_data vs)))). split; [|exact R]. eapply F2_imp; [|apply (columns_rows _ _ _ _ (fst a) _ COL FV)]. cbn beta. intros fj r [H1 H2].
    apply F2inv in H1. destruct H1 as (o1 & p1 & E1 & H1 & G). apply F2inv in G. destruct G as (o2 & p2 & -> & G2 & G). apply F2inv in G. destruct G as (o3 & p3 & -> & (tt & G3 & SM) & G). inversion G; subst.
    exists o1, o2, tt, o3. unfold P1, P2 in *. auto 10.
Qed.
(** ** what is needed, and that it suffices *)
Theorem needs k files name d : read_cci k files name = Ok d -> files <> [] /\ (exists lo la, names_for files lo la) /\ Forall (fun f => variable f name <> None) files.
Proof.
  unfold read_cci, create_data_object. destruct (coord_list k files) as [cs|] eqn:CL; [|discriminate]. cbn [bind]. destruct (column files name) as [vs|] eqn:CV; [|discriminate]. intros _. apply coord_list_built in CL. destruct CL as (N & lo & la & NF & _). split; auto. split; [eauto|]. apply column_all. eauto.
Qed.
Lemma coord_exists tail (axis n : str) (g : Q -> Q) files vs : files <> [] -> column files n = Ok vs -> Forall (fun f => exists v m, variable f (lit "time") = Some v /\ v_shape v = m :: tail) files -> Forall (fun f => on_times f (lit "time") n) files -> exists a, concat_arrays (map array_of vs) = Ok a.
Proof.
  intros N E T O. apply column_ok in E. apply (concat_arrays_ok tail).
  - intros X. apply (F2_nonempty _ _ _ N E). destruct vs; [reflexivity|discriminate].
  - clear N. induction E as [|f v files vs Ev E IH]; [constructor|]. apply Finv in T. destruct T as [(vt & m & Et & Sh) T]. apply Finv in O. destruct O as [O1 O]. cbn [map]. constructor; [|apply IH; auto]. destruct (O1 _ _ Et Ev) as [_ S]. exists m. cbn. congruence.
Qed.
Lemma std_eqb_neq a b : a <> b -> std_eqb a b = false.
Proof. intros H. destruct (std_eqb a b) eqn:E; auto. apply std_eqb_eq in E. congruence. Qed.
Theorem reads_cci k files name lo la tail : files <> [] -> names_for files lo la -> Forall (readable_with tail lo la name) files ->
  NoDup [named_in files lo; named_in files la; named_in files (lit "time")] -> exists d, read_cci k files name = Ok d.
Proof.
  intros N NF RD ND.
  assert (T : Forall (fun f => exists v m, variable f (lit "time") = Some v /\ v_shape v = m :: tail) files) by (eapply Forall_impl; [|exact RD]; intros f (_ & _ & H & _); exact H).
  assert (O : forall n, In n [lo; la; name] -> Forall (fun f => on_times f (lit "time") n) files) by (intros n Hn; eapply Forall_impl; [|exact RD]; intros f (_ & _ & _ & H); auto).
  assert (OT : Forall (fun f => on_times f (lit "time") (lit "time")) files) by (apply Forall_forall; intros f _; apply on_times_self).
  assert (C3 : (exists v, column files lo = Ok v) /\ (exists v, column files la = Ok v) /\ exists v, column files (lit "time") = Ok v) by (destruct NF as [(-> & -> & H)|(-> & -> & _ & H)]; apply has_all3 in H; exact H).
  destruct C3 as ((los & Elo) & (las & Ela) & (ts & Et)).
  assert (CN : exists vs, column files name = Ok vs) by (apply column_all; eapply Forall_impl; [|exact RD]; intros f (_ & H & _); exact H). destruct CN as (vs & Ev).
  destruct (coord_exists tail [] lo (fun x => x) files los N Elo T (O lo (or_introl eq_refl))) as (a1 & A1). destruct (coord_exists tail [] la (fun x => x) files las N Ela T (O la (or_intror (or_introl eq_refl)))) as (a2 & A2).
  destruct (coord_exists tail [] (lit "time") (fun x => x) files ts N Et T OT) as (a3 & A3). destruct (coord_exists tail [] name (fun x => x) files vs N Ev T (O name (or_intror (or_intror (or_introl eq_refl))))) as (a4 & A4).
  assert (X : forall axis n g vs a, concat_arrays (map array_of vs) = Ok a -> exists c, cci_coord axis n g vs = Ok c) by (intros axis n g vs0 a E; unfold cci_coord; rewrite E; cbn [bind]; eauto).
  destruct (X (lit "X") lo (fun x => x) _ _ A1) as (x & CX). destruct (X (lit "Y") la (fun x => x) _ _ A2) as (y & CY). destruct (X (lit "T") (lit "time") (fix_time k) _ _ A3) as (t & CT).
  destruct (coord_points _ _ _ _ _ CX) as (PX & SX & _). destruct (coord_points _ _ _ _ _ CY) as (PY & SY & _). destruct (coord_points _ _ _ _ _ CT) as (PT & ST & _).
  assert (AP : append_all [] [x; y; t] = Ok [x; y; t]).
  { assert (ND' : NoDup [c_std x; c_std y; c_std t]).
    { rewrite SX, SY, ST, (first_named _ _ _ Et), (first_named _ _ _ Elo), (first_named _ _ _ Ela). exact ND. }
    clear - ND'. apply NoDup_cons_iff in ND'. destruct ND' as [N1 ND']. apply NoDup_cons_iff in ND'. destruct ND' as [N2 _]. cbn [append_all]. rewrite append_fresh by (intros b []). cbn [bind app]. rewrite append_fresh. 2: intros b [<-|[]]; apply std_eqb_neq; intros Z; apply N1; left; auto.
    cbn [bind app]. rewrite append_fresh; [reflexivity|]. intros b [<-|[<-|[]]]; apply std_eqb_neq; intros Z; [apply N1; right; left; auto|apply N2; left; auto]. }
  assert (CL : coord_list k files = Ok [x; y; t]). { apply (built_coord_list k files lo la); auto. exists los, las, ts; exists x, y, t; auto 10. }
  unfold read_cci, create_data_object. rewrite CL. cbn [bind]. rewrite Ev. cbn [bind]. rewrite A4. cbn [bind].
  assert (W : Forall well_formed files) by (eapply Forall_impl; [|exact RD]; intros f (H & _); exact H).
  assert (TT : Forall (fun f => variable f (lit "time") <> None) files) by (apply column_all; eauto).
  pose proof (point_column _ _ _ W (O lo (or_introl eq_refl)) TT Elo) as FX. pose proof (point_column _ _ _ W (O la (or_intror (or_introl eq_refl))) TT Ela) as FY. pose proof (point_column _ _ _ W OT TT Et) as FT. pose proof (point_column _ _ _ W (O name (or_intror (or_intror (or_introl eq_refl)))) TT Ev) as FV.
  apply forall2_len in FX, FY, FT, FV. assert (MV : snd a4 = concat (map v_data vs)) by (rewrite (concat_arrays_data _ _ A4), map_map; reflexivity).
  assert (AL : aligned (mkU [x; y; t] (fst a4) (snd a4))). { unfold aligned. cbn [u_coords u_values]. rewrite MV. repeat apply Forall_cons; [rewrite PX, map_length; lia|rewrite PY, map_length; lia|rewrite PT, map_length; lia|constructor]. }
  destruct (post_process_spec _ AL) as (d' & E' & _). eauto.
Qed.
(** ** not as one may expect *)
Definition cci_var (u : str) (std : option str) (l : list Q) : nvar := mkVar [lit "n"] [length l] u std [] (map Some l).
Definition cci_file_as (slo sla st : option str) (lo la u : str) (xs ys ts vs : list Q) : ncfile :=
  mkFile [] [(lo, cci_var (lit "degrees") slo xs); (la, cci_var (lit "degrees") sla ys); (lit "time", cci_var u st ts); (lit "AOD550", cci_var (lit "1") None vs)].
Definition cci_file : str -> str -> str -> list Q -> list Q -> list Q -> list Q -> ncfile := cci_file_as (Some (lit "longitude")) (Some (lit "latitude")) (Some (lit "time")).
Definition short_file : ncfile := cci_file (lit "lon") (lit "lat") (lit "s") [10%Q; 11%Q] [50%Q; 51%Q] [0%Q; 43200%Q] [1%Q; 2%Q].
Definition long_file : ncfile := cci_file (lit "longitude") (lit "latitude") (lit "s") [12%Q] [52%Q] [86400%Q] [3%Q].
Definition days_file : ncfile := cci_file (lit "lon") (lit "lat") (lit "days since 1970-01-01 00:00:00") [10%Q] [50%Q] [10957%Q] [1%Q].
Theorem mixed_names : exists f g d e, read_cci Aerosol [f] (lit "AOD550") = Ok d /\ read_cci Aerosol [g] (lit "AOD550") = Ok e /\ read_cci Aerosol [f; g] (lit "AOD550") = Raises InvalidVariableError.
Proof. exists short_file, long_file. do 2 eexists. split; [vm_compute; reflexivity|]. split; vm_compute; reflexivity. Qed.
Theorem units_ignored : exists f v d x y s, variable f (lit "time") = Some v /\ v_units v = lit "days since 1970-01-01 00:00:00" /\ v_data v = [Some 10957%Q] /\
  read_cci Aerosol [f] (lit "AOD550") = Ok d /\ rows d = [([x; y; Some s], Some 1%Q)] /\ ~ (s * 86400 == inject_Z (seconds_between std_ref (mkDT 2000 1 1 0 0 0)))%Q.
Proof. exists days_file. do 5 eexists. split; [reflexivity|]. split; [reflexivity|]. split; [reflexivity|]. split; [vm_compute; reflexivity|]. split; [vm_compute; reflexivity|]. vm_compute. discriminate. Qed.
(** files without standard names: two of the coordinates have None, which counts as a duplicate *)
Theorem unnamed k files name lo la d : read_cci k files name = Ok d -> names_for files lo la -> (forall n, In n [lo; la; lit "time"] -> named_in files n <> Some []) -> NoDup [named_in files lo; named_in files la; named_in files (lit "time")].
Proof.
  intros E NF EM. unfold read_cci, create_data_object in E. destruct (coord_list k files) as [cs|] eqn:CL; [|discriminate]. clear E.
  apply coord_list_built in CL. destruct CL as (NE & lo' & la' & NF' & (los & las & ts & x & y & t & Elo & Ela & Et & CX & CY & CT & AP)). destruct (names_unique _ _ _ _ _ NF NF') as [<- <-].
  destruct (coord_points _ _ _ _ _ CX) as (_ & SX & _). destruct (coord_points _ _ _ _ _ CY) as (_ & SY & _). destruct (coord_points _ _ _ _ _ CT) as (_ & ST & _).
  pose proof (EM la (or_intror (or_introl eq_refl))) as EY. pose proof (EM (lit "time") (or_intror (or_intror (or_introl eq_refl)))) as ET. clear EM.
  rewrite <- (first_named _ _ _ Et), <- (first_named _ _ _ Elo), <- (first_named _ _ _ Ela), <- SX, <- SY, <- ST. rewrite <- (first_named _ _ _ Et), <- ST in ET. rewrite <- (first_named _ _ _ Ela), <- SY in EY.
  clear - AP EY ET. cbn [append_all] in AP. unfold coords_append in AP. cbn [existsb bind app] in AP.
  destruct (coord_eq y x || false)%bool eqn:YX; cbn [bind app existsb] in AP; [discriminate|]. destruct (coord_eq t x || (coord_eq t y || false))%bool eqn:TX; cbn [bind app] in AP; [discriminate|].
  rewrite !orb_false_iff in *. destruct YX as [YX _]. destruct TX as (TX & TY & _). unfold coord_eq in *. rewrite (std_eqb_neq _ _ EY) in YX. rewrite (std_eqb_neq _ _ ET) in TX, TY. cbn [negb] in *. rewrite andb_true_r in *.
  assert (NE : forall a b, std_eqb a b = false -> a <> b) by (intros a b H ->; destruct b; cbn in H; [rewrite str_eqb_refl in H|]; discriminate).
  apply NE in YX, TX, TY. constructor; [intros [H|[H|[]]]; congruence|]. constructor; [intros [H|[]]; congruence|]. constructor; [intros []|constructor].
Qed.
Definition unnamed_file : ncfile := cci_file_as None None None (lit "lon") (lit "lat") (lit "s") [10%Q; 11%Q] [50%Q; 51%Q] [0%Q; 43200%Q] [1%Q; 2%Q].
Theorem unnamed_refused k : names_for [unnamed_file] (lit "lon") (lit "lat") /\ readable_with [] (lit "lon") (lit "lat") (lit "AOD550") unnamed_file /\ read_cci k [unnamed_file] (lit "AOD550") = Raises DuplicateCoordinateError.
Proof.
  split; [left; repeat (split; [reflexivity|]); repeat constructor; intros n [<-|[<-|[<-|[]]]]; vm_compute; discriminate|]. split; [|destruct k; vm_compute; reflexivity].
  split; [|split; [vm_compute; discriminate|split; [do 2 eexists; split; [reflexivity|reflexivity]|]]].
  - intros n v. unfold variable. unfold unnamed_file, cci_file_as. cbn [find f_vars fst]. repeat match goal with |- context [str_eqb ?a n] => destruct (str_eqb a n); [intros [= <-]; reflexivity|] end. discriminate.
  - intros n [<-|[<-|[<-|[]]]] v w [= <-] [= <-]; split; reflexivity.
Qed.
